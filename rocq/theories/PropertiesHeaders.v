(** C137: request headers that a caller of a Go client puts into the context. *)
From Coq Require Import String.
From Verif Require Import GoBase GoStrings Twirp JsonError SpecJsonOrder Headers SpecHeaders HeadersProofs SamplesHeaders.

(** A request has the client's own headers and, under all other keys, those in the context. *)
Theorem C137_request : forall h custom ct k, custom_ok h custom ->
  values (fst (requestHeader h custom ct)) (snd (requestHeader h custom ct)) k = match own_header ct k with Some v => Some [v] | None => given h custom k end.
Proof. exact request_values. Qed.
Print Assumptions C137_request.
Example C137_request_here : present some_headers 0 /\
  map (values (fst (requestHeader some_headers (Some 0%nat) pb_type)) (snd (requestHeader some_headers (Some 0%nat) pb_type)))
    [str "Accept-Language"; str "Empty"; str "Accept"; str "Other"] = [Some [str "nl"; str "en"]; Some []; Some [pb_type]; None].
Proof. split; [exact some_present|vm_compute; reflexivity]. Qed.
(** Whatever is done with the headers of the request, the context and all else that was there stay as they were, so that the
    next request has the same headers; and nothing done with those changes the request. *)
Theorem C137_apart : forall h custom ct x cs k, custom_ok h custom -> present h x ->
  let h' := fst (requestHeader h custom ct) in let m := snd (requestHeader h custom ct) in
  values (fold_left (modify m) cs h') x k = values h x k /\ values (fold_left (modify x) cs h') m k = values h' m k.
Proof. exact header_apart. Qed.
Print Assumptions C137_apart.
Example C137_apart_here :
  let h' := fst (requestHeader some_headers (Some 0%nat) pb_type) in let m := snd (requestHeader some_headers (Some 0%nat) pb_type) in
  let cs := [Elem (str "Accept-Language") 0 (str "fr"); Add (str "Accept-Language") (str "it"); Del (str "X-Request-Id")] in
  values (fold_left (modify m) cs h') m (str "Accept-Language") = Some [str "fr"; str "en"; str "it"] /\
  values (fold_left (modify m) cs h') 0 (str "Accept-Language") = Some [str "nl"; str "en"] /\
  values (fold_left (modify 0) cs h') 0 (str "Accept-Language") = Some [str "fr"; str "en"; str "it"] /\
  values (fold_left (modify 0) cs h') m (str "X-Request-Id") = Some [str "17"].
Proof. cbv zeta. split; [vm_compute; reflexivity|]. split; [vm_compute; reflexivity|]. split; vm_compute; reflexivity. Qed.
(** The server finds under a name the first of these values, if the context has no other spelling of the name that comes before
    it in the order of bytes; *)
Theorem C137_received_partial : forall h custom ct k v r, custom_ok h custom -> canonical k = k ->
  match own_header ct k with Some x => Some [x] | None => given h custom k end = Some (v :: r) ->
  (forall k', canonical k' = k -> earlier k' k -> given h custom k' = None \/ given h custom k' = Some []) ->
  received k (lines (fst (requestHeader h custom ct)) (snd (requestHeader h custom ct))) = Some v.
Proof. exact own_received. Qed.
Print Assumptions C137_received_partial.
Example C137_received_here : canonical (str "accept-LANGUAGE") = str "Accept-Language" /\
  (let r := requestHeader some_headers (Some 0%nat) pb_type in
   received (str "Accept-Language") (lines (fst r) (snd r)) = Some (str "nl") /\ received (str "Content-Type") (lines (fst r) (snd r)) = Some pb_type).
Proof. split; [vm_compute; reflexivity|]. split; vm_compute; reflexivity. Qed.
(** exactly, what the server finds is the first value of the first spelling; *)
Theorem C137_received : forall h custom ct k v, custom_ok h custom ->
  (received k (lines (fst (requestHeader h custom ct)) (snd (requestHeader h custom ct))) = Some v <-> exists k', foremost h custom ct k k' v).
Proof. exact exactly_received. Qed.
Print Assumptions C137_received.
Example C137_foremost_here : sent_under capitals (Some 0%nat) pb_type (str "CONTENT-TYPE") = Some [str "text/plain"] /\
  sent_under capitals (Some 0%nat) pb_type (str "Content-Type") = Some [pb_type] /\ earlier (str "CONTENT-TYPE") (str "Content-Type") /\ canonical (str "CONTENT-TYPE") = str "Content-Type".
Proof. split; [vm_compute; reflexivity|]. split; [vm_compute; reflexivity|]. split; [vm_compute; apply er_more; apply er_byte; reflexivity|vm_compute; reflexivity]. Qed.
(** so with another spelling the server can find another content type than the client's. *)
Theorem C137_received_refuted : exists h c ct, present h c /\ own_header ct (str "Content-Type") = Some ct /\ (forall k, In k [str "Accept"; str "Content-Type"; str "Twirp-Version"] -> values h c k = None) /\
  received (str "Content-Type") (lines (fst (requestHeader h (Some c) ct)) (snd (requestHeader h (Some c) ct))) = Some (str "text/plain") /\ ct <> str "text/plain".
Proof. exact capitals_refuted. Qed.
Print Assumptions C137_received_refuted.
