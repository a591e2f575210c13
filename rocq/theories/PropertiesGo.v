(** Properties C82-C85: the Go client. *)
From Coq Require Import String.
From Verif Require Import GoBase Proto SpecProto SpecFrame SpecConn SpecLayout Conn Proc Lib Server SpecServer
  Client Wire Twirp SpecWire SpecTwirp TwirpProofs TwirpReply TwirpServer GoClient SpecGo GoUrl GoProofs Samples SamplesServer.

(** C82: a call is a request for that method with these arguments, *)
Theorem C82_request : forall s h base q, base_for s h base -> args_ok q ->
  exists hr, go_send base None q = SentTo (str s) h hr /\ addressed hr (rpc_name q) /\ forall ul uj, front ul uj hr = Call true q.
Proof. exact go_request. Qed.
Print Assumptions C82_request.
(** the reply is returned as it was given, *)
Theorem C82_reply : forall q t r, reply_to q r -> in_types r -> readable r -> time_string t ->
  go_result q (of_server (respond true t r)) = GGot r.
Proof. exact go_reply. Qed.
Print Assumptions C82_reply.
(** errors with their codes; *)
Theorem C82_errors : forall q t e, go_result q (of_server (respond true t (RespErr e))) = returned (RespErr e).
Proof. exact go_errors. Qed.
Print Assumptions C82_errors.
(** after any history, a call does and returns what the handler does and returns. *)
Theorem C82_same : forall ops w0 h w, idle w0 -> w_sh w0 = init_shared -> history ops w0 = (h, w) ->
  (forall c, Forall bytes_ok (flat_map (op_fetches c) h)) ->
  forall ul uj t s hst base q, base_for s hst base -> time_string t -> args_ok q -> (forall c, q <> FlushCacheR c) -> reads_well q w ->
  exists r w', run (handle q) w = (RDone r, w') /\
    askGo ul uj t base None q w =
      (Some (if w_clk w' - w_clk w <? WriteTimeout then returned r else GErr (str "internal") None), w').
Proof. exact go_same. Qed.
Print Assumptions C82_same.
Example C82_ex : let w := started (acked ++ answer 210 temps_payload) in
  base_for "http" (str "comfo.local:3094") (str "HTTP://comfo.local:3094") /\
  fst (askGo (fun x => x) (fun _ _ => None) (str "3ms") (str "HTTP://comfo.local:3094") None (SetComfortTempR 22) w)
    = Some (GGot (RespComfort true 21 22)) /\
  fst (askGo (fun x => x) (fun _ _ => None) (str "3ms") (str "//comfo.local:3094") None (SetComfortTempR 300) w)
    = Some (GErr (str "invalid_argument") None).
Proof.
  split; [|vm_compute; auto]. apply (base_full "http" (str "comfo.local:3094") (str "HTTP")).
  - split; auto. apply lower_same. reflexivity.
  - exists (str "comfo.local"), (str ":3094"). split; [reflexivity|]. split; [apply host_name_b; reflexivity|].
    right. exists (str "3094"). split; [reflexivity|]. apply digits_b. reflexivity.
Qed.

(** C83: with a path in the base URL no call is served: it is redirected (and redirects are not followed) or not found; *)
Theorem C83_path_partial : forall s b hst p q, web_scheme s b -> host_port hst -> abs_path p -> p <> [] -> args_ok q ->
  exists hr, go_send (b ++ str "://" ++ hst ++ p) None q = SentTo (str s) hst hr /\
    h_path hr = p ++ str ("/twirp/comfo.api.Comfo/" ++ rpc_name q) /\
    forall ul uj t w, exists g, askGo ul uj t (b ++ str "://" ++ hst ++ p) None q w = (Some g, w) /\ refused_with (h_path hr) g.
Proof. exact based_path. Qed.
Print Assumptions C83_path_partial.
(** in particular with a slash at the end; *)
Theorem C83_slash_refuted : exists base hst, base = str "http://" ++ hst ++ str "/" /\ host_port hst /\
  forall ul uj t q w, args_ok q -> askGo ul uj t base None q w = (Some (GErr (str "internal") (Some 301)), w).
Proof. exact trailing_slash. Qed.
Print Assumptions C83_slash_refuted.
(** with a host and a port but no scheme no request is sent at all, although sanitizeBaseURL "adds the http scheme
    if needed". *)
Theorem C83_no_scheme : forall n ds q, hostname n -> Forall digit ds -> ds <> [] -> go_send (n ++ 58 :: ds) None q = NotSent.
Proof. exact bare_port. Qed.
Print Assumptions C83_no_scheme.
Theorem C83_scheme_refuted : exists base, host_port base /\ forall q, go_send base None q = NotSent.
Proof. exact localhost_refuted. Qed.
Print Assumptions C83_scheme_refuted.
Example C83_ex : abs_path (str "/ventilation") /\
  (fst (askGo (fun x => x) (fun _ _ => None) [] (str "http://h/ventilation") None GetTempsRPC (started []))
    = Some (GErr (str "bad_route") (Some 404))) /\
  hostname (str "localhost") /\ Forall digit (str "3094") /\
  go_send (str "localhost:3094") None GetTempsRPC = NotSent /\ go_send (str "127.0.0.1:3094") None GetTempsRPC = NotSent.
Proof.
  split; [split; [apply chars_ok; reflexivity|right; eexists; reflexivity]|]. split; [vm_compute; reflexivity|].
  split; [apply host_name_b; reflexivity|]. split; [apply digits_b; reflexivity|]. vm_compute. auto.
Qed.

(** C84: a path prefix other than that of the server, in whatever form it is written, gives bad_route. *)
Theorem C84_prefix : forall s h base es p q, base_for s h base -> prefix_of es p -> args_ok q ->
  exists hr, go_send base (Some p) q = SentTo (str s) h hr /\
    h_path hr = concat (map (cons 47) (es ++ [str "comfo.api.Comfo"; str (rpc_name q)])) /\
    (es = [str "twirp"] -> forall ul uj, front ul uj hr = Call true q) /\
    (es <> [str "twirp"] -> forall ul uj t w, exists i, askGo ul uj t base (Some p) q w = (Some (GErr (str "bad_route") i), w)).
Proof. exact prefixed. Qed.
Print Assumptions C84_prefix.
Example C84_ex : prefix_of [str "twirp"] (str "twirp/") /\
  go_send (str "http://h") (Some (str "twirp/")) GetFansRPC = go_send (str "http://h") None GetFansRPC /\
  prefix_of [] [] /\
  fst (askGo (fun x => x) (fun _ _ => None) [] (str "http://h") (Some []) GetFansRPC (started [])) = Some (GErr (str "bad_route") (Some 404)).
Proof.
  split.
  - split; [|split; [apply chars_ok; reflexivity|exists (str "/"); split; auto; right; split; [discriminate|reflexivity]]].
    constructor; [|constructor]. split; [discriminate|]. split; [discriminate|]. split; [discriminate|].
    vm_compute. repeat (constructor; [discriminate|]). constructor.
  - split; [reflexivity|]. split; [|vm_compute; reflexivity].
    split; [constructor|]. split; [constructor|]. exists []. auto.
Qed.

(** C85: every response, from the server or from something in between, is understood as documented. *)
Theorem C85_responses : forall q g x, bytes_ok (gr_body g) -> (go_result q g = x <-> understood q g x).
Proof. exact go_response. Qed.
Print Assumptions C85_responses.
Example C85_ex :
  go_result GetFansRPC (mkGresp 503 (str "<html>") None) = GErr (str "unavailable") (Some 503) /\
  go_result GetFansRPC (mkGresp 500 [] (Some (str "not_found"))) = GErr (str "not_found") None /\
  go_result GetFansRPC (mkGresp 500 [] (Some (str "nonsense"))) = GErr (str "internal") None /\
  go_result GetFansRPC (mkGresp 302 [] (Some (str "not_found"))) = GErr (str "internal") (Some 302) /\
  go_result GetFansRPC (mkGresp 200 [32; 7; 8; 50; 8; 60] None) = GGot (RespFans (mkPbFans 60 0 0 7)) /\
  go_result GetFansRPC (mkGresp 200 (str "<html>") None) = GErr (str "internal") None.
Proof. vm_compute. repeat split; reflexivity. Qed.
