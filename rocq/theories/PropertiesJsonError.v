(** Properties C96-C97: the JSON of errors. *)
From Coq Require Import String Permutation.
From Verif Require Import GoBase Server SpecWire Wire Twirp SpecTwirp GoClient SpecGo SpecJson SpecJsonError JsonScan JsonError
  JsonErrorStrings JsonErrorProofs.

(** C96: a body is read as an error with a code if and only if its first value is an object that says this error, *)
Theorem C96_reads : forall body c m d, bytes_ok body ->
  (decodeError body = Some (mkGerror c m d) /\ c <> [] <-> c <> [] /\ exists l, json_object body l /\ says_error l (c, m, d)).
Proof. exact reads_error. Qed.
Print Assumptions C96_reads.
Example C96_reads_ex :
  decodeError (str " {""code"":""not_found"",""Msg"":""aé\ud800"",""meta"":{""k"":""1"",""l"":null,""k"":""2""}} x") =
    Some (mkGerror (str "not_found") ([97; 195; 169] ++ [239; 191; 189]) [(str "k", str "2"); (str "l", [])]) /\
  decodeError (str "{""code"":""internal"",""extra"":1}") = None /\
  decodeError (str "{""code"":7}") = None /\
  decodeError (str "<html>") = None.
Proof. vm_compute. repeat split; reflexivity. Qed.
(** and what the client returns for a response is what is documented for its status and body. *)
Theorem C96_responses : forall q status body x, bytes_ok body -> (go_result q (of_http status body) = x <-> responded q status body x).
Proof. exact responses. Qed.
Print Assumptions C96_responses.
Example C96_responses_ex :
  go_result GetFansRPC (of_http 500 (str "{""code"":""unavailable"",""msg"":""""}")) = GErr (str "unavailable") None /\
  go_result GetFansRPC (of_http 500 (str "{""code"":""odd""}")) = GErr (str "internal") None /\
  go_result GetFansRPC (of_http 503 (str "{""code"":""not_found"",""more"":1}")) = GErr (str "unavailable") (Some 503) /\
  go_result GetFansRPC (of_http 503 (str "{""msg"":""x""}")) = GErr (str "unavailable") (Some 503) /\
  go_result GetFansRPC (of_http 302 (str "{""code"":""not_found""}")) = GErr (str "internal") (Some 302).
Proof. vm_compute. repeat split; reflexivity. Qed.

(** C97: errors are written as documented, with what is not UTF-8 replaced, *)
Theorem C97_written : forall c m d c' m1 m' d', bytes_ok c -> bytes_ok m -> Forall pair_ok d ->
  mends c c' -> cut_message m m1 -> mends m1 m' -> mends_pairs d d' ->
  exists l, json_whole (marshalErrorToJSON (mkGerror c m d)) l /\ error_object c' m' d' l /\ bytes_ok (marshalErrorToJSON (mkGerror c m d)).
Proof. exact marshal_object. Qed.
Print Assumptions C97_written.
Example C97_written_ex :
  marshalErrorToJSON (mkGerror (str "internal") (str "<no> " ++ [255; 10]) [(str "b", str "2"); (str "a", str "1")]) =
    str "{""code"":""internal"",""msg"":""\u003cno\u003e \ufffd\n"",""meta"":{""a"":""1"",""b"":""2""}}" /\
  mends (str "x" ++ [255]) (str "x" ++ [239; 191; 189]).
Proof.
  split; [vm_compute; reflexivity|]. apply (md_char 120 [255] [239; 191; 189]); [red; lia|]. apply (md_bad 255 [] []); [|constructor].
  intros c t C E. pose proof (Utf8Proofs.decode_utf8 c t C) as D. rewrite <- E in D. change (GoStrings.decodeRune [255]) with (65533, 1%nat) in D. injection D as <- D. vm_compute in D. discriminate.
Qed.
(** and arrive as they were written. *)
Theorem C97_arrives : forall c m d c' m1 m' d', bytes_ok c -> bytes_ok m -> Forall pair_ok d ->
  mends c c' -> cut_message m m1 -> mends m1 m' -> mends_pairs d d' -> NoDup (map fst d') ->
  exists d2, decodeError (marshalErrorToJSON (mkGerror c m d)) = Some (mkGerror c' m' d2) /\ Permutation d' d2.
Proof. exact arrives. Qed.
Print Assumptions C97_arrives.
Example C97_arrives_ex :
  decodeError (marshalErrorToJSON (mkGerror (str "internal") (str "<no> " ++ [255; 10]) [(str "b", str "2"); (str "a", str "1")])) =
    Some (mkGerror (str "internal") (str "<no> " ++ [239; 191; 189; 10]) [(str "a", str "1"); (str "b", str "2")]).
Proof. vm_compute. reflexivity. Qed.
(** UTF-8 is not changed, and a string has one form. *)
Theorem C97_same : forall s t, utf8 s -> (mends s t <-> t = s).
Proof. exact mends_iff. Qed.
Print Assumptions C97_same.
Example C97_same_ex : utf8 (str "device") /\ mends (str "device") (str "device").
Proof. assert (U : utf8 (str "device")) by (exists (str "device"); split; [vm_compute str; repeat (apply Forall_cons; [red; lia|]); apply Forall_nil|reflexivity]). split; [exact U|]. apply mends_same. exact U. Qed.
(** Whatever the message and metadata are, the client returns the code of the server's error; *)
Theorem C97_code : forall t m d q, bytes_ok m -> Forall pair_ok d ->
  go_result q (of_http (status_of (code_of t)) (marshalErrorToJSON (mkGerror (code_name (code_of t)) m d))) = GErr (code_name (code_of t)) None /\
  go_result q (of_server (writeError t)) = GErr (code_name (code_of t)) None.
Proof. exact error_code. Qed.
Print Assumptions C97_code.
Example C97_code_ex :
  go_result GetFansRPC (of_http 500 (marshalErrorToJSON (mkGerror (str "internal") [34; 92; 255] [([255], []); ([254], [])]))) = GErr (str "internal") None.
Proof. vm_compute. reflexivity. Qed.
(** a response that says no error is understood by its status alone. *)
Theorem C97_text : forall status body q, bytes_ok body -> status <> 200 -> (forall k, ~ error_body body k) ->
  go_result q (of_http status body) = go_result q (of_server (mkHresp status Text)).
Proof. exact text_result. Qed.
Print Assumptions C97_text.
Example C97_text_ex : let body := str "404 page not found" ++ [10] in
  (forall k, ~ error_body body k) /\ go_result GetFansRPC (of_http 404 body) = GErr (str "bad_route") (Some 404).
Proof.
  cbv zeta. split; [|vm_compute; reflexivity]. intros k K. apply error_decodes in K; [|apply Forall_forall; intros x I; vm_compute in I; unfold byte_ok; repeat (destruct I as [<- |I]; [lia|]); destruct I].
  destruct K as [_ K]. vm_compute in K. discriminate.
Qed.
