(** Properties C88-C91: JSON requests. *)
From Coq Require Import String Permutation.
From Verif Require Import GoBase Lib Server SpecLayout SpecWire Wire Twirp SpecTwirp SpecJson JsonScan JsonRead JsonClaims JsonUnique.

(** C88: the server calls the method exactly if the body begins with an object that is an argument for it, *)
Theorem C88_called : forall ul h name q, bytes_ok (h_body h) -> ascii (h_ctype h) -> addressed h name -> media "application/json" (h_ctype h) ->
  (front ul unjson h = Call false q <-> exists l, json_object (h_body h) l /\ json_meaning name l q).
Proof. exact front_json_call. Qed.
Print Assumptions C88_called.
(** the body determines this object, *)
Theorem C88_one_object : forall body l l', json_object body l -> json_object body l' -> l = l'.
Proof. exact object_unique. Qed.
Print Assumptions C88_one_object.
(** and all other bodies are refused. *)
Theorem C88_malformed : forall ul h name, bytes_ok (h_body h) -> ascii (h_ctype h) -> addressed h name -> media "application/json" (h_ctype h) ->
  (forall l q, json_object (h_body h) l -> ~ json_meaning name l q) -> exists a, front ul unjson h = Answer a /\ malformed a.
Proof. exact front_json_malformed. Qed.
Print Assumptions C88_malformed.
Example C88_ex : forall ul,
  let ask name body := front ul unjson (mkHreq (str "POST") (str ("/twirp/comfo.api.Comfo/" ++ name)) (str "Application/JSON; charset=utf-8") body) in
  ask "SetFanSpeed"%string (str " {""note"" : [{""Abs"":1}, ""é""], ""Abs"":20e-1 ,""Rel"":true}") = Call false (SetFanSpeedR 2 true) /\
  ask "SetFanProfile"%string (str "{""Mode"":""3"",""TargetSpeed"":55.0}") = Call false (SetFanProfileR 3 55) /\
  ask "FlushCache"%string (str "{""Cache"":""All""}") = Call false (FlushCacheR 10) /\
  ask "GetTemps"%string (str "{}") = Call false GetTempsRPC /\
  ask "SetComfortTemp"%string (str "{""ComfortTemp"":4294967296}") = Answer (mkHresp 400 (ErrorJson TMalformed)) /\
  ask "SetComfortTemp"%string (str "{""ComfortTemp"":20,""ComfortTemp"":20}") = Answer (mkHresp 400 (ErrorJson TMalformed)) /\
  ask "GetTemps"%string (str "[]") = Answer (mkHresp 400 (ErrorJson TMalformed)).
Proof. vm_compute. repeat split. Qed.

(** C89: arguments are within their types, and the method is the one addressed. *)
Theorem C89_arguments : forall ul h name q, bytes_ok (h_body h) -> ascii (h_ctype h) -> addressed h name -> media "application/json" (h_ctype h) ->
  front ul unjson h = Call false q -> args_ok q /\ rpc_name q = name.
Proof. exact json_called_args. Qed.
Print Assumptions C89_arguments.
Example C89_ex : forall ul,
  front ul unjson (mkHreq (str "POST") (str "/twirp/comfo.api.Comfo/SetComfortTemp") (str "application/json") (str "{""ComfortTemp"":4294967295}"))
    = Call false (SetComfortTempR 4294967295) /\
  front ul unjson (mkHreq (str "POST") (str "/twirp/comfo.api.Comfo/FlushCache") (str "application/json") (str "{""Cache"":-2147483648}"))
    = Call false (FlushCacheR (-2147483648)).
Proof. vm_compute. repeat split. Qed.

(** C90: neither the order of the members *)
Theorem C90_order : forall ul h h' name l l', bytes_ok (h_body h) -> bytes_ok (h_body h') -> ascii (h_ctype h) -> ascii (h_ctype h') ->
  addressed h name -> addressed h' name -> media "application/json" (h_ctype h) -> media "application/json" (h_ctype h') ->
  json_object (h_body h) l -> json_object (h_body h') l' -> Permutation l l' ->
  forall q, front ul unjson h = Call false q <-> front ul unjson h' = Call false q.
Proof. exact front_order. Qed.
Print Assumptions C90_order.
(** nor members with other names matter. *)
Theorem C90_unknown : forall ul h h' name a m b, bytes_ok (h_body h) -> bytes_ok (h_body h') -> ascii (h_ctype h) -> ascii (h_ctype h') ->
  addressed h name -> addressed h' name -> media "application/json" (h_ctype h) -> media "application/json" (h_ctype h') ->
  json_object (h_body h) (a ++ b) -> json_object (h_body h') (a ++ m :: b) -> stranger name m ->
  forall q, front ul unjson h = Call false q <-> front ul unjson h' = Call false q.
Proof. exact front_more. Qed.
Print Assumptions C90_unknown.
Example C90_ex : forall ul,
  let ask body := front ul unjson (mkHreq (str "POST") (str "/twirp/comfo.api.Comfo/SetFanProfile") (str "application/json") (str body)) in
  ask "{""Mode"":2,""TargetSpeed"":40}"%string = Call false (SetFanProfileR 2 40) /\
  ask "{""TargetSpeed"":40,""Mode"":2}"%string = Call false (SetFanProfileR 2 40) /\
  ask "{""TargetSpeed"":40,""mode"":{""Mode"":3},""Mode"":2}"%string = Call false (SetFanProfileR 2 40) /\
  ask "{""TargetSpeed"":40,""mode"":{""Mode"":}},""Mode"":2}"%string = Answer (mkHresp 400 (ErrorJson TMalformed)).
Proof. vm_compute. repeat split. Qed.

(** C91: a body is not read strictly.  What follows the object does not matter: *)
Theorem C91_trailing_refuted : exists h, bytes_ok (h_body h) /\ addressed h "GetTemps" /\ media "application/json" (h_ctype h) /\
  (forall ul, front ul unjson h = Call false GetTempsRPC) /\ forall l, ~ (json_whole (h_body h) l /\ json_strict "GetTemps" l GetTempsRPC).
Proof. exact trailing_refuted. Qed.
Print Assumptions C91_trailing_refuted.
(** nor does what follows a number in a string; *)
Theorem C91_number_refuted : exists h, bytes_ok (h_body h) /\ addressed h "SetComfortTemp" /\ media "application/json" (h_ctype h) /\
  (forall ul, front ul unjson h = Call false (SetComfortTempR 20)) /\ forall l, ~ (json_whole (h_body h) l /\ json_strict "SetComfortTemp" l (SetComfortTempR 20)).
Proof. exact number_refuted. Qed.
Print Assumptions C91_number_refuted.
(** a name that is no type of cache is taken for BootInfo. *)
Theorem C91_cache_refuted : exists h, bytes_ok (h_body h) /\ addressed h "FlushCache" /\ media "application/json" (h_ctype h) /\
  (forall ul, front ul unjson h = Call false (FlushCacheR 0)) /\ forall l, ~ (json_whole (h_body h) l /\ json_strict "FlushCache" l (FlushCacheR 0)).
Proof. exact cache_refuted. Qed.
Print Assumptions C91_cache_refuted.
(** Apart from that it is: if no field is given as a string, the call is what a strict reader makes of the object. *)
Theorem C91_strict_partial : forall ul h name q, bytes_ok (h_body h) -> ascii (h_ctype h) -> addressed h name -> media "application/json" (h_ctype h) ->
  front ul unjson h = Call false q ->
  exists l w t rest, h_body h = w ++ t ++ rest /\ gap w /\ jtext (JObj l) t /\ depth (JObj l) <= 10000 /\
    ((forall f v, In f (field_names name) -> member l f v -> forall r, v <> JStr r) -> json_strict name l q).
Proof. exact front_strict. Qed.
Print Assumptions C91_strict_partial.
Example C91_strict_here : let h := mkHreq (str "POST") (str "/twirp/comfo.api.Comfo/SetFanProfile") (str "application/json") (str " {""Mode"":2,""TargetSpeed"":40} x") in
  bytes_ok (h_body h) /\ ascii (h_ctype h) /\ addressed h "SetFanProfile" /\ media "application/json" (h_ctype h) /\
  forall ul, front ul unjson h = Call false (SetFanProfileR 2 40).
Proof. cbv zeta. split; [is_bytes|]. split; [apply Forall_forall; intros c H; vm_compute in H; repeat (destruct H as [<-|H]; [lia|]); destruct H|]. split; [is_addressed|]. split; [exact json_type|]. intros ul. vm_compute. reflexivity. Qed.
