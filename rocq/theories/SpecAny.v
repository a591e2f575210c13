(** Vocabulary for statements about clients of all three kinds at a time: Go with protobuf, Go with JSON, Python. *)
From Coq Require Import String.
From Verif Require Import GoBase Proc Lib Server Wire Twirp ClientHttp SpecWire SpecTwirp GoClient SpecGo JsonWrite Machine SpecMachine SpecFresh.

Inductive speaker := GoPb | GoJson (spaces : bool) | Python.
(** Request [i] is what such a client sends for the call [q] (with the ReqTime that will be in its reply). *)
Definition wrote (hs : list (hreq * list byte)) (i : nat) (k : speaker) (q : rpc) : Prop :=
  exists h t, nth_error hs i = Some (h, t) /\ args_ok q /\ time_string t /\
  match k with
  | Python => post q = Some h
  | GoPb => exists s hst base, base_for s hst base /\ go_send base None q = SentTo (str s) hst h
  | GoJson sp => exists s hst base, base_for s hst base /\ go_json_send sp base None q = SentTo (str s) hst h
  end.
(** What the stubs make of an answer: a reply, or an error with a code. *)
Inductive heard := Told (r : resp) | Error (code : list byte).
Inductive hears (ftoa : f32 -> list byte) (sp : bool) (t : list byte) (q : rpc) (a : hresp) : speaker -> heard -> Prop :=
| he_pb r : go_result q (of_server a) = GGot r -> hears ftoa sp t q a GoPb (Told r)
| he_pb_err c n : go_result q (of_server a) = GErr c n -> hears ftoa sp t q a GoPb (Error c)
| he_json s r : go_json_result q (of_json_server ftoa sp t a) = GGot r -> hears ftoa sp t q a (GoJson s) (Told r)
| he_json_err s c n : go_json_result q (of_json_server ftoa sp t a) = GErr c n -> hears ftoa sp t q a (GoJson s) (Error c)
| he_py r : stub_result q a = Got r -> hears ftoa sp t q a Python (Told r)
| he_py_err e : stub_result q a = Twirp e -> hears ftoa sp t q a Python (Error (code_name (code_of e)))
| he_py_other : stub_result q a = OtherExc -> hears ftoa sp t q a Python (Error []).
(** The call has ended with [x]. *)
Definition ended ftoa sp (hs : list (hreq * list byte)) (mh : machine hresp) (i : nat) (k : speaker) (q : rpc) (x : heard) : Prop :=
  exists h t a, nth_error hs i = Some (h, t) /\ answered mh i a /\ hears ftoa sp t q a k x.

(** Arguments that nothing can make acceptable. *)
Inductive bad_args : rpc -> Prop :=
| ba_comfort t : 255 < t -> bad_args (SetComfortTempR t)
| ba_profile p v : ~ acceptable p v -> bad_args (SetFanProfileR p v)
| ba_both a : a <> 0 -> bad_args (SetFanSpeedR a true)
| ba_speed a b : a <> 0 -> ~ 1 <= a mod 256 <= 4 -> bad_args (SetFanSpeedR a b).
