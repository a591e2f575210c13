(** Words for the statements about errors on their way from a server with hooks to a client with hooks. *)
From Coq Require Import String Sorting.Permutation.
From Verif Require SpecGo.
From Verif Require Import GoBase SpecWire Server Twirp JsonError Hooks ClientHooks.

(** Errors that can be sent unchanged: a code of Twirp's, UTF-8 throughout, not too long, each key once. *)
Definition sendable (g : gerror) : Prop :=
  (exists s, In s SpecGo.twirp_codes /\ ge_code g = str s) /\
  bytes_ok (ge_msg g) /\ utf8 (ge_msg g) /\ len (ge_msg g) <= 1000000 /\
  Forall (fun p => (bytes_ok (fst p) /\ utf8 (fst p)) /\ bytes_ok (snd p) /\ utf8 (snd p)) (ge_meta g) /\
  NoDup (map fst (ge_meta g)).
(** Maps have no order. *)
Definition same_error (g e : gerror) : Prop :=
  ge_code e = ge_code g /\ ge_msg e = ge_msg g /\ Permutation (ge_meta g) (ge_meta e).
(** The Error hook is the last that is called, and is told [e]. *)
Definition hears (k : client) (t : list cevent) (e : gerror) : Prop :=
  forall hk f, cl_hooks k = Some hk -> ck_error hk = Some f -> exists t' c, t = t' ++ [CError c e].
(** The same for ResponseReceived. *)
Definition hears_reply (k : client) (t : list cevent) : Prop :=
  forall hk f, cl_hooks k = Some hk -> ck_received hk = Some f -> exists t' c, t = t' ++ [CReceived c].
