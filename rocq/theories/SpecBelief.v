(** Vocabulary for statements about the requests for a speed when polls may fail: what the profile cache shows need not be the speed of the unit then. *)
From Verif Require Import GoBase Conn Proc Lib Server SpecServer Machine SpecMachine SpecFresh SpecSpeed.

(** One request, handled when the cache shows [b] and the speed is [v]: what it is told, what the cache shows then, and the speed then. *)
Inductive taken (b v : Z) (q : rpc) : resp -> Z -> Z -> Prop :=
| ta_changed t : wanted b q t -> t <> b -> taken b v q (RespSpeed true b t) t t
| ta_failed t b' : wanted b q t -> t <> b -> b' = b \/ b' = v -> taken b v q (RespErr (Internal ErrSetPollFailed)) b' t
| ta_same : wanted b q b -> taken b v q (RespSpeed false b b) b v
| ta_refused x : (forall t, ~ wanted b q t) -> taken b v q (RespErr (InvalidArgument x)) b v.
(** Requests one after the other, from a cache that shows the speed [v0]; in between the cache may be refreshed. *)
Inductive taken_all (rs : list rpc) (m : machine resp) (v0 : Z) : list nat -> Z -> Z -> Prop :=
| tl_none : taken_all rs m v0 [] v0 v0
| tl_refreshed is b v : taken_all rs m v0 is b v -> taken_all rs m v0 is v v
| tl_next is b v i q a b' v' : taken_all rs m v0 is b v -> nth_error rs i = Some q -> answered m i a -> taken b v q a b' v' -> taken_all rs m v0 (is ++ [i]) b' v'.
