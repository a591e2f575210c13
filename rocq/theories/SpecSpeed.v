(** Vocabulary for statements about the requests that change the speed, among others. *)
From Verif Require Import GoBase Conn Proc Lib Server SpecServer Machine SpecMachine SpecFresh.

(** The speed that a request asks for when the unit runs at speed [v]: a number, one more, or one less; 1 to 4 can be asked for. *)
Inductive wanted (v : Z) : rpc -> Z -> Prop :=
| wa_number a : a <> 0 -> 1 <= a mod 256 <= 4 -> wanted v (SetFanSpeedR a false) (a mod 256)
| wa_up : v + 1 <= 4 -> wanted v (SetFanSpeedR 0 true) (v + 1)
| wa_down : 1 <= v - 1 -> wanted v (SetFanSpeedR 0 false) (v - 1).
(** One request, handled when the speed is [v], and the speed after that. *)
Inductive one_step (v : Z) (q : rpc) : resp -> Z -> Prop :=
| os_changed t : wanted v q t -> t <> v -> one_step v q (RespSpeed true v t) t
| os_same : wanted v q v -> one_step v q (RespSpeed false v v) v
| os_refused a : (forall t, ~ wanted v q t) -> one_step v q (RespErr (InvalidArgument a)) v.
(** The requests [is], one after the other. *)
Inductive steps (rs : list rpc) (m : machine resp) : Z -> list nat -> Z -> Prop :=
| st_none v : steps rs m v [] v
| st_more v i is w a z q : nth_error rs i = Some q -> answered m i a -> one_step v q a w -> steps rs m w is z -> steps rs m v (i :: is) z.

Definition is_speed (rs : list rpc) (i : nat) : bool := match nth_error rs i with Some (SetFanSpeedR _ _) => true | _ => false end.
Definition listed (i : nat) (l : list nat) : bool := existsb (Nat.eqb i) l.
(** The requests for a speed, in the order in which they begin. *)
Definition begin_one (rs : list rpc) (l : list nat) (x : item) : list nat :=
  match x with Run i => if is_speed rs i && negb (listed i l) then l ++ [i] else l | _ => l end.
Definition in_turn (rs : list rpc) (xs : list item) : list nat := fold_left (begin_one rs) xs [].
(** Only the worker has done something (or time has passed). *)
Definition just_worker (x : item) : Prop := match x with RunWk | Pass _ => True | _ => False end.
