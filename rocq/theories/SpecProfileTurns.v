(** Vocabulary for statements about the requests that set a fan profile, among others. *)
From Verif Require Import GoBase Conn Proc Lib Server SpecServer Machine SpecMachine SpecFresh SpecSpeed.

(** One accepted request, handled when its profile is at [v] percent, and the percentage after that.  (The number asked for is
    a uint32 that the server truncates to a byte; the answer repeats it as it came.) *)
Inductive set_step (v : Z) : rpc -> resp -> Z -> Prop :=
| ss_changed m t : t mod 256 <> v -> set_step v (SetFanProfileR m t) (RespProfile true v t) (t mod 256)
| ss_same m t : t mod 256 = v -> set_step v (SetFanProfileR m t) (RespProfile false v t) v.
(** The requests [is], one after the other. *)
Inductive set_steps (rs : list rpc) (m : machine resp) : Z -> list nat -> Z -> Prop :=
| sst_none v : set_steps rs m v [] v
| sst_more v i is w a z q : nth_error rs i = Some q -> answered m i a -> set_step v q a w -> set_steps rs m w is z -> set_steps rs m v (i :: is) z.

(** Request [i] sets profile [j] (0 away, 1 low, 2 mid, 3 high), to 15 to 100 percent. *)
Definition sets_profile (j : nat) (q : rpc) : bool := match q with
  | SetFanProfileR m t => (m mod 256 =? Z.of_nat j + 1) && (15 <=? t mod 256) && (t mod 256 <=? 100) | _ => false end.
Definition is_set (rs : list rpc) (j i : nat) : bool := match nth_error rs i with Some q => sets_profile j q | None => false end.
(** These requests, in the order in which they begin. *)
Definition begin_set (rs : list rpc) (j : nat) (l : list nat) (x : item) : list nat :=
  match x with Run i => if is_set rs j i && negb (listed i l) then l ++ [i] else l | _ => l end.
Definition sets_in_turn (rs : list rpc) (j : nat) (xs : list item) : list nat := fold_left (begin_set rs j) xs [].
