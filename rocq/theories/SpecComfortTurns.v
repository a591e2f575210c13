(** Vocabulary for statements about the requests that set the comfort temperature, among others. *)
From Verif Require Import GoBase Conn Proc Lib Server SpecServer SpecUnit Machine SpecMachine SpecFresh.

(** The unit's comfort temperature in degrees (half degrees cut off). *)
Definition warmth (u : vent) : Z := u_comfort u / 2 - 20.
(** What request [i] asks for.  (The number is a uint32; above 255 the server refuses it.) *)
Definition set_to (rs : list rpc) (i : nat) : Z := match nth_error rs i with Some (SetComfortTempR t) => t mod 256 | _ => 0 end.
(** The temperatures the unit has had, from [v] on, when the requests [is] have set it one after the other; and the last of them. *)
Definition had (rs : list rpc) (v : Z) (is : list nat) : list Z := v :: map (set_to rs) is.
Definition latest (rs : list rpc) (v : Z) (is : list nat) : Z := last (had rs v is) v.

(** The requests [dn] have set the unit, one after the other, and [rest] (at most one) is about to. *)
Record ordered (rs : list rpc) (m : machine resp) (v : Z) (dn rest : list nat) (u : vent) : Prop := mkOrdered {
  (** Each only once; [dn] are those that were told of a change. *)
  or_once : NoDup (dn ++ rest);
  or_told : forall i, In i dn <-> exists o t, answered m i (RespComfort true o t);
  (** The last one has decided. *)
  or_unit : rest = [] /\ warmth u = latest rs v dn \/
            exists i, rest = [i] /\ (forall a, ~ answered m i a) /\ (warmth u = latest rs v dn \/ warmth u = set_to rs i);
  (** Everybody is told a temperature that the unit has had, and of a change if it is another one than that asked for; *)
  or_had : forall i b o t, answered m i (RespComfort b o t) ->
    nth_error rs i = Some (SetComfortTempR t) /\ t <= 255 /\ In o (had rs v (dn ++ rest)) /\ b = negb (o =? t mod 256);
  (** one that sets the unit, a temperature from before it did. *)
  or_before : forall l i r o t, dn = l ++ i :: r -> answered m i (RespComfort true o t) -> In o (had rs v l) }.
