(** Changes of the unit's profiles and mode by several callers of the library at once. *)
From Verif Require Import GoBase Proto SpecProto SpecFrame SpecConn SpecLayout Conn Proc Lib Server SpecServer SpecUnit Machine.

(** SetFanProfile, SetFanProfiles, SetSpeed, SetComfort. *)
Inductive change := One (m v : Z) | All (p : FanProfiles) | Mode (v : Z) | Warm (t : Z).
Definition changing (x : change) : sproc (option err) :=
  match x with One m v => SetFanProfile m v | All p => SetFanProfiles p | Mode v => SetSpeed v | Warm t => SetComfort t end.
(** The unit accepts it. *)
Definition change_ok (lo : Z) (x : change) : Prop :=
  match x with
  | One m v => 0 <= m <= 3 /\ 0 <= v <= 100 /\ lo <= v
  | All p => Forall (fun z => lo <= z /\ byte_ok z) [OutAway p; OutLow p; OutMid p; InAway p; InLow p; InMid p; OutHigh p; InHigh p]
  | Mode v => 0 <= v <= 4
  | Warm t => 0 <= t <= 107
  end.
Definition is_one (x : change) : bool := match x with One _ _ => true | _ => false end.

(** [merges l u u']: the changes [l], in this order, take a unit from [u] to [u'].  One after the other, but
    for this: SetFanProfile may change one profile of a set that is out of date by some calls of
    SetFanProfiles [mid], which are then undone.  (Changes of the mode and the comfort temperature are not.) *)
Inductive merges (u0 : vent) : list change -> vent -> Prop :=
| mg_none : merges u0 [] u0
| mg_all l u p : merges u0 l u ->
    merges u0 (l ++ [All p]) (mkVent [OutAway p; OutLow p; OutMid p; OutHigh p] [InAway p; InLow p; InMid p; InHigh p] (u_mode u) (u_comfort u))
| mg_mode l u v : merges u0 l u -> merges u0 (l ++ [Mode v]) (mkVent (u_out u) (u_in u) v (u_comfort u))
| mg_warm l u t : merges u0 l u -> merges u0 (l ++ [Warm t]) (mkVent (u_out u) (u_in u) (u_mode u) (2 * (t + 20)))
| mg_one l mid u u1 u2 m v : merges u0 l u -> merges u0 (l ++ mid) u1 -> Forall (fun x => is_one x = false) mid ->
    with_profile (Z.to_nat m) v (mkVent (u_out u) (u_in u) (u_mode u1) (u_comfort u1)) u2 ->
    merges u0 (l ++ mid ++ [One m v]) u2.
