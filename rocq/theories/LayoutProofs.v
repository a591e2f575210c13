(** Decoders and encoders against SpecLayout.v (C17-C19, C46). *)
From Coq Require Import SpecFloat.
From Verif Require Import ProofBase GoStrings Proto Lib SpecLayout QueryProofs FrameLemmas.

(** ** finite sweeps *)
Definition upto (lo : Z) (n : nat) : list Z := map (fun i => lo + Z.of_nat i) (seq 0 n).
Lemma upto_in lo n z : lo <= z < lo + Z.of_nat n -> In z (upto lo n).
Proof.
  intros H. unfold upto. apply in_map_iff. exists (Z.to_nat (z - lo)). split; [lia|].
  apply in_seq. lia.
Qed.
Lemma sweep lo n (f : Z -> bool) : forallb f (upto lo n) = true ->
  forall z, lo <= z < lo + Z.of_nat n -> f z = true.
Proof. intros H z I. rewrite forallb_forall in H. apply H, upto_in; auto. Qed.

Definition f32_isb (f : f32) (z : Z) : bool :=
  match f with
  | S754_zero s => negb s && (z =? 0)
  | S754_finite s m e =>
      let v := if s then Zneg m else Zpos m in
      ((8388608 <=? Zpos m) && (Zpos m <? 16777216) && (-149 <=? e) && (e <=? 104)) &&
      if 0 <=? e then v * 2 ^ e =? z else v =? z * 2 ^ (- e)
  | _ => false
  end.
Lemma f32_isb_ok f z : f32_isb f z = true -> f32_is f z.
Proof.
  unfold f32_is. destruct f; simpl; try discriminate.
  - destruct s; simpl; [discriminate|]. intros H. splits; auto. lia.
  - intros H. apply andb_true_iff in H as [R H]. split; [lia|].
    destruct (0 <=? e) eqn:E; apply Z.eqb_eq in H; [left|right]; split; auto; lia.
Qed.

Definition f32_eqb (a b : f32) : bool :=
  match a, b with
  | S754_zero s, S754_zero t => Bool.eqb s t
  | S754_finite s m e, S754_finite t n f => Bool.eqb s t && (m =? n)%positive && (e =? f)
  | _, _ => false
  end.
Lemma f32_eqb_ok a b : f32_eqb a b = true -> a = b.
Proof.
  destruct a, b; simpl; try discriminate; intros H.
  - apply eqb_prop in H. congruence.
  - apply andb_true_iff in H as [H H3]. apply andb_true_iff in H as [H1 H2].
    apply eqb_prop in H1. apply Pos.eqb_eq in H2. apply Z.eqb_eq in H3. congruence.
Qed.

(** ** temperatures *)
Lemma temp_decode b : byte_ok b ->
  temperature_UnmarshalBinary b = f32_of_Z (b / 2 - 20) /\
  f32_is (temperature_UnmarshalBinary b) (b / 2 - 20).
Proof.
  intros B.
  pose proof (sweep 0 256 (fun b => f32_eqb (temperature_UnmarshalBinary b) (f32_of_Z (b / 2 - 20)) &&
                        f32_isb (temperature_UnmarshalBinary b) (b / 2 - 20))
                    ltac:(vm_compute; reflexivity) b ltac:(unfold byte_ok in B; lia)) as H. cbv beta in H.
  apply andb_true_iff in H as [H1 H2]. split; [apply f32_eqb_ok|apply f32_isb_ok]; auto.
Qed.

Lemma temp_encode t : -20 <= t <= 107 ->
  temperature_MarshalBinary (f32_of_Z t) = (2 * (t + 20), None).
Proof.
  intros B.
  pose proof (sweep (-20) 128 (fun t => match temperature_MarshalBinary (f32_of_Z t) with
                        | (b, None) => b =? 2 * (t + 20) | _ => false end)
                    ltac:(vm_compute; reflexivity) t ltac:(lia)) as H.
  cbv beta in H. destruct (temperature_MarshalBinary _) as [b [e|]]; [discriminate|].
  apply Z.eqb_eq in H. congruence.
Qed.

Lemma of_Z_exact z : -1024 <= z <= 1024 -> f32_is (f32_of_Z z) z /\ f32_trunc (f32_of_Z z) = z.
Proof.
  intros B.
  pose proof (sweep (-1024) 2049 (fun z => f32_isb (f32_of_Z z) z && (f32_trunc (f32_of_Z z) =? z))
                    ltac:(vm_compute; reflexivity) z ltac:(lia)) as H. cbv beta in H.
  apply andb_true_iff in H as [H1 H2]. split; [apply f32_isb_ok; auto|lia].
Qed.

Lemma temp_reject t : -1024 <= t <= 1024 -> t < -20 \/ 107 < t ->
  exists e, temperature_MarshalBinary (f32_of_Z t) = (0, Some e).
Proof.
  intros B O. destruct (of_Z_exact t B) as [_ E]. unfold temperature_MarshalBinary. rewrite E.
  destruct (t >? 107) eqn:G; [eauto|]. destruct (t <? -20) eqn:G2; eauto. lia.
Qed.

Lemma temperature_codec :
  (forall b, 0 <= b <= 255 -> f32_is (temperature_UnmarshalBinary b) (b / 2 - 20)) /\
  (forall t, -20 <= t <= 107 -> f32_is (f32_of_Z t) t /\
     temperature_MarshalBinary (f32_of_Z t) = (2 * (t + 20), None) /\
     temperature_UnmarshalBinary (2 * (t + 20)) = f32_of_Z t) /\
  (forall t, -1024 <= t < -20 \/ 107 < t <= 1024 ->
     f32_is (f32_of_Z t) t /\ exists e, temperature_MarshalBinary (f32_of_Z t) = (0, Some e)).
Proof.
  splits.
  - intros b B. apply temp_decode. unfold byte_ok; lia.
  - intros t B. splits.
    + apply of_Z_exact; lia.
    + apply temp_encode; auto.
    + destruct (temp_decode (2 * (t + 20))) as [-> _]; [unfold byte_ok; lia|]. f_equal. lia.
  - intros t B. split; [apply of_Z_exact; lia|]. apply temp_reject; lia.
Qed.

(** ** layouts *)
Lemma byte_at_0 b l : byte_at (b :: l) 0 = b. Proof. reflexivity. Qed.

Lemma temps_spec l : bytes_ok l ->
  (length l <> 9%nat -> Temps_Unmarshal l = Done (zeroTemps, Some ErrPktLen)) /\
  (length l = 9%nat -> exists t, Temps_Unmarshal l = Done (t, None) /\ temps_layout l t).
Proof.
  intros B. split; intros L.
  - unfold Temps_Unmarshal. destruct (Nat.eqb_spec (length l) 9); [contradiction|reflexivity].
  - do 9 (destruct l as [|? l]; [discriminate|]). destruct l; [|discriminate].
    eexists; split; [reflexivity|]. unfold temps_layout, temp_at.
    unfold bytes_ok in B.
    repeat match goal with H : Forall _ (_ :: _) |- _ => inversion H; clear H; subst end.
    splits; cbn [Comfort OutsideAir SupplyAir InsideAir ExhaustAir GeoHeat Reheating KitchenHood];
      apply temp_decode; assumption.
Qed.
Lemma eqb1 x : (x =? 1) = true <-> x = 1. Proof. apply Z.eqb_eq. Qed.
Lemma bypass_spec l :
  (length l <> 7%nat -> Bypass_Unmarshal l = Done (zeroBypass, Some ErrPktLen)) /\
  (length l = 7%nat -> exists t, Bypass_Unmarshal l = Done (t, None) /\ bypass_layout l t).
Proof.
  split; intros L.
  - unfold Bypass_Unmarshal. destruct (Nat.eqb_spec (length l) 7); [contradiction|reflexivity].
  - do 7 (destruct l as [|? l]; [discriminate|]). destruct l; [|discriminate].
    eexists; split; [reflexivity|]. unfold bypass_layout. splits; try reflexivity. apply eqb1.
Qed.
Lemma hours_spec l :
  (length l <> 20%nat -> Hours_Unmarshal l = Done (zeroHours, Some ErrPktLen)) /\
  (length l = 20%nat -> exists t, Hours_Unmarshal l = Done (t, None) /\ hours_layout l t).
Proof.
  split; intros L.
  - unfold Hours_Unmarshal. destruct (Nat.eqb_spec (length l) 20); [contradiction|reflexivity].
  - do 20 (destruct l as [|? l]; [discriminate|]). destruct l; [|discriminate].
    eexists; split; [reflexivity|]. unfold hours_layout, be_at.
    splits; cbn [FanAway FanLow FanMid FanHigh FrostProtect HReheating BypassOpen Filter firstn skipn be_bytes]; lia.
Qed.
Lemma fans_spec l :
  (length l <> 6%nat -> Fans_Unmarshal l = Done (zeroFans, Some ErrPktLen)) /\
  (length l = 6%nat -> be_at l 2 2 = 0 \/ be_at l 4 2 = 0 -> Fans_Unmarshal l = Done (zeroFans, Some ErrZeroValue)) /\
  (length l = 6%nat -> be_at l 2 2 <> 0 -> be_at l 4 2 <> 0 ->
     exists t, Fans_Unmarshal l = Done (t, None) /\ fans_layout l t).
Proof.
  assert (X : length l = 6%nat -> exists t, fans_layout l t /\ Fans_Unmarshal l =
    if (be_at l 2 2 =? 0) || (be_at l 4 2 =? 0) then Done (zeroFans, Some ErrZeroValue) else Done (t, None)).
  { intros L. do 6 (destruct l as [|? l]; [discriminate|]). destruct l; [|discriminate].
    unfold fans_layout. eexists (mkFans _ _ _ _). split; [splits; reflexivity|].
    unfold Fans_Unmarshal, be_at, byte_at. cbn.
    repeat match goal with |- context [256 * (256 * 0 + ?a) + ?b] =>
      replace (256 * (256 * 0 + a) + b) with (a * 256 + b) by lia end.
    destruct ((z1 * 256 + z2 =? 0) || (z3 * 256 + z4 =? 0)) eqn:O; [reflexivity|].
    apply orb_false_iff in O as [O1 O2]. unfold go_div. rewrite O1, O2. reflexivity. }
  splits.
  - intros L. unfold Fans_Unmarshal. destruct (Nat.eqb_spec (length l) 6); [contradiction|reflexivity].
  - intros L Z. destruct (X L) as (t & _ & ->).
    replace ((be_at l 2 2 =? 0) || (be_at l 4 2 =? 0)) with true by lia. reflexivity.
  - intros L N1 N2. destruct (X L) as (t & Lt & ->). exists t. split; auto.
    replace ((be_at l 2 2 =? 0) || (be_at l 4 2 =? 0)) with false by lia. reflexivity.
Qed.
Lemma profiles_spec l :
  (length l <> 14%nat -> FanProfiles_Unmarshal l = Done (zeroProf, Some ErrPktLen)) /\
  (length l = 14%nat -> exists t, FanProfiles_Unmarshal l = Done (t, None) /\ profiles_layout l t).
Proof.
  split; intros L.
  - unfold FanProfiles_Unmarshal. destruct (Nat.eqb_spec (length l) 14); [contradiction|reflexivity].
  - do 14 (destruct l as [|? l]; [discriminate|]). destruct l; [|discriminate].
    eexists; split; [reflexivity|]. unfold profiles_layout. splits; try reflexivity. apply eqb1.
Qed.
Lemma errors_spec l :
  (length l <> 17%nat -> Errors_Unmarshal l = Done (zeroErrors, Some ErrPktLen)) /\
  (length l = 17%nat -> exists t, Errors_Unmarshal l = Done (t, None) /\ errors_layout l t).
Proof.
  split; intros L.
  - unfold Errors_Unmarshal. destruct (Nat.eqb_spec (length l) 17); [contradiction|reflexivity].
  - do 17 (destruct l as [|? l]; [discriminate|]). destruct l; [|discriminate].
    eexists; split; [reflexivity|]. unfold errors_layout. apply eqb1.
Qed.
