(** A sequence of bytes encodes at most one list of fields. *)
From Verif Require Import ProofBase SpecWire WireProofs.

Lemma base128_prefix v b : base128 v b -> forall v' b' r r', base128 v' b' -> b ++ r = b' ++ r' -> v = v' /\ b = b' /\ r = r'.
Proof.
  induction 1 as [y Y|y v b Y _ IH]; intros v' b' r r' B E; inversion B as [y' Y'|y' w c Y' B']; subst; cbn [app] in E; injection E as -> E.
  - auto.
  - lia.
  - lia.
  - destruct (IH _ _ _ _ B' E) as (-> & -> & ->). auto.
Qed.
Lemma varint_prefix v b v' b' r r' : is_varint v b -> is_varint v' b' -> b ++ r = b' ++ r' -> v = v' /\ b = b' /\ r = r'.
Proof. intros [B _] [B' _]. apply base128_prefix; auto. Qed.
Lemma app_same_len {A} (a : list A) : forall b r r', List.length a = List.length b -> a ++ r = b ++ r' -> a = b /\ r = r'.
Proof. induction a as [|x a IH]; intros [|y b] r r' L E; try discriminate; [auto|]. injection E as -> E. injection L as L. destruct (IH _ _ _ L E) as [-> ->]. auto. Qed.
(** Where a list of fields ends: at the end, or at the end of a group. *)
Definition stops (r : list byte) : Prop := r = [] \/ exists n e t, is_varint (8 * n + 4) e /\ r = e ++ t.
Lemma wtype_cases w : In (wtype w) [0; 1; 2; 3; 5].
Proof. destruct w; cbn; auto 10. Qed.
Lemma not_stop n w t r : is_varint (8 * n + wtype w) t -> ~ stops (t ++ r).
Proof.
  intros V [E|(m & e & u & V' & E)].
  - apply app_eq_nil in E. destruct E as [-> _]. destruct V as [V _]. apply base128_nonempty in V. congruence.
  - destruct (varint_prefix _ _ _ _ _ _ V V' E) as (X & _). pose proof (wtype_cases w) as C. cbn [In] in C. lia.
Qed.
Lemma fields_prefix : forall d mx fs b, wire_fields d mx fs b ->
  forall d' mx' fs' b' r r', wire_fields d' mx' fs' b' -> stops r -> stops r' -> b ++ r = b' ++ r' -> fs = fs' /\ r = r'.
Proof.
  apply (wire_fields_mut
    (fun d n w b _ => forall d' w' b' r r', wire_value d' n w' b' -> wtype w = wtype w' -> b ++ r = b' ++ r' -> w = w' /\ r = r')
    (fun d mx fs b _ => forall d' mx' fs' b' r r', wire_fields d' mx' fs' b' -> stops r -> stops r' -> b ++ r = b' ++ r' -> fs = fs' /\ r = r')).
  - intros d n v b V d' w' b' r r' W T E. inversion W; subst; try discriminate. destruct (varint_prefix _ _ _ _ _ _ V H E) as (-> & _ & ->). auto.
  - intros d n b L d' w' b' r r' W T E. inversion W; subst; try discriminate. destruct (app_same_len b b' r r') as [-> ->]; auto. congruence.
  - intros d n b l V d' w' b' r r' W T E. inversion W as [| |d0 n0 c l' V'| |]; subst; try discriminate. rewrite <- !app_assoc in E.
    destruct (varint_prefix _ _ _ _ _ _ V V' E) as (L & _ & E'). unfold len in L. destruct (app_same_len b c r r') as [-> ->]; auto. lia.
  - intros d n fs b e D F IH V d' w' b' r r' W T E. inversion W as [| | |d0 n0 fs' c e' D' F' V'|]; subst; try discriminate. rewrite <- !app_assoc in E.
    destruct (IH _ _ _ _ _ _ F' (or_intror (ex_intro _ n (ex_intro _ e (ex_intro _ r (conj V eq_refl))))) (or_intror (ex_intro _ n (ex_intro _ e' (ex_intro _ r' (conj V' eq_refl))))) E) as [-> E'].
    destruct (varint_prefix _ _ _ _ _ _ V V' E') as (_ & _ & ->). auto.
  - intros d n b L d' w' b' r r' W T E. inversion W; subst; try discriminate. destruct (app_same_len b b' r r') as [-> ->]; auto. congruence.
  - intros d mx d' mx' fs' b' r r' W S S' E. cbn [app] in E. subst r. inversion W as [|d0 mx0 n w fs t b r N V _ _]; subst; [auto|].
    rewrite <- !app_assoc in S. destruct (not_stop _ _ _ _ V S).
  - intros d mx n w fs t b r N V W IHw F IHf d' mx' fs' b' u u' W' S S' E. inversion W' as [|d0 mx0 n' w' gs t' c r' N' V' X' G']; subst.
    + cbn [app] in E. subst u'. rewrite <- !app_assoc in S'. destruct (not_stop _ _ _ _ V S').
    + rewrite <- !app_assoc in E. destruct (varint_prefix _ _ _ _ _ _ V V' E) as (Q & _ & E').
      pose proof (wtype_range w). pose proof (wtype_range w'). assert (n = n') as -> by lia. assert (Tw : wtype w = wtype w') by lia.
      destruct (IHw _ _ _ _ _ X' Tw E') as [-> E2]. destruct (IHf _ _ _ _ _ _ G' S S' E2) as [-> ->]. auto.
Qed.
Lemma encodes_unique fs fs' b : encodes fs b -> encodes fs' b -> fs = fs'.
Proof. intros E E'. eapply fields_prefix; [exact E|exact E'|left; reflexivity|left; reflexivity|reflexivity]. Qed.
Lemma fields_app fs : forall d mx b, wire_fields d mx fs b -> forall fs' b', wire_fields d mx fs' b' -> wire_fields d mx (fs ++ fs') (b ++ b').
Proof.
  induction fs as [|f fs IH]; intros d mx b F fs' b' F'; inversion F as [|d0 mx0 n w gs t c r N V W G]; subst; cbn [app]; [exact F'|].
  rewrite <- !app_assoc. constructor; auto.
Qed.
Lemma encodes_app fs b fs' b' : encodes fs b -> encodes fs' b' -> encodes (fs ++ fs') (b ++ b').
Proof. intros E. apply fields_app. exact E. Qed.
