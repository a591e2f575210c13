(** A text is the text of one value only. *)
From Coq Require Import String.
From Verif Require Import ProofBase SpecWire Wire Twirp SpecJson JsonScan JsonScanProofs.

Definition numeral (c : byte) : Prop := dig c \/ In c [45; 43; 46; 101; 69].
Lemma number_chars t neg i f e : number t neg i f e -> Forall numeral t.
Proof.
  assert (D : forall l, Forall dig l -> Forall numeral l) by (intros l; apply Forall_impl; intros; left; auto).
  assert (S : forall c, numeral c -> Forall numeral [c]) by (intros; constructor; [auto|constructor]).
  assert (P45 : numeral 45) by (right; cbn; tauto). assert (P43 : numeral 43) by (right; cbn; tauto). assert (P46 : numeral 46) by (right; cbn; tauto).
  intros (x & y & -> & I & F & E). apply Forall_app; split; [destruct neg; [auto|constructor]|].
  apply Forall_app; split; [|apply Forall_app; split].
  - destruct I as [-> | (c & r & -> & C & R)]; [apply S; left; unfold dig; lia|constructor; [left; unfold dig; lia|auto]].
  - destruct F as [(-> & _) | (-> & _ & R)]; [constructor|constructor; auto].
  - destruct E as [(-> & _) | (c & s & ds & -> & C & _ & R & K)]; [constructor|]. constructor; [right; cbn; lia|].
    apply Forall_app; split; auto. destruct K as [([-> | ->] & _) | (-> & _)]; auto.
Qed.
Definition ends (rest : list byte) : Prop := match rest with [] => True | c :: _ => ender c end.
Lemma ender_numeral c : ender c -> ~ numeral c.
Proof. unfold ender, numeral, dig. rewrite jspace_gap. cbn. lia. Qed.
Lemma numeral_unique t : forall t' rest rest', Forall numeral t -> Forall numeral t' -> ends rest -> ends rest' -> t ++ rest = t' ++ rest' -> t = t' /\ rest = rest'.
Proof.
  induction t as [|c t IH]; intros [|c' t'] rest rest' F F' E E' H; cbn in H.
  - auto.
  - subst rest. inversion F'; subst. destruct (ender_numeral _ E); auto.
  - subst rest'. inversion F; subst. destruct (ender_numeral _ E'); auto.
  - injection H as -> H. inversion F; inversion F'; subst. destruct (IH t' rest rest') as [-> ->]; auto.
Qed.
Lemma gap_unique w : forall w' c r c' r', gap w -> gap w' -> jspace c = false -> jspace c' = false -> w ++ c :: r = w' ++ c' :: r' -> w = w' /\ c = c' /\ r = r'.
Proof.
  induction w as [|x w IH]; intros [|x' w'] c r c' r' G G' J J' H; cbn in H.
  - injection H as -> ->. auto.
  - injection H as -> ->. apply gap_cons in G'. destruct G'. congruence.
  - injection H as -> <-. apply gap_cons in G. destruct G. congruence.
  - injection H as -> H. apply gap_cons in G, G'. destruct (IH w' c r c' r') as (-> & -> & ->); tauto.
Qed.
Lemma raw_unique r : raw_string r -> forall r' x x', raw_string r' -> r ++ 34 :: x = r' ++ 34 :: x' -> r = r' /\ x = x'.
Proof.
  assert (X4 : forall (y y' : list byte) v v' r r', hex16 y v -> hex16 y' v' -> y ++ r = y' ++ r' -> y = y' /\ r = r').
  { intros y y' v v' r0 r0' (a & b & c & d & va & vb & vc & vd & -> & _) (a' & b' & c' & d' & va' & vb' & vc' & vd' & -> & _) H. cbn in H. injection H as -> -> -> -> ->. auto. }
  assert (E117 : forall e c, In (e, c) escapes -> e <> 117) by (cbn; intros e c H; repeat destruct H as [H|H]; try injection H as <- <-; try lia; contradiction).
  induction 1 as [|c r C N M R IH|e c r I R IH|y v r X R IH]; intros r' x x' R' H; inversion R' as [|c' q C' N' M' Q|e' c' q I' Q|y' v' q X' Q]; subst r'; cbn in H; rewrite <- ?app_assoc in H.
  - injection H as ->. auto.
  - injection H as <- _. congruence.
  - discriminate.
  - discriminate.
  - injection H as -> _. congruence.
  - injection H as <- H. destruct (IH _ _ _ Q H) as [-> ->]. auto.
  - injection H as -> _. congruence.
  - injection H as -> _. congruence.
  - discriminate.
  - injection H as <- _. congruence.
  - injection H as <- H. destruct (IH _ _ _ Q H) as [-> ->]. auto.
  - injection H as -> _. destruct (E117 _ _ I eq_refl).
  - discriminate.
  - injection H as <- _. congruence.
  - injection H as <- _. destruct (E117 _ _ I' eq_refl).
  - injection H as H. destruct (X4 _ _ _ _ _ _ X X' H) as [-> H']. destruct (IH _ _ _ Q H') as [-> ->]. auto.
Qed.
Lemma number_head t neg i f e : number t neg i f e -> exists c r, t = c :: r /\ (c = 45 \/ 48 <= c <= 57).
Proof.
  intros (x & y & -> & I & _). destruct neg; [eexists _, _; split; [reflexivity|lia]|].
  destruct I as [->|(c & r & -> & C & _)]; eexists _, _; (split; [reflexivity|lia]).
Qed.
Definition numeric (v : jval) : bool := match v with JNum _ => true | _ => false end.
Lemma gap_ends w c r : gap w -> ender c -> ends (w ++ c :: r).
Proof. intros G E. destruct (gap_ender w c r G E) as (c' & r' & -> & E'). exact E'. Qed.
(** An empty array or object against one that is not. *)
Lemma json_unique :
  (forall v t, jtext v t -> forall v' t' rest rest', jtext v' t' -> t ++ rest = t' ++ rest' ->
     (numeric v = true -> ends rest) -> (numeric v' = true -> ends rest') -> v = v' /\ rest = rest') /\
  (forall l b, jelems l b -> forall l' b' rest rest', jelems l' b' -> b ++ 93 :: rest = b' ++ 93 :: rest' -> l = l' /\ rest = rest') /\
  (forall l b, jmembers l b -> forall l' b' rest rest', jmembers l' b' -> b ++ 125 :: rest = b' ++ 125 :: rest' -> l = l' /\ rest = rest').
Proof.
  assert (S93 : jspace 93 = false) by reflexivity. assert (S125 : jspace 125 = false) by reflexivity. assert (S44 : jspace 44 = false) by reflexivity.
  assert (S58 : jspace 58 = false) by reflexivity. assert (S34 : jspace 34 = false) by reflexivity.
  assert (E93 : ender 93) by (unfold ender; cbn; auto). assert (E125 : ender 125) by (unfold ender; cbn; auto). assert (E44 : ender 44) by (unfold ender; cbn; auto).
  apply json_ind.
  all: try (intros v' t' rest rest' T' H _ _; inversion T' as [| | |n neg i f e N|r R|w0 G|m b0 M|w0 G|m b0 M]; subst; cbn in H; try discriminate H;
    [injection H as H; auto|destruct (number_head _ _ _ _ _ N) as (c & r & -> & C); cbn in H; injection H as <- _; lia]).
  - intros t neg i f e N v' t' rest rest' T' H E E'. pose proof N as N0. pose proof (number_chars _ _ _ _ _ N) as F.
    destruct (number_head _ _ _ _ _ N) as (c & r & -> & C).
    inversion T' as [| | |n neg' i' f' e' N'|r' R'|w0 G|m b0 M|w0 G|m b0 M]; subst; try (cbn in H; injection H as -> _; lia).
    pose proof (number_chars _ _ _ _ _ N') as F'. destruct (numeral_unique _ _ _ _ F F' (E eq_refl) (E' eq_refl) H) as [-> ->]. auto.
  - intros r R v' t' rest rest' T' H _ _. inversion T' as [| | |n neg' i' f' e' N'|r' R'|w0 G|m b0 M|w0 G|m b0 M]; subst; try discriminate H.
    + destruct (number_head _ _ _ _ _ N') as (c & q & -> & C); cbn in H; injection H as <- _; lia.
    + cbn in H. injection H as H. rewrite <- !app_assoc in H. cbn in H. destruct (raw_unique _ R _ _ _ R' H) as [-> ->]. auto.
  - intros w G v' t' rest rest' T' H _ _. inversion T' as [| | |n neg' i' f' e' N'|r' R'|w0 G0|m b0 M|w0 G0|m b0 M]; subst; try discriminate H.
    + destruct (number_head _ _ _ _ _ N') as (c & q & -> & C); cbn in H; injection H as <- _; lia.
    + cbn in H. injection H as H. rewrite <- !app_assoc in H. cbn in H. destruct (gap_unique _ _ _ _ _ _ G G0 S93 S93 H) as (_ & _ & ->). auto.
    + cbn in H. injection H as H. rewrite <- !app_assoc in H. cbn in H. destruct (elems_head _ _ M) as (w1 & c & r & -> & G1 & J & N).
      rewrite <- app_assoc in H. destruct (gap_unique _ _ _ _ _ _ G G1 S93 J H) as (_ & <- & _). congruence.
  - intros l b M IH v' t' rest rest' T' H _ _. inversion T' as [| | |n neg' i' f' e' N'|r' R'|w0 G0|m b0 M0|w0 G0|m b0 M0]; subst; try discriminate H.
    + destruct (number_head _ _ _ _ _ N') as (c & q & -> & C); cbn in H; injection H as <- _; lia.
    + cbn in H. injection H as H. rewrite <- !app_assoc in H. cbn in H. destruct (elems_head _ _ M) as (w1 & c & r & -> & G1 & J & N).
      rewrite <- app_assoc in H. destruct (gap_unique _ _ _ _ _ _ G1 G0 J S93 H) as (_ & -> & _). congruence.
    + cbn in H. injection H as H. rewrite <- !app_assoc in H. cbn in H. destruct (IH _ _ _ _ M0 H) as [-> ->]. auto.
  - intros w G v' t' rest rest' T' H _ _. inversion T' as [| | |n neg' i' f' e' N'|r' R'|w0 G0|m b0 M|w0 G0|m b0 M]; subst; try discriminate H.
    + destruct (number_head _ _ _ _ _ N') as (c & q & -> & C); cbn in H; injection H as <- _; lia.
    + cbn in H. injection H as H. rewrite <- !app_assoc in H. cbn in H. destruct (gap_unique _ _ _ _ _ _ G G0 S125 S125 H) as (_ & _ & ->). auto.
    + cbn in H. injection H as H. rewrite <- !app_assoc in H. cbn in H. destruct (members_head _ _ M) as (w1 & r & -> & G1).
      rewrite <- app_assoc in H. destruct (gap_unique _ _ _ _ _ _ G G1 S125 S34 H) as (_ & X & _). discriminate X.
  - intros l b M IH v' t' rest rest' T' H _ _. inversion T' as [| | |n neg' i' f' e' N'|r' R'|w0 G0|m b0 M0|w0 G0|m b0 M0]; subst; try discriminate H.
    + destruct (number_head _ _ _ _ _ N') as (c & q & -> & C); cbn in H; injection H as <- _; lia.
    + cbn in H. injection H as H. rewrite <- !app_assoc in H. cbn in H. destruct (members_head _ _ M) as (w1 & r & -> & G1).
      rewrite <- app_assoc in H. destruct (gap_unique _ _ _ _ _ _ G1 G0 S34 S125 H) as (_ & X & _). discriminate X.
    + cbn in H. injection H as H. rewrite <- !app_assoc in H. cbn in H. destruct (IH _ _ _ _ M0 H) as [-> ->]. auto.
  - intros v w b w' G T IH G' l' b' rest rest' E H.
    assert (K : forall v1 w1 b1 z z', gap w1 -> jtext v1 b1 -> w ++ b ++ z = w1 ++ b1 ++ z' -> ends z -> ends z' -> v = v1 /\ z = z').
    { intros v1 w1 b1 z z' G1 T1 H1 Ez Ez'. pose proof T as T0. pose proof T1 as T2. apply text_head in T0, T2. destruct T0 as (c & r & -> & J & _). destruct T2 as (c1 & r1 & -> & J1 & _).
      cbn in H1. destruct (gap_unique _ _ _ _ _ _ G G1 J J1 H1) as (_ & <- & H2).
      apply (IH v1 (c :: r1) z z' T1); [cbn; f_equal; exact H2|auto|auto]. }
    inversion E as [v1 w1 b1 w1' G1 T1 G1'|v1 l1 w1 b1 w1' b1' G1 T1 G1' E1]; subst; rewrite <- !app_assoc in H; cbn in H.
    + destruct (K _ _ _ _ _ G1 T1 H) as [-> H1]; [apply gap_ends; auto|apply gap_ends; auto|]. destruct (gap_unique _ _ _ _ _ _ G' G1' S93 S93 H1) as (_ & _ & ->). auto.
    + destruct (K _ _ _ _ _ G1 T1 H) as [-> H1]; [apply gap_ends; auto|apply gap_ends; auto|]. destruct (gap_unique _ _ _ _ _ _ G' G1' S93 S44 H1) as (_ & X & _). discriminate X.
  - intros v l w b w' bl G T IH G' El IHl l' b' rest rest' E H.
    assert (K : forall v1 w1 b1 z z', gap w1 -> jtext v1 b1 -> w ++ b ++ z = w1 ++ b1 ++ z' -> ends z -> ends z' -> v = v1 /\ z = z').
    { intros v1 w1 b1 z z' G1 T1 H1 Ez Ez'. pose proof T as T0. pose proof T1 as T2. apply text_head in T0, T2. destruct T0 as (c & r & -> & J & _). destruct T2 as (c1 & r1 & -> & J1 & _).
      cbn in H1. destruct (gap_unique _ _ _ _ _ _ G G1 J J1 H1) as (_ & <- & H2).
      apply (IH v1 (c :: r1) z z' T1); [cbn; f_equal; exact H2|auto|auto]. }
    inversion E as [v1 w1 b1 w1' G1 T1 G1'|v1 l1 w1 b1 w1' b1' G1 T1 G1' E1]; subst; rewrite <- !app_assoc in H; cbn in H.
    + destruct (K _ _ _ _ _ G1 T1 H) as [-> H1]; [apply gap_ends; auto|apply gap_ends; auto|]. destruct (gap_unique _ _ _ _ _ _ G' G1' S44 S93 H1) as (_ & X & _). discriminate X.
    + destruct (K _ _ _ _ _ G1 T1 H) as [-> H1]; [apply gap_ends; auto|apply gap_ends; auto|]. destruct (gap_unique _ _ _ _ _ _ G' G1' S44 S44 H1) as (_ & _ & H2).
      destruct (IHl _ _ _ _ E1 H2) as [-> ->]. auto.
  - intros n v w1 w2 w3 b w4 G1 R G2 G3 T IH G4 l' b' rest rest' E H.
    assert (K : forall n' v' w1' w2' w3' b' z z', gap w1' -> raw_string n' -> gap w2' -> gap w3' -> jtext v' b' ->
      w1 ++ 34 :: n ++ 34 :: w2 ++ 58 :: w3 ++ b ++ z = w1' ++ 34 :: n' ++ 34 :: w2' ++ 58 :: w3' ++ b' ++ z' -> ends z -> ends z' -> n = n' /\ v = v' /\ z = z').
    { intros n' v' w1' w2' w3' b0' z z' H1 R' H2 H3 T' X Ez Ez'. destruct (gap_unique _ _ _ _ _ _ G1 H1 S34 S34 X) as (_ & _ & X1).
      destruct (raw_unique _ R _ _ _ R' X1) as [-> X2]. destruct (gap_unique _ _ _ _ _ _ G2 H2 S58 S58 X2) as (_ & _ & X3).
      pose proof T as T0. pose proof T' as T2. apply text_head in T0, T2. destruct T0 as (c & r & -> & J & _). destruct T2 as (c1 & r1 & -> & J1 & _).
      cbn in X3. destruct (gap_unique _ _ _ _ _ _ G3 H3 J J1 X3) as (_ & <- & X4).
      split; auto. apply (IH v' (c :: r1) z z' T'); [cbn; f_equal; exact X4|auto|auto]. }
    inversion E as [n' v' u1 u2 u3 b1 u4 H1 R' H2 H3 T' H4|n' v' l1 u1 u2 u3 b1 u4 b1' H1 R' H2 H3 T' H4 E1]; subst; repeat (rewrite <- ?app_assoc in H; cbn [app] in H).
    + destruct (K _ _ _ _ _ _ _ _ H1 R' H2 H3 T' H) as (-> & -> & X); [apply gap_ends; auto|apply gap_ends; auto|]. destruct (gap_unique _ _ _ _ _ _ G4 H4 S125 S125 X) as (_ & _ & ->). auto.
    + destruct (K _ _ _ _ _ _ _ _ H1 R' H2 H3 T' H) as (-> & -> & X); [apply gap_ends; auto|apply gap_ends; auto|]. destruct (gap_unique _ _ _ _ _ _ G4 H4 S125 S44 X) as (_ & Y & _). discriminate Y.
  - intros n v l w1 w2 w3 b w4 bl G1 R G2 G3 T IH G4 M IHl l' b' rest rest' E H.
    assert (K : forall n' v' w1' w2' w3' b' z z', gap w1' -> raw_string n' -> gap w2' -> gap w3' -> jtext v' b' ->
      w1 ++ 34 :: n ++ 34 :: w2 ++ 58 :: w3 ++ b ++ z = w1' ++ 34 :: n' ++ 34 :: w2' ++ 58 :: w3' ++ b' ++ z' -> ends z -> ends z' -> n = n' /\ v = v' /\ z = z').
    { intros n' v' w1' w2' w3' b0' z z' H1 R' H2 H3 T' X Ez Ez'. destruct (gap_unique _ _ _ _ _ _ G1 H1 S34 S34 X) as (_ & _ & X1).
      destruct (raw_unique _ R _ _ _ R' X1) as [-> X2]. destruct (gap_unique _ _ _ _ _ _ G2 H2 S58 S58 X2) as (_ & _ & X3).
      pose proof T as T0. pose proof T' as T2. apply text_head in T0, T2. destruct T0 as (c & r & -> & J & _). destruct T2 as (c1 & r1 & -> & J1 & _).
      cbn in X3. destruct (gap_unique _ _ _ _ _ _ G3 H3 J J1 X3) as (_ & <- & X4).
      split; auto. apply (IH v' (c :: r1) z z' T'); [cbn; f_equal; exact X4|auto|auto]. }
    inversion E as [n' v' u1 u2 u3 b1 u4 H1 R' H2 H3 T' H4|n' v' l1 u1 u2 u3 b1 u4 b1' H1 R' H2 H3 T' H4 E1]; subst; repeat (rewrite <- ?app_assoc in H; cbn [app] in H).
    + destruct (K _ _ _ _ _ _ _ _ H1 R' H2 H3 T' H) as (-> & -> & X); [apply gap_ends; auto|apply gap_ends; auto|]. destruct (gap_unique _ _ _ _ _ _ G4 H4 S44 S125 X) as (_ & Y & _). discriminate Y.
    + destruct (K _ _ _ _ _ _ _ _ H1 R' H2 H3 T' H) as (-> & -> & X); [apply gap_ends; auto|apply gap_ends; auto|]. destruct (gap_unique _ _ _ _ _ _ G4 H4 S44 S44 X) as (_ & _ & Y).
      destruct (IHl _ _ _ _ E1 Y) as [-> ->]. auto.
Qed.
(** The object at the beginning of a body is determined by it. *)
Lemma object_unique body l l' : json_object body l -> json_object body l' -> l = l'.
Proof.
  intros (w & t & rest & -> & G & T & _) (w' & t' & rest' & E & G' & T' & _).
  pose proof T as T0. pose proof T' as T1. apply text_head in T0, T1. destruct T0 as (c & r & -> & J & _). destruct T1 as (c' & r' & -> & J' & _).
  cbn in E. destruct (gap_unique _ _ _ _ _ _ G G' J J' E) as (_ & <- & E').
  destruct (proj1 json_unique _ _ T _ _ rest rest' T') as [X _]; [cbn; f_equal; exact E'|discriminate|discriminate|]. injection X as ->. reflexivity.
Qed.
