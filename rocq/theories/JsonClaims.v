(** The calls that JSON bodies make. *)
From Coq Require Import String Permutation.
From Verif Require Import ProofBase GoStrings Lib Server SpecLayout SpecWire Wire Twirp SpecTwirp TwirpProofs SpecJson
  JsonScan JsonRead JsonScanProofs JsonReadProofs JsonTokenProofs JsonFieldProofs JsonUnique.

(** ** Strings that are texts *)
Lemma clear_texts :
  (forall v t, jtext v t -> bytes_ok t -> (clearb v = true <-> clear v)) /\
  (forall l b, jelems l b -> bytes_ok b -> (forallb clearb l = true <-> fold_right (fun v P => clear v /\ P) True l)) /\
  (forall l b, jmembers l b -> bytes_ok b -> (forallb (fun m => some (jstr (fst m)) && clearb (snd m)) l = true <->
     fold_right (fun m P => (exists s, reads_str (fst m) s) /\ clear (snd m) /\ P) True l)).
Proof.
  assert (J : forall n, raw_string n -> bytes_ok n -> some (jstr n) = true <-> exists s, reads_str n s).
  { intros n R B. split.
    - destruct (jstr n) as [s|] eqn:E; [|discriminate]. intros _. exists s. apply jstr_reads; auto.
    - intros (s & K). apply jstr_reads in K; auto. rewrite K. reflexivity. }
  assert (Q : forall c b d, bytes_ok (c :: b ++ [d]) -> bytes_ok b).
  { intros c b d B. apply Forall_cons_iff in B. destruct B as [_ B]. apply bytes_app in B. tauto. }
  apply json_ind; cbn [clearb clear forallb fold_right fst snd]; try tauto.
  - intros r R B. apply J; auto. eapply Q; eauto.
  - intros l b _ IH B. apply IH. eapply Q; eauto.
  - intros l b _ IH B. apply IH. eapply Q; eauto.
  - intros v w b w' _ _ IH _ B. rewrite !bytes_app in B. rewrite andb_true_r, IH by tauto. tauto.
  - intros v l w b w' b' _ _ IH _ _ IH' B. rewrite !bytes_app in B. destruct B as (_ & B & _ & B'). apply Forall_cons_iff in B'. destruct B' as [_ B'].
    rewrite andb_true_iff, IH, IH' by auto. tauto.
  - intros n v w1 w2 w3 b w4 _ R _ _ _ IH _ B. repeat match goal with H : bytes_ok (_ ++ _) |- _ => apply bytes_app in H; destruct H | H : bytes_ok (_ :: _) |- _ => apply Forall_cons_iff in H; destruct H as [_ H] | H : Forall _ (_ ++ _) |- _ => apply bytes_app in H; destruct H end.
    rewrite andb_true_r, andb_true_iff, IH, J by auto. tauto.
  - intros n v l w1 w2 w3 b w4 b' _ R _ _ _ IH _ _ IH' B. repeat match goal with H : bytes_ok (_ ++ _) |- _ => apply bytes_app in H; destruct H | H : bytes_ok (_ :: _) |- _ => apply Forall_cons_iff in H; destruct H as [_ H] | H : Forall _ (_ ++ _) |- _ => apply bytes_app in H; destruct H end.
    rewrite !andb_true_iff, IH, IH', J by auto. tauto.
Qed.
(** The members of an object that is in a body. *)
Definition proper (m : list byte * jval) : Prop :=
  raw_string (fst m) /\ bytes_ok (fst m) /\ exists t, jtext (snd m) t /\ bytes_ok t.
Lemma members_proper l b : jmembers l b -> bytes_ok b -> Forall proper l.
Proof.
  induction 1 as [n v w1 w2 w3 b w4 G1 R G2 G3 T G4|n v l w1 w2 w3 b w4 b' G1 R G2 G3 T G4 M IH]; intros B;
  repeat match goal with H : bytes_ok (_ ++ _) |- _ => apply bytes_app in H; destruct H | H : bytes_ok (_ :: _) |- _ => apply Forall_cons_iff in H; destruct H as [_ H] | H : Forall _ (_ ++ _) |- _ => apply bytes_app in H; destruct H end.
  - constructor; [|constructor]. split; auto. split; auto. exists b. auto.
  - constructor; [|apply IH; auto]. split; auto. split; auto. exists b. auto.
Qed.
Lemma object_proper body l : bytes_ok body -> json_object body l -> Forall proper l /\ (clearb (JObj l) = true <-> clear (JObj l)).
Proof.
  intros B (w & t & rest & -> & _ & T & _). apply bytes_app in B. destruct B as [_ B]. apply bytes_app in B. destruct B as [B _].
  split; [|apply (proj1 clear_texts _ _ T B)]. inversion T; subst; [constructor|]. apply Forall_cons_iff in B. destruct B as [_ B]. apply bytes_app in B. destruct B as [B _].
  eapply members_proper; eauto.
Qed.

(** ** Values of fields *)
Lemma put_uint num v t : jtext v t -> bytes_ok t ->
  (forall a, put KUint32 num v = Some a -> (a = [] /\ v = JNull) \/ exists x, a = [(num, VInt x)] /\ uint_value v x) /\
  (v = JNull -> put KUint32 num v = Some []) /\ (forall x, uint_value v x -> put KUint32 num v = Some [(num, VInt x)]).
Proof.
  intros T B. unfold put. inversion T as [| | |t0 neg i f e N|r R| | | |]; subst; cbn [token_of unmarshalScalar];
    try (split; [intros a HQ; first [discriminate HQ|injection HQ as <-; auto]|split; [first [discriminate|auto]|intros x HQ; inversion HQ]]).
  - destruct (number_parse t neg i f e [] N I) as (x & X & O). rewrite app_nil_r in X. rewrite X. split; [|split; [discriminate|]].
    + intros a H. destruct (tokUint _) as [v|] eqn:U; [|discriminate]. cbn in H. injection H as <-. right. exists v. split; auto.
      apply (tok_uint t neg i f e x v N O) in U. constructor; tauto.
    + intros v H. inversion H as [t' v' Iv Uv| |]; subst. assert (U : tokUint (mkParts neg (int_of i) f x) = Some v) by (apply (tok_uint t neg i f e x v N O); auto). rewrite U. reflexivity.
  - assert (Br : bytes_ok r) by (apply Forall_cons_iff in B; destruct B as [_ B]; apply bytes_app in B; tauto).
    destruct (jstr r) as [s|] eqn:E; cbn [option_map].
    + apply jstr_reads in E; auto. split; [|split; [discriminate|]].
      * intros a H. destruct (numberInString s) as [p|] eqn:P; [|discriminate]. destruct (tokUint p) as [v|] eqn:U; [|discriminate]. cbn in H. injection H as <-.
        right. exists v. split; auto. apply (uint_string r s v E). eauto.
      * intros v H. apply (uint_string r s v E) in H. destruct H as (p & -> & ->). reflexivity.
    + split; [discriminate|]. split; [discriminate|]. intros v H. exfalso.
      assert (exists s, reads_str r s) as (s & Rs) by (inversion H; subst; eauto). apply jstr_reads in Rs; auto. congruence.
Qed.
Lemma put_bool num v t : jtext v t -> bytes_ok t ->
  (forall a, put KBool num v = Some a -> (a = [] /\ v = JNull) \/ exists x, a = [(num, VBool x)] /\ v = JBool x) /\
  (v = JNull -> put KBool num v = Some []) /\ (forall x, v = JBool x -> put KBool num v = Some [(num, VBool x)]).
Proof.
  intros T B. unfold put. inversion T as [| | |t0 neg i f e N|r R| | | |]; subst; cbn [token_of unmarshalScalar];
    try (split; [intros a HQ; first [discriminate HQ|injection HQ as <-; eauto]|split; [first [discriminate|auto]|intros x HQ; first [discriminate HQ|injection HQ as <-; reflexivity]]]).
  - destruct (parseNumber t) as [[p q]|]; (split; [discriminate|split; discriminate]).
  - destruct (jstr r); (split; [discriminate|split; discriminate]).
Qed.
Lemma cache_assoc s v : assoc s cacheTypes = Some v <-> exists n, s = str n /\ In (n, v) cache_names.
Proof.
  unfold cacheTypes, cache_names. cbn [assoc]. split.
  - repeat match goal with |- context [beq s ?x] => destruct (beq s x) eqn:?; [intros X; injection X as <-; match goal with H : beq _ _ = true |- _ => apply beq_eq in H; subst s end; eexists; split; [reflexivity|cbn; tauto]|] end. discriminate.
  - intros (n & -> & I). cbn in I. repeat destruct I as [I|I]; try (injection I as <- <-; reflexivity). destruct I.
Qed.
Lemma put_cache num v t : jtext v t -> bytes_ok t ->
  (forall a, put KEnum num v = Some a -> (a = [] /\ (v = JNull \/ no_cache v)) \/ exists x, a = [(num, VInt x)] /\ cache_value v x) /\
  (v = JNull \/ no_cache v -> put KEnum num v = Some []) /\ (forall x, cache_value v x -> put KEnum num v = Some [(num, VInt x)]).
Proof.
  intros T B. unfold put. inversion T as [| | |t0 neg i f e N|r R| | | |]; subst; cbn [token_of unmarshalScalar];
    try (split; [intros a HQ; first [discriminate HQ|injection HQ as <-; auto]|split; [intros [HQ|(? & ? & HQ & _)]; first [discriminate HQ|auto]|intros x HQ; inversion HQ]]).
  - destruct (number_parse t neg i f e [] N I) as (x & X & O). rewrite app_nil_r in X. rewrite X. split; [|split; [intros [H|(? & ? & H & _)]; discriminate|]].
    + intros a H. destruct (tokInt _) as [v|] eqn:U; [|discriminate]. cbn in H. injection H as <-. right. exists v. split; auto.
      apply (tok_int t neg i f e x v N O) in U. constructor; tauto.
    + intros v H. inversion H as [t' v' Iv Uv|]; subst. assert (U : tokInt (mkParts neg (int_of i) f x) = Some v) by (apply (tok_int t neg i f e x v N O); auto). rewrite U. reflexivity.
  - assert (Br : bytes_ok r) by (apply Forall_cons_iff in B; destruct B as [_ B]; apply bytes_app in B; tauto).
    destruct (jstr r) as [s|] eqn:E; cbn [option_map].
    + apply jstr_reads in E; auto. split; [|split].
      * intros a H. destruct (assoc s cacheTypes) as [v|] eqn:P; cbn in H; injection H as <-.
        -- right. exists v. split; auto. apply cache_assoc in P. destruct P as (n & -> & P). econstructor; eauto.
        -- left. split; auto. right. exists r, s. split; auto. split; auto. intros n c I ->. assert (assoc (str n) cacheTypes = Some c) by (apply cache_assoc; eauto). congruence.
      * intros [H|(r' & s' & H & R' & K)]; [discriminate|]. injection H as <-. rewrite (reads_unique _ _ _ E R'). destruct (assoc s' cacheTypes) as [v|] eqn:P; [|reflexivity].
        apply cache_assoc in P. destruct P as (n & En & P). destruct (K _ _ P En).
      * intros v H. inversion H as [|r' n v' Rn In']; subst. rewrite (reads_unique _ _ _ E Rn). assert (P : assoc (str n) cacheTypes = Some v) by (apply cache_assoc; eauto). rewrite P. reflexivity.
    + split; [discriminate|]. split.
      * intros [H|(r' & s' & H & R' & K)]; [discriminate|]. injection H as <-. apply jstr_reads in R'; auto. congruence.
      * intros v H. inversion H as [|r' n v' Rn In']; subst. apply jstr_reads in Rn; auto. congruence.
Qed.
Lemma put_clear k num v a : put k num v = Some a -> clearb v = true.
Proof.
  unfold put. destruct v; cbn [token_of clearb]; auto.
  - destruct (jstr raw); [reflexivity|discriminate].
  - destruct k; discriminate.
  - destruct k; discriminate.
Qed.

(** ** Messages *)
Definition has (l : list (list byte * jval)) (s : list byte) (v : jval) : Prop := exists n, In (n, v) l /\ jstr n = Some s.
Definition single (l : list (list byte * jval)) (s : list byte) : Prop :=
  forall a n v b n' v' c, l = a ++ (n, v) :: b ++ (n', v') :: c -> jstr n = Some s -> jstr n' <> Some s.
Lemma has_cons n v l s x : has ((n, v) :: l) s x <-> (jstr n = Some s /\ x = v) \/ has l s x.
Proof.
  unfold has. split.
  - intros (m & [E|I] & J); [injection E as <- <-; auto|right; eauto].
  - intros [(J & ->)|(m & I & J)]; [exists n; cbn; auto|exists m; cbn; auto].
Qed.
Lemma single_cons n v l s : single ((n, v) :: l) s <-> (jstr n = Some s -> forall x, ~ has l s x) /\ single l s.
Proof.
  unfold single, has. split.
  - intros H. split.
    + intros J x (m & I & K). apply in_split in I. destruct I as (a & b & ->). exact (H [] n v a m x b eq_refl J K).
    + intros a m x b m' x' c -> J. exact (H ((n, v) :: a) m x b m' x' c eq_refl J).
  - intros [H1 H2] a m x b m' x' c E J. destruct a as [|q a]; cbn in E.
    + injection E as <- <- ->. intros K. apply (H1 J x'). exists m'. split; auto. apply in_or_app. right. cbn. auto.
    + injection E as <- ->. exact (H2 a m x b m' x' c eq_refl J).
Qed.
Section Fields.
  Context (d : jdesc).
  Hypothesis FF : forall s num k, findField s d = Some (num, k) <-> In (num, s, k) d.
  Hypothesis Inj : forall num s k s' k', In (num, s, k) d -> In (num, s', k') d -> s = s' /\ k = k'.
  Definition good (seen : list Z) (l : list (list byte * jval)) : Prop :=
    clearb (JObj l) = true /\ forall num s k, In (num, s, k) d ->
      (In num seen -> forall v, ~ has l s v) /\ single l s /\ (forall v, has l s v -> exists a, put k num v = Some a).
  Lemma seen_in num seen : existsb (Z.eqb num) seen = true <-> In num seen.
  Proof. rewrite existsb_exists. split; [intros (x & I & E); apply Z.eqb_eq in E; subst; auto|intros I; exists num; split; auto; apply Z.eqb_refl]. Qed.
  Lemma put_only k num v a : put k num v = Some a -> a = [] \/ exists x, a = [(num, x)].
  Proof. unfold put. destruct (token_of v) as [t|]; [|discriminate]. destruct t; try (destruct (unmarshalScalar k _) as [[x|]|]; [| |discriminate]); intros H; injection H as <-; eauto. Qed.
  Lemma fields_sound l : forall seen m m', fields d seen m l = Some m' -> good seen l /\
    forall num s k, In (num, s, k) d ->
      (forall v x, has l s v -> put k num v = Some [(num, x)] -> lookup num m' = Some x) /\
      ((forall v, has l s v -> put k num v = Some []) -> lookup num m' = lookup num m).
  Proof.
    induction l as [|[n v] l IH]; intros seen m m' H.
    - cbn in H. injection H as <-. split.
      + split; [reflexivity|]. intros num s k I. split; [intros _ v (n & [] & _)|]. split; [intros a n v b n' v' c E; destruct a; discriminate|intros v (n & [] & _)].
      + intros num s k I. split; [intros v x (n & [] & _)|auto].
    - cbn [fields] in H. destruct (jstr n) as [s0|] eqn:J; [|discriminate]. destruct (findField s0 d) as [[num0 k0]|] eqn:F.
      + apply FF in F. destruct (existsb (Z.eqb num0) seen) eqn:Sn; [discriminate|]. destruct (put k0 num0 v) as [a|] eqn:P; [|discriminate].
        assert (NS : ~ In num0 seen) by (rewrite <- seen_in; congruence). destruct (IH _ _ _ H) as ((Cl & G) & L). split.
        * split; [cbn [clearb forallb fst snd]; rewrite J; cbn [some]; rewrite (put_clear _ _ _ _ P); exact Cl|].
          intros num s k I. destruct (G num s k I) as (G1 & G2 & G3). split; [|split].
          -- intros Is w Hw. apply has_cons in Hw. destruct Hw as [(J' & ->)|Hw]; [|apply (G1 (or_intror Is) w Hw)].
             rewrite J in J'. injection J' as <-. assert (X : findField s0 d = Some (num, k)) by (apply FF; auto). assert (Y : findField s0 d = Some (num0, k0)) by (apply FF; auto). rewrite X in Y. injection Y as -> ->. auto.
          -- apply single_cons. split; auto. intros J'. rewrite J in J'. injection J' as <-.
             assert (X : findField s0 d = Some (num, k)) by (apply FF; auto). assert (Y : findField s0 d = Some (num0, k0)) by (apply FF; auto). rewrite X in Y. injection Y as -> ->.
             apply G1. left; auto.
          -- intros w Hw. apply has_cons in Hw. destruct Hw as [(J' & ->)|Hw]; [|apply (G3 w Hw)].
             rewrite J in J'. injection J' as <-. assert (X : findField s0 d = Some (num, k)) by (apply FF; auto). assert (Y : findField s0 d = Some (num0, k0)) by (apply FF; auto). rewrite X in Y. injection Y as -> ->. eauto.
        * intros num s k I. destruct (L num s k I) as [L1 L2]. destruct (G num s k I) as (G1 & _ & _). split.
          -- intros w x Hw Pw. apply has_cons in Hw. destruct Hw as [(J' & ->)|Hw]; [|apply (L1 w x Hw Pw)].
             rewrite J in J'. injection J' as <-. assert (X : findField s0 d = Some (num, k)) by (apply FF; auto). assert (Y : findField s0 d = Some (num0, k0)) by (apply FF; auto). rewrite X in Y. injection Y as -> ->.
             rewrite P in Pw. injection Pw as ->. rewrite L2; [cbn; rewrite Z.eqb_refl; reflexivity|]. intros w Hw. destruct (G1 (or_introl eq_refl) w Hw).
          -- intros N. destruct (Z.eq_dec num num0) as [->|Ne].
             ++ destruct (Inj _ _ _ _ _ I F) as [-> ->]. assert (Pv : put k0 num0 v = Some []) by (apply N; apply has_cons; auto). rewrite P in Pv. injection Pv as ->.
                apply L2. intros w Hw. destruct (G1 (or_introl eq_refl) w Hw).
             ++ rewrite L2; [|intros w Hw; apply N; apply has_cons; auto]. destruct (put_only _ _ _ _ P) as [-> |(x & ->)]; [reflexivity|]. cbn. replace (num =? num0) with false by lia. reflexivity.
      + destruct (clearb v) eqn:Cv; [|discriminate]. destruct (IH _ _ _ H) as ((Cl & G) & L).
        assert (NF : forall num s k, In (num, s, k) d -> jstr n <> Some s) by (intros num s k I J'; rewrite J in J'; injection J' as <-; apply FF in I; congruence).
        split.
        * split; [cbn [clearb forallb fst snd]; rewrite J, Cv; exact Cl|]. intros num s k I. destruct (G num s k I) as (G1 & G2 & G3). split; [|split].
          -- intros Is w Hw. apply has_cons in Hw. destruct Hw as [(J' & _)|Hw]; [destruct (NF _ _ _ I J')|apply (G1 Is w Hw)].
          -- apply single_cons. split; auto. intros J'. destruct (NF _ _ _ I J').
          -- intros w Hw. apply has_cons in Hw. destruct Hw as [(J' & _)|Hw]; [destruct (NF _ _ _ I J')|apply (G3 w Hw)].
        * intros num s k I. destruct (L num s k I) as [L1 L2]. split.
          -- intros w x Hw Pw. apply has_cons in Hw. destruct Hw as [(J' & _)|Hw]; [destruct (NF _ _ _ I J')|apply (L1 w x Hw Pw)].
          -- intros N. apply L2. intros w Hw. apply N. apply has_cons. auto.
  Qed.
  Lemma fields_complete l : forall seen m, good seen l -> exists m', fields d seen m l = Some m'.
  Proof.
    induction l as [|[n v] l IH]; intros seen m (Cl & G); [exists m; reflexivity|].
    cbn [clearb forallb fst snd] in Cl. apply andb_true_iff in Cl. destruct Cl as [Cv Cl]. apply andb_true_iff in Cv. destruct Cv as [Cn Cv].
    cbn [fields]. destruct (jstr n) as [s0|] eqn:J; [|discriminate].
    assert (G' : forall num s k, In (num, s, k) d -> single l s /\ (forall v, has l s v -> exists a, put k num v = Some a)).
    { intros num s k I. destruct (G num s k I) as (_ & G2 & G3). apply single_cons in G2. split; [tauto|]. intros w Hw. apply G3. apply has_cons. auto. }
    destruct (findField s0 d) as [[num0 k0]|] eqn:F.
    - apply FF in F. destruct (G _ _ _ F) as (G1 & G2 & G3).
      replace (existsb (Z.eqb num0) seen) with false.
      2: { symmetry. apply not_true_iff_false. rewrite seen_in. intros I. apply (G1 I v). apply has_cons. auto. }
      destruct (G3 v) as (a & ->); [apply has_cons; auto|]. apply IH. split; [exact Cl|]. intros num s k I. destruct (G' _ _ _ I) as [H2 H3]. split; [|split; auto].
      intros [<-|Is] w Hw.
      + destruct (Inj _ _ _ _ _ I F) as [-> ->]. apply single_cons in G2. destruct G2 as [G2 _]. apply (G2 J w Hw).
      + destruct (G num s k I) as (H1 & _ & _). apply (H1 Is w). apply has_cons. auto.
    - rewrite Cv. apply IH. split; [exact Cl|]. intros num s k I. destruct (G' _ _ _ I) as [H2 H3]. split; [|split; auto].
      intros Is w Hw. destruct (G num s k I) as (H1 & _ & _). apply (H1 Is w). apply has_cons. auto.
  Qed.
End Fields.

(** ** One field *)
Lemma member_has l f v : Forall proper l -> (member l f v <-> has l (str f) v).
Proof.
  intros P. rewrite Forall_forall in P. unfold member, has.
  split; intros (n & I & J); exists n; split; auto; destruct (P _ I) as (R & B & _); apply jstr_reads in J; auto.
Qed.
Lemma once_single l f : Forall proper l -> (once l f <-> single l (str f)).
Proof.
  intros P. rewrite Forall_forall in P. unfold once, single.
  split; intros H a n v b n' v' c E J K.
  - assert (I : In (n, v) l) by (rewrite E; apply in_or_app; cbn; auto).
    assert (I' : In (n', v') l) by (rewrite E; apply in_or_app; right; right; apply in_or_app; cbn; auto).
    destruct (P _ I) as (R & B & _). destruct (P _ I') as (R' & B' & _). cbn [fst] in *. apply (jstr_reads n (str f) R B) in J. apply (jstr_reads n' (str f) R' B') in K. exact (H _ _ _ _ _ _ _ E J K).
  - assert (I : In (n, v) l) by (rewrite E; apply in_or_app; cbn; auto).
    assert (I' : In (n', v') l) by (rewrite E; apply in_or_app; right; right; apply in_or_app; cbn; auto).
    destruct (P _ I) as (R & B & _). destruct (P _ I') as (R' & B' & _). cbn [fst] in *. apply (jstr_reads n (str f) R B) in J. apply (jstr_reads n' (str f) R' B') in K. exact (H _ _ _ _ _ _ _ E J K).
Qed.
Lemma has_unique l s v v' : single l s -> has l s v -> has l s v' -> v = v'.
Proof.
  induction l as [|[n x] l IH]; intros S H H'; [destruct H as (? & [] & _)|].
  apply single_cons in S. destruct S as [S1 S2]. apply has_cons in H, H'.
  destruct H as [(J & ->)|H]; destruct H' as [(J' & ->)|H']; auto; [destruct (S1 J _ H')|destruct (S1 J' _ H)].
Qed.
Lemma has_dec l s : (exists v, has l s v) \/ (forall v, ~ has l s v).
Proof.
  induction l as [|[n x] l IH]; [right; intros v (? & [] & _)|].
  destruct IH as [(v & H)|H]; [left; exists v; apply has_cons; auto|].
  destruct (jstr n) as [s'|] eqn:J.
  - destruct (beq s s') eqn:E; [apply beq_eq in E; subst s'; left; exists x; apply has_cons; auto|apply beq_neq in E].
    right. intros v Hv. apply has_cons in Hv. destruct Hv as [(J' & _)|Hv]; [congruence|apply (H v Hv)].
  - right. intros v Hv. apply has_cons in Hv. destruct Hv as [(J' & _)|Hv]; [congruence|apply (H v Hv)].
Qed.
Lemma has_proper l s v : Forall proper l -> has l s v -> exists t, jtext v t /\ bytes_ok t.
Proof. intros P (n & I & _). rewrite Forall_forall in P. destruct (P _ I) as (_ & _ & T). exact T. Qed.
Section Field.
  Context {A : Type} (k : kind) (value : jval -> A -> Prop) (mk : A -> pval) (null : jval -> Prop) (get : option pval -> A) (zero : A).
  Hypothesis Get : forall x, get (Some (mk x)) = x.
  Hypothesis Zero : get None = zero.
  Hypothesis Put : forall num v t, jtext v t -> bytes_ok t ->
    (forall a, put k num v = Some a -> (a = [] /\ null v) \/ exists x, a = [(num, mk x)] /\ value v x) /\
    (null v -> put k num v = Some []) /\ (forall x, value v x -> put k num v = Some [(num, mk x)]).
  Definition stands (l : list (list byte * jval)) (f : string) (x : A) : Prop :=
    once l f /\ ((exists v, member l f v /\ value v x) \/ (x = zero /\ forall v, member l f v -> null v)).
  Lemma stands_good l f x num : Forall proper l -> stands l f x ->
    single l (str f) /\ forall v, has l (str f) v -> exists a, put k num v = Some a.
  Proof.
    intros P (O & H). apply once_single in O; auto. split; auto. intros v Hv. destruct (has_proper _ _ _ P Hv) as (t & T & B).
    destruct (Put num v t T B) as (_ & P2 & P3). destruct H as [(w & M & V)|(_ & N)].
    - apply member_has in M; auto. rewrite (has_unique _ _ _ _ O M Hv) in V. eauto.
    - eexists. apply P2. apply N. apply member_has; auto.
  Qed.
  Lemma stands_is d l f x num m' : (forall s num k, findField s d = Some (num, k) <-> In (num, s, k) d) ->
    (forall num s k s' k', In (num, s, k) d -> In (num, s', k') d -> s = s' /\ k = k') -> In (num, str f, k) d ->
    Forall proper l -> fields d [] [] l = Some m' -> (stands l f x <-> x = get (lookup num m')).
  Proof.
    intros FF Inj I P F. destruct (fields_sound d FF Inj l [] [] m' F) as ((_ & G) & L). destruct (G _ _ _ I) as (_ & S & G3). destruct (L _ _ _ I) as (L1 & L2). clear G L.
    unfold stands. rewrite (once_single l f P). split.
    - intros (_ & [(v & M & V)|(-> & N)]).
      + apply member_has in M; auto. destruct (has_proper _ _ _ P M) as (t & T & B). destruct (Put num v t T B) as (_ & _ & P3).
        rewrite (L1 v (mk x) M (P3 x V)), Get. reflexivity.
      + rewrite L2; [cbn [lookup]; auto|]. intros v Hv. destruct (has_proper _ _ _ P Hv) as (t & T & B). destruct (Put num v t T B) as (_ & P2 & _).
        apply P2. apply N. apply member_has; auto.
    - intros ->. split; auto. destruct (has_dec l (str f)) as [(v & Hv)|No].
      + destruct (has_proper _ _ _ P Hv) as (t & T & B). destruct (Put num v t T B) as (P1 & P2 & P3). destruct (G3 v Hv) as (a & Pa).
        destruct (P1 a Pa) as [(-> & Nv)|(x & -> & V)].
        * right. split; [|intros w M; apply member_has in M; auto; rewrite (has_unique _ _ _ _ S M Hv); exact Nv].
          rewrite L2; [exact Zero|]. intros w Hw. rewrite (has_unique _ _ _ _ S Hw Hv). exact Pa.
        * left. exists v. split; [apply member_has; auto|]. rewrite (L1 v (mk x) Hv Pa), Get. exact V.
      + right. split; [rewrite L2; [exact Zero|intros v Hv; destruct (No v Hv)]|]. intros v M. apply member_has in M; auto. destruct (No v M).
  Qed.
End Field.

(** ** The request messages *)
Lemma find_field d : NoDup (map (fun x => snd (fst x)) d) -> forall s num k, findField s d = Some (num, k) <-> In (num, s, k) d.
Proof.
  induction d as [|[[n s'] k'] d IH]; intros N s num k; cbn [findField In]; [split; [discriminate|tauto]|].
  cbn in N. inversion N as [|? ? Ni Nd]; subst. destruct (beq s s') eqn:E; [apply beq_eq in E; subst s'|apply beq_neq in E].
  - split; [intros H; injection H as <- <-; auto|]. intros [H|H]; [injection H as <- <-; auto|]. destruct Ni. apply in_map_iff. exists (num, s, k). auto.
  - rewrite (IH Nd). split; [auto|]. intros [H|H]; [congruence|auto].
Qed.
Lemma num_field (d : jdesc) : NoDup (map (fun x => fst (fst x)) d) -> forall num s k s' k', In (num, s, k) d -> In (num, s', k') d -> s = s' /\ k = k'.
Proof.
  induction d as [|[[n0 s0] k0] d IH]; intros N num s k s' k' I I'; [destruct I|]. cbn in N. inversion N as [|? ? Ni Nd]; subst.
  assert (Q : forall s k, In (n0, s, k) d -> False) by (intros u v K; apply Ni; apply in_map_iff; exists (n0, u, v); auto).
  destruct I as [I|I]; destruct I' as [I'|I'].
  - injection I as <- <- <-. injection I' as <- <-. auto.
  - injection I as <- <- <-. destruct (Q _ _ I').
  - injection I' as <- <- <-. destruct (Q _ _ I).
  - eapply IH; eauto.
Qed.
Definition int_at (o : option pval) : Z := match o with Some (VInt z) => z | _ => 0 end.
Definition bool_at (o : option pval) : bool := match o with Some (VBool b) => b | _ => false end.
Definition ignored (v : jval) : Prop := v = JNull \/ no_cache v.
Lemma cache_stands l f x : Forall proper l -> (cache_is l f x <-> stands cache_value ignored 0 l f x).
Proof.
  intros P. unfold cache_is, field_is, stands, ignored. split.
  - intros [(O & [H|(-> & H)])|(O & -> & v & M & N)]; split; auto.
    right. split; auto. intros w Mw. apply once_single in O; auto. apply member_has in M, Mw; auto. rewrite (has_unique _ _ _ _ O Mw M). auto.
  - intros (O & [H|(-> & H)]); [auto|]. pose proof O as S. apply once_single in S; auto. destruct (has_dec l (str f)) as [(v & Hv)|No].
    + apply member_has in Hv; auto. destruct (H v Hv) as [-> |N].
      * left. split; auto. right. split; auto. intros w M. apply member_has in M, Hv; auto. apply (has_unique _ _ _ _ S M Hv).
      * right. split; auto. eauto.
    + left. split; auto. right. split; auto. intros v M. apply member_has in M; auto. destruct (No v M).
Qed.
Section Meaning.
  Context (l : list (list byte * jval)) (P : Forall proper l) (C : clearb (JObj l) = true <-> clear (JObj l)).
  Lemma uint_stands d f x num m : (forall s num k, findField s d = Some (num, k) <-> In (num, s, k) d) ->
    (forall num s k s' k', In (num, s, k) d -> In (num, s', k') d -> s = s' /\ k = k') -> In (num, str f, KUint32) d ->
    fields d [] [] l = Some m -> (uint_is l f x <-> x = getInt num m).
  Proof. intros FF Inj I F. exact (stands_is KUint32 uint_value VInt (fun v => v = JNull) int_at 0 (fun x => eq_refl) eq_refl put_uint d l f x num m FF Inj I P F). Qed.
  Lemma bool_stands d f x num m : (forall s num k, findField s d = Some (num, k) <-> In (num, s, k) d) ->
    (forall num s k s' k', In (num, s, k) d -> In (num, s', k') d -> s = s' /\ k = k') -> In (num, str f, KBool) d ->
    fields d [] [] l = Some m -> (bool_is l f x <-> x = getBool num m).
  Proof. intros FF Inj I F. exact (stands_is KBool (fun v b => v = JBool b) VBool (fun v => v = JNull) bool_at false (fun x => eq_refl) eq_refl put_bool d l f x num m FF Inj I P F). Qed.
  Lemma enum_stands d f x num m : (forall s num k, findField s d = Some (num, k) <-> In (num, s, k) d) ->
    (forall num s k s' k', In (num, s, k) d -> In (num, s', k') d -> s = s' /\ k = k') -> In (num, str f, KEnum) d ->
    fields d [] [] l = Some m -> (cache_is l f x <-> x = getInt num m).
  Proof.
    intros FF Inj I F. rewrite (cache_stands l f x P).
    exact (stands_is KEnum cache_value VInt ignored int_at 0 (fun x => eq_refl) eq_refl put_cache d l f x num m FF Inj I P F).
  Qed.
  Lemma uint_good f x num : uint_is l f x -> single l (str f) /\ forall v, has l (str f) v -> exists a, put KUint32 num v = Some a.
  Proof. exact (stands_good KUint32 uint_value VInt (fun v => v = JNull) 0 put_uint l f x num P). Qed.
  Lemma bool_good f x num : bool_is l f x -> single l (str f) /\ forall v, has l (str f) v -> exists a, put KBool num v = Some a.
  Proof. exact (stands_good KBool (fun v b => v = JBool b) VBool (fun v => v = JNull) false put_bool l f x num P). Qed.
  Lemma enum_good f x num : cache_is l f x -> single l (str f) /\ forall v, has l (str f) v -> exists a, put KEnum num v = Some a.
  Proof. intros H. apply cache_stands in H; auto. revert H. exact (stands_good KEnum cache_value VInt ignored 0 put_cache l f x num P). Qed.
  Ltac dup := intros X; cbn in X; repeat destruct X as [X|X]; try discriminate X; try contradiction.
  Ltac ff := apply find_field; repeat (constructor; [dup|]); constructor.
  Ltac inj := apply num_field; repeat (constructor; [dup|]); constructor.
  Lemma meaning_fields name r q : find_route (str name) rt_routes = Some r -> served name ->
    ((exists m, fields (named (rt_desc r) (request_names (rt_desc r))) [] [] l = Some m /\ q = rt_call r m) <-> json_meaning name l q).
  Proof.
    intros F Sv. unfold json_meaning, json_call. rewrite <- C.
    assert (N0 : (exists m, fields [] [] [] l = Some m) <-> clearb (JObj l) = true).
    { split.
      - intros (m & H). apply (fields_sound []) in H; [apply H|apply (find_field []); constructor|apply (num_field []); constructor].
      - intros H. apply (fields_complete []); [apply (find_field []); constructor|apply (num_field []); constructor|]. split; auto. intros ? ? ? []. }
    apply served_cases in Sv. cbn [In] in Sv. each Sv; vm_compute in F; injection F as <-; cbn [rt_desc rt_call];
      match goal with |- context [fields ?d] => let d' := eval vm_compute in d in change d with d' end.
    1-6: split; [intros (m & H & ->); split; [apply N0; eauto|left; cbn; tauto]|
      intros (Cl & [H|[(E & _)|[(E & _)|[(E & _)|(E & _)]]]]); try discriminate E; apply N0 in Cl; destruct Cl as (m & Cl);
      exists m; split; auto; cbn [In] in H; repeat destruct H as [H|H]; try discriminate H; try contradiction; injection H as <-; reflexivity].
    - set (d := [_; _]). assert (FF : forall s num k, findField s d = Some (num, k) <-> In (num, s, k) d) by ff.
      assert (Inj : forall num s k s' k', In (num, s, k) d -> In (num, s', k') d -> s = s' /\ k = k') by inj.
      assert (I1 : In (1, str "Abs", KUint32) d) by (left; reflexivity). assert (I2 : In (2, str "Rel", KBool) d) by (right; left; reflexivity).
      split.
      + intros (m & H & ->). split; [apply (fields_sound d FF Inj) in H; apply H|]. right. left. split; auto. exists (getInt 1 m), (getBool 2 m).
        split; auto. split; [apply (uint_stands d "Abs" _ 1 m FF Inj I1 H)|apply (bool_stands d "Rel" _ 2 m FF Inj I2 H)]; reflexivity.
      + intros (Cl & [H|[(_ & a & b & -> & Ua & Ub)|[(E & _)|[(E & _)|(E & _)]]]]); try discriminate E;
          [cbn [In] in H; repeat destruct H as [H|H]; try discriminate H; contradiction|].
        destruct (fields_complete d FF Inj l [] []) as (m & H).
        { split; auto. intros num s k [H|[H|[]]]; injection H as <- <- <-; (split; [intros []|]); [exact (uint_good "Abs" a 1 Ua)|exact (bool_good "Rel" b 2 Ub)]. }
        exists m. split; auto. apply (uint_stands d "Abs" _ 1 m FF Inj I1 H) in Ua. apply (bool_stands d "Rel" _ 2 m FF Inj I2 H) in Ub. subst. reflexivity.
    - set (d := [_]). assert (FF : forall s num k, findField s d = Some (num, k) <-> In (num, s, k) d) by ff.
      assert (Inj : forall num s k s' k', In (num, s, k) d -> In (num, s', k') d -> s = s' /\ k = k') by inj.
      assert (I1 : In (1, str "ComfortTemp", KUint32) d) by (left; reflexivity).
      split.
      + intros (m & H & ->). split; [apply (fields_sound d FF Inj) in H; apply H|]. right. right. left. split; auto. exists (getInt 1 m).
        split; auto. apply (uint_stands d "ComfortTemp" _ 1 m FF Inj I1 H); reflexivity.
      + intros (Cl & [H|[(E & _)|[(_ & a & -> & Ua)|[(E & _)|(E & _)]]]]); try discriminate E;
          [cbn [In] in H; repeat destruct H as [H|H]; try discriminate H; contradiction|].
        destruct (fields_complete d FF Inj l [] []) as (m & H).
        { split; auto. intros num s k [H|[]]; injection H as <- <- <-; (split; [intros []|]); exact (uint_good "ComfortTemp" a 1 Ua). }
        exists m. split; auto. apply (uint_stands d "ComfortTemp" _ 1 m FF Inj I1 H) in Ua. subst. reflexivity.
    - set (d := [_; _]). assert (FF : forall s num k, findField s d = Some (num, k) <-> In (num, s, k) d) by ff.
      assert (Inj : forall num s k s' k', In (num, s, k) d -> In (num, s', k') d -> s = s' /\ k = k') by inj.
      assert (I1 : In (1, str "Mode", KUint32) d) by (left; reflexivity). assert (I2 : In (2, str "TargetSpeed", KUint32) d) by (right; left; reflexivity).
      split.
      + intros (m & H & ->). split; [apply (fields_sound d FF Inj) in H; apply H|]. right. right. right. left. split; auto. exists (getInt 1 m), (getInt 2 m).
        split; auto. split; [apply (uint_stands d "Mode" _ 1 m FF Inj I1 H)|apply (uint_stands d "TargetSpeed" _ 2 m FF Inj I2 H)]; reflexivity.
      + intros (Cl & [H|[(E & _)|[(E & _)|[(_ & a & b & -> & Ua & Ub)|(E & _)]]]]); try discriminate E;
          [cbn [In] in H; repeat destruct H as [H|H]; try discriminate H; contradiction|].
        destruct (fields_complete d FF Inj l [] []) as (m & H).
        { split; auto. intros num s k [H|[H|[]]]; injection H as <- <- <-; (split; [intros []|]); [exact (uint_good "Mode" a 1 Ua)|exact (uint_good "TargetSpeed" b 2 Ub)]. }
        exists m. split; auto. apply (uint_stands d "Mode" _ 1 m FF Inj I1 H) in Ua. apply (uint_stands d "TargetSpeed" _ 2 m FF Inj I2 H) in Ub. subst. reflexivity.
    - set (d := [_]). assert (FF : forall s num k, findField s d = Some (num, k) <-> In (num, s, k) d) by ff.
      assert (Inj : forall num s k s' k', In (num, s, k) d -> In (num, s', k') d -> s = s' /\ k = k') by inj.
      assert (I1 : In (1, str "Cache", KEnum) d) by (left; reflexivity).
      split.
      + intros (m & H & ->). split; [apply (fields_sound d FF Inj) in H; apply H|]. right. right. right. right. split; auto. exists (getInt 1 m).
        split; auto. apply (enum_stands d "Cache" _ 1 m FF Inj I1 H); reflexivity.
      + intros (Cl & [H|[(E & _)|[(E & _)|[(E & _)|(_ & a & -> & Ua)]]]]); try discriminate E;
          [cbn [In] in H; repeat destruct H as [H|H]; try discriminate H; contradiction|].
        destruct (fields_complete d FF Inj l [] []) as (m & H).
        { split; auto. intros num s k [H|[]]; injection H as <- <- <-; (split; [intros []|]); exact (enum_good "Cache" a 1 Ua). }
        exists m. split; auto. apply (enum_stands d "Cache" _ 1 m FF Inj I1 H) in Ua. subst. reflexivity.
  Qed.
End Meaning.

(** ** Requests *)
Lemma front_json_call ul h name q : bytes_ok (h_body h) -> ascii (h_ctype h) -> addressed h name -> media "application/json" (h_ctype h) ->
  (front ul unjson h = Call false q <-> exists l, json_object (h_body h) l /\ json_meaning name l q).
Proof.
  intros B A Ad M. pose proof Ad as (_ & Sv & _). destruct (route_of name Sv) as (r & F & _ & _).
  pose proof (content_type ul _ A) as Ct. rewrite (front_addressed ul unjson h name r Ad F).
  destruct (contentType ul (h_ctype h)) as [[|]|]; [destruct Ct as [_ Ct]; destruct (Ct M)| |destruct Ct as [_ Ct]; destruct (Ct M)].
  split.
  - intros H. destruct (unjson (rt_desc r) (h_body h)) as [m|] eqn:U; [|discriminate]. injection H as <-.
    apply unjson_object in U; auto. destruct U as (l & O & Fl). exists l. split; auto.
    destruct (object_proper _ _ B O) as (P & Cl). apply (meaning_fields l P Cl name r _ F Sv). eauto.
  - intros (l & O & Mn). destruct (object_proper _ _ B O) as (P & Cl). apply (meaning_fields l P Cl name r _ F Sv) in Mn.
    destruct Mn as (m & Fl & ->). assert (U : unjson (rt_desc r) (h_body h) = Some m) by (apply unjson_object; eauto). rewrite U. reflexivity.
Qed.
Lemma front_json_malformed ul h name : bytes_ok (h_body h) -> ascii (h_ctype h) -> addressed h name -> media "application/json" (h_ctype h) ->
  (forall l q, json_object (h_body h) l -> ~ json_meaning name l q) -> exists a, front ul unjson h = Answer a /\ malformed a.
Proof.
  intros B A Ad M N. destruct (front_json ul unjson h name A Ad M) as [(q & H)|H]; auto.
  apply (front_json_call ul h name q B A Ad M) in H. destruct H as (l & O & Mn). destruct (N l q O Mn).
Qed.
Lemma uint_fits l f x : uint_is l f x -> u32_ok x.
Proof. intros (_ & [(v & _ & V)|(-> & _)]); [destruct V; auto|unfold u32_ok; lia]. Qed.
Lemma cache_fits l f x : cache_is l f x -> -2147483648 <= x < 2147483648.
Proof.
  intros [(_ & [(v & _ & V)|(-> & _)])|(_ & -> & _)]; try lia. destruct V as [t v _ H|r n v _ I]; [exact H|].
  cbn in I. repeat destruct I as [I|I]; try (injection I as <- <-; lia). contradiction.
Qed.
Lemma json_args name l q : json_meaning name l q -> args_ok q /\ rpc_name q = name.
Proof.
  intros (_ & [H|[(-> & a & b & -> & A & _)|[(-> & a & -> & A)|[(-> & a & b & -> & A & B)|(-> & c & -> & A)]]]]).
  - cbn [In] in H. repeat destruct H as [H|H]; try contradiction; injection H as <- <-; split; cbn; auto.
  - split; [exact (uint_fits _ _ _ A)|reflexivity].
  - split; [exact (uint_fits _ _ _ A)|reflexivity].
  - split; [split; [exact (uint_fits _ _ _ A)|exact (uint_fits _ _ _ B)]|reflexivity].
  - split; [exact (cache_fits _ _ _ A)|reflexivity].
Qed.
Lemma json_called_args ul h name q : bytes_ok (h_body h) -> ascii (h_ctype h) -> addressed h name -> media "application/json" (h_ctype h) ->
  front ul unjson h = Call false q -> args_ok q /\ rpc_name q = name.
Proof. intros B A Ad M F. apply (front_json_call ul h name q B A Ad M) in F. destruct F as (l & _ & Mn). eapply json_args; eauto. Qed.

(** ** Order and unknown members *)
Definition named_by (f : string) (m : list byte * jval) : Prop := reads_str (fst m) (str f).
Lemma once_cons m l f : once (m :: l) f <-> (named_by f m -> forall x, In x l -> ~ named_by f x) /\ once l f.
Proof.
  destruct m as [n v]. unfold once, named_by. split.
  - intros H. split.
    + intros J [m x] I K. apply in_split in I. destruct I as (a & b & ->). exact (H [] n v a m x b eq_refl J K).
    + intros a m x b m' x' c -> J. exact (H ((n, v) :: a) m x b m' x' c eq_refl J).
  - intros [H1 H2] a m x b m' x' c E J. destruct a as [|q a]; cbn in E.
    + injection E as <- <- ->. intros K. apply (H1 J (m', x')); [|exact K]. apply in_or_app. right. cbn. auto.
    + injection E as <- ->. exact (H2 a m x b m' x' c eq_refl J).
Qed.
Lemma once_perm l l' f : Permutation l l' -> once l f -> once l' f.
Proof.
  induction 1 as [|m l l' P IH|m m' l|l l' l'' P IH P' IH']; intros H; auto.
  - apply once_cons in H. destruct H as [H1 H2]. apply once_cons. split; auto. intros N x I. apply H1; auto. eapply Permutation_in; [apply Permutation_sym|]; eauto.
  - apply once_cons in H. destruct H as [H1 H2]. apply once_cons in H2. destruct H2 as [H2 H3]. apply once_cons. split.
    + intros N x [<-|I]; [intros N'; apply (H1 N' m); cbn; auto|apply H2; auto].
    + apply once_cons. split; auto. intros N x I. apply H1; cbn; auto.
Qed.
Lemma member_perm l l' f v : Permutation l l' -> member l f v -> member l' f v.
Proof. intros P (n & I & R). exists n. split; auto. eapply Permutation_in; eauto. Qed.
Lemma field_perm {A} (value : jval -> A -> Prop) zero l l' f x : Permutation l l' -> field_is value zero l f x -> field_is value zero l' f x.
Proof.
  intros P (O & H). split; [eapply once_perm; eauto|]. destruct H as [(v & M & V)|(E & N)]; [left; exists v; split; auto; eapply member_perm; eauto|].
  right. split; auto. intros v M. apply N. eapply member_perm; [apply Permutation_sym|]; eauto.
Qed.
Lemma clear_perm l l' : Permutation l l' -> clear (JObj l) -> clear (JObj l').
Proof. induction 1; cbn [clear fold_right] in *; tauto. Qed.
Lemma json_perm name l l' q : Permutation l l' -> json_meaning name l q -> json_meaning name l' q.
Proof.
  intros P (C & H). split; [eapply clear_perm; eauto|].
  destruct H as [H|[(E & a & b & Q & A & B)|[(E & a & Q & A)|[(E & a & b & Q & A & B)|(E & c & Q & A)]]]]; [left; auto|right..].
  - left. split; auto. exists a, b. split; auto. split; eapply field_perm; eauto.
  - right. left. split; auto. exists a. split; auto. eapply field_perm; eauto.
  - right. right. left. split; auto. exists a, b. split; auto. split; eapply field_perm; eauto.
  - right. right. right. split; auto. exists c. split; auto. destruct A as [A|(O & X & v & M & N)]; [left; eapply field_perm; eauto|].
    right. split; [eapply once_perm; eauto|]. split; auto. exists v. split; auto. eapply member_perm; eauto.
Qed.
Lemma once_more m l f : ~ named_by f m -> (once (m :: l) f <-> once l f).
Proof. intros N. rewrite once_cons. tauto. Qed.
Lemma member_more m l f v : ~ named_by f m -> (member (m :: l) f v <-> member l f v).
Proof.
  intros N. unfold member. split; intros (n & I & R); exists n.
  - destruct I as [->|I]; [destruct N; exact R|auto].
  - split; auto. right; auto.
Qed.
Lemma field_more {A} (value : jval -> A -> Prop) zero m l f x : ~ named_by f m -> (field_is value zero (m :: l) f x <-> field_is value zero l f x).
Proof.
  intros N. unfold field_is. rewrite (once_more m l f N). split; intros (O & [(v & M & V)|(E & K)]); split; auto.
  - left. exists v. apply member_more in M; auto.
  - right. split; auto. intros v M. apply K. apply member_more; auto.
  - left. exists v. split; auto. apply member_more; auto.
  - right. split; auto. intros v M. apply K. apply member_more in M; auto.
Qed.
Lemma cache_more m l f x : ~ named_by f m -> (cache_is (m :: l) f x <-> cache_is l f x).
Proof.
  intros N. unfold cache_is. rewrite field_more, once_more by auto. split; (intros [H|(O & E & v & M & K)]; [auto|right; split; [auto|]; split; [auto|]; exists v; split; [|auto]]).
  - apply member_more in M; auto.
  - apply member_more; auto.
Qed.
Lemma json_more name m l q : stranger name m -> (json_meaning name (m :: l) q <-> json_meaning name l q).
Proof.
  intros (S & C & N). assert (K : forall f, In f (field_names name) -> ~ named_by f m) by exact N. unfold json_meaning, json_call. cbn [clear fold_right].
  split; (intros (Cl & H); split; [first [tauto|split; [exact S|split; [exact C|exact Cl]]]|]);
    (destruct H as [H|[(E & a & b & Q & A & B)|[(E & a & Q & A)|[(E & a & b & Q & A & B)|(E & c & Q & A)]]]]; [left; exact H|right..]).
  1, 5: left; split; [auto|]; exists a, b; split; [auto|]; subst name; unfold uint_is, bool_is in *;
    split; [apply (field_more uint_value 0 m l "Abs" a); [apply K; cbn; auto|exact A]|apply (field_more (fun v b => v = JBool b) false m l "Rel" b); [apply K; cbn; auto|exact B]].
  1, 4: right; left; split; [auto|]; exists a; split; [auto|]; subst name; apply (field_more uint_value 0 m l "ComfortTemp" a); [apply K; cbn; auto|exact A].
  1, 3: right; right; left; split; [auto|]; exists a, b; split; [auto|]; subst name;
    split; [apply (field_more uint_value 0 m l "Mode" a); [apply K; cbn; auto|exact A]|apply (field_more uint_value 0 m l "TargetSpeed" b); [apply K; cbn; auto|exact B]].
  all: right; right; right; split; [auto|]; exists c; split; [auto|]; subst name; apply (cache_more m l "Cache" c); [apply K; cbn; auto|exact A].
Qed.
Lemma front_same ul h h' name l l' : bytes_ok (h_body h) -> bytes_ok (h_body h') -> ascii (h_ctype h) -> ascii (h_ctype h') ->
  addressed h name -> addressed h' name -> media "application/json" (h_ctype h) -> media "application/json" (h_ctype h') ->
  json_object (h_body h) l -> json_object (h_body h') l' -> (forall q, json_meaning name l q <-> json_meaning name l' q) ->
  forall q, front ul unjson h = Call false q <-> front ul unjson h' = Call false q.
Proof.
  intros B B' A A' Ad Ad' M M' O O' E q. rewrite (front_json_call ul h name q B A Ad M), (front_json_call ul h' name q B' A' Ad' M').
  split; intros (k & Ok & Mk).
  - exists l'. split; auto. apply E. rewrite (object_unique _ _ _ O Ok). exact Mk.
  - exists l. split; auto. apply E. rewrite (object_unique _ _ _ O' Ok). exact Mk.
Qed.
Lemma front_order ul h h' name l l' : bytes_ok (h_body h) -> bytes_ok (h_body h') -> ascii (h_ctype h) -> ascii (h_ctype h') ->
  addressed h name -> addressed h' name -> media "application/json" (h_ctype h) -> media "application/json" (h_ctype h') ->
  json_object (h_body h) l -> json_object (h_body h') l' -> Permutation l l' ->
  forall q, front ul unjson h = Call false q <-> front ul unjson h' = Call false q.
Proof.
  intros B B' A A' Ad Ad' M M' O O' P. eapply front_same; eauto. intros q. split; apply json_perm; [auto|apply Permutation_sym; auto].
Qed.
Lemma front_more ul h h' name a m b : bytes_ok (h_body h) -> bytes_ok (h_body h') -> ascii (h_ctype h) -> ascii (h_ctype h') ->
  addressed h name -> addressed h' name -> media "application/json" (h_ctype h) -> media "application/json" (h_ctype h') ->
  json_object (h_body h) (a ++ b) -> json_object (h_body h') (a ++ m :: b) -> stranger name m ->
  forall q, front ul unjson h = Call false q <-> front ul unjson h' = Call false q.
Proof.
  intros B B' A A' Ad Ad' M M' O O' S. eapply front_same; eauto. intros q. rewrite <- (json_more name m (a ++ b) q S).
  split; apply json_perm; [apply Permutation_middle|apply Permutation_sym, Permutation_middle].
Qed.
(** ** A strict reader *)
Lemma field_strict {A} (value strict : jval -> A -> Prop) zero l f x : (forall v, member l f v -> forall x, value v x -> strict v x) ->
  field_is value zero l f x -> field_is strict zero l f x.
Proof. intros S (O & [(v & M & V)|H]); split; auto. left. exists v. auto. Qed.
Lemma json_strictly name l q : (forall f v, In f (field_names name) -> member l f v -> forall r, v <> JStr r) ->
  json_meaning name l q -> json_strict name l q.
Proof.
  intros N (C & H). split; auto.
  assert (U : forall f x, In f (field_names name) -> uint_is l f x -> field_is uint_strict 0 l f x).
  { intros f x I. apply field_strict. intros v M y V. destruct V; [constructor; auto|destruct (N _ _ I M _ eq_refl)..]. }
  destruct H as [H|[(-> & a & b & Q & A & B)|[(-> & a & Q & A)|[(-> & a & b & Q & A & B)|(-> & c & Q & A)]]]]; [left; auto|right..].
  - left. split; auto. exists a, b. split; auto. split; auto. apply U; auto. cbn; auto.
  - right. left. split; auto. exists a. split; auto. apply U; auto. cbn; auto.
  - right. right. left. split; auto. exists a, b. split; auto. split; apply U; auto; cbn; auto.
  - right. right. right. split; auto. exists c. split; auto. destruct A as [A|(O & -> & v & M & (r & s & -> & _))]; [exact A|].
    destruct (N "Cache"%string (JStr r)) with (r := r); cbn; auto.
Qed.
Lemma front_strict ul h name q : bytes_ok (h_body h) -> ascii (h_ctype h) -> addressed h name -> media "application/json" (h_ctype h) ->
  front ul unjson h = Call false q ->
  exists l w t rest, h_body h = w ++ t ++ rest /\ gap w /\ jtext (JObj l) t /\ depth (JObj l) <= 10000 /\
    ((forall f v, In f (field_names name) -> member l f v -> forall r, v <> JStr r) -> json_strict name l q).
Proof.
  intros B A Ad M F. apply (front_json_call ul h name q B A Ad M) in F. destruct F as (l & (w & t & rest & E & G & T & D) & Mn).
  exists l, w, t, rest. repeat (split; [assumption|]). intros N. apply json_strictly; auto.
Qed.
Lemma last_app_cons {A} (a : list A) x b d : last (a ++ x :: b) d = last (x :: b) d.
Proof. induction a as [|y a IH]; [reflexivity|]. cbn [app last]. destruct (a ++ x :: b) eqn:E; [destruct a; discriminate|]. rewrite <- E in *. exact IH. Qed.
Lemma whole_last body l : json_whole body l -> let c := last body 0 in c = 125 \/ c = 32 \/ c = 9 \/ c = 10 \/ c = 13.
Proof.
  intros (w & t & w' & -> & _ & G & T & _). cbv zeta.
  assert (X : exists b, t = b ++ [125]) by (inversion T; subst; [exists (123 :: w0)|exists (123 :: b)]; reflexivity). destruct X as (b & ->).
  destruct w' as [|c r _] using rev_ind.
  - rewrite app_nil_r, app_assoc, last_last. auto.
  - apply Forall_app in G. destruct G as [_ G]. inversion G; subst. rewrite !app_assoc, last_last. right. assumption.
Qed.
Lemma object_one body l n r : json_object body l -> json_object body [(n, JStr r)] -> l = [(n, JStr r)].
Proof. apply object_unique. Qed.
Lemma quoted_object n r : raw_string n -> raw_string r -> json_object (123 :: 34 :: n ++ 34 :: 58 :: 34 :: r ++ [34; 125]) [(n, JStr r)].
Proof.
  intros N R. exists [], (123 :: 34 :: n ++ 34 :: 58 :: 34 :: r ++ [34; 125]), []. rewrite app_nil_r. split; auto. split; [constructor|]. split; [|cbn; lia].
  replace (123 :: 34 :: n ++ 34 :: 58 :: 34 :: r ++ [34; 125]) with (123 :: ([] ++ 34 :: n ++ 34 :: [] ++ 58 :: [] ++ (34 :: r ++ [34]) ++ []) ++ [125]).
  - apply jt_obj. apply jm_one; auto using gap_nil. constructor; auto.
  - cbn [app]. rewrite app_nil_r. rewrite <- app_assoc. cbn [app]. rewrite <- app_assoc. reflexivity.
Qed.
Lemma whole_object body l : json_whole body l -> json_object body l.
Proof. intros (w & t & w' & E & G & _ & T & D). exists w, t, w'. auto. Qed.
Lemma plain_raw s : Forall (fun c => 32 <= c < 128 /\ c <> 34 /\ c <> 92) s -> raw_string s /\ reads_str s s.
Proof.
  induction 1 as [|c s C F [IH IH']]; [split; constructor|]. split; [constructor; tauto|].
  assert (U : utf8_of c = [c]) by (unfold utf8_of; replace (c <? 128) with true by lia; reflexivity).
  change (c :: s) with ([c] ++ s). rewrite <- U. apply rd_char; [unfold scalar; lia|tauto..].
Qed.
Ltac plainly := match goal with |- Forall _ ?l => let l' := eval vm_compute in l in change l with l' end; repeat (constructor; [lia|]); constructor.
Lemma no_trailing name q : forall l, ~ (json_whole (str "{} and more") l /\ json_strict name l q).
Proof. intros l (W & _). apply whole_last in W. vm_compute in W. intuition discriminate. Qed.
Lemma no_number_in_string : forall l, ~ (json_whole (str "{""ComfortTemp"":""20 21""}") l /\ json_strict "SetComfortTemp" l (SetComfortTempR 20)).
Proof.
  intros l (W & C & H). apply whole_object in W.
  assert (R : reads_str (str "20 21") (str "20 21")) by (apply plain_raw; plainly).
  assert (O : json_object (str "{""ComfortTemp"":""20 21""}") [(str "ComfortTemp", JStr (str "20 21"))]) by (apply (quoted_object (str "ComfortTemp") (str "20 21")); apply plain_raw; plainly).
  rewrite (object_unique _ _ _ W O) in H. clear W O C l. destruct H as [H|[(E & _)|[(_ & t & Q & H)|[(E & _)|(E & _)]]]]; try discriminate.
  { cbn [In] in H. repeat destruct H as [H|H]; try discriminate; contradiction. }
  injection Q as <-. destruct H as (_ & [(v & (n & I & _) & V)|(E & _)]); [|discriminate]. destruct I as [I|[]]. injection I as <- <-.
  inversion V as [|r t v Rt Iv _]; subst. rewrite <- (reads_unique _ _ _ R Rt) in Iv. destruct Iv as (neg & i & f & e & N & _).
  apply number_chars in N. rewrite Forall_forall in N.
  assert (I : In 32 (str "20 21")) by (vm_compute; auto). apply N in I. destruct I as [I|I]; [unfold dig in I; lia|cbn in I; lia].
Qed.
Lemma no_other_name : forall l, ~ (json_whole (str "{""Cache"":""Fan""}") l /\ json_strict "FlushCache" l (FlushCacheR 0)).
Proof.
  intros l (W & C & H). apply whole_object in W.
  assert (R : reads_str (str "Fan") (str "Fan")) by (apply plain_raw; plainly).
  assert (RC : reads_str (str "Cache") (str "Cache")) by (apply plain_raw; plainly).
  assert (O : json_object (str "{""Cache"":""Fan""}") [(str "Cache", JStr (str "Fan"))]) by (apply (quoted_object (str "Cache") (str "Fan")); apply plain_raw; plainly).
  rewrite (object_unique _ _ _ W O) in H. clear W O C l. destruct H as [H|[(E & _)|[(E & _)|[(E & _)|(_ & c & Q & H)]]]]; try discriminate.
  { cbn [In] in H. repeat destruct H as [H|H]; try discriminate; contradiction. }
  injection Q as <-. destruct H as (_ & [(v & (n & I & _) & V)|(_ & K)]).
  - destruct I as [I|[]]. injection I as <- <-. inversion V as [|r n v Rn In']; subst. pose proof (reads_unique _ _ _ R Rn) as E.
    cbn in In'. repeat destruct In' as [In'|In']; try discriminate In'; try (injection In' as <-; vm_compute in E; discriminate E); contradiction.
  - discriminate (K (JStr (str "Fan"))). exists (str "Cache"). split; [left; reflexivity|exact RC].
Qed.
Lemma json_type : media "application/json" (str "application/json").
Proof.
  exists [], (str "application/json"), [], []. split; [reflexivity|]. split; [constructor|]. split; [constructor|]. split; [|auto].
  apply lower_same. reflexivity.
Qed.
Ltac is_bytes := match goal with |- bytes_ok ?l => let l' := eval vm_compute in l in change l with l' end; repeat (constructor; [unfold byte_ok; lia|]); constructor.
Ltac is_addressed := split; [reflexivity|split; [vm_compute; discriminate|reflexivity]].
Lemma trailing_refuted : exists h, bytes_ok (h_body h) /\ addressed h "GetTemps" /\ media "application/json" (h_ctype h) /\
  (forall ul, front ul unjson h = Call false GetTempsRPC) /\ forall l, ~ (json_whole (h_body h) l /\ json_strict "GetTemps" l GetTempsRPC).
Proof.
  exists (mkHreq (str "POST") (str "/twirp/comfo.api.Comfo/GetTemps") (str "application/json") (str "{} and more")).
  split; [is_bytes|]. split; [is_addressed|]. split; [exact json_type|]. split; [intros ul; vm_compute; reflexivity|]. apply no_trailing.
Qed.
Lemma number_refuted : exists h, bytes_ok (h_body h) /\ addressed h "SetComfortTemp" /\ media "application/json" (h_ctype h) /\
  (forall ul, front ul unjson h = Call false (SetComfortTempR 20)) /\ forall l, ~ (json_whole (h_body h) l /\ json_strict "SetComfortTemp" l (SetComfortTempR 20)).
Proof.
  exists (mkHreq (str "POST") (str "/twirp/comfo.api.Comfo/SetComfortTemp") (str "application/json") (str "{""ComfortTemp"":""20 21""}")).
  split; [is_bytes|]. split; [is_addressed|]. split; [exact json_type|]. split; [intros ul; vm_compute; reflexivity|]. exact no_number_in_string.
Qed.
Lemma cache_refuted : exists h, bytes_ok (h_body h) /\ addressed h "FlushCache" /\ media "application/json" (h_ctype h) /\
  (forall ul, front ul unjson h = Call false (FlushCacheR 0)) /\ forall l, ~ (json_whole (h_body h) l /\ json_strict "FlushCache" l (FlushCacheR 0)).
Proof.
  exists (mkHreq (str "POST") (str "/twirp/comfo.api.Comfo/FlushCache") (str "application/json") (str "{""Cache"":""Fan""}")).
  split; [is_bytes|]. split; [is_addressed|]. split; [exact json_type|]. split; [intros ul; vm_compute; reflexivity|]. exact no_other_name.
Qed.
