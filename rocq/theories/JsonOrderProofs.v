(** Proofs for PropertiesJsonOrder.v. *)
From Coq Require Import String Permutation Sorted.
From Verif Require Import ProofBase GoStrings Server SpecWire Wire Twirp SpecTwirp TwirpProofs GoClient SpecGo GoProofs SpecJson SpecJsonError SpecJsonOrder Utf8Proofs
  JsonScan JsonRead JsonScanProofs JsonReadProofs JsonUnique JsonClaims JsonWrite JsonWriteProofs JsonReplyProofs JsonError JsonErrorStrings JsonErrorProofs.

(** ** The order *)
Lemma before_earlier a : forall b, a <> b -> (before a b = true <-> earlier a b).
Proof.
  induction a as [|x a IH]; intros [|y b] N; cbn [before].
  - congruence.
  - split; [constructor|reflexivity].
  - split; [discriminate|intros H; inversion H].
  - split.
    + intros H. apply orb_prop in H as [H|H]; [apply er_byte; lia|]. apply andb_prop in H as [H1 H2]. apply Z.eqb_eq in H1. subst y. apply er_more. apply IH; congruence.
    + intros H. inversion H as [|? ? ? ? L|? ? ? E]; subst; apply orb_true_iff; [left; lia|right]. rewrite Z.eqb_refl. apply IH; [congruence|exact E].
Qed.
Lemma earlier_trans a : forall b c, earlier a b -> earlier b c -> earlier a c.
Proof.
  induction a as [|x a IH]; intros b c H K.
  - inversion H; subst. inversion K; constructor.
  - inversion H as [|? y ? t L|? ? t E]; subst; inversion K as [|? z ? u M|? ? u F]; subst; [apply er_byte; lia|apply er_byte; lia|apply er_byte; lia|apply er_more; eauto].
Qed.
Lemma earlier_irrefl a : ~ earlier a a.
Proof. induction a as [|x a IH]; intros H; inversion H; subst; [lia|auto]. Qed.
Lemma earlier_total a : forall b, a <> b -> earlier a b \/ earlier b a.
Proof.
  induction a as [|x a IH]; intros [|y b] N; [congruence|left; constructor|right; constructor|].
  destruct (Z.lt_trichotomy x y) as [L|[->|L]]; [left; apply er_byte; lia| |right; apply er_byte; lia].
  destruct (IH b) as [H|H]; [congruence|left|right]; apply er_more; exact H.
Qed.
Definition earlier_pair (p q : list byte * list byte) : Prop := earlier (fst p) (fst q).
Lemma insert_sorted p l : StronglySorted earlier_pair l -> ~ In (fst p) (map fst l) -> StronglySorted earlier_pair (insertPair p l).
Proof.
  induction l as [|q r IH]; intros S N; cbn [insertPair]; [constructor; constructor|]. inversion S as [|? ? Sr Fr]; subst. cbn [map In] in N.
  assert (Nq : fst p <> fst q) by (intros E; apply N; auto). destruct (before (fst p) (fst q)) eqn:B.
  - apply before_earlier in B; auto. constructor; auto. constructor; [exact B|]. eapply Forall_impl; [|exact Fr]. intros x. unfold earlier_pair. apply earlier_trans. exact B.
  - constructor; [apply IH; auto|]. eapply Permutation_Forall; [apply insert_perm|]. constructor; auto. unfold earlier_pair.
    destruct (earlier_total _ _ Nq) as [E|E]; auto. apply before_earlier in E; auto. congruence.
Qed.
Lemma sort_sorted l : NoDup (map fst l) -> StronglySorted earlier_pair (sortPairs l).
Proof.
  induction l as [|p l IH]; intros N; cbn [sortPairs fold_right]; [constructor|]. inversion N; subst. apply insert_sorted; [apply IH; auto|].
  intros I. apply (Permutation_in _ (Permutation_sym (Permutation_map fst (sort_perm l)))) in I. auto.
Qed.
Lemma sorted_unique l : forall l', StronglySorted earlier_pair l -> StronglySorted earlier_pair l' -> Permutation l l' -> l = l'.
Proof.
  induction l as [|p l IH]; intros l' S S' P; [apply Permutation_nil in P; auto|].
  destruct l' as [|p' l']; [apply Permutation_sym, Permutation_nil in P; discriminate|]. inversion S as [|? ? S1 F1]; subst. inversion S' as [|? ? S2 F2]; subst.
  assert (E : p = p').
  { assert (I : In p (p' :: l')) by (eapply Permutation_in; [exact P|left; reflexivity]). assert (I' : In p' (p :: l)) by (eapply Permutation_in; [apply Permutation_sym; exact P|left; reflexivity]).
    destruct I as [->|I]; auto. destruct I' as [->|I']; auto. rewrite Forall_forall in F1, F2. exfalso. apply (earlier_irrefl (fst p)). exact (earlier_trans _ _ _ (F1 _ I') (F2 _ I)). }
  subst p'. f_equal. apply IH; auto. eapply Permutation_cons_inv. exact P.
Qed.
Lemma sorted_keys e : StronglySorted earlier (map fst e) -> StronglySorted earlier_pair e /\ NoDup (map fst e).
Proof.
  induction e as [|p e IH]; intros S; [split; constructor|]. cbn [map] in *. inversion S as [|? ? S1 F1]; subst. destruct (IH S1) as [S2 N]. rewrite Forall_forall in F1. split.
  - constructor; auto. apply Forall_forall. intros x I. apply F1. apply in_map. exact I.
  - constructor; auto. intros I. apply (earlier_irrefl (fst p)). apply F1. exact I.
Qed.
Lemma same_text c m d d' : NoDup (map fst d) -> Permutation d d' -> marshalErrorToJSON (mkGerror c m d) = marshalErrorToJSON (mkGerror c m d').
Proof.
  intros N P. assert (N' : NoDup (map fst d')) by (eapply Permutation_NoDup; [apply Permutation_map; exact P|exact N]).
  assert (E : sortPairs d = sortPairs d').
  { apply sorted_unique; try (apply sort_sorted; auto). eapply Permutation_trans; [apply Permutation_sym, sort_perm|]. eapply Permutation_trans; [exact P|apply sort_perm]. }
  unfold marshalErrorToJSON. cbn [ge_code ge_msg ge_meta]. rewrite E. destruct d as [|p d]; [apply Permutation_nil in P; subst; reflexivity|].
  destruct d' as [|p' d']; [apply Permutation_sym, Permutation_nil in P; discriminate|]. reflexivity.
Qed.
(** ** The object *)
Lemma marshal_sorted c m d c' m1 m' d' : bytes_ok c -> bytes_ok m -> Forall pair_ok d ->
  mends c c' -> cut_message m m1 -> mends m1 m' -> mends_pairs d d' -> sortPairs d = d ->
  exists l, json_whole (marshalErrorToJSON (mkGerror c m d)) l /\ ordered_object c' m' d' l.
Proof.
  intros Bc Bm Bd Mc Cm Mm Md So. pose proof (cut_bytes _ _ Cm Bm) as Bm1. unfold marshalErrorToJSON. cbn [ge_code ge_msg ge_meta]. rewrite <- (cut_is _ _ Cm).
  destruct (go_string c Bc) as (rc & tc & Ec & Mc' & Rc & Wc & Oc). destruct (go_string m1 Bm1) as (rm & tm & Em & Mm' & Rm & Wm & Om).
  rewrite (mends_unique _ _ Mc' _ Mc) in *. rewrite (mends_unique _ _ Mm' _ Mm) in *. rewrite Ec, Em.
  destruct (plain_member "code" eq_refl) as [W1 R1]. destruct (plain_member "msg" eq_refl) as [W2 R2]. destruct (plain_member "meta" eq_refl) as [W3 R3].
  assert (B34 : forall r, bytes_ok r -> bytes_ok (34 :: r ++ [34])) by (intros r Br; apply bytes_cons; [unfold byte_ok; lia|]; apply bytes_app; split; auto; apply bytes_cons; [unfold byte_ok; lia|constructor]).
  assert (Whole : forall l b, jmembers l b -> depth (JObj l) <= 10000 -> json_whole (123 :: b ++ [125]) l).
  { intros l b J D. exists [], (123 :: b ++ [125]), []. cbn [app]. rewrite app_nil_r. split; [reflexivity|]. split; [exact gap_nil|]. split; [exact gap_nil|]. split; auto. apply jt_obj. exact J. }
  assert (Last : forall r, raw_string r -> forall n, raw_string n -> jmembers [(n, JStr r)] (34 :: n ++ 34 :: 58 :: 34 :: r ++ [34])).
  { intros r Wr n Wn. pose proof (jm_one n (JStr r) [] [] [] (34 :: r ++ [34]) [] gap_nil Wn gap_nil gap_nil (jt_str r Wr) gap_nil) as J. cbn [app] in J. rewrite !app_nil_r in J. exact J. }
  assert (More : forall r, raw_string r -> forall n, raw_string n -> forall l b, jmembers l b -> jmembers ((n, JStr r) :: l) (34 :: n ++ 34 :: 58 :: 34 :: r ++ 34 :: 44 :: b)).
  { intros r Wr n Wn l b Jl. pose proof (jm_more n (JStr r) l [] [] [] (34 :: r ++ [34]) [] b gap_nil Wn gap_nil gap_nil (jt_str r Wr) gap_nil Jl) as J. cbn [app] in J. rewrite <- !app_assoc in J. exact J. }
  destruct d as [|p d].
  - inversion Md; subst. exists [(str "code", JStr rc); (str "msg", JStr rm)].
    pose proof (Whole _ _ (More rc Wc _ W1 _ _ (Last rm Wm _ W2))) as K.
    assert (Eq : str "{""code"":" ++ (34 :: rc ++ [34]) ++ str ",""msg"":" ++ (34 :: rm ++ [34]) ++ [] ++ [125] =
                 123 :: (34 :: str "code" ++ 34 :: 58 :: 34 :: rc ++ 34 :: 44 :: 34 :: str "msg" ++ 34 :: 58 :: 34 :: rm ++ [34]) ++ [125]).
    { change (str "{""code"":") with (123 :: 34 :: str "code" ++ [34; 58]). change (str ",""msg"":") with (44 :: 34 :: str "msg" ++ [34; 58]).
      repeat (rewrite <- ?app_assoc; cbn [app]). reflexivity. }
    cbn [app] in Eq |- *. cbn [app] in K. rewrite Eq. split; [apply K; vm_compute; discriminate|].
    exists (str "code"), rc, (str "msg"), rm, []. split; [reflexivity|]. split; [exact R1|]. split; [exact Rc|]. split; [exact R2|]. split; [exact Rm|]. left. auto.
  - rewrite So.
    destruct (go_pairs (p :: d) d' ltac:(discriminate) Bd Md) as (ps & Jp & Bp & Fp & Dp). set (P := goPairs (p :: d)) in *.
    exists [(str "code", JStr rc); (str "msg", JStr rm); (str "meta", JObj ps)].
    assert (J3 : jmembers [(str "meta", JObj ps)] (34 :: str "meta" ++ 34 :: 58 :: 123 :: P ++ [125])).
    { pose proof (jm_one (str "meta") (JObj ps) [] [] [] (123 :: P ++ [125]) [] gap_nil W3 gap_nil gap_nil (jt_obj ps P Jp) gap_nil) as J. cbn [app] in J. rewrite !app_nil_r in J. exact J. }
    pose proof (Whole _ _ (More rc Wc _ W1 _ _ (More rm Wm _ W2 _ _ J3))) as K.
    assert (Eq : str "{""code"":" ++ (34 :: rc ++ [34]) ++ str ",""msg"":" ++ (34 :: rm ++ [34]) ++ (str ",""meta"":{" ++ P ++ [125]) ++ [125] =
                 123 :: (34 :: str "code" ++ 34 :: 58 :: 34 :: rc ++ 34 :: 44 :: 34 :: str "msg" ++ 34 :: 58 :: 34 :: rm ++ 34 :: 44 :: 34 :: str "meta" ++ 34 :: 58 :: 123 :: P ++ [125]) ++ [125]).
    { change (str "{""code"":") with (123 :: 34 :: str "code" ++ [34; 58]). change (str ",""msg"":") with (44 :: 34 :: str "msg" ++ [34; 58]).
      change (str ",""meta"":{") with (44 :: 34 :: str "meta" ++ [34; 58; 123]). repeat (rewrite <- ?app_assoc; cbn [app]). reflexivity. }
    rewrite Eq. split; [apply K|].
    + assert (Dz : fold_right (fun m z => Z.max (depth (snd m)) z) 0 ps = 0) by (clear -Dp; induction Dp as [|m ps Hm _ IH]; cbn; [reflexivity|rewrite Hm, IH; reflexivity]).
      cbn [depth fold_right snd]. rewrite Dz. lia.
    + exists (str "code"), rc, (str "msg"), rm, [(str "meta", JObj ps)]. split; [reflexivity|]. split; [exact R1|]. split; [exact Rc|]. split; [exact R2|]. split; [exact Rm|].
      right. split; [inversion Md; discriminate|]. exists (str "meta"), ps. auto.
Qed.
Lemma written_sorted c m d e c' m1 m' e' : bytes_ok c -> bytes_ok m -> Forall pair_ok d -> Permutation d e -> StronglySorted earlier (map fst e) ->
  mends c c' -> cut_message m m1 -> mends m1 m' -> mends_pairs e e' ->
  exists l, json_whole (marshalErrorToJSON (mkGerror c m d)) l /\ ordered_object c' m' e' l.
Proof.
  intros Bc Bm Bd P S Mc Cm Mm Me. apply sorted_keys in S as [S N]. rewrite <- (same_text c m e d N (Permutation_sym P)).
  apply (marshal_sorted c m e c' m1 m' e'); auto; [eapply Permutation_Forall; eauto|]. apply sorted_unique; auto; [apply sort_sorted; auto|apply Permutation_sym, sort_perm].
Qed.
Lemma has_order (d : list (list byte * list byte)) : NoDup (map fst d) -> exists e, Permutation d e /\ StronglySorted earlier (map fst e).
Proof.
  intros N. exists (sortPairs d). split; [apply sort_perm|]. pose proof (sort_sorted d N) as S. induction S as [|p l S IH F]; cbn [map]; constructor; auto.
  apply Forall_forall. intros x I. apply in_map_iff in I as (q & <- & I). rewrite Forall_forall in F. apply (F q I).
Qed.
