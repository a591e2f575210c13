(** Proofs for PropertiesSlices.v. *)
From Verif Require Import ProofBase GoBase Proto SpecProto SpecFrame SpecConn ProtoProofs Slices SpecSlices.

(** What a goroutine knows about the heap: array contents, and whether the array is its own. *)
Definition know := nat -> option (bool * list Z).
Definition learn (M : know) (a : nat) (x : bool * list Z) : know := fun b => if Nat.eqb b a then Some x else M b.
Lemma learn_same M a x : learn M a x a = Some x.
Proof. unfold learn. rewrite Nat.eqb_refl. reflexivity. Qed.
Lemma learn_other M a x b : b <> a -> learn M a x b = M b.
Proof. intros N. unfold learn. apply Nat.eqb_neq in N. rewrite N. reflexivity. Qed.

(** From knowledge [M], [p] accesses only what it knows, stores only into its own arrays, outputs [os]
    and ends with [Q]. *)
Inductive ok {A} (Q : know -> A -> Prop) : know -> hp A -> list (list Z) -> Prop :=
| ok_ret M a : Q M a -> ok Q M (HRet a) []
| ok_alloc M bs k os : (forall a, M a = None -> ok Q (learn M a (true, bs)) (k a) os) -> ok Q M (HAlloc bs k) os
| ok_grow M n k os : (forall c, (n <= c)%nat -> ok Q M (k c) os) -> ok Q M (HGrow n k) os
| ok_load M a i k os m c v : M a = Some (m, c) -> nth_error c i = Some v -> ok Q M (k v) os -> ok Q M (HLoad a i k) os
| ok_store M a i v k os c : M a = Some (true, c) -> (i < length c)%nat ->
    ok Q (learn M a (true, set_nth c i v)) k os -> ok Q M (HStore a i v k) os
| ok_out M bs k os : ok Q M k os -> ok Q M (HOut bs k) (bs :: os).

Lemma ok_bind {A B} (Q : know -> B -> Prop) (R : know -> A -> Prop) (p : hp A) (f : A -> hp B) M os1 os2 :
  ok R M p os1 -> (forall M' a, R M' a -> ok Q M' (f a) os2) -> ok Q M (hbind p f) (os1 ++ os2).
Proof.
  intros H K. induction H; cbn [hbind app].
  - auto.
  - constructor. intros a Ha. auto.
  - constructor. intros c Hc. auto.
  - econstructor; eauto.
  - econstructor; eauto.
  - constructor. auto.
Qed.
Lemma ok_bind0 {A B} (Q : know -> B -> Prop) (R : know -> A -> Prop) (p : hp A) (f : A -> hp B) M os :
  ok R M p [] -> (forall M' a, R M' a -> ok Q M' (f a) os) -> ok Q M (hbind p f) os.
Proof. intros H K. apply (ok_bind Q R p f M [] os); auto. Qed.
Lemma ok_weaken {A} (Q R : know -> A -> Prop) p M os : ok R M p os -> (forall M' a, R M' a -> Q M' a) -> ok Q M p os.
Proof. intros H K. induction H; econstructor; eauto. Qed.

(** ** soundness: one program *)
Definition agree (M : know) (h : list (list Z)) : Prop := forall a m c, M a = Some (m, c) -> nth_error h a = Some c.
Lemma agree_fresh M h : agree M h -> M (length h) = None.
Proof.
  intros G. destruct (M (length h)) as [[m c]|] eqn:E; auto. apply G in E.
  pose proof (proj1 (nth_error_Some h (length h)) ltac:(congruence)). lia.
Qed.
Lemma nth_set_same {A} (l : list A) i x : (i < length l)%nat -> nth_error (set_nth l i x) i = Some x.
Proof. revert i. induction l as [|y l IH]; intros [|i] H; simpl in *; try lia; auto. apply IH. lia. Qed.
Lemma nth_set_other {A} (l : list A) i j x : i <> j -> nth_error (set_nth l i x) j = nth_error l j.
Proof. revert i j. induction l as [|y l IH]; intros [|i] [|j] H; simpl in *; auto; try congruence. Qed.
Lemma set_nth_length {A} (l : list A) i x : length (set_nth l i x) = length l.
Proof. revert i. induction l as [|y l IH]; intros [|i]; simpl; auto. Qed.
Lemma agree_learn_new M h bs : agree M h -> agree (learn M (length h) (true, bs)) (h ++ [bs]).
Proof.
  intros G a m c H. destruct (Nat.eq_dec a (length h)) as [->|N].
  - rewrite learn_same in H. injection H as _ <-. rewrite nth_error_app2, Nat.sub_diag by lia. reflexivity.
  - rewrite learn_other in H by auto. apply G in H. rewrite nth_error_app1; auto. apply nth_error_Some. congruence.
Qed.
Lemma agree_learn_set M h a m c c' : agree M h -> M a = Some (m, c) -> agree (learn M a (m, c')) (set_nth h a c').
Proof.
  intros G H b m' x Hb. destruct (Nat.eq_dec b a) as [->|N].
  - rewrite learn_same in Hb. injection Hb as _ <-. apply nth_set_same. apply nth_error_Some. apply G in H. congruence.
  - rewrite learn_other in Hb by auto. rewrite nth_set_other by auto. eauto.
Qed.

Lemma ok_sound {A} (Q : know -> A -> Prop) M p os g : ok Q M p os -> forall h, agree M h ->
  exists a h' M', hrun g p h = Some (a, h', os) /\ Q M' a /\ agree M' h' /\ (length h <= length h')%nat /\
    (forall b, (b < length h)%nat -> (forall c, M b <> Some (true, c)) -> nth_error h' b = nth_error h b) /\
    (forall b c, M' b = Some (true, c) -> (length h <= b)%nat \/ exists c', M b = Some (true, c')).
Proof.
  induction 1 as [M a Qa|M bs k os _ IH|M n k os _ IH|M a i k os m c v Ha Hi _ IH|M a i v k os c Ha Hi _ IH|M bs k os _ IH]; intros h G; cbn [hrun].
  - exists a, h, M. splits; eauto.
  - destruct (IH _ (agree_fresh M h G) (h ++ [bs]) (agree_learn_new M h bs G)) as (a & h' & M' & R & q & G' & L & F & O).
    rewrite app_length in *. simpl in L. exists a, h', M'. splits; auto; [lia| |].
    + intros b Hb Nb. rewrite F; [apply nth_error_app1; auto|simpl; lia|]. intros c. rewrite learn_other by lia. auto.
    + intros b c Hb. destruct (O b c Hb) as [H|[c' H]]; [left; simpl in H; lia|].
      destruct (Nat.eq_dec b (length h)) as [->|N]; [left; lia|]. rewrite learn_other in H by auto. eauto.
  - destruct (IH (n + g (length h))%nat ltac:(lia) h G) as (a & h' & M' & R). exists a, h', M'. exact R.
  - rewrite (G _ _ _ Ha), Hi. apply IH. exact G.
  - rewrite (G _ _ _ Ha). replace (Nat.ltb i (length c)) with true by (symmetry; apply Nat.ltb_lt; auto).
    destruct (IH _ (agree_learn_set M h a true c (set_nth c i v) G Ha)) as (x & h' & M' & R & q & G' & L & F & O).
    rewrite set_nth_length in *. exists x, h', M'. splits; auto.
    + intros b Hb Nb. assert (b <> a) by (intros ->; eapply Nb; eauto). rewrite F; auto; [apply nth_set_other; auto|].
      intros c'. rewrite learn_other by auto. auto.
    + intros b c' Hb. destruct (O b c' Hb) as [H|[c'' H]]; auto. destruct (Nat.eq_dec b a) as [->|N]; eauto.
      rewrite learn_other in H by auto. eauto.
  - destruct (IH h G) as (a & h' & M' & R & q). rewrite R. exists a, h', M'. auto.
Qed.

(** ** soundness: goroutines *)
Definition all_ok (h0 : list (list Z)) (expected : list (list (list Z))) (m : hstate) : Prop :=
  exists Ms : list know, length Ms = length (h_ths m) /\ length expected = length (h_ths m) /\
  preserved h0 (h_heap m) /\
  (forall i M t e, nth_error Ms i = Some M -> nth_error (h_ths m) i = Some t -> nth_error expected i = Some e ->
     agree M (h_heap m) /\ (forall a c, M a = Some (true, c) -> (length h0 <= a)%nat) /\
     exists os, ok (fun _ _ => True) M (h_p t) os /\ h_out t ++ os = e) /\
  (forall i j Mi Mj a c, i <> j -> nth_error Ms i = Some Mi -> nth_error Ms j = Some Mj -> Mi a = Some (true, c) -> Mj a = None).

Lemma preserved_nth h h' : preserved h h' <-> forall a, (a < length h)%nat -> nth_error h' a = nth_error h a.
Proof.
  unfold preserved. split.
  - intros E a L. transitivity (nth_error (firstn (length h) h') a); [|rewrite E; reflexivity]. clear E. revert a L. generalize (length h) as n. intros n. revert h'.
    induction n as [|n IH]; intros h' a L; [lia|]. destruct h' as [|x h']; simpl; [destruct a; auto|].
    destruct a as [|a]; simpl; auto. apply IH. lia.
  - revert h'. induction h as [|x h IH]; intros h' H; [reflexivity|]. cbn [length firstn].
    destruct h' as [|y h']. { specialize (H 0%nat ltac:(simpl; lia)). discriminate. }
    pose proof (H 0%nat ltac:(simpl; lia)) as H0. simpl in H0. injection H0 as <-. f_equal. apply IH.
    intros a L. apply (H (S a)). simpl. lia.
Qed.

Lemma nth_set_inv {A} (l : list A) i j x y : nth_error (set_nth l i x) j = Some y -> (j = i /\ y = x) \/ (j <> i /\ nth_error l j = Some y).
Proof.
  intros H. destruct (Nat.eq_dec j i) as [->|N].
  - left. split; auto. assert (i < length (set_nth l i x))%nat by (apply nth_error_Some; congruence). rewrite set_nth_length in *.
    rewrite nth_set_same in H by auto. congruence.
  - right. rewrite nth_set_other in H by auto. auto.
Qed.

(** One goroutine moves on, changing its knowledge and the heap. *)
Lemma all_ok_move h0 ex m i t Ms M0 M' h' t' :
  length Ms = length (h_ths m) -> length ex = length (h_ths m) ->
  nth_error (h_ths m) i = Some t -> nth_error Ms i = Some M0 ->
  preserved h0 h' ->
  (forall j M tj e, nth_error Ms j = Some M -> nth_error (h_ths m) j = Some tj -> nth_error ex j = Some e ->
     agree M (h_heap m) /\ (forall a c, M a = Some (true, c) -> (length h0 <= a)%nat) /\
     exists os, ok (fun _ _ => True) M (h_p tj) os /\ h_out tj ++ os = e) ->
  (forall i j Mi Mj a c, i <> j -> nth_error Ms i = Some Mi -> nth_error Ms j = Some Mj -> Mi a = Some (true, c) -> Mj a = None) ->
  agree M' h' -> (forall a c, M' a = Some (true, c) -> (length h0 <= a)%nat) ->
  (exists os, ok (fun _ _ => True) M' (h_p t') os /\ forall e, nth_error ex i = Some e -> h_out t' ++ os = e) ->
  (forall j M, j <> i -> nth_error Ms j = Some M -> agree M h' /\
     (forall a c, M' a = Some (true, c) -> M a = None) /\ (forall a c, M a = Some (true, c) -> M' a = None)) ->
  all_ok h0 ex (mkHst h' (set_nth (h_ths m) i t')).
Proof.
  intros L1 L2 T Mi P H D G O (os & K & E) X. exists (set_nth Ms i M'). cbn [h_ths h_heap]. rewrite !set_nth_length. splits; auto.
  - intros j M tj e Hj Htj He. apply nth_set_inv in Hj. apply nth_set_inv in Htj.
    destruct Hj as [[-> ->]|[N Hj]], Htj as [[Hi ->]|[N' Htj]]; try contradiction.
    + splits; auto. exists os. auto.
    + destruct (H j M tj e Hj Htj He) as (_ & O' & R). destruct (X j M N Hj) as (G' & _). auto.
  - intros a b Ma Mb x c N Ha Hb Hx. apply nth_set_inv in Ha. apply nth_set_inv in Hb.
    destruct Ha as [[-> ->]|[Na Ha]], Hb as [[-> ->]|[Nb Hb]]; try contradiction; eauto.
    + destruct (X b Mb Nb Hb) as (_ & Y & _). eauto.
    + destruct (X a Ma Na Ha) as (_ & _ & Y). eauto.
Qed.

Lemma all_ok_step h0 ex m ic m' : all_ok h0 ex m -> hstep ic m = Some m' -> all_ok h0 ex m'.
Proof.
  intros (Ms & L1 & L2 & P & H & D). destruct ic as [i c]. unfold hstep. destruct (nth_error (h_ths m) i) as [t|] eqn:T; [|discriminate].
  assert (Li : (i < length (h_ths m))%nat) by (apply nth_error_Some; congruence).
  destruct (nth_error Ms i) as [M|] eqn:EM; [|apply nth_error_None in EM; lia].
  destruct (nth_error ex i) as [e|] eqn:EE; [|apply nth_error_None in EE; lia].
  destruct (H i M t e EM T EE) as (G & O & os & K & E).
  assert (others : forall j Mj, nth_error Ms j = Some Mj -> agree Mj (h_heap m)).
  { intros j Mj Hj. assert (j < length Ms)%nat by (apply nth_error_Some; congruence).
    destruct (nth_error (h_ths m) j) as [tj|] eqn:Tj; [|apply nth_error_None in Tj; lia].
    destruct (nth_error ex j) as [ej|] eqn:Ej; [|apply nth_error_None in Ej; lia].
    apply (H j Mj tj ej Hj Tj Ej). }
  assert (same : forall t', (exists os, ok (fun _ _ => True) M (h_p t') os /\ h_out t' ++ os = e) -> all_ok h0 ex (mkHst (h_heap m) (set_nth (h_ths m) i t'))).
  { intros t' (os' & K' & E'). eapply all_ok_move; eauto.
    - exists os'. split; auto. congruence.
    - intros j Mj N Hj. splits; [eauto|intros; eapply (D i j); eauto|intros; eapply (D j i); eauto]. }
  destruct (h_p t) as [a| |bs k|n k|a j k|a j v k|bs k] eqn:Pt; try discriminate; inversion K; subst.
  - intros E'. injection E' as <-. eapply (all_ok_move h0 ex m i t Ms M (learn M (length (h_heap m)) (true, bs))); eauto.
    + apply preserved_nth. intros a La. rewrite <- (proj1 (preserved_nth h0 (h_heap m)) P a La). apply nth_error_app1. apply nth_error_Some.
      rewrite (proj1 (preserved_nth h0 (h_heap m)) P a La). apply nth_error_Some. auto.
    + apply agree_learn_new. exact G.
    + intros a c' Ha. destruct (Nat.eq_dec a (length (h_heap m))) as [->|N]; [|rewrite learn_other in Ha by auto; eauto].
      unfold preserved in P. rewrite <- P, firstn_length. lia.
    + exists os. cbn [h_p h_out]. split; [|congruence]. auto using agree_fresh.
    + intros j Mj N Hj. pose proof (others j Mj Hj) as Gj. splits.
      * intros a m0 c' Ha. apply Gj in Ha. rewrite nth_error_app1; auto. apply nth_error_Some. congruence.
      * intros a c' Ha. destruct (Nat.eq_dec a (length (h_heap m))) as [->|N']; [apply agree_fresh; auto|].
        rewrite learn_other in Ha by auto. eapply (D i j); eauto.
      * intros a c' Ha. assert (a <> length (h_heap m)).
        { intros ->. rewrite (agree_fresh _ _ Gj) in Ha. discriminate. }
        rewrite learn_other by auto. eapply (D j i); eauto.
  - destruct (Nat.leb n c) eqn:C; [|discriminate]. apply Nat.leb_le in C. intros E'. injection E' as <-. apply same. exists os. cbn [h_p h_out]. auto.
  - match goal with X : M a = Some (_, _) |- _ => rewrite (G _ _ _ X) end.
    match goal with X : nth_error _ j = Some _ |- _ => rewrite X end. intros E'. injection E' as <-. apply same. exists os. cbn [h_p h_out]. auto.
  - match goal with X : M a = Some (true, _) |- _ => rename X into H4 end. rewrite (G _ _ _ H4). replace (Nat.ltb j _) with true by (symmetry; apply Nat.ltb_lt; auto).
    intros E'. injection E' as <-. pose proof (O _ _ H4) as La. eapply (all_ok_move h0 ex m i t Ms M (learn M a (true, set_nth _ j v))); eauto.
    + apply preserved_nth. intros b Lb. rewrite nth_set_other by lia. apply (proj1 (preserved_nth h0 (h_heap m)) P b Lb).
    + eapply agree_learn_set; eauto.
    + intros b c' Hb. destruct (Nat.eq_dec b a) as [->|N]; auto. rewrite learn_other in Hb by auto. eauto.
    + exists os. cbn [h_p h_out]. split; [auto|congruence].
    + intros j' Mj N Hj. pose proof (others j' Mj Hj) as Gj. pose proof (D i j' M Mj a _ ltac:(auto) EM Hj H4) as Na. splits.
      * intros b m0 c' Hb. rewrite nth_set_other by congruence. eauto.
      * intros b c' Hb. destruct (Nat.eq_dec b a) as [->|N']; auto. rewrite learn_other in Hb by auto. eapply (D i j'); eauto.
      * intros b c' Hb. rewrite learn_other by congruence. eapply (D j' i); eauto.
  - intros E'. injection E' as <-. apply same. cbn [h_p h_out]. exists os0. split; auto. rewrite <- app_assoc. reflexivity.
Qed.
Lemma all_ok_exec h0 ex s m m' : all_ok h0 ex m -> hexec s m = Some m' -> all_ok h0 ex m'.
Proof.
  revert m. induction s as [|ic s IH]; intros m A E; cbn [hexec] in E; [congruence|].
  destruct (hstep ic m) as [m1|] eqn:S; [|discriminate]. eauto using all_ok_step.
Qed.

(** ** the operations on slices *)
Definition has (M : know) (s : slc) (own : bool) (bs : list Z) : Prop :=
  exists pre post, M (s_arr s) = Some (own, pre ++ bs ++ post) /\ length pre = s_off s /\ length bs = s_len s /\
    (s_len s <= s_cap s)%nat /\ (s_cap s <= s_len s + length post)%nat.
Definition keeps (M M' : know) : Prop := forall b c, M b = Some (false, c) -> M' b = Some (false, c).
Definition same_but (a : nat) (M M' : know) : Prop := forall b, b <> a -> M' b = M b.
Lemma keeps_refl M : keeps M M.
Proof. intros b c H. exact H. Qed.
Lemma keeps_trans M1 M2 M3 : keeps M1 M2 -> keeps M2 M3 -> keeps M1 M3.
Proof. intros H K b c E. auto. Qed.
Lemma has_keeps M M' s bs : keeps M M' -> has M s false bs -> has M' s false bs.
Proof. intros K (pre & post & E & R). exists pre, post. split; auto. Qed.
Lemma same_keeps a c M M' : M a = Some (true, c) -> same_but a M M' -> keeps M M'.
Proof. intros H S b x E. rewrite S; auto. congruence. Qed.
Lemma learn_keeps M a x : M a = None -> keeps M (learn M a x).
Proof. intros H b c E. rewrite learn_other; auto. congruence. Qed.

Lemma ok_loads M a m bs : forall pre post, M a = Some (m, pre ++ bs ++ post) ->
  ok (fun M' r => M' = M /\ r = bs) M (loads a (length pre) (length bs)) [].
Proof.
  induction bs as [|v bs IH]; intros pre post H; cbn [loads length].
  - constructor. auto.
  - econstructor; eauto; [rewrite nth_error_app2, Nat.sub_diag by lia; reflexivity|].
    eapply ok_bind0.
    + specialize (IH (pre ++ [v]) post). rewrite app_length, Nat.add_comm in IH. cbn [length Nat.add] in IH. apply IH.
      rewrite <- app_assoc. exact H.
    + intros M' r [-> ->]. constructor. auto.
Qed.
Lemma ok_content M s own bs : has M s own bs -> ok (fun M' r => M' = M /\ r = bs) M (content s) [].
Proof. unfold content. intros (pre & post & E & <- & <- & _). eapply ok_loads; eauto. Qed.

Lemma set_nth_app {A} (pre post : list A) x y : set_nth (pre ++ x :: post) (length pre) y = pre ++ y :: post.
Proof. induction pre; simpl; congruence. Qed.
Lemma ok_stores a bs : forall M pre old post, M a = Some (true, pre ++ old ++ post) -> length old = length bs ->
  ok (fun M' _ => M' a = Some (true, pre ++ bs ++ post) /\ same_but a M M') M (stores a (length pre) bs) [].
Proof.
  induction bs as [|v bs IH]; intros M pre old post H L; cbn [stores].
  - destruct old; [|discriminate]. constructor. split; auto. intros b Nb. reflexivity.
  - destruct old as [|x old]; [discriminate|]. injection L as L. econstructor; eauto; [rewrite app_length; simpl; lia|].
    specialize (IH (learn M a (true, set_nth (pre ++ (x :: old) ++ post) (length pre) v)) (pre ++ [v]) old post).
    rewrite app_length, Nat.add_comm in IH. cbn [length Nat.add] in IH. eapply ok_weaken; [apply IH; auto|].
    + rewrite learn_same. cbn [app]. rewrite set_nth_app, <- app_assoc. reflexivity.
    + intros M' _ [E S]. rewrite <- app_assoc in E. split; [exact E|]. intros b Nb. rewrite S by auto. apply learn_other. auto.
Qed.

Lemma ok_hmake M bs : ok (fun M' s => has M' s true bs /\ keeps M M' /\ M (s_arr s) = None /\ same_but (s_arr s) M M' /\
  s_off s = 0%nat /\ M' (s_arr s) = Some (true, bs) /\ s_cap s = s_len s) M (hmake bs) [].
Proof.
  constructor. intros a Na. constructor. cbn [s_arr s_off s_len s_cap]. splits; auto using learn_keeps.
  - exists [], []. cbn [s_arr s_off s_len s_cap]. rewrite learn_same, app_nil_r. splits; auto. simpl. lia.
  - intros b Nb. apply learn_other. auto.
  - apply learn_same.
Qed.

Lemma ok_happend M s own bs1 bs : has M s own bs1 -> own = true \/ (s_cap s < s_len s + length bs)%nat ->
  ok (fun M' s' => has M' s' true (bs1 ++ bs) /\ keeps M M') M (happend s bs) [].
Proof.
  intros H O. pose proof H as (pre & post & E & L1 & L2 & L3 & L4). unfold happend. destruct (Nat.leb _ _) eqn:C.
  - apply Nat.leb_le in C. assert (own = true) by (destruct O; auto; lia). subst own. clear O.
    assert (X : exists p1 p2, post = p1 ++ p2 /\ length p1 = length bs).
    { exists (firstn (length bs) post), (skipn (length bs) post). split; [symmetry; apply firstn_skipn|]. rewrite firstn_length. lia. }
    destruct X as (p1 & p2 & -> & Lp). eapply ok_bind0.
    + replace (s_off s + s_len s)%nat with (length (pre ++ bs1)) by (rewrite app_length; lia).
      apply (ok_stores (s_arr s) bs M (pre ++ bs1) p1 p2); auto. rewrite <- app_assoc. exact E.
    + intros M' _ [E' S]. constructor. split; [|eapply same_keeps; eauto].
      exists pre, p2. cbn [s_arr s_off s_len s_cap]. rewrite !app_length in *. splits; auto; try lia.
      rewrite E'. rewrite <- !app_assoc. reflexivity.
  - apply Nat.leb_gt in C. constructor. intros c Hc. eapply ok_bind0; [eapply ok_content; eauto|]. intros M' r [-> ->].
    constructor. intros a Na. constructor. split; [|apply learn_keeps; auto].
    exists [], (repeat 0 (c - (s_len s + length bs))). cbn [s_arr s_off s_len s_cap]. rewrite learn_same, app_length, repeat_length.
    splits; auto; try lia. cbn [app]. rewrite <- app_assoc. reflexivity.
Qed.

Lemma escape_app a b : escapeData (a ++ b) = escapeData a ++ escapeData b.
Proof. induction a as [|v a IH]; [reflexivity|]. cbn [app escapeData]. rewrite IH, <- app_assoc. reflexivity. Qed.

Lemma ok_hescape s bs : forall rest done M out, bs = done ++ rest -> has M s false bs -> has M out true (escapeData done) ->
  ok (fun M' out' => has M' out' true (escapeData bs) /\ keeps M M') M (hescape s (length done) (length rest) out) [].
Proof.
  induction rest as [|v rest IH]; intros done M out B H O; cbn [hescape length].
  - rewrite app_nil_r in B. subst done. constructor. split; auto using keeps_refl.
  - pose proof H as (pre & post & E & L1 & L2 & L3 & L4). econstructor; eauto.
    { rewrite <- L1, B, <- app_assoc. rewrite nth_error_app2 by lia. replace (length pre + length done - length pre)%nat with (length done + 0)%nat by lia.
      rewrite nth_error_app2 by lia. replace (length done + 0 - length done)%nat with 0%nat by lia. reflexivity. }
    eapply (ok_bind0 _ (fun M' o => has M' o true (escapeData done ++ (if v =? 7 then [7] else [])) /\ keeps M M')).
    { destruct (v =? 7); [apply (ok_happend M out true); auto|]. constructor. rewrite app_nil_r. auto using keeps_refl. }
    intros M1 o1 [O1 K1]. eapply ok_bind0; [apply (ok_happend M1 o1 true); eauto|]. intros M2 o2 [O2 K2].
    replace (S (length done)) with (length (done ++ [v])) by (rewrite app_length; simpl; lia).
    eapply ok_weaken; [apply IH|].
    + rewrite <- app_assoc. exact B.
    + eapply has_keeps; [|exact H]. eapply keeps_trans; eauto.
    + rewrite escape_app. cbn [escapeData]. rewrite <- app_assoc in O2. exact O2.
    + intros M3 o3 [O3 K3]. split; auto. eapply keeps_trans; [|exact K3]. eapply keeps_trans; eauto.
Qed.
Lemma ok_hescapeData M s bs : has M s false bs ->
  ok (fun M' out => has M' out true (escapeData bs) /\ keeps M M') M (hescapeData s) [].
Proof.
  intros H. unfold hescapeData. eapply ok_bind0; [apply ok_hmake|]. intros M1 o (O & K & _). cbv beta.
  pose proof H as (pre & post & _ & _ & L & _). rewrite <- L. eapply ok_weaken; [apply (ok_hescape s bs bs []); eauto using has_keeps|].
  intros M2 o2 [O2 K2]. split; auto. eapply keeps_trans; eauto.
Qed.

Lemma ok_hslice M s own bs lo hi : has M s own bs -> (lo <= hi)%nat -> (hi <= s_cap s)%nat ->
  ok (fun M' d => M' = M /\ d = mkSlc (s_arr s) (s_off s + lo) (hi - lo) (s_cap s - lo)) M (hslice s lo hi) [].
Proof.
  intros _ A B. unfold hslice. apply Nat.leb_le in A. apply Nat.leb_le in B. rewrite A, B. constructor. auto.
Qed.
Lemma ok_hset M s i v pre x post : M (s_arr s) = Some (true, pre ++ x :: post) -> length pre = (s_off s + i)%nat -> (i < s_len s)%nat ->
  ok (fun M' _ => M' (s_arr s) = Some (true, pre ++ v :: post) /\ same_but (s_arr s) M M') M (hset s i v) [].
Proof.
  intros E L I. unfold hset. apply Nat.ltb_lt in I. rewrite I, <- L. econstructor; eauto; [rewrite app_length; simpl; lia|].
  constructor. rewrite learn_same, set_nth_app. split; auto. intros b Nb. apply learn_other. auto.
Qed.
Lemma ok_hcopy M d s own bs pre old post : M (s_arr d) = Some (true, pre ++ old ++ post) -> length pre = s_off d ->
  length old = s_len d -> has M s own bs -> s_len d = s_len s ->
  ok (fun M' _ => M' (s_arr d) = Some (true, pre ++ bs ++ post) /\ same_but (s_arr d) M M') M (hcopy d s) [].
Proof.
  intros E L1 L2 H L3. unfold hcopy. rewrite L3, Nat.min_id. eapply ok_bind0; [eapply (ok_content M s own bs H)|].
  intros M' r [-> ->]. rewrite <- L1. apply (ok_stores _ _ M pre old post); auto.
  destruct H as (p & q & _ & _ & H & _). lia.
Qed.

Lemma ok_hMarshal M s cmd bs : has M s false bs ->
  ok (fun M' o => keeps M M' /\
       match o with
       | None => (255 < length bs)%nat
       | Some out => (length bs <= 255)%nat /\ has M' out true (wire cmd bs)
       end) M (hMarshalPacket cmd s) [].
Proof.
  intros H. assert (L : length bs = s_len s) by (destruct H as (p & q & _ & _ & H & _); auto).
  unfold hMarshalPacket. destruct (Z.of_nat (s_len s) >? 255) eqn:C.
  { constructor. split; [apply keeps_refl|lia]. }
  assert (U : u8 (Z.of_nat (s_len s)) = Z.of_nat (s_len s)) by (unfold u8; apply Z.mod_small; lia). rewrite U.
  eapply ok_bind0; [apply ok_hescapeData; eauto|]. intros M1 data [HD K1]. cbv beta.
  set (e := escapeData bs) in *. assert (Le : length e = s_len data) by (destruct HD as (p & q & _ & _ & X & _); auto).
  eapply ok_bind0; [apply ok_hmake|]. intros M2 out (HO & K2 & N2 & S2 & Z2 & E2 & C2).
  assert (Lo : s_len out = (s_len data + 4)%nat) by (destruct HO as (p & q & _ & _ & X & _); rewrite repeat_length in X; auto).
  assert (HD2 : has M2 data true e).
  { destruct HD as (p & q & X & R). exists p, q. split; auto. rewrite S2; auto. intros Y. congruence. }
  assert (Nd : s_arr data <> s_arr out). { intros Y. destruct HD as (p & q & X & _). congruence. }
  unfold dataOffset, lenOffset, cmdOffset; cbn [Nat.add].
  eapply ok_bind0; [apply (ok_hslice M2 out true _ 0 2 HO); lia|]. intros M' d [-> ->].
  eapply ok_bind0; [apply ok_hmake|]. intros M3 lit (HL & K3 & N3 & S3 & Z3 & E3 & C3).
  assert (Ll : s_len lit = 2%nat) by (destruct HL as (p & q & _ & _ & X & _); auto).
  assert (Nl : s_arr out <> s_arr lit) by (intros Y; congruence).
  assert (Nl' : s_arr data <> s_arr lit). { intros Y. destruct HD2 as (p & q & X & _). congruence. }
  assert (R : repeat 0 (s_len data + 4) = [] ++ [0; 0] ++ 0 :: repeat 0 (s_len data) ++ [0]).
  { replace (s_len data + 4)%nat with (2 + (1 + (s_len data + 1)))%nat by lia. rewrite !repeat_app. reflexivity. }
  rewrite R in E2. eapply ok_bind0.
  { eapply (ok_hcopy M3 _ lit true [0; cmd] [] [0; 0]); cbn [s_arr s_off s_len length].
    - rewrite S3 by auto. exact E2.
    - rewrite Z2. reflexivity.
    - reflexivity.
    - exact HL.
    - rewrite Ll. reflexivity. }
  cbn [s_arr app]. intros M4 _ [E4 S4].
  eapply ok_bind0.
  { apply (ok_hset M4 out 2 _ [0; cmd] 0 (repeat 0 (s_len data) ++ [0])); auto; [rewrite Z2; reflexivity|lia]. }
  cbn [app]. intros M5 _ [E5 S5].
  eapply ok_bind0.
  { apply (ok_hslice M5 out true (0 :: cmd :: Z.of_nat (s_len s) :: repeat 0 (s_len data) ++ [0])); [|lia|lia].
    exists [], []. rewrite E5, app_nil_r. cbn [length]. rewrite app_length, repeat_length. cbn [length]. splits; auto; lia. }
  intros M' d [-> ->].
  assert (HD5 : has M5 data true e).
  { destruct HD2 as (p & q & X & RR). exists p, q. split; auto. rewrite S5, S4, S3 by auto. exact X. }
  eapply ok_bind0.
  { eapply (ok_hcopy M5 _ data true e [0; cmd; Z.of_nat (s_len s)] (repeat 0 (s_len data)) [0]); cbn [s_arr s_off s_len].
    - exact E5.
    - rewrite Z2. reflexivity.
    - rewrite repeat_length. lia.
    - exact HD5.
    - lia. }
  cbn [s_arr]. intros M6 _ [E6 S6].
  assert (Ko : keeps M3 M6).
  { intros b c Hb. assert (b <> s_arr out) by (intros ->; rewrite S3 in Hb by auto; congruence). rewrite S6, S5, S4 by auto. exact Hb. }
  assert (KK : keeps M M6). { eapply keeps_trans; [exact K1|]. eapply keeps_trans; [exact K2|]. eapply keeps_trans; [exact K3|exact Ko]. }
  eapply ok_bind0; [eapply ok_content; eapply has_keeps; [exact KK|exact H]|]. intros M' ds [-> ->].
  eapply ok_bind0.
  { apply (ok_hset M6 out _ _ ([0; cmd; Z.of_nat (s_len s)] ++ e) 0 []); [rewrite <- app_assoc; exact E6| |lia].
    rewrite app_length. cbn [length]. lia. }
  intros M7 _ [E7 S7]. constructor. split.
  - eapply keeps_trans; [exact KK|]. eapply same_keeps; eauto.
  - split; [lia|]. exists [], []. rewrite E7, !app_nil_r. splits.
    + f_equal. f_equal. unfold wire, cksum_byte. rewrite checksum_spec, <- escapeData_doubled, L, <- app_assoc. reflexivity.
    + auto.
    + unfold wire. rewrite <- escapeData_doubled, !app_length. fold e. cbn [length]. lia.
    + lia.
    + simpl. lia.
Qed.

(** ** sending *)
Definition knows_constants (M : know) : Prop :=
  M 0%nat = Some (false, [7; 240]) /\ M 1%nat = Some (false, [7; 15]) /\ M 2%nat = Some (false, [7; 243]).
Lemma knows_has M : knows_constants M -> has M hpktStart false [7; 240] /\ has M hpktEnd false [7; 15] /\ has M hpktAck false [7; 243].
Proof.
  intros (A & B & C). splits; exists [], []; cbn [hpktStart hpktEnd hpktAck s_arr s_off s_len s_cap length app]; splits; auto; lia.
Qed.
Lemma keeps_constants M M' : keeps M M' -> knows_constants M -> knows_constants M'.
Proof. intros K (A & B & C). unfold knows_constants. auto. Qed.

Lemma wire_len cmd bs : (4 <= length (wire cmd bs))%nat.
Proof. unfold wire. rewrite !app_length. cbn [length]. lia. Qed.

Lemma ok_hWritePacket M s cmd bs : knows_constants M -> has M s false bs ->
  ok (fun M' _ => keeps M M') M (hWritePacket cmd s) (if Nat.leb (length bs) 255 then [framed cmd bs] else []).
Proof.
  intros KC H. unfold hWritePacket. eapply ok_bind0; [apply ok_hMarshal; eauto|]. intros M1 [pb|] [K1 P].
  - destruct P as [L P]. apply Nat.leb_le in L. rewrite L. unfold happends.
    destruct (knows_has M1 (keeps_constants _ _ K1 KC)) as (A & B & _).
    eapply ok_bind0.
    { eapply ok_bind0; [eapply ok_content; eauto|]. intros M' r [-> ->]. eapply (ok_happend M1 hpktStart false); eauto.
      right. cbn [hpktStart s_cap s_len]. pose proof (wire_len cmd bs). lia. }
    intros M2 wr [W2 K2]. pose proof (has_keeps _ _ _ _ K2 B) as B2.
    eapply ok_bind0.
    { eapply ok_bind0; [eapply ok_content; eauto|]. intros M' r [-> ->]. eapply (ok_happend M2 wr true); eauto. }
    intros M3 wr3 [W3 K3]. eapply ok_bind0; [eapply ok_content; eauto|]. intros M' r [-> ->].
    unfold framed. rewrite <- app_assoc. constructor. constructor. eapply keeps_trans; [exact K1|]. eapply keeps_trans; eauto.
  - replace (Nat.leb (length bs) 255) with false by (symmetry; apply Nat.leb_gt; auto). constructor. exact K1.
Qed.
Lemma ok_hWriteAck M : knows_constants M -> ok (fun M' _ => keeps M M') M hWriteAck [[7; 243]].
Proof.
  intros K. unfold hWriteAck. destruct (knows_has M K) as (_ & _ & C). eapply ok_bind0; [eapply ok_content; eauto|].
  intros M' r [-> ->]. constructor. constructor. apply keeps_refl.
Qed.

(** What everybody knows about the initial heap. *)
Definition given (h : list (list Z)) : know := fun a => match nth_error h a with Some c => Some (false, c) | None => None end.
Lemma given_agree h : agree (given h) h.
Proof. intros a m c H. unfold given in H. destruct (nth_error h a); congruence. Qed.
Lemma given_own h a c : given h a <> Some (true, c).
Proof. unfold given. destruct (nth_error h a); congruence. Qed.
Lemma skip_skip {A} (l : list A) a b : skipn a (skipn b l) = skipn (a + b) l.
Proof. revert a l. induction b as [|b IH]; intros a l; [rewrite Nat.add_0_r; reflexivity|]. rewrite Nat.add_succ_r. destruct l; [rewrite !skipn_nil; reflexivity|]. apply IH. Qed.
Lemma given_slice h s bs : slice_of h s bs -> has (given h) s false bs.
Proof.
  intros (c & E & L1 & L2 & ->). exists (firstn (s_off s) c), (skipn (s_off s + s_len s) c). unfold given. rewrite E.
  rewrite (Nat.add_comm (s_off s)), <- skip_skip, !firstn_skipn, !firstn_length, !skipn_length. splits; auto; lia.
Qed.
Lemma given_constants h : constants h -> knows_constants (given h).
Proof.
  unfold constants. intros C. destruct h as [|a [|b [|c h]]]; try discriminate. injection C as -> -> ->. unfold knows_constants. splits; reflexivity.
Qed.

Lemma ok_send h M x o : sent h x o -> keeps (given h) M -> constants h -> ok (fun M' _ => keeps (given h) M') M (send x) o.
Proof.
  intros S K C. pose proof (keeps_constants _ _ K (given_constants h C)) as KC. destruct S as [cmd s bs S L|cmd s bs S L|]; cbn [send].
  - pose proof (has_keeps _ _ _ _ K (given_slice h s bs S)) as H. pose proof (ok_hWritePacket M s cmd bs KC H) as R.
    apply Nat.leb_le in L. rewrite L in R. eapply ok_weaken; [exact R|]. intros M' u K'. cbv beta in K'. eapply keeps_trans; eauto.
  - pose proof (has_keeps _ _ _ _ K (given_slice h s bs S)) as H. pose proof (ok_hWritePacket M s cmd bs KC H) as R.
    apply Nat.leb_gt in L. rewrite L in R. eapply ok_weaken; [exact R|]. intros M' u K'. cbv beta in K'. eapply keeps_trans; eauto.
  - eapply ok_weaken; [apply ok_hWriteAck; auto|]. intros M' u K'. cbv beta in K'. eapply keeps_trans; eauto.
Qed.
Lemma ok_sends h xs os : sent_all h xs os -> constants h -> forall M, keeps (given h) M ->
  ok (fun _ _ => True) M (sends_all xs) os.
Proof.
  intros S C. induction S as [|x xs o os S1 S IH]; intros M K; cbn [sends_all].
  - constructor. exact I.
  - eapply ok_bind; [eapply ok_send; eauto|]. intros M' u K'. cbv beta in K'. auto.
Qed.

Lemma Forall2_nth {A B} (R : A -> B -> Prop) l m i x y : Forall2 R l m -> nth_error l i = Some x -> nth_error m i = Some y -> R x y.
Proof. intros F. revert i. induction F; intros [|i] H1 H2; simpl in *; try discriminate; [congruence|eauto]. Qed.
Lemma Forall2_len {A B} (R : A -> B -> Prop) l m : Forall2 R l m -> length l = length m.
Proof. induction 1; simpl; congruence. Qed.

Lemma spawn_ok h xss ex : constants h -> Forall2 (sent_all h) xss ex -> all_ok h ex (hspawn h xss).
Proof.
  intros C F. pose proof (Forall2_len _ _ _ F) as L. exists (map (fun _ => given h) xss). unfold hspawn. cbn [h_ths h_heap].
  rewrite !map_length. splits; auto.
  - apply firstn_all.
  - intros i M t e HM Ht He. rewrite nth_error_map in HM, Ht. destruct (nth_error xss i) as [xs|] eqn:X; [|discriminate].
    injection HM as <-. injection Ht as <-. cbn [h_p h_out app]. splits.
    + apply given_agree.
    + intros a c H. destruct (given_own _ _ _ H).
    + exists e. split; auto. eapply ok_sends; eauto using keeps_refl. eapply Forall2_nth; eauto.
  - intros i j Mi Mj a c N Hi. rewrite nth_error_map in Hi. destruct (nth_error xss i); [|discriminate]. injection Hi as <-.
    intros _ H. destruct (given_own _ _ _ H).
Qed.

Lemma frames_concurrent h xss ex s m : constants h -> Forall2 (sent_all h) xss ex -> hexec s (hspawn h xss) = Some m ->
  preserved h (h_heap m) /\
  forall i t, nth_error (h_ths m) i = Some t ->
    (exists e rest, nth_error ex i = Some e /\ e = h_out t ++ rest /\ (finished t -> rest = [])) /\
    (finished t \/ exists n, forall c, (n <= c)%nat -> hstep (i, c) m <> None).
Proof.
  intros C F E. pose proof (all_ok_exec h ex s _ m (spawn_ok h xss ex C F) E) as (Ms & L1 & L2 & P & H & _). split; [exact P|].
  intros i t T. assert (Li : (i < length (h_ths m))%nat) by (apply nth_error_Some; congruence).
  destruct (nth_error Ms i) as [M|] eqn:EM; [|apply nth_error_None in EM; lia].
  destruct (nth_error ex i) as [e|] eqn:EE; [|apply nth_error_None in EE; lia].
  destruct (H i M t e EM T EE) as (G & _ & os & K & X). split.
  - exists e, os. splits; auto. intros [a A]. rewrite A in K. inversion K. reflexivity.
  - unfold hstep, finished. rewrite T. destruct (h_p t) as [a| |bs k|n k|a j k|a j v k|bs k]; inversion K; subst.
    + left. eauto.
    + right. exists 0%nat. discriminate.
    + right. exists n. intros c Hc. apply Nat.leb_le in Hc. rewrite Hc. discriminate.
    + right. exists 0%nat. intros c' _. match goal with X : M a = Some _ |- _ => rewrite (G _ _ _ X) end.
      match goal with X : nth_error _ j = Some _ |- _ => rewrite X end. discriminate.
    + right. exists 0%nat. intros c' _. match goal with X : M a = Some _ |- _ => rewrite (G _ _ _ X) end.
      match goal with X : (j < _)%nat |- _ => apply Nat.ltb_lt in X; rewrite X end. discriminate.
    + right. exists 0%nat. discriminate.
Qed.

(** ** single functions *)
Lemma unescape_cons2 v2 rest : unescapeData (7 :: v2 :: rest) = if v2 =? 7 then 7 :: unescapeData rest else unescapeData (v2 :: rest).
Proof. reflexivity. Qed.
Lemma ok_hunescape s bs : forall n rest done M out acc, (length rest <= n)%nat -> bs = done ++ rest -> has M s false bs -> has M out true acc ->
  ok (fun M' out' => has M' out' true (acc ++ unescapeData rest) /\ keeps M M') M (hunescape s (length done) (length rest) out) [].
Proof.
  induction n as [|n IH]; intros rest done M out acc Ln B H O.
  { destruct rest; [|simpl in Ln; lia]. cbn [hunescape length unescapeData]. constructor. rewrite app_nil_r. auto using keeps_refl. }
  destruct rest as [|v rest]; cbn [hunescape length].
  { cbn [unescapeData]. constructor. rewrite app_nil_r. auto using keeps_refl. }
  pose proof H as (pre & post & E & L1 & L2 & L3 & L4).
  assert (At : forall d x r, bs = d ++ x :: r -> nth_error (pre ++ bs ++ post) (s_off s + length d) = Some x).
  { intros d x r ->. rewrite <- L1, <- app_assoc, nth_error_app2 by lia.
    replace (length pre + length d - length pre)%nat with (length d + 0)%nat by lia. rewrite nth_error_app2 by lia.
    replace (length d + 0 - length d)%nat with 0%nat by lia. reflexivity. }
  assert (S1 : S (length done) = length (done ++ [v])) by (rewrite app_length; simpl; lia).
  econstructor; eauto. destruct (v =? 7) eqn:V.
  - apply Z.eqb_eq in V. subst v. destruct rest as [|v2 rest].
    + cbn [length]. rewrite S1. eapply ok_weaken; [apply (IH [] (done ++ [7]) M out acc); auto; [simpl; lia|rewrite <- app_assoc; exact B]|].
      intros M' o. cbn [unescapeData Z.eqb Pos.eqb]. auto.
    + cbn [length]. econstructor; [exact E| |].
      { rewrite S1. eapply At. rewrite <- app_assoc. exact B. }
      rewrite unescape_cons2. destruct (v2 =? 7) eqn:V2.
      * apply Z.eqb_eq in V2. subst v2. eapply ok_bind0; [eapply (ok_happend M out true); eauto|]. intros M1 o1 [O1 K1].
        replace (S (S (length done))) with (length (done ++ [7; 7])) by (rewrite app_length; simpl; lia).
        eapply ok_weaken; [apply (IH rest (done ++ [7; 7]) M1 o1 (acc ++ [7])); auto|].
        -- simpl in Ln. lia.
        -- rewrite <- app_assoc. exact B.
        -- eapply has_keeps; eauto.
        -- intros M2 o2 [O2 K2]. rewrite <- app_assoc in O2. split; [exact O2|eapply keeps_trans; eauto].
      * rewrite S1. apply (IH (v2 :: rest) (done ++ [7]) M out acc); auto; [simpl in *; lia|rewrite <- app_assoc; exact B].
  - eapply ok_bind0; [eapply (ok_happend M out true); eauto|]. intros M1 o1 [O1 K1]. rewrite S1.
    eapply ok_weaken; [apply (IH rest (done ++ [v]) M1 o1 (acc ++ [v])); auto|].
    + simpl in Ln. lia.
    + rewrite <- app_assoc. exact B.
    + eapply has_keeps; eauto.
    + intros M2 o2 [O2 K2]. rewrite <- app_assoc in O2. cbn [unescapeData]. rewrite V. split; [exact O2|eapply keeps_trans; eauto].
Qed.
Lemma ok_hunescapeData M s bs : has M s false bs ->
  ok (fun M' out => has M' out true (unescapeData bs) /\ keeps M M') M (hunescapeData s) [].
Proof.
  intros H. unfold hunescapeData. eapply ok_bind0; [apply ok_hmake|]. intros M1 o (O & K & _). cbv beta.
  pose proof H as (pre & post & _ & _ & L & _). rewrite <- L.
  eapply ok_weaken; [apply (ok_hunescape s bs (length bs) bs [] M1 o []); eauto using has_keeps|].
  intros M2 o2 [O2 K2]. split; auto. eapply keeps_trans; eauto.
Qed.
Lemma ok_hleftPad32 M s bs : has M s false bs -> (length bs <= 4)%nat ->
  ok (fun M' out => has M' out true (repeat 0 (4 - length bs) ++ bs) /\ keeps M M') M (hleftPad32 s) [].
Proof.
  intros H B. pose proof H as (pre & post & _ & _ & L & _). unfold hleftPad32.
  replace (Nat.ltb 4 (s_len s)) with false by (symmetry; apply Nat.ltb_ge; lia).
  eapply ok_bind0; [apply ok_hmake|]. intros M1 o (O & K & _). unfold happends.
  eapply ok_bind0; [eapply ok_content; eapply has_keeps; eauto|]. intros M' r [-> ->]. rewrite <- L in O.
  eapply ok_weaken; [eapply (ok_happend M1 o true); eauto|]. intros M2 o2 [O2 K2]. split; auto. eapply keeps_trans; eauto.
Qed.

(** A function that returns a new slice, seen from outside. *)
Lemma ok_new {A} (p : hp A) h g bs (pick : A -> slc) : 
  ok (fun M' a => has M' (pick a) true bs /\ keeps (given h) M') (given h) p [] ->
  exists a h', hrun g p h = Some (a, h', []) /\ preserved h h' /\ slice_of h' (pick a) bs /\ (length h <= s_arr (pick a))%nat.
Proof.
  intros K. destruct (ok_sound _ _ _ _ g K h (given_agree h)) as (a & h' & M' & R & (H & _) & G & L & F & O). exists a, h'. splits; auto.
  - apply preserved_nth. intros b Hb. apply F; auto. intros c. apply given_own.
  - destruct H as (pre & post & E & L1 & L2 & L3 & L4). exists (pre ++ bs ++ post). splits; auto.
    + eauto.
    + rewrite !app_length. lia.
    + rewrite <- L1, <- L2, skipn_app, skipn_all, Nat.sub_diag. cbn [skipn app]. rewrite firstn_app, firstn_all, Nat.sub_diag. cbn [firstn].
      rewrite app_nil_r. reflexivity.
  - destruct H as (pre & post & E & _). destruct (O _ _ E) as [X|[c X]]; auto. destruct (given_own _ _ _ X).
Qed.
Lemma new_slices h g s bs : slice_of h s bs ->
  (exists o h', hrun g (hescapeData s) h = Some (o, h', []) /\ preserved h h' /\ slice_of h' o (escapeData bs) /\ (length h <= s_arr o)%nat) /\
  (exists o h', hrun g (hunescapeData s) h = Some (o, h', []) /\ preserved h h' /\ slice_of h' o (unescapeData bs) /\ (length h <= s_arr o)%nat) /\
  ((length bs <= 4)%nat -> exists o h', hrun g (hleftPad32 s) h = Some (o, h', []) /\ preserved h h' /\
     slice_of h' o (repeat 0 (4 - length bs) ++ bs) /\ (length h <= s_arr o)%nat).
Proof.
  intros H. apply given_slice in H. splits.
  - apply (ok_new _ h g _ (fun x => x)). apply ok_hescapeData. exact H.
  - apply (ok_new _ h g _ (fun x => x)). apply ok_hunescapeData. exact H.
  - intros L. apply (ok_new _ h g _ (fun x => x)). apply ok_hleftPad32; auto.
Qed.
Lemma new_packet h g s cmd bs : slice_of h s bs ->
  ((length bs <= 255)%nat -> exists o h', hrun g (hMarshalPacket cmd s) h = Some (Some o, h', []) /\ preserved h h' /\
     MarshalPacket (mkPacket cmd bs true) = Done (wire cmd bs, None) /\ slice_of h' o (wire cmd bs) /\ (length h <= s_arr o)%nat) /\
  ((255 < length bs)%nat -> hrun g (hMarshalPacket cmd s) h = Some (None, h, [])).
Proof.
  intros H. pose proof H as H'. apply given_slice in H'. split; intros L.
  - assert (K : ok (fun M' a => has M' (match a with Some o => o | None => hpktStart end) true (wire cmd bs) /\ keeps (given h) M')
      (given h) (hMarshalPacket cmd s) []).
    { eapply ok_weaken; [apply ok_hMarshal; eauto|]. intros M' [o|] [K X]; [|lia]. destruct X. auto. }
    destruct (ok_new _ h g (wire cmd bs) (fun a => match a with Some o => o | None => hpktStart end) K) as (a & h' & R & P & S & N).
    destruct a as [o|].
    + exists o, h'. splits; auto. rewrite marshal_wire. cbn [p_data p_cmd]. replace (Z.of_nat (length bs) >? 255) with false by lia. reflexivity.
    + exfalso. destruct (ok_sound _ _ _ _ g (ok_hMarshal (given h) s cmd bs H') h (given_agree h)) as (a' & h2 & M' & R' & (_ & X) & _).
      rewrite R in R'. injection R' as <- _. lia.
  - unfold hMarshalPacket. assert (length bs = s_len s) by (destruct H' as (p & q & _ & _ & X & _); auto).
    replace (Z.of_nat (s_len s) >? 255) with true by lia. reflexivity.
Qed.
