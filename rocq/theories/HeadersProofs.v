(** Proofs for PropertiesHeaders.v. *)
From Coq Require Import String Permutation.
From Coq Require Import Sorted.
From Verif Require Import ProofBase GoStrings Twirp TwirpProofs JsonError SpecJsonOrder JsonOrderProofs Headers SpecHeaders SamplesHeaders.

Lemma beq_refl k : beq k k = true.
Proof. apply beq_eq. reflexivity. Qed.
Lemma upd_same {A} (f : nat -> A) i x : upd f i x i = x.
Proof. unfold upd. rewrite Nat.eqb_refl. reflexivity. Qed.
Lemma upd_other {A} (f : nat -> A) i j x : j <> i -> upd f i x j = f j.
Proof. intros N. unfold upd. apply Nat.eqb_neq in N. rewrite N. reflexivity. Qed.
Lemma entry_without k k' m : entry k' (without k m) = if beq k k' then None else entry k' m.
Proof.
  induction m as [|[n s] m IH]; cbn [without filter entry fst]; [destruct (beq k k'); reflexivity|]. fold (without k m).
  destruct (beq k n) eqn:E; cbn [negb entry].
  - apply beq_eq in E. subst n. rewrite IH. destruct (beq k k') eqn:E; [reflexivity|]. destruct (beq k' k) eqn:E'; [|reflexivity]. apply beq_eq in E'. subst. rewrite beq_refl in E. discriminate.
  - destruct (beq k' n) eqn:E'; [|exact IH]. apply beq_eq in E'. subst n. rewrite E. reflexivity.
Qed.
Lemma entry_put k s k' m : entry k' ((k, s) :: without k m) = if beq k' k then Some s else entry k' m.
Proof.
  cbn [entry]. destruct (beq k' k) eqn:E; [reflexivity|]. rewrite entry_without. destruct (beq k k') eqn:E'; [|reflexivity]. apply beq_eq in E'. subst. rewrite beq_refl in E. discriminate.
Qed.
Lemma without_in k x m : In x (map fst (without k m)) -> In x (map fst m) /\ x <> k.
Proof.
  intros I. apply in_map_iff in I as (p & <- & I). apply filter_In in I as [I N]. split; [apply in_map; exact I|]. intros E. cbv beta in N. rewrite E, beq_refl in N. discriminate.
Qed.
Lemma without_nodup k m : NoDup (map fst m) -> NoDup (map fst (without k m)).
Proof.
  induction m as [|[n s] m IH]; intros N; [constructor|]. cbn [map fst] in N. inversion N as [|? ? Nn Nm]; subst. cbn [without filter fst]. fold (without k m). destruct (negb _); [|auto].
  cbn [map fst]. constructor; auto. intros I. apply without_in in I. tauto.
Qed.
Lemma put_nodup k (s : slice) m : NoDup (map fst m) -> NoDup (map fst ((k, s) :: without k m)).
Proof. intros N. cbn [map fst]. constructor; [intros I; apply without_in in I; tauto|apply without_nodup; exact N]. Qed.
Lemma entry_in k s m : entry k m = Some s -> In (k, s) m.
Proof. induction m as [|[n t] m IH]; cbn [entry]; [discriminate|]. destruct (beq k n) eqn:E; [apply beq_eq in E; intros H; injection H as ->; subst; left; reflexivity|right; auto]. Qed.
Lemma in_entry k s m : NoDup (map fst m) -> In (k, s) m -> entry k m = Some s.
Proof.
  induction m as [|[n t] m IH]; intros N []; cbn [entry].
  - injection H as -> ->. rewrite beq_refl. reflexivity.
  - inversion N as [|? ? Nn Nm]; subst. destruct (beq k n) eqn:E; [|auto]. apply beq_eq in E. subst n. exfalso. apply Nn. apply in_map_iff. exists (k, s). auto.
Qed.

(** ** Copying *)
(** A slice in an array that was made since [h]. *)
Definition since (h h' : heap) (s : slice) : Prop :=
  forall a n, s = Some (a, n) -> (h_array h <= a < h_array h')%nat /\ (n <= List.length (h_arrays h' a))%nat.
Definition keeps (m : nat) (h h' : heap) : Prop :=
  h_map h' = h_map h /\ (h_array h <= h_array h')%nat /\ (forall a, (a < h_array h)%nat -> h_arrays h' a = h_arrays h a) /\
  (forall x, x <> m -> h_maps h' x = h_maps h x) /\ (NoDup (map fst (h_maps h m)) -> NoDup (map fst (h_maps h' m))).
Lemma keeps_refl m h : keeps m h h.
Proof. unfold keeps. splits; auto. Qed.
Lemma keeps_trans m h1 h2 h3 : keeps m h1 h2 -> keeps m h2 h3 -> keeps m h1 h3.
Proof.
  intros (A1 & B1 & C1 & D1 & E1) (A2 & B2 & C2 & D2 & E2). unfold keeps. splits; auto; try lia.
  - intros a L. rewrite C2 by lia. apply C1. exact L.
  - intros x N. rewrite D2 by exact N. apply D1. exact N.
Qed.
Lemma assign_keeps m h k s : keeps m h (assign h m k s).
Proof. unfold keeps, assign. cbn. splits; auto; try lia. - intros x N. apply upd_other. exact N. - intros N. rewrite upd_same. apply put_nodup. exact N. Qed.
Lemma array_keeps m h l : keeps m h (fst (new_array h l)).
Proof. unfold keeps, new_array. cbn. splits; auto; try lia. intros a L. apply upd_other. lia. Qed.
Lemma since_later m h h1 h2 s : keeps m h1 h2 -> since h h1 s -> since h h2 s.
Proof. intros (_ & B & C & _) S a n E. destruct (S a n E) as [[L1 L2] L3]. split; [lia|]. rewrite C by lia. exact L3. Qed.
Lemma since_before h0 h h' s : (h_array h0 <= h_array h)%nat -> since h h' s -> since h0 h' s.
Proof. intros L S a n E. destruct (S a n E) as [[L1 L2] L3]. split; [lia|exact L3]. Qed.
Lemma elements_kept m h h' s : keeps m h h' -> (forall a n, s = Some (a, n) -> (a < h_array h)%nat) -> elements h' s = elements h s.
Proof. intros (_ & _ & C & _) B. destruct s as [[a n]|]; [|reflexivity]. cbn [elements]. rewrite C; [reflexivity|]. eapply B. reflexivity. Qed.
Lemma since_below h h' s : since h h' s -> forall a n, s = Some (a, n) -> (a < h_array h')%nat.
Proof. intros S a n E. apply (S a n E). Qed.
Lemma copy_spec m es : NoDup (map fst es) -> forall h, (forall k a n, In (k, Some (a, n)) es -> (a < h_array h)%nat /\ (n <= List.length (h_arrays h a))%nat) ->
  let h' := copyEntries h m es in
  keeps m h h' /\
  forall k, match entry k es with
            | Some s => exists s', entry k (h_maps h' m) = Some s' /\ elements h' s' = elements h s /\ since h h' s'
            | None => entry k (h_maps h' m) = entry k (h_maps h m)
            end.
Proof.
  cbv zeta. induction es as [|[k0 s0] es IH]; intros N h B; [split; [apply keeps_refl|reflexivity]|]. cbn [map fst] in N. inversion N as [|? ? Nk Ne]; subst.
  assert (Z : entry k0 es = None) by (destruct (entry k0 es) eqn:E; auto; apply entry_in in E; exfalso; apply Nk; apply in_map_iff; eexists; split; [|exact E]; reflexivity).
  set (h1 := match s0 with None => assign h m k0 None | Some (a, n) => assign (fst (new_array h (firstn n (h_arrays h a)))) m k0 (Some (h_array h, n)) end).
  assert (R : copyEntries h m ((k0, s0) :: es) = copyEntries h1 m es) by (unfold h1; destruct s0 as [[a n]|]; reflexivity). rewrite R.
  assert (K1 : keeps m h h1) by (unfold h1; destruct s0 as [[a n]|]; [eapply keeps_trans; [apply array_keeps|apply assign_keeps]|apply assign_keeps]).
  assert (E1 : exists s', (forall k, entry k (h_maps h1 m) = if beq k k0 then Some s' else entry k (h_maps h m)) /\ elements h1 s' = elements h s0 /\ since h h1 s').
  { unfold h1. destruct s0 as [[a n]|].
    - exists (Some (h_array h, n)). destruct (B k0 a n (or_introl eq_refl)) as [La Ln]. split; [|split].
      + intros k. unfold assign. cbn [h_maps]. rewrite upd_same, entry_put. reflexivity.
      + cbn. rewrite upd_same, firstn_firstn, Nat.min_id. reflexivity.
      + intros b j E. injection E as <- <-. cbn. rewrite upd_same, firstn_length. lia.
    - exists None. split; [intros k; unfold assign; cbn [h_maps]; rewrite upd_same, entry_put; reflexivity|]. split; [reflexivity|]. intros a n E. discriminate. }
  destruct E1 as (s' & E1 & El & Si). destruct (IH Ne h1) as [K2 S2].
  { intros k a n I. destruct (B k a n (or_intror I)) as [La Ln]. destruct K1 as (_ & L & C & _). rewrite C by exact La. split; [lia|exact Ln]. }
  split; [eapply keeps_trans; eauto|]. intros k. specialize (S2 k). cbn [entry]. destruct (beq k k0) eqn:Ek.
  - apply beq_eq in Ek. subst k. rewrite Z in S2. exists s'. rewrite S2, E1, beq_refl. split; [reflexivity|]. split; [|eapply since_later; eauto].
    rewrite (elements_kept m h1) by (auto; eapply since_below; eauto). exact El.
  - destruct (entry k es) as [s|] eqn:Ee.
    + destruct S2 as (t & T1 & T2 & T3). exists t. split; [exact T1|]. split; [|eapply since_before; [|exact T3]; apply K1]. rewrite T2. apply (elements_kept m); [exact K1|].
      intros a n ->. apply entry_in in Ee. apply (B k a n (or_intror Ee)).
    + rewrite S2, E1, Ek. reflexivity.
Qed.
Lemma set_spec h m k v : keeps m h (set_header h m k v) /\ values (set_header h m k v) m k = Some [v] /\
  entry k (h_maps (set_header h m k v) m) = Some (Some (h_array h, 1%nat)) /\ since h (set_header h m k v) (Some (h_array h, 1%nat)) /\
  forall k', k' <> k -> entry k' (h_maps (set_header h m k v) m) = entry k' (h_maps h m).
Proof.
  assert (E : forall k', entry k' (h_maps (set_header h m k v) m) = if beq k' k then Some (Some (h_array h, 1%nat)) else entry k' (h_maps h m)).
  { intros k'. unfold set_header, new_array, assign. cbn [h_maps]. rewrite upd_same, entry_put. reflexivity. }
  split; [exact (keeps_trans m _ _ _ (array_keeps m h [v]) (assign_keeps m _ k _))|]. split; [|split; [|split]].
  - unfold values. rewrite E, beq_refl. cbn. rewrite upd_same. reflexivity.
  - rewrite E, beq_refl. reflexivity.
  - intros a n Q. injection Q as <- <-. cbn. rewrite upd_same. cbn. lia.
  - intros k' N. rewrite E. destruct (beq k' k) eqn:Q; [apply beq_eq in Q; contradiction|reflexivity].
Qed.
(** ** The request *)
Lemma copied_header h custom : custom_ok h custom ->
  let h0 := fst (new_map h) in let m := h_map h in
  let h1 := match custom with None => h0 | Some c => copyEntries h0 m (h_maps h0 c) end in
  keeps m h0 h1 /\ NoDup (map fst (h_maps h1 m)) /\ forall k, match given h custom k with
    | Some l => exists s, entry k (h_maps h1 m) = Some s /\ elements h1 s = l /\ since h h1 s
    | None => entry k (h_maps h1 m) = None end.
Proof.
  intros P. cbv zeta. assert (Em : h_maps (fst (new_map h)) (h_map h) = []) by (cbn; apply upd_same). destruct custom as [c|]; cbn [custom_ok given] in *.
  - destruct P as (Lc & Nc & Bc). assert (Ec : h_maps (fst (new_map h)) c = h_maps h c) by (cbn; apply upd_other; lia). rewrite Ec.
    destruct (copy_spec (h_map h) (h_maps h c) Nc (fst (new_map h))) as [K S].
    { intros k a n I. apply in_entry in I; [|exact Nc]. destruct (Bc k a n I) as [A B]. cbn. auto. }
    split; [exact K|]. split; [apply K; rewrite Em; constructor|]. intros k. specialize (S k). unfold values. destruct (entry k (h_maps h c)) as [s|] eqn:E; cbn [option_map].
    + destruct S as (s' & S1 & S2 & S3). exists s'. auto.
    + rewrite S, Em. reflexivity.
  - split; [apply keeps_refl|]. rewrite Em. split; [constructor|reflexivity].
Qed.
Lemma request_header h custom ct : custom_ok h custom -> let h' := fst (requestHeader h custom ct) in let m := snd (requestHeader h custom ct) in
  m = h_map h /\ (forall k, values h' m k = match own_header ct k with Some v => Some [v] | None => given h custom k end) /\
  keeps m (fst (new_map h)) h' /\ NoDup (map fst (h_maps h' m)) /\ forall k s, entry k (h_maps h' m) = Some s -> since h h' s.
Proof.
  intros P. cbv zeta. destruct (copied_header h custom P) as (K1 & N1 & S1). unfold requestHeader. cbn [new_map fst snd] in *.
  set (m := h_map h) in *. set (h1 := match custom with None => _ | Some c => _ end) in *. clearbody h1.
  destruct (set_spec h1 m (str "Accept") ct) as (K2 & V2 & E2 & F2 & O2). set (h2 := set_header h1 m (str "Accept") ct) in *.
  destruct (set_spec h2 m (str "Content-Type") ct) as (K3 & V3 & E3 & F3 & O3). set (h3 := set_header h2 m (str "Content-Type") ct) in *.
  destruct (set_spec h3 m (str "Twirp-Version") (str "v8.1.3")) as (K4 & V4 & E4 & F4 & O4). set (h4 := set_header h3 m (str "Twirp-Version") (str "v8.1.3")) in *.
  assert (L1 : (h_array h <= h_array h1)%nat) by apply K1. assert (L2 : (h_array h1 <= h_array h2)%nat) by apply K2. assert (L3 : (h_array h2 <= h_array h3)%nat) by apply K3.
  split; [reflexivity|]. 
  assert (A : forall k, exists s, match own_header ct k with Some v => entry k (h_maps h4 m) = Some s /\ elements h4 s = [v] /\ since h h4 s
     | None => match given h custom k with Some l => entry k (h_maps h4 m) = Some s /\ elements h4 s = l /\ since h h4 s | None => entry k (h_maps h4 m) = None end end).
  { intros k. unfold own_header. destruct (beq k (str "Accept")) eqn:B1.
    - apply beq_eq in B1. subst k. eexists. rewrite O4, O3 by discriminate. split; [exact E2|]. split.
      + rewrite (elements_kept m h3 h4 _ K4), (elements_kept m h2 h3 _ K3); [|exact (since_below _ _ _ F2)|exact (since_below _ _ _ (since_later m _ _ _ _ K3 F2))].
        unfold values in V2. rewrite E2 in V2. cbn [option_map] in V2. congruence.
      + apply (since_later m _ h3); auto. apply (since_later m _ h2); auto. apply (since_before _ h1); auto.
    - destruct (beq k (str "Content-Type")) eqn:B2.
      + apply beq_eq in B2. subst k. eexists. rewrite O4 by discriminate. split; [exact E3|]. split.
        * rewrite (elements_kept m h3 h4 _ K4); [|exact (since_below _ _ _ F3)]. unfold values in V3. rewrite E3 in V3. cbn [option_map] in V3. congruence.
        * apply (since_later m _ h3); auto. apply (since_before _ h2); auto. lia.
      + destruct (beq k (str "Twirp-Version")) eqn:B3.
        * apply beq_eq in B3. subst k. eexists. split; [exact E4|]. split; [unfold values in V4; rewrite E4 in V4; cbn [option_map] in V4; congruence|]. apply (since_before _ h3); auto. lia.
        * assert (Q : forall x, beq k x = false -> k <> x) by (intros x H ->; rewrite beq_refl in H; discriminate).
          rewrite O4, O3, O2 by auto. specialize (S1 k). destruct (given h custom k) as [l|]; [|exists None; exact S1]. destruct S1 as (s & S1 & S2 & S3). exists s. split; [exact S1|].
          assert (S4 : since h h2 s) by (apply (since_later m _ h1); auto). assert (S5 : since h h3 s) by (apply (since_later m _ h2); auto). split; [|apply (since_later m _ h3); auto].
          rewrite (elements_kept m h3 h4 _ K4), (elements_kept m h2 h3 _ K3), (elements_kept m h1 h2 _ K2); auto; eapply since_below; eauto. }
  split; [|split; [|split]].
  - intros k. unfold values. destruct (A k) as (s & S). destruct (own_header ct k) as [v|]; [destruct S as (-> & S & _); cbn [option_map]; rewrite S; reflexivity|]. destruct (given h custom k) as [l|]; [destruct S as (-> & S & _); cbn [option_map]; rewrite S; reflexivity|rewrite S; reflexivity].
  - eapply keeps_trans; [|exact K4]. eapply keeps_trans; [|exact K3]. eapply keeps_trans; [exact K1|exact K2].
  - apply K4, K3, K2. exact N1.
  - intros k s E. destruct (A k) as (s' & S). assert (Q : entry k (h_maps h4 m) = Some s' -> since h h4 s' -> since h h4 s) by (intros Q1 Q2; rewrite E in Q1; injection Q1 as ->; exact Q2).
    destruct (own_header ct k) as [v|]; [apply Q; apply S|]. destruct (given h custom k) as [l|]; [apply Q; apply S|]. rewrite E in S. discriminate.
Qed.
(** ** Changes *)
Definition reach (h : heap) (m a : nat) : Prop := exists k n, entry k (h_maps h m) = Some (Some (a, n)).
Lemma replace_length i v l : List.length (replace i v l) = List.length l.
Proof. revert i. induction l as [|x l IH]; intros [|i]; cbn; auto. Qed.
(** What a change of [x] leaves alone. *)
Definition around (x : nat) (h h' : heap) : Prop :=
  (h_array h <= h_array h')%nat /\ (forall y, y <> x -> h_maps h' y = h_maps h y) /\
  (forall a, (a < h_array h)%nat -> ~ reach h x a -> h_arrays h' a = h_arrays h a) /\
  (forall a, reach h' x a -> reach h x a \/ (h_array h <= a)%nat).
Lemma put_reach x h k s a arrs ar mp : reach (mkHeap arrs (upd (h_maps h) x ((k, s) :: without k (h_maps h x))) ar mp) x a -> (exists n, s = Some (a, n)) \/ reach h x a.
Proof.
  intros (k' & n & E). cbn [h_maps] in E. rewrite upd_same, entry_put in E. destruct (beq k' k); [injection E as ->; left; eauto|right; exists k', n; exact E].
Qed.
Lemma change_around x h c : around x h (modify x h c).
Proof.
  assert (Set' : forall k v, around x h (set_header h x k v)).
  { intros k v. unfold around, set_header, new_array, assign. cbn [h_array h_maps h_arrays]. splits; try lia.
    - intros y N. apply upd_other. exact N.
    - intros a L _. apply upd_other. lia.
    - intros a R. apply (put_reach x h) in R. destruct R as [(n & E)|R]; [injection E as <- <-; right; lia|left; exact R]. }
  assert (Put : forall k s, (forall a n, s = Some (a, n) -> reach h x a) -> around x h (assign h x k s)).
  { intros k s B. unfold around, assign. cbn [h_array h_maps h_arrays]. splits; try lia; auto.
    - intros y N. apply upd_other. exact N.
    - intros a R. apply put_reach in R. destruct R as [(n & E)|R]; left; eauto. }
  destruct c as [k v|k v|k|k i v|k k'|k n]; cbn [modify].
  - apply Set'.
  - destruct (entry k (h_maps h x)) as [[[a n]|]|] eqn:E; try apply Set'. assert (Ra : reach h x a) by (exists k, n; exact E). destruct (Nat.ltb n _) eqn:L.
    + unfold around, assign, write. cbn [h_array h_maps h_arrays]. splits; try lia.
      * intros y N. apply upd_other. exact N.
      * intros b Lb Nb. apply upd_other. intros ->. auto.
      * intros b R. apply (put_reach x h) in R. destruct R as [(j & Q)|R]; [injection Q as <- <-; left; exact Ra|left; exact R].
    + unfold around, new_array, assign. cbn [h_array h_maps h_arrays]. splits; try lia.
      * intros y N. apply upd_other. exact N.
      * intros b Lb _. apply upd_other. lia.
      * intros b R. apply (put_reach x h) in R. destruct R as [(j & Q)|R]; [injection Q as <- <-; right; lia|left; exact R].
  - unfold around. cbn [h_array h_maps h_arrays]. splits; try lia; auto.
    + intros y N. apply upd_other. exact N.
    + intros a (k' & n & E). cbn [h_maps] in E. rewrite upd_same, entry_without in E. destruct (beq k k'); [discriminate|]. left. exists k', n. exact E.
  - assert (Id : around x h h) by (unfold around; splits; auto). destruct (entry k (h_maps h x)) as [[[a n]|]|] eqn:E; try exact Id. destruct (Nat.ltb i n); [|exact Id].
    unfold around, write. cbn [h_array h_maps h_arrays]. splits; try lia; auto. intros b Lb Nb. apply upd_other. intros ->. apply Nb. exists k, n. exact E.
  - destruct (entry k' (h_maps h x)) as [s|] eqn:E; apply Put; [intros a n ->; exists k', n; exact E|discriminate].
  - assert (Id : around x h h) by (unfold around; splits; auto). destruct (entry k (h_maps h x)) as [[[a l]|]|] eqn:E; try exact Id. destruct (Nat.leb n _); [|exact Id]. apply Put.
    intros b j Q. injection Q as <- <-. exists k, l. exact E.
Qed.
Lemma changes_apart x y cs : x <> y -> forall h, (forall a, reach h y a -> (a < h_array h)%nat /\ ~ reach h x a) ->
  forall k, values (fold_left (modify x) cs h) y k = values h y k.
Proof.
  intros N. induction cs as [|c cs IH]; intros h Sp k; [reflexivity|]. cbn [fold_left]. destruct (change_around x h c) as (L & M & A & R). assert (Ny : y <> x) by auto.
  rewrite IH.
  - unfold values. rewrite (M y Ny). destruct (entry k (h_maps h y)) as [[[a n]|]|] eqn:E; try reflexivity. cbn [option_map elements]. rewrite A; [reflexivity| |]; apply Sp; exists k, n; exact E.
  - intros a (k' & n & E). rewrite (M y Ny) in E. destruct (Sp a) as [S1 S2]; [exists k', n; exact E|]. split; [lia|]. intros Q. apply R in Q as [Q|Q]; [auto|lia].
Qed.
Lemma header_apart h custom ct x cs k : custom_ok h custom -> present h x ->
  let h' := fst (requestHeader h custom ct) in let m := snd (requestHeader h custom ct) in
  values (fold_left (modify m) cs h') x k = values h x k /\ values (fold_left (modify x) cs h') m k = values h' m k.
Proof.
  intros P (Lx & Nx & Bx). cbv zeta. destruct (request_header h custom ct P) as (Em & _ & K & _ & S). set (h' := fst (requestHeader h custom ct)) in *. set (m := snd (requestHeader h custom ct)) in *.
  assert (Ex : h_maps h' x = h_maps h x). { destruct K as (_ & _ & _ & D & _). rewrite D by lia. cbn. apply upd_other. lia. }
  assert (Rm : forall a, reach h' m a -> (h_array h <= a < h_array h')%nat) by (intros a (k' & n & E); apply (S k' _ E a n eq_refl)).
  assert (Rx : forall a, reach h' x a -> (a < h_array h)%nat) by (intros a (k' & n & E); rewrite Ex in E; apply (Bx k' a n E)).
  assert (Ax : forall a, (a < h_array h)%nat -> h_arrays h' a = h_arrays h a) by (destruct K as (_ & _ & C & _); exact C).
  assert (La : (h_array h <= h_array h')%nat) by (destruct K as (_ & C & _); exact C). split.
  - rewrite changes_apart; [|lia|intros a R; pose proof (Rx a R); split; [lia|intros Q; apply Rm in Q; lia]].
    unfold values. rewrite Ex. destruct (entry k (h_maps h x)) as [[[a n]|]|] eqn:E; try reflexivity. cbn [option_map elements]. rewrite Ax; [reflexivity|]. apply (Bx k a n E).
  - apply changes_apart; [lia|]. intros a R. pose proof (Rm a R). split; [lia|]. intros Q. apply Rx in Q. lia.
Qed.
(** ** At the server *)
Definition insert_entry := fix ins (p : text * slice) (l : header) : header := match l with [] => [p] | q :: r => if before (fst p) (fst q) then p :: l else q :: ins p r end.
Definition by_key (p q : text * slice) : Prop := earlier (fst p) (fst q).
Lemma insert_entry_perm p l : Permutation (p :: l) (insert_entry p l).
Proof.
  induction l as [|q r IH]; cbn [insert_entry]; [apply Permutation_refl|]. destruct (before (fst p) (fst q)); [apply Permutation_refl|].
  eapply Permutation_trans; [apply perm_swap|]. constructor. exact IH.
Qed.
Lemma sort_entries_perm l : Permutation l (fold_right insert_entry [] l).
Proof. induction l as [|p l IH]; cbn [fold_right]; [constructor|]. eapply Permutation_trans; [|apply insert_entry_perm]. constructor. exact IH. Qed.
Lemma insert_entry_sorted p l : StronglySorted by_key l -> ~ In (fst p) (map fst l) -> StronglySorted by_key (insert_entry p l).
Proof.
  induction l as [|q r IH]; intros S N; cbn [insert_entry]; [constructor; constructor|]. inversion S as [|? ? Sr Fr]; subst. cbn [map In] in N.
  assert (Nq : fst p <> fst q) by (intros E; apply N; auto). destruct (before (fst p) (fst q)) eqn:B.
  - apply before_earlier in B; auto. constructor; auto. constructor; [exact B|]. eapply Forall_impl; [|exact Fr]. intros x. unfold by_key. apply earlier_trans. exact B.
  - constructor; [apply IH; auto|]. eapply Permutation_Forall; [apply insert_entry_perm|]. constructor; auto. unfold by_key.
    destruct (earlier_total _ _ Nq) as [E|E]; auto. apply before_earlier in E; auto. congruence.
Qed.
Lemma sort_entries_sorted l : NoDup (map fst l) -> StronglySorted by_key (fold_right insert_entry [] l).
Proof.
  induction l as [|p l IH]; intros N; cbn [fold_right]; [constructor|]. inversion N; subst. apply insert_entry_sorted; [apply IH; auto|].
  intros I. apply (Permutation_in _ (Permutation_sym (Permutation_map fst (sort_entries_perm l)))) in I. auto.
Qed.
Lemma find_none_app {A} (f : A -> bool) l r : (forall x, In x l -> f x = false) -> find f (l ++ r) = find f r.
Proof. induction l as [|x l IH]; intros H; [reflexivity|]. cbn. rewrite (H x (or_introl eq_refl)). apply IH. intros y I. apply H. right. exact I. Qed.
Lemma sorted_before a p b : StronglySorted by_key (a ++ p :: b) -> forall x, In x a -> by_key x p.
Proof.
  induction a as [|y a IH]; intros S x []; cbn [app] in S; inversion S as [|? ? S1 F1]; subst; auto. rewrite Forall_forall in F1. apply F1. apply in_or_app. right. left. reflexivity.
Qed.
Lemma first_line h m k v r : NoDup (map fst (h_maps h m)) -> canonical k = k -> values h m k = Some (v :: r) ->
  (forall k', canonical k' = k -> earlier k' k -> values h m k' = None \/ values h m k' = Some []) -> received k (lines h m) = Some v.
Proof.
  intros N C V O. assert (El : lines h m = flat_map (fun x => map (pair (fst x)) (elements h (snd x))) (fold_right insert_entry [] (h_maps h m))) by reflexivity. rewrite El.
  pose proof (sort_entries_perm (h_maps h m)) as P. pose proof (sort_entries_sorted _ N) as S. set (es := fold_right insert_entry [] (h_maps h m)) in *. unfold values in V.
  destruct (entry k (h_maps h m)) as [s|] eqn:E; [|discriminate]. cbn [option_map] in V. assert (I : In (k, s) es) by (eapply Permutation_in; [exact P|apply entry_in; exact E]).
  apply in_split in I as (a & b & Es). rewrite Es, flat_map_app. unfold received. rewrite find_none_app.
  - cbn [flat_map fst snd]. injection V as V. rewrite V. cbn [map app find fst]. rewrite C, beq_refl. reflexivity.
  - intros x I. apply in_flat_map in I as ([k' s'] & I & J). cbn [fst snd] in J. apply in_map_iff in J as (w & <- & J). cbn [fst].
    destruct (beq (canonical k') (canonical k)) eqn:B; [|reflexivity]. apply beq_eq in B. rewrite C in B. rewrite Es in S. pose proof (sorted_before _ _ _ S _ I) as L. unfold by_key in L. cbn [fst] in L.
    assert (E' : entry k' (h_maps h m) = Some s').
    { apply in_entry; [exact N|]. eapply Permutation_in; [apply Permutation_sym; exact P|]. rewrite Es. apply in_or_app. left. exact I. }
    destruct (O k' B L) as [Q|Q]; unfold values in Q; rewrite E' in Q; [discriminate|]. cbn [option_map] in Q. injection Q as Q. rewrite Q in J. destruct J.
Qed.
Lemma own_received h custom ct k v r : custom_ok h custom -> canonical k = k ->
  match own_header ct k with Some x => Some [x] | None => given h custom k end = Some (v :: r) ->
  (forall k', canonical k' = k -> earlier k' k -> given h custom k' = None \/ given h custom k' = Some []) ->
  received k (lines (fst (requestHeader h custom ct)) (snd (requestHeader h custom ct))) = Some v.
Proof.
  intros P C G O. destruct (request_header h custom ct P) as (_ & V & _ & N & _). apply (first_line _ _ _ _ r); auto; [rewrite V; exact G|].
  intros k' C' L. rewrite V. destruct (own_header ct k') eqn:Ow; [|auto]. exfalso.
  assert (D : canonical k' = k').
  { unfold own_header in Ow. destruct (beq k' (str "Accept")) eqn:B1; [apply beq_eq in B1; subst k'; reflexivity|].
    destruct (beq k' (str "Content-Type")) eqn:B2; [apply beq_eq in B2; subst k'; reflexivity|].
    destruct (beq k' (str "Twirp-Version")) eqn:B3; [apply beq_eq in B3; subst k'; reflexivity|discriminate]. }
  rewrite D in C'. subst k'. apply earlier_irrefl in L. exact L.
Qed.
Lemma request_values h custom ct k : custom_ok h custom ->
  values (fst (requestHeader h custom ct)) (snd (requestHeader h custom ct)) k = match own_header ct k with Some v => Some [v] | None => given h custom k end.
Proof. intros P. apply (request_header h custom ct P). Qed.
Lemma present_b h m : Nat.ltb m (h_map h) = true -> NoDup (map fst (h_maps h m)) ->
  forallb (fun x => match snd x with None => true | Some (a, n) => Nat.ltb a (h_array h) && Nat.leb n (List.length (h_arrays h a)) end) (h_maps h m) = true -> present h m.
Proof.
  intros L N F. split; [apply Nat.ltb_lt; exact L|]. split; [exact N|]. intros k a n E. apply entry_in in E. rewrite forallb_forall in F. specialize (F _ E). cbn [snd] in F.
  apply andb_prop in F as [F1 F2]. apply Nat.ltb_lt in F1. apply Nat.leb_le in F2. auto.
Qed.
Lemma some_present : present some_headers 0.
Proof. apply present_b; [reflexivity| |vm_compute; reflexivity]. vm_compute. repeat (constructor; [cbn [In]; intuition discriminate|]). constructor. Qed.
Lemma capitals_refuted : exists h c ct, present h c /\ own_header ct (str "Content-Type") = Some ct /\ (forall k, In k [str "Accept"; str "Content-Type"; str "Twirp-Version"] -> values h c k = None) /\
  received (str "Content-Type") (lines (fst (requestHeader h (Some c) ct)) (snd (requestHeader h (Some c) ct))) = Some (str "text/plain") /\ ct <> str "text/plain".
Proof.
  exists capitals, 0%nat, pb_type. split; [apply present_b; [reflexivity| |vm_compute; reflexivity]; vm_compute; constructor; [intros []|constructor]|]. split; [reflexivity|]. split.
  - intros k [<-|[<-|[<-|[]]]]; vm_compute; reflexivity.
  - split; [vm_compute; reflexivity|discriminate].
Qed.
(** Exactly. *)
Definition wins (h : heap) (m : nat) (k k' v : text) : Prop :=
  canonical k' = canonical k /\ (exists r, values h m k' = Some (v :: r)) /\
  forall k2, canonical k2 = canonical k -> earlier k2 k' -> values h m k2 = None \/ values h m k2 = Some [].
Lemma first_found h m k es : (forall x, In x es -> entry (fst x) (h_maps h m) = Some (snd x)) -> StronglySorted by_key es ->
  forall v, option_map snd (find (fun l => beq (canonical (fst l)) (canonical k)) (flat_map (fun x => map (pair (fst x)) (elements h (snd x))) es)) = Some v ->
  exists k', canonical k' = canonical k /\ (exists r, values h m k' = Some (v :: r)) /\ In k' (map fst es) /\
    forall k2, In k2 (map fst es) -> canonical k2 = canonical k -> earlier k2 k' -> values h m k2 = Some [].
Proof.
  induction es as [|[k0 s0] es IH]; intros E S v; cbn [flat_map]; [discriminate|]. inversion S as [|? ? S1 F1]; subst. pose proof (E (k0, s0) (or_introl eq_refl)) as E0. cbn [fst snd] in *.
  assert (V0 : values h m k0 = Some (elements h s0)) by (unfold values; rewrite E0; reflexivity). rewrite Forall_forall in F1.
  destruct (beq (canonical k0) (canonical k)) eqn:B.
  - apply beq_eq in B. destruct (elements h s0) as [|w r] eqn:El; cbn [map app find fst].
    + intros H. destruct (IH (fun x I => E x (or_intror I)) S1 v H) as (k' & C & R & I & O). exists k'. split; [exact C|]. split; [exact R|]. split; [right; exact I|].
      intros k2 [<-|I2] C2 L; [exact V0|auto].
    + rewrite B, beq_refl. intros H. injection H as <-. exists k0. split; [exact B|]. split; [exists r; exact V0|]. split; [left; reflexivity|].
      intros k2 [<-|I2] C2 L; [apply earlier_irrefl in L; contradiction|]. exfalso. apply in_map_iff in I2 as (x & <- & I2). apply (earlier_irrefl k0). exact (earlier_trans _ _ _ (F1 x I2) L).
  - rewrite find_none_app.
    + intros H. destruct (IH (fun x I => E x (or_intror I)) S1 v H) as (k' & C & R & I & O). exists k'. split; [exact C|]. split; [exact R|]. split; [right; exact I|].
      intros k2 [<-|I2] C2 L; [cbn [fst] in C2; rewrite C2, beq_refl in B; discriminate|auto].
    + intros x I. apply in_map_iff in I as (w & <- & _). exact B.
Qed.
Lemma winner h m k v : NoDup (map fst (h_maps h m)) -> (received k (lines h m) = Some v <-> exists k', wins h m k k' v).
Proof.
  intros N. assert (El : lines h m = flat_map (fun x => map (pair (fst x)) (elements h (snd x))) (fold_right insert_entry [] (h_maps h m))) by reflexivity.
  pose proof (sort_entries_perm (h_maps h m)) as P. pose proof (sort_entries_sorted _ N) as S. rewrite El. set (es := fold_right insert_entry [] (h_maps h m)) in *. split.
  - intros H. destruct (first_found h m k es) with (v := v) as (k' & C & R & I & O); auto.
    + intros [k0 s0] I. apply in_entry; [exact N|]. eapply Permutation_in; [apply Permutation_sym; exact P|exact I].
    + exists k'. split; [exact C|]. split; [exact R|]. intros k2 C2 L. destruct (values h m k2) as [l|] eqn:V; [right|left; reflexivity]. rewrite <- V. apply O; auto.
      unfold values in V. destruct (entry k2 (h_maps h m)) as [s|] eqn:E; [|discriminate]. apply entry_in in E. apply (Permutation_in _ P) in E. apply in_map_iff. exists (k2, s). auto.
  - intros (k' & C & (r & V) & O). unfold values in V. destruct (entry k' (h_maps h m)) as [s|] eqn:E; [|discriminate]. cbn [option_map] in V.
    assert (I : In (k', s) es) by (eapply Permutation_in; [exact P|apply entry_in; exact E]). apply in_split in I as (a & b & Es). rewrite Es, flat_map_app. unfold received. rewrite find_none_app.
    + cbn [flat_map fst snd]. injection V as V. rewrite V. cbn [map app find fst]. rewrite C, beq_refl. reflexivity.
    + intros x I. apply in_flat_map in I as ([k2 s2] & I & J). cbn [fst snd] in J. apply in_map_iff in J as (w & <- & J). cbn [fst].
      destruct (beq (canonical k2) (canonical k)) eqn:B; [|reflexivity]. apply beq_eq in B. rewrite Es in S. pose proof (sorted_before _ _ _ S _ I) as L. unfold by_key in L. cbn [fst] in L.
      assert (E' : entry k2 (h_maps h m) = Some s2).
      { apply in_entry; [exact N|]. eapply Permutation_in; [apply Permutation_sym; exact P|]. rewrite Es. apply in_or_app. left. exact I. }
      destruct (O k2 B L) as [Q|Q]; unfold values in Q; rewrite E' in Q; [discriminate|]. cbn [option_map] in Q. injection Q as Q. rewrite Q in J. destruct J.
Qed.
Lemma exactly_received h custom ct k v : custom_ok h custom ->
  (received k (lines (fst (requestHeader h custom ct)) (snd (requestHeader h custom ct))) = Some v <-> exists k', foremost h custom ct k k' v).
Proof.
  intros P. destruct (request_header h custom ct P) as (_ & V & _ & N & _). rewrite (winner _ _ k v N). unfold wins, foremost, sent_under.
  split; intros (k' & C & (r & R) & O); exists k'; (split; [exact C|]); (split; [exists r; rewrite V in *; exact R|]); intros k2 C2 L; specialize (O k2 C2 L); rewrite V in *; exact O.
Qed.
