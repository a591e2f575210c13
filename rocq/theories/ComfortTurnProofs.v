(** Proofs behind C125. *)
From Verif Require Import ProofBase Proto SpecProto SpecFrame SpecConn SpecLayout SpecServer SpecUnit SpecTrack SpecSpeed ProtoProofs Scanner Conn Proc Lib QueryProofs
  FrameLemmas LayoutProofs OpLemmas Server ServerProofs ServerLemmas UnitProofs UnitClaims Machine SpecMachine MachineBase ThreadLogic MachineInv SpecFresh FreshLogic FreshInv OwnLogic OwnInv
  TrackLogic TrackInv TrackClaims Samples SamplesServer SamplesUnit SamplesMachine SamplesSpeed SpeedProofs ComfortTurnLogic ComfortTurnInv SamplesComfortTurns SpecComfortTurns.

Lemma starting_runs lo rs v0 L0 k0 u0 L1 : lo <= 15 -> forall xs wait u k m m', Forall just_worker xs -> inv L1 rs wait m -> tracks lo rs L0 k0 u0 u k m -> starting rs v0 u k m ->
  exec xs m = Some m' -> exists u' k' wait', inv L1 rs wait' m' /\ tracks lo rs L0 k0 u0 u' k' m' /\ starting rs v0 u' k' m'.
Proof.
  intros Lo. induction xs as [|x xs IH]; intros wait u k m m' J Iv T S E; cbn in E.
  - injection E as <-. eauto 8.
  - destruct (exec1 m x) as [m1|] eqn:E1; [|discriminate]. destruct (inv_step _ _ _ _ _ _ Iv E1) as (w' & Nx & Iv').
    destruct (tracks_step lo Lo rs L0 k0 u0 L1 wait w' u k m x m1 Iv T E1 Nx) as (u' & k' & T' & more & Em & Cm & _).
    inversion J; subst. eapply (IH w' u' k'); [assumption|exact Iv'|exact T'| |exact E]. eapply (starting_step lo rs v0 L1 wait u k m x m1 u' k' more L0 k0 u0); assumption.
Qed.
Lemma sound_steps lo rs v0 L0 k0 u0 L1 : lo <= 15 -> forall xs wait u k m m' dn, inv L1 rs wait m -> tracks lo rs L0 k0 u0 u k m -> sound rs v0 u k m dn ->
  exec xs m = Some m' -> exists u' k' wait' e, inv L1 rs wait' m' /\ tracks lo rs L0 k0 u0 u' k' m' /\ sound rs v0 u' k' m' (dn ++ e).
Proof.
  intros Lo. induction xs as [|x xs IH]; intros wait u k m m' dn Iv T S E; cbn in E.
  - injection E as <-. exists u, k, wait, []. rewrite app_nil_r. auto.
  - destruct (exec1 m x) as [m1|] eqn:E1; [|discriminate]. destruct (inv_step _ _ _ _ _ _ Iv E1) as (w' & Nx & Iv').
    destruct (tracks_step lo Lo rs L0 k0 u0 L1 wait w' u k m x m1 Iv T E1 Nx) as (u' & k' & T' & more & Em & Cm & _).
    destruct (sound_step lo rs v0 L1 wait u k m dn x m1 u' k' more L0 k0 u0 Iv T S E1 Em Cm) as (e & S').
    destruct (IH w' u' k' m1 m' (dn ++ e) Iv' T' S' E) as (u2 & k2 & w2 & e2 & A & B & C). exists u2, k2, w2, (e ++ e2). rewrite app_assoc. auto.
Qed.

(** Who is about to set the unit. *)
Definition setting (rs : list rpc) (hd : hold) : list nat :=
  match hd with Some (i, _) => match nth_error rs i with Some q => match sets q with Some _ => [i] | None => [] end | None => [] end | None => [] end.
Lemma had_range rs v is w : 0 <= v <= 255 -> In w (had rs v is) -> 0 <= w <= 255.
Proof.
  intros V [<-|I]; auto. apply in_map_iff in I as (i & <- & _). unfold set_to. destruct (nth_error rs i) as [q|]; [|lia]. destruct q; try lia;
  match goal with |- context[?t mod 256] => pose proof (Z.mod_pos_bound t 256 ltac:(lia)) end; lia.
Qed.
Lemma had_app rs v l r w : In w (had rs v l) -> In w (had rs v (l ++ r)).
Proof. unfold had. rewrite map_app. intros [E|I]; [left; auto|right; apply in_or_app; auto]. Qed.
Lemma last_ne {A} (l : list A) a b : l <> [] -> last l a = last l b.
Proof. intros N. destruct (exists_last N) as (l' & x & ->). rewrite !last_last. reflexivity. Qed.

Lemma nodup_left {A} (l r : list A) : NoDup (l ++ r) -> NoDup l.
Proof. induction l as [|x l IH]; cbn; intros N; [constructor|]. inversion N; subst. constructor; auto. intros I. apply H1. apply in_or_app. auto. Qed.
Lemma nodup_split {A} (i : A) l r : forall l' r', NoDup (l ++ i :: r) -> l' ++ i :: r' = l ++ i :: r -> l' = l.
Proof.
  induction l as [|y l IH]; intros [|y' l'] r' N E; auto; cbn in *; inversion N as [|? ? Nx N']; subst; injection E as E1 E.
  - destruct Nx. rewrite <- E. apply in_or_app. right. left. reflexivity.
  - destruct Nx. rewrite <- E1. apply in_or_app. right. left. reflexivity.
  - subst y'. f_equal. eapply IH; eauto.
Qed.
Lemma sound_ordered L1 rs wait v0 u k m dn : 0 <= v0 <= 255 -> inv L1 rs wait m -> sound rs v0 u k m dn -> exists rest, ordered rs m v0 dn rest u.
Proof.
  intros V (Ln & _) (hd & (Rc & Wu) & Nd & Hh & Ho & _ & Hr). exists (setting rs hd).
  assert (Thr : forall i, In i dn -> exists q t, nth_error rs i = Some q /\ nth_error (m_ts m) i = Some t).
  { intros i I. destruct (nth_error rs i) as [q|] eqn:Nq; [|destruct (Hr i I Nq)]. assert (Y : nth_error rs i <> None) by congruence. apply nth_error_Some in Y.
    destruct (nth_error (m_ts m) i) as [t|] eqn:Nt; [eauto|]. apply nth_error_None in Nt. lia. }
  assert (Req : forall i a t, nth_error (m_ts m) i = Some t -> t_p t = Ret a -> exists q x pe lw sn, nth_error rs i = Some q /\ incl sn (hist_of rs v0 dn hd) /\ tells q x pe lw sn a /\ place rs v0 dn hd i x sn t).
  { intros i a t N R. destruct (nth_error rs i) as [q|] eqn:Nq.
    2: { apply nth_error_None in Nq. assert (Y : nth_error (m_ts m) i <> None) by congruence. apply nth_error_Some in Y. lia. }
    destruct (Ho i q t Nq N) as (x & pe & lw & sn & (_ & _ & _ & K) & F & P). rewrite R in F. exists q, x, pe, lw, sn. auto. }
  assert (Out : forall i, In i dn -> ~ In i (holder hd)).
  { intros i I J. destruct hd as [[j w]|]; [|destruct J]. destruct J as [<-|[]]. apply NoDup_remove in Nd. rewrite app_nil_r in Nd. tauto. }
  assert (Hist : forall w, In w (hist_of rs v0 dn hd) -> In w (had rs v0 (dn ++ setting rs hd))).
  { unfold hist_of. destruct hd as [[j [w|]]|]; cbn [wrote]; auto; [|intros z; rewrite app_nil_r; apply had_app].
    destruct (Hh j (Some w) eq_refl) as (_ & Z). destruct (Z w eq_refl) as (q & Nq & Sq). cbn [setting]. rewrite Nq, Sq. auto. }
  constructor.
  - destruct hd as [[j w]|]; cbn [setting]; auto. cbn [holder] in Nd. destruct (nth_error rs j) as [q|]; [destruct (sets q)|]; auto; apply NoDup_remove in Nd; rewrite ?app_nil_r in *; apply Nd.
  - intros i. split.
    + intros I. destruct (Thr i I) as (q & t & Nq & Nt). destruct (Ho i q t Nq Nt) as (x & pe & lw & sn & K & F & P).
      destruct x as [| |w|w]; cbn [place] in P; try contradiction.
      * destruct P. apply in_or_app. auto.
      * destruct P as [P _]. destruct (Out i I). rewrite P. left. reflexivity.
      * destruct P as ((a & R) & P). rewrite R in F. cbn [sp] in F. destruct w as [w|]; [|destruct P; apply in_or_app; auto].
        unfold tells in F. destruct q; try (destruct F; discriminate). destruct F as (v & _ & _ & _ & ->). exists (u32 v), t0. exists t. auto.
    + intros (o & t0 & t & Nt & R). destruct (Req i _ t Nt R) as (q & x & pe & lw & sn & Nq & _ & T & P).
      unfold tells in T. destruct q; try (destruct T as (_ & T); destruct (T true o t0 eq_refl)).
      destruct x as [| |w|[w|]]; try contradiction.
      * destruct T as [(y & E)|(v & _ & _ & _ & E)]; discriminate.
      * destruct P as (_ & l & r & -> & _). apply in_or_app. right. left. reflexivity.
      * destruct T as (_ & y & E). discriminate.
  - destruct hd as [[j w]|]; [|left; split; auto; unfold latest; rewrite (last_ne _ v0 0) by apply had_ne; unfold hist_of in Wu; cbn [wrote] in Wu; rewrite app_nil_r in Wu; exact Wu].
    destruct (Hh j w eq_refl) as ((t & Nt & _) & Z).
    assert (Nq : exists q, nth_error rs j = Some q).
    { destruct (nth_error rs j) as [q|] eqn:Nq; eauto. apply nth_error_None in Nq. assert (Y : nth_error (m_ts m) j <> None) by congruence. apply nth_error_Some in Y. lia. }
    destruct Nq as (q & Nq). cbn [setting]. rewrite Nq. unfold hist_of in Wu. destruct (sets q) as [v|] eqn:Sq.
    + right. exists j. split; auto. split.
      * intros a (t' & Nt' & R). destruct (Req j a t' Nt' R) as (q' & x & pe & lw & sn & Nq' & _ & T & P).
        destruct x as [| |w'|[w'|]]; cbn [place holder] in P; try contradiction.
        -- apply P. apply in_or_app. right. left. reflexivity.
        -- unfold tells in T. destruct q'; try (destruct T; discriminate).
        -- destruct P as (_ & l & r & E & _). apply (Out j); [rewrite E; apply in_or_app; right; left; reflexivity|left; reflexivity].
        -- destruct P as [_ P]. apply P. apply in_or_app. right. left. reflexivity.
      * destruct w as [w|]; cbn [wrote] in Wu.
        -- right. rewrite had_snoc, last_last in Wu. exact Wu.
        -- left. rewrite app_nil_r in Wu. unfold latest. rewrite (last_ne _ v0 0) by apply had_ne. exact Wu.
    + left. split; auto. destruct w as [w|]; [destruct (Z w eq_refl) as (q' & Nq' & Sq'); congruence|]. cbn [wrote] in Wu. rewrite app_nil_r in Wu.
      unfold latest. rewrite (last_ne _ v0 0) by apply had_ne. exact Wu.
  - intros i b o t0 (t & Nt & R). destruct (Req i _ t Nt R) as (q & x & pe & lw & sn & Nq & Ks & T & P).
    unfold tells in T. destruct q; try (destruct T as (_ & T); destruct (T b o t0 eq_refl)).
    assert (Small : forall v, In v sn -> u8 v = v /\ u32 v = v /\ In v (had rs v0 (dn ++ setting rs hd))).
    { intros v I. apply Ks in I. pose proof (had_range _ _ _ _ V I). apply Hist in I. splits; auto; apply Z.mod_small; lia. }
    destruct x as [| |w|[w|]]; try contradiction.
    + destruct T as [(y & E)|(v & T1 & I & T2 & E)]; [discriminate|]. injection E as -> -> ->. destruct (Small v I) as (E8 & -> & I'). rewrite E8 in T2. splits; auto. rewrite T2, Z.eqb_refl. reflexivity.
    + destruct T as (v & Sq & I & T2 & E). injection E as -> -> ->. destruct (Small v I) as (E8 & -> & I'). rewrite E8 in T2. splits; auto.
      * cbn [sets] in Sq. destruct (Z.leb_spec t1 255); [assumption|discriminate].
      * destruct (Z.eqb_spec v (t1 mod 256)); [contradiction|reflexivity].
    + destruct T as (_ & y & E). discriminate.
  - intros l i r o t0 Ed (t & Nt & R). destruct (Req i _ t Nt R) as (q & x & pe & lw & sn & Nq & Ks & T & P).
    unfold tells in T. destruct q; try (destruct T as (_ & T); destruct (T true o t0 eq_refl)).
    destruct x as [| |w|[w|]]; try contradiction.
    + destruct T as [(y & E)|(v & T1 & I & T2 & E)]; discriminate.
    + destruct T as (v & Sq & I & T2 & E). injection E as -> ->. destruct P as (_ & l' & r' & Ed' & P).
      assert (El : l' = l).
      { rewrite Ed in Ed', Nd. eapply nodup_split; [eapply nodup_left; exact Nd|symmetry; exact Ed']. }
      subst l'. apply P in I. pose proof (had_range _ _ _ _ V I). replace (u32 v) with v; [exact I|]. symmetry. apply Z.mod_small. lia.
    + destruct T as (_ & y & E). discriminate.
Qed.

Lemma comfort_order lo rs c clk u xs m0 u0 ys m u' : lo <= 15 -> lined lo c u ->
  exec xs (serve rs c clk) = Some m0 -> Forall just_worker xs -> m_wk m0 = None -> unit_in lo m0 u0 -> 40 <= u_comfort u0 -> exec ys m0 = Some m -> unit_in lo m u' ->
  exists dn rest, ordered rs m (warmth u0) dn rest u' /\
    forall zs m2 u2, exec zs m = Some m2 -> unit_in lo m2 u2 -> exists more rest2, ordered rs m2 (warmth u0) (dn ++ more) rest2 u2.
Proof.
  intros Lo L Ex J Wn U0 C0 Ey U'.
  assert (V : 0 <= warmth u0 <= 255).
  { destruct U0 as [_ (_ & _ & _ & _ & _ & B)]. unfold byte_ok in B. unfold warmth. pose proof (Z.div_le_lower_bound (u_comfort u0) 2 20 ltac:(lia) ltac:(lia)). pose proof (Z.div_le_upper_bound (u_comfort u0) 2 200 ltac:(lia) ltac:(lia)). lia. }
  destruct (starting_runs lo rs (warmth u) (c_log c) Idle u (c_log c) Lo xs None u Idle (serve rs c clk) m0 J) as (u1 & k1 & w1 & Iv1 & T1 & S1); auto.
  - apply inv_init. reflexivity.
  - apply tracks_init. exact L.
  - apply starting_init. reflexivity.
  - assert (u1 = u0) by (eapply same_unit; [eapply tracks_in; eauto|exact U0]). subst u1.
    assert (Ew : warmth u = warmth u0) by (destruct S1 as (_ & E & _); auto). rewrite Ew in S1.
    assert (S0 : sound rs (warmth u0) u0 k1 m0 []) by (eapply starting_sound; eauto).
    destruct (sound_steps lo rs (warmth u0) (c_log c) Idle u (c_log c) Lo ys w1 u0 k1 m0 m [] Iv1 T1 S0 Ey) as (u2 & k2 & w2 & dn & Iv2 & T2 & S2).
    assert (u2 = u') by (eapply same_unit; [eapply tracks_in; eauto|exact U']). subst u2. cbn [app] in S2.
    destruct (sound_ordered _ _ _ _ _ _ _ _ V Iv2 S2) as (rest & O). exists dn, rest. split; auto.
    intros zs m2 u2 Ez U2. destruct (sound_steps lo rs (warmth u0) (c_log c) Idle u (c_log c) Lo zs w2 u' k2 m m2 dn Iv2 T2 S2 Ez) as (u3 & k3 & w3 & more & Iv3 & T3 & S3).
    assert (u3 = u2) by (eapply same_unit; [eapply tracks_in; eauto|exact U2]). subst u3.
    destruct (sound_ordered _ _ _ _ _ _ _ _ V Iv3 S3) as (rest2 & O2). eauto.
Qed.

(** ** cases *)
Definition heated (v : Z) (x : io) : Z := match x with Wr bs _ => match request_of bs with Some (211, [w]) => w | _ => v end | _ => v end.
Lemma course_comfort rs k u l k' u' : course rs k u l k' u' -> u_comfort u' = fold_left heated l (u_comfort u).
Proof.
  intros C. induction C as [|l k1 u1 x k2 u2 C IH T]; auto. rewrite fold_left_app. cbn [fold_left]. rewrite <- IH.
  destruct T as [gr G|gr pl B D5 D9|t I Th T|a b v I M|m t o1 o2 o3 o4 i1 i2 i3 i4 I M u1' d1 W| |]; cbn [heated]; try reflexivity;
    try (rewrite request_framed; reflexivity).
  rewrite request_framed. simpl in G. intuition (subst; reflexivity).
Qed.
Lemma comfort_after lo rs c clk u xs m : lo <= 15 -> lined lo c u -> c_log c = [] -> exec xs (serve rs c clk) = Some m ->
  exists u', unit_in lo m u' /\ u_comfort u' = fold_left heated (log_of m) (u_comfort u).
Proof.
  intros Lo L E Ex. destruct (unit_course lo rs c clk u xs m Lo L Ex) as (l & k & u' & El & C & U). rewrite E in El. cbn in El. subst l.
  exists u'. split; auto. eapply course_comfort; eauto.
Qed.
Definition comfort_of (o : option (machine resp)) (v : Z) : option Z := match o with Some m => Some (fold_left heated (log_of m) v) | None => None end.
Lemma comfort_known lo rs c clk u xs v : lo <= 15 -> lined lo c u -> c_log c = [] -> comfort_of (exec xs (serve rs c clk)) (u_comfort u) = Some v ->
  exists m u', exec xs (serve rs c clk) = Some m /\ unit_in lo m u' /\ u_comfort u' = v.
Proof.
  intros Lo L E M. destruct (exec xs (serve rs c clk)) as [m|] eqn:Ex; [|discriminate]. cbn [comfort_of] in M. injection M as M.
  destruct (comfort_after lo rs c clk u xs m Lo L E Ex) as (u' & U & Eu). exists m, u'. split; auto. split; auto. congruence.
Qed.
Lemma warm_done : worker_done (exec even_before (serve warm_reqs even_line 0)) = true.
Proof. vm_compute. reflexivity. Qed.
Lemma warm_start : comfort_of (exec even_before (serve warm_reqs even_line 0)) 82 = Some 82.
Proof. vm_compute. reflexivity. Qed.
Lemma warm_case ys v : comfort_of (exec (even_before ++ ys) (serve warm_reqs even_line 0)) 82 = Some v ->
  exists m0 u0 m u', lined 15 even_line even_vent /\ exec even_before (serve warm_reqs even_line 0) = Some m0 /\ Forall just_worker even_before /\ m_wk m0 = None /\
  unit_in 15 m0 u0 /\ u_comfort u0 = 82 /\ exec ys m0 = Some m /\ unit_in 15 m u' /\ u_comfort u' = v /\ exec (even_before ++ ys) (serve warm_reqs even_line 0) = Some m.
Proof.
  intros W. pose proof even_line_lined as L.
  destruct (comfort_known 15 warm_reqs even_line 0 even_vent even_before 82 ltac:(lia) L eq_refl warm_start) as (m0 & u0 & E0 & U0 & C0).
  destruct (comfort_known 15 warm_reqs even_line 0 even_vent (even_before ++ ys) v ltac:(lia) L eq_refl W) as (m & u' & E & U & C).
  pose proof warm_done as Wd. rewrite E0 in Wd. destruct (exec_app_inv even_before ys _ _ E) as (m1 & E1 & Ej). assert (Em : m1 = m0) by congruence. subst m1.
  exists m0, u0, m, u'. split; [exact L|]. split; [exact E0|]. split; [apply just_repeat|]. split; [apply done_none; exact Wd|]. split; [exact U0|]. split; [exact C0|]. split; [exact Ej|]. split; [exact U|]. split; [exact C|exact E].
Qed.
Lemma warm_ex : exists m0 u0 m u' m2 u2, lined 15 even_line even_vent /\ exec even_before (serve warm_reqs even_line 0) = Some m0 /\ Forall just_worker even_before /\ m_wk m0 = None /\
  unit_in 15 m0 u0 /\ u_comfort u0 = 82 /\ exec warm_during m0 = Some m /\ unit_in 15 m u' /\ u_comfort u' = 84 /\ exec warm_after m = Some m2 /\ unit_in 15 m2 u2 /\ u_comfort u2 = 84.
Proof.
  destruct (warm_case (warm_during ++ warm_after) 84 ltac:(vm_compute; reflexivity)) as (m0 & u0 & m2 & u2 & L & E0 & J & W & U0 & C0 & Ej & U2 & C2 & _).
  destruct (exec_app_inv warm_during warm_after _ _ Ej) as (m & Em & Ea).
  destruct (warm_case warm_during 84 ltac:(vm_compute; reflexivity)) as (m0' & u0' & m' & u' & _ & E0' & _ & _ & _ & _ & Ed & U' & C' & _).
  assert (m0' = m0) by congruence. subst m0'. assert (m' = m) by congruence. subst m'.
  exists m0, u0, m, u', m2, u2. split; [exact L|]. split; [exact E0|]. split; [exact J|]. split; [exact W|]. split; [exact U0|]. split; [exact C0|]. split; [exact Em|]. split; [exact U'|]. split; [exact C'|]. split; [exact Ea|]. split; [exact U2|exact C2].
Qed.
Definition says (o : option (machine resp)) (i : nat) (b : bool) (v t : Z) : bool := match o with
  | Some m => match nth_error (m_ts m) i with Some th => match t_p th with Ret (RespComfort b' v' t') => Bool.eqb b b' && (v =? v') && (t =? t') | _ => false end | None => false end | None => false end.
Lemma says_answered m i b v t : says (Some m) i b v t = true -> answered m i (RespComfort b v t).
Proof.
  unfold says, answered. destruct (nth_error (m_ts m) i) as [[p h]|]; [|discriminate]. cbn [t_p]. intros W. exists (mkThread p h). split; [reflexivity|]. cbn [t_p].
  destruct p as [a| | | | | | | | | | | | | |]; try discriminate. destruct a; try discriminate. rewrite !andb_true_iff in W. destruct W as [[W1 W2] W3].
  apply Bool.eqb_prop in W1. apply Z.eqb_eq in W2, W3. subst. reflexivity.
Qed.

Lemma only_two i : set_to warm_reqs i = 21 -> i = 2%nat.
Proof. do 7 (destruct i as [|i]; [cbn; intros; try reflexivity; discriminate|]). unfold set_to. cbn [warm_reqs nth_error]. destruct i; discriminate. Qed.
Lemma same_answer {A} (m : machine A) i a b : answered m i a -> answered m i b -> a = b.
Proof. intros (t & N & R) (t' & N' & R'). congruence. Qed.
Lemma latest_set rs v l : l <> [] -> exists i, In i l /\ latest rs v l = set_to rs i.
Proof. intros N. destruct (exists_last N) as (l' & i & ->). exists i. split; [apply in_or_app; right; left; reflexivity|]. unfold latest. rewrite had_snoc, last_last. reflexivity. Qed.
Lemma not_what_it_found m dn rest u : answered m 0 (RespComfort true 21 22) -> answered m 1 (RespComfort true 21 22) -> answered m 2 (RespComfort false 21 21) ->
  ordered warm_reqs m 21 dn rest u -> exists l i r o t, dn = l ++ i :: r /\ answered m i (RespComfort true o t) /\ o <> latest warm_reqs 21 l.
Proof.
  intros A0 A1 A2 O. pose proof (or_told _ _ _ _ _ _ O) as T.
  assert (N : forall l i r, dn = l ++ i :: r -> l <> [] -> 21 <> latest warm_reqs 21 l).
  { intros l i r E Nl H. destruct (latest_set warm_reqs 21 l Nl) as (j & I & Ej). rewrite Ej in H. symmetry in H. apply only_two in H. subst j.
    assert (I2 : In 2%nat dn) by (rewrite E; apply in_or_app; auto). apply T in I2 as (o & t & A). pose proof (same_answer _ _ _ _ A A2). discriminate. }
  assert (I0 : In 0%nat dn) by (apply T; eauto). assert (I1 : In 1%nat dn) by (apply T; eauto).
  apply in_split in I0 as (l0 & r0 & E0). apply in_split in I1 as (l1 & r1 & E1).
  destruct l0 as [|y l0].
  - assert (l1 <> []) by (intros ->; rewrite E0 in E1; discriminate). exists l1, 1%nat, r1, 21, 22. splits; auto. eapply N; eauto.
  - exists (y :: l0), 0%nat, r0, 21, 22. splits; auto. eapply N; [exact E0|discriminate].
Qed.
Lemma warm_answers : let o := exec (even_before ++ warm_during ++ warm_after) (serve warm_reqs even_line 0) in says o 0 true 21 22 && says o 1 true 21 22 && says o 2 false 21 21 = true.
Proof. vm_compute. reflexivity. Qed.
Lemma comfort_not_found : exists c u m0 u0 xs ys m u', lined 15 c u /\ exec xs (serve warm_reqs c 0) = Some m0 /\ Forall just_worker xs /\ m_wk m0 = None /\
  unit_in 15 m0 u0 /\ warmth u0 = 21 /\ exec ys m0 = Some m /\ unit_in 15 m u' /\
  forall dn rest, ordered warm_reqs m (warmth u0) dn rest u' -> exists l i r o t, dn = l ++ i :: r /\ answered m i (RespComfort true o t) /\ o <> latest warm_reqs (warmth u0) l.
Proof.
  destruct (warm_case (warm_during ++ warm_after) 84 ltac:(vm_compute; reflexivity)) as (m0 & u0 & m & u' & L & E0 & J & W & U0 & C0 & Ej & U' & C' & E).
  pose proof warm_answers as Wa. cbv zeta in Wa. rewrite E in Wa. rewrite !andb_true_iff in Wa. destruct Wa as [[A0 A1] A2]. apply says_answered in A0, A1, A2.
  assert (Ew : warmth u0 = 21) by (unfold warmth; rewrite C0; reflexivity).
  exists even_line, even_vent, m0, u0, even_before, (warm_during ++ warm_after), m, u'. rewrite Ew.
  split; [exact L|]. split; [exact E0|]. split; [exact J|]. split; [exact W|]. split; [exact U0|]. split; [reflexivity|]. split; [exact Ej|]. split; [exact U'|].
  intros dn rest O. eapply not_what_it_found; eauto.
Qed.
(** Nothing needs changing, it says. *)
Lemma warm_stale : says (exec (even_before ++ warm_reads ++ [Run 2]) (serve warm_reqs even_line 0)) 2 false 21 21 = true.
Proof. vm_compute. reflexivity. Qed.
Lemma comfort_stale : exists c u m0 xs ys m u' m2 u2, lined 15 c u /\ exec xs (serve warm_reqs c 0) = Some m0 /\ Forall just_worker xs /\ m_wk m0 = None /\
  exec ys m0 = Some m /\ ~ In (Run 2) ys /\ unit_in 15 m u' /\ nth_error warm_reqs 2 = Some (SetComfortTempR 21) /\ warmth u' = 22 /\
  exec [Run 2] m = Some m2 /\ unit_in 15 m2 u2 /\ warmth u2 = 22 /\ answered m2 2 (RespComfort false 21 21).
Proof.
  destruct (warm_case warm_reads 84 ltac:(vm_compute; reflexivity)) as (m0 & u0 & m & u' & L & E0 & J & W & U0 & C0 & Ej & U' & C' & E).
  destruct (warm_case (warm_reads ++ [Run 2]) 84 ltac:(vm_compute; reflexivity)) as (m0' & u0' & m2 & u2 & _ & E0' & _ & _ & _ & _ & Ej2 & U2 & C2 & E2).
  assert (m0' = m0) by congruence. subst m0'. destruct (exec_app_inv warm_reads [Run 2] _ _ Ej2) as (m' & Em & Ea). assert (m' = m) by congruence. subst m'.
  pose proof warm_stale as Ws. rewrite E2 in Ws. apply says_answered in Ws.
  exists even_line, even_vent, m0, even_before, warm_reads, m, u', m2, u2.
  split; [exact L|]. split; [exact E0|]. split; [exact J|]. split; [exact W|]. split; [exact Ej|]. split.
  { intros I. unfold warm_reads in I. rewrite !in_app_iff in I. destruct I as [I|[I|I]]; [cbn in I; intuition discriminate|apply repeat_spec in I; discriminate|apply repeat_spec in I; discriminate]. }
  split; [exact U'|]. split; [reflexivity|]. split; [unfold warmth; rewrite C'; reflexivity|]. split; [exact Ea|]. split; [exact U2|]. split; [unfold warmth; rewrite C2; reflexivity|exact Ws].
Qed.
