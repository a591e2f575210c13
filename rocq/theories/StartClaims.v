(** Proofs behind C81: after start-up. *)
From Verif Require Import ProofBase Proto SpecProto SpecFrame SpecConn SpecLayout SpecServer SpecUnit ProtoProofs Scanner Conn ReadProofs Proc Lib QueryProofs
  FrameLemmas Server ServerProofs ServerLemmas UnitProofs Machine SpecMachine MachineBase ThreadLogic MachineInv MachineClaims SpecFresh SpecTrack FreshLogic FreshInv OwnLogic OwnInv
  MomentLogic MomentInv FreshClaims TrackLogic TrackInv TrackClaims Samples SamplesServer SamplesUnit UnitClaims SamplesTrack.

Section Start.
Context (k : cache) (L0 : list io) (Mo : machine resp -> Prop).
Definition starting (m : machine resp) : Prop :=
  rests k None (hs_of m) (m_g m) /\
  (forall j t, nth_error (m_ts m) j = Some t -> exists L1 Hi R, watched k None false L1 Hi (m_g m) t (R : list (list io) -> moments -> resp -> Prop)) /\
  exists w, m_wk m = Some w /\ watched k None true L0 (hist k L0 Mo) (m_g m) w (fun l N _ => got k l N).
Definition has_started (m : machine resp) : Prop := exists s ls, log (m_g m) = L0 ++ s /\ embedded ls s /\ got k ls (hist k L0 Mo).
Lemma start_step L1 rs m x m' : inv L1 rs None m -> starting m -> exec1 m x = Some m' -> next None x = Some None -> Mo m -> Mo m' ->
  starting m' \/ (m_wk m' = None /\ has_started m').
Proof.
  intros Iv (Co & Th & w & Ew & Wk) H Nx Mm Mm'. destruct Iv as (Ln & X & _ & _ & _). destruct x as [j| |d|tk|j|j]; cbn [exec1] in H; try discriminate Nx.
  - left. destruct (nth_error (m_ts m) j) as [t|] eqn:Nj; [|discriminate]. rewrite tstep_hs in H.
    destruct (tstep (hs_of m) t (m_g m)) as [[t' g']|] eqn:S; [|discriminate]. injection H as <-.
    assert (Nh : nth_error (hs_of m) (Datatypes.S j) = Some (t_h t)) by (cbn; rewrite nth_error_map, Nj; reflexivity).
    destruct (Th _ _ Nj) as (L2 & Hi & R & Tj).
    assert (Hs : hs_of (mkMachine g' (set_nth j t' (m_ts m)) (m_wk m)) = set_nth (Datatypes.S j) (t_h t') (hs_of m))
      by (unfold hs_of, wk_h; cbn [m_wk m_ts set_nth]; rewrite set_nth_map; reflexivity).
    destruct (watched_step k None (hs_of m) t t' _ _ _ _ _ _ Tj S (nth_error_In _ _ Nh) Co) as [T' W]; try discriminate.
    unfold starting. rewrite Hs. cbn [m_ts m_g m_wk]. split; [eapply rests_step; eauto|]. split.
    + intros q tq Tq. apply nth_set_cases in Tq as [(<- & -> & _)|[Dj Tq]]; [eauto|].
      destruct (Th _ _ Tq) as (L3 & Hi3 & R3 & Oq). exists L3, Hi3, R3.
      eapply watched_other; [exact W| |exact Oq]. intros l b I. eapply (X (Datatypes.S j) (Datatypes.S q)); eauto. cbn. rewrite nth_error_map, Tq. reflexivity.
    + exists w. split; [exact Ew|]. eapply watched_other; [exact W| |exact Wk]. intros l b I. eapply (X (Datatypes.S j) 0%nat); eauto.
      cbn. unfold wk_h. rewrite Ew. reflexivity.
  - rewrite Ew in H. destruct w as [p h]. cbn [t_p t_h] in H.
    assert (Cs : (p = Ret tt /\ h = [] /\ m' = mkMachine (m_g m) (m_ts m) None) \/
      exists t' g', tstep (hs_of m) (mkThread p h) (m_g m) = Some (t', g') /\ m' = mkMachine g' (m_ts m) (Some t')).
    { destruct p as [[]| | | | | | | | | | | | | |]; try destruct h;
        try (rewrite tstep_hs in H; destruct (tstep (hs_of m) _ (m_g m)) as [[t' g']|]; [|discriminate]; injection H as <-; eauto; fail).
      injection H as <-. auto. }
    clear H. assert (Nh : nth_error (hs_of m) 0 = Some h) by (cbn; unfold wk_h; rewrite Ew; reflexivity).
    destruct Cs as [(-> & -> & ->)|(t' & g' & S & ->)].
    + right. split; [reflexivity|]. destruct Wk as (kn & ls & ls0 & v0 & y & H & A1 & _ & _ & _ & A2 & A3). cbn [t_p tg] in A3. destruct A3 as [_ A3].
      destruct (A3 eq_refl) as [-> G]. destruct (A2 eq_refl) as (s & Es & Em). cbn [part] in Es. rewrite app_nil_r in Es.
      exists s, ls. split; [exact Es|]. split; [exact Em|]. eapply got_mono; [apply A1; auto|exact G].
    + left. assert (Hs : hs_of (mkMachine g' (m_ts m) (Some t')) = set_nth 0 (t_h t') (hs_of m)) by reflexivity.
      destruct (watched_step k None (hs_of m) (mkThread p h) t' _ _ _ _ _ _ Wk S (nth_error_In _ _ Nh) Co) as [T' Wr].
      { intros _ F ls s Es Em. apply (hist_at k L0 Mo m ls _ s); auto. }
      { intros _ Ih Nh' ls s Es Em. apply (hist_at k L0 Mo (mkMachine g' (m_ts m) (Some t')) ls _ s); auto.
        rewrite Hs, rfree_in. intros h' I. apply In_nth_error in I as (n' & I). apply nth_set_cases in I as [(_ & -> & _)|[Dn I]]; [auto|].
        eapply (X 0%nat n'); eauto. }
      unfold starting. rewrite Hs. cbn [m_ts m_g m_wk]. split; [eapply (rests_step k None _ _ (mkThread p h)); eauto|]. split; [|eauto].
      intros q tq Tq. destruct (Th _ _ Tq) as (L3 & Hi3 & R3 & Oq). exists L3, Hi3, R3.
      eapply watched_other; [exact Wr| |exact Oq]. intros l b I. eapply (X 0%nat (Datatypes.S q)); eauto. cbn. rewrite nth_error_map, Tq. reflexivity.
  - injection H as <-. left. split; [exact Co|]. split; cbn [m_ts m_g m_wk]; eauto.
  - rewrite Ew in H. discriminate.
Qed.
Lemma start_run L1 rs : forall ys m m', inv L1 rs None m -> starting m -> exec ys m = Some m' -> m_wk m' = None ->
  (forall ys1 ys2 m1, ys = ys1 ++ ys2 -> exec ys1 m = Some m1 -> Mo m1) ->
  exists ys1 ys2 m1, ys = ys1 ++ ys2 /\ exec ys1 m = Some m1 /\ has_started m1.
Proof.
  induction ys as [|x ys IH]; intros m m' Iv St E Wn M; cbn in E.
  - injection E as <-. destruct St as (_ & _ & w & Ew & _). congruence.
  - destruct (exec1 m x) as [m1|] eqn:E1; [|discriminate]. destruct (inv_step _ _ _ _ _ _ Iv E1) as (w' & Nx & Iv').
    assert (w' = None) as ->.
    { destruct x; cbn in Nx; try congruence. destruct St as (_ & _ & w & Ew & _). cbn in E1. rewrite Ew in E1. discriminate. }
    destruct (start_step L1 rs m x m1 Iv St E1 Nx) as [St'|[Wn' H]].
    + apply (M [] (x :: ys) m); reflexivity.
    + apply (M [x] ys m1); cbn; [reflexivity|]. rewrite E1. reflexivity.
    + destruct (IH m1 m' Iv' St' E Wn) as (ys1 & ys2 & m2 & -> & E2 & H).
      { intros ys1 ys2 m2 -> E2. apply (M (x :: ys1) ys2 m2); auto. cbn. rewrite E1. exact E2. }
      exists (x :: ys1), ys2, m2. cbn. rewrite E1. auto.
    + exists [x], ys, m1. cbn. rewrite E1. auto.
Qed.
End Start.
Lemma start_got k rs c clk xs m0 : exec xs (serve rs c clk) = Some m0 -> m_wk m0 = None ->
  exists xs1 xs2 m1, xs = xs1 ++ xs2 /\ exec xs1 (serve rs c clk) = Some m1 /\ has_started k (c_log c) (during (serve rs c clk) xs) m1.
Proof.
  intros Ex Wn. apply (start_run k (c_log c) _ (c_log c) rs xs (serve rs c clk) m0); auto.
  - apply inv_init. reflexivity.
  - destruct (watches_init k rs c clk 0 (FlushCacheR 0) (fun _ => True)) as (Rs & Th & _). split; [exact Rs|]. split.
    + intros j t Tj. destruct (Th _ _ Tj) as [Oj _]. cbn [andb] in Oj. eauto.
    + eexists. split; [reflexivity|]. apply (watched_start k None true _ (m_g (serve rs c clk))). eapply tells_weaken; [|apply tells_caches].
      cbn beta. intros l N a G. apply G. destruct k; cbn; auto 10.
  - intros ys1 ys2 m1 E E1. exists ys1, ys2. auto.
Qed.
Lemma after_start k rs c clk xs m0 ys m i a : exec xs (serve rs c clk) = Some m0 -> m_wk m0 = None -> waits i xs -> exec ys m0 = Some m -> legal m ->
  (forall l, log_of m0 = c_log c ++ l -> queries_ok k l) -> nth_error rs i = Some (getter_rpc k) -> answered m i a ->
  exists l pl v, log_of m = c_log c ++ l /\ In pl (fetched k l) /\ layout_of k pl v /\ a = message v.
Proof.
  intros Ex Wn W Ey Lg Ok Ri A. destruct (start_got k rs c clk xs m0 Ex Wn) as (xs1 & xs2 & m1 & -> & E1 & s & ls & Es & Em & G).
  destruct (getter_moment k rs c clk _ m0 ys m i a Ex W Ey Ri A) as (ys1 & ys2 & mb & v & -> & E3 & Rb & Cv & Ea).
  destruct G as [(y & Iy & Qy & Fy)|(pre & y & post & pl & w & -> & Ip & D & (ma & s' & (za & zb & Ez & Ea1) & Ra & Cw & El & Em'))].
  - exfalso. destruct (embedded_in y _ _ Em Iy) as (u & z & ->). destruct (exec_log _ _ _ (exec_cut _ _ _ _ _ Ex E1)) as (r & Er).
    refine (Ok (u ++ y ++ z ++ r) _ u y (z ++ r) eq_refl Qy Fy). unfold log_of. rewrite Er, Es, <- !app_assoc. reflexivity.
  - destruct (embedded_split _ _ _ _ Em') as (u2 & z2 & -> & _). rewrite Ez in Ex.
    destruct (read_newer k rs c clk za ma (c_log c) (u2 ++ y ++ z2) (zb ++ ys1) mb ys2 m v a) as (l' & pl' & E' & Ip' & Ly & Ev); auto.
    + rewrite Cw. exists pl. split; auto. rewrite El, log_skip. apply fetched_in. auto.
    + eapply exec_join; [eapply exec_cut; eauto|exact E3].
    + eapply exec_cut; eauto.
    + exists l', pl', v. splits; auto.
Qed.
Lemma shows_started lo k rs c clk u xs m0 ys m i a : lo <= 15 -> lined lo c u -> c_log c = [] ->
  exec xs (serve rs c clk) = Some m0 -> m_wk m0 = None -> waits i xs -> exec ys m0 = Some m -> telling k ->
  nth_error rs i = Some (getter_rpc k) -> answered m i a ->
  exists s1 s2 n1 u1, xs ++ ys = s1 ++ s2 /\ exec s1 (serve rs c clk) = Some n1 /\ unit_in lo n1 u1 /\ shown u1 k a.
Proof.
  intros Lo L Z Ex Wn W Ey Tk Ri A. pose proof (exec_join _ _ _ _ _ Ex Ey) as E.
  destruct (after_start k rs c clk xs m0 ys m i a Ex Wn W Ey) as (l & pl & v & El & Ip & Ly & ->); auto.
  { eapply lined_legal; eauto. }
  { intros l El. apply (lined_queries lo rs c clk u [] (serve rs c clk) xs m0 k l); auto. }
  destruct (fetch_moment lo rs (c_log c) Idle u None u Idle (xs ++ ys) (serve rs c clk) m k pl v l Lo) as (t1 & t2 & n2 & u2 & l2 & E' & F1 & F2 & F3 & F4 & F5); auto.
  - apply inv_init. reflexivity.
  - apply tracks_init. auto.
  - exists t1, t2, n2, u2. auto.
Qed.
Lemma unit_line_lined : lined 15 unit_line vent2.
Proof. destruct (small_ok [50; 40; 8; 0; 9; 0] eq_refl eq_refl eq_refl) as (B & Ln & R). apply simulated_lined; auto. Qed.
