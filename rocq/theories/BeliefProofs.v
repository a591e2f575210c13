(** Proofs behind C128. *)
From Verif Require Import ProofBase Proto SpecProto SpecFrame SpecConn SpecLayout SpecServer SpecUnit SpecTrack ProtoProofs Scanner Conn Proc Lib QueryProofs
  FrameLemmas LayoutProofs OpLemmas Server ServerProofs ServerLemmas UnitProofs UnitClaims Machine SpecMachine MachineBase ThreadLogic MachineInv SpecFresh FreshLogic FreshInv OwnLogic OwnInv
  TrackLogic TrackInv TrackClaims SpeedLogic SpeedInv Samples SamplesServer SamplesUnit SamplesMachine SamplesSpeed SamplesBelief SpeedProofs BeliefLogic BeliefInv SpecSpeed SpecBelief.

Lemma belief_steps lo rs v0 L0 k0 u0 L1 : lo <= 15 -> forall xs wait u k m m' js, inv L1 rs wait m -> tracks lo rs L0 k0 u0 u k m -> BeliefInv.sound rs v0 u k m js ->
  exec xs m = Some m' -> exists u' k' wait', inv L1 rs wait' m' /\ tracks lo rs L0 k0 u0 u' k' m' /\ BeliefInv.sound rs v0 u' k' m' (fold_left (begin_one rs) xs js).
Proof.
  intros Lo. induction xs as [|x xs IH]; intros wait u k m m' js Iv T S E; cbn in E.
  - injection E as <-. eauto 8.
  - destruct (exec1 m x) as [m1|] eqn:E1; [|discriminate]. destruct (inv_step _ _ _ _ _ _ Iv E1) as (w' & Nx & Iv').
    destruct (tracks_step lo Lo rs L0 k0 u0 L1 wait w' u k m x m1 Iv T E1 Nx) as (u' & k' & T' & more & Em & Cm & _).
    cbn [fold_left]. eapply (IH w' u' k'); [exact Iv'|exact T'| |exact E].
    eapply (BeliefInv.sound_step lo rs v0 L1 wait u k m js x m1 u' k' more L0 k0 u0); assumption.
Qed.
Lemma speeds_believed lo rs c clk u xs m0 u0 ys m u' : lo <= 15 -> lined lo c u ->
  exec xs (serve rs c clk) = Some m0 -> Forall just_worker xs -> m_wk m0 = None -> unit_in lo m0 u0 -> exec ys m0 = Some m -> unit_in lo m u' ->
  exists dn rest b z, in_turn rs ys = dn ++ rest /\ taken_all rs m (u_mode u0) dn b z /\
    (rest = [] /\ CurrentMode (sh_prof (g_sh (m_g m))) = b /\ u_mode u' = z \/ exists i, rest = [i] /\ forall a, ~ answered m i a).
Proof.
  intros Lo L Ex J Wn U0 Ey U'.
  destruct (starting_run lo rs (c_log c) Idle u (c_log c) Lo xs None u Idle (serve rs c clk) m0 J) as (u1 & k1 & w1 & Iv1 & T1 & S1); auto.
  - apply inv_init. reflexivity.
  - apply tracks_init. exact L.
  - split; [reflexivity|]. cbn [serve m_wk m_g]. exists true, (SpeedLogic.Seated true (u_mode u) (u_mode u)), None, None. splits.
    + discriminate.
    + intros X. discriminate.
    + split; [discriminate|]. split; [congruence|]. split; [discriminate|auto].
    + apply sp_start.
  - assert (u1 = u0) by (eapply same_unit; [eapply tracks_in; eauto|exact U0]). subst u1.
    assert (S0 : BeliefInv.sound rs (u_mode u0) u0 k1 m0 []) by (eapply BeliefInv.starting_sound; eauto; apply U0).
    destruct (belief_steps lo rs (u_mode u0) (c_log c) Idle u (c_log c) Lo ys w1 u0 k1 m0 m [] Iv1 T1 S0 Ey) as (u2 & k2 & w2 & Iv2 & T2 & S2).
    assert (u2 = u') by (eapply same_unit; [eapply tracks_in; eauto|exact U']). subst u2. fold (in_turn rs ys) in S2.
    destruct S2 as (hd & dn & (_ & Cv) & Ej & Hh & Ho & Hw).
    assert (Un : forall i ph, hd = Some (i, ph) -> is_speed rs i = true -> forall a, ~ answered m i a).
    { intros i ph -> Sb a (t' & Nt' & Ra). unfold is_speed in Sb. destruct (nth_error rs i) as [q|] eqn:Nq; [|discriminate].
      destruct (Ho i q t' Nq Nt') as (pe & lw & _ & F & _). rewrite Ra in F. cbn [BeliefLogic.sp] in F. unfold BeliefLogic.outside in F. rewrite BeliefInv.seat_own in F. discriminate. }
    destruct hd as [[i ph]|]; cbn [begun BeliefInv.begun stage option_map snd] in *.
    + destruct (is_speed rs i) eqn:Sb.
      * specialize (Un i ph eq_refl Sb).
        assert (Z : exists b z, taken_all rs m (u_mode u0) dn b z) by (destruct ph as [|b v|b v t|b v t|b v t]; [eauto|destruct Cv as (Cv & _)..]; eauto). destruct Z as (b & z & Z).
        exists dn, [i], b, z. splits; auto. right. eauto.
      * assert (ph = P0) by (apply (Hh i ph eq_refl); exact Sb).
        subst ph. rewrite app_nil_r in Ej. exists dn, [], (CurrentMode (sh_prof (g_sh (m_g m)))), (u_mode u'). rewrite app_nil_r. splits; auto.
    + rewrite app_nil_r in Ej. exists dn, [], (CurrentMode (sh_prof (g_sh (m_g m)))), (u_mode u'). rewrite app_nil_r. splits; auto.
Qed.

(** Requests for one and the same speed. *)
Lemma wanted_number v a t : a <> 0 -> wanted v (SetFanSpeedR a false) t -> t = a mod 256.
Proof. intros N W. inversion W; subst; [reflexivity|congruence]. Qed.
Lemma same_once rs m v0 s is b v : taken_all rs m v0 is b v -> (forall i, In i is -> exists a, nth_error rs i = Some (SetFanSpeedR a false) /\ a <> 0 /\ a mod 256 = s) ->
  (forall i o t, In i is -> ~ answered m i (RespSpeed true o t)) \/
  (b = s /\ v = s /\ forall i j o t o' t', In i is -> In j is -> answered m i (RespSpeed true o t) -> answered m j (RespSpeed true o' t') -> i = j).
Proof.
  induction 1 as [|is b v T IH|is b v i q x b' v' T IH Q A K]; intros Same; [left; intros i o t []| |].
  - destruct (IH Same) as [H|(-> & -> & H)]; auto.
  - destruct (Same i ltac:(apply in_or_app; right; left; reflexivity)) as (a & Q' & N0 & Ea). rewrite Q in Q'. injection Q' as ->.
    assert (Same' : forall i, In i is -> exists a, nth_error rs i = Some (SetFanSpeedR a false) /\ a <> 0 /\ a mod 256 = s) by (intros; apply Same, in_or_app; auto).
    destruct (IH Same') as [H|(-> & -> & H)].
    + inversion K as [t W N|t c W N|W|y W]; subst.
      * right. rewrite (wanted_number _ _ _ N0 W). split; auto. split; auto.
        assert (U : forall k o t', In k (is ++ [i]) -> answered m k (RespSpeed true o t') -> k = i) by (intros k o t' I An; apply in_app_or in I as [I|[<-|[]]]; [destruct (H _ _ _ I An)|reflexivity]).
        intros k1 k2 o1 t1 o2 t2 I1 I2 A1 A2. rewrite (U _ _ _ I1 A1), (U _ _ _ I2 A2). reflexivity.
      * left. intros k o t' I An. apply in_app_or in I as [I|[<-|[]]]; [destruct (H _ _ _ I An)|]. discriminate (answered_same _ _ _ _ A An).
      * left. intros k o t' I An. apply in_app_or in I as [I|[<-|[]]]; [destruct (H _ _ _ I An)|]. discriminate (answered_same _ _ _ _ A An).
      * left. intros k o t' I An. apply in_app_or in I as [I|[<-|[]]]; [destruct (H _ _ _ I An)|]. discriminate (answered_same _ _ _ _ A An).
    + assert (Z : b' = s /\ v' = s /\ forall o t, x <> RespSpeed true o t).
      { inversion K as [t W N|t c W N|W|y W]; subst; try (splits; auto; discriminate); exfalso; apply N; apply (wanted_number _ _ _ N0 W). }
      destruct Z as (-> & -> & Nx). right. split; auto. split; auto.
      assert (U : forall k o t', In k (is ++ [i]) -> answered m k (RespSpeed true o t') -> In k is) by (intros k o t' I An; apply in_app_or in I as [I|[<-|[]]]; [exact I|destruct (Nx _ _ (answered_same _ _ _ _ A An))]).
      intros k1 k2 o1 t1 o2 t2 I1 I2 A1 A2. eapply H; eauto.
Qed.
Lemma speeds_once lo rs c clk u xs m0 u0 ys m u' s : lo <= 15 -> lined lo c u ->
  exec xs (serve rs c clk) = Some m0 -> Forall just_worker xs -> m_wk m0 = None -> unit_in lo m0 u0 -> exec ys m0 = Some m -> unit_in lo m u' ->
  (forall i, In i (in_turn rs ys) -> exists a, nth_error rs i = Some (SetFanSpeedR a false) /\ a <> 0 /\ a mod 256 = s) ->
  forall i j o t o' t', In i (in_turn rs ys) -> In j (in_turn rs ys) -> answered m i (RespSpeed true o t) -> answered m j (RespSpeed true o' t') -> i = j.
Proof.
  intros Lo L Ex J Wn U0 Ey U' Same i j o t o' t' I1 I2 A1 A2.
  destruct (speeds_believed lo rs c clk u xs m0 u0 ys m u' Lo L Ex J Wn U0 Ey U') as (dn & rest & b & z & Eq & T & Rest). rewrite Eq in *.
  assert (D : forall k o t, In k (dn ++ rest) -> answered m k (RespSpeed true o t) -> In k dn).
  { intros k o0 t0 I A. apply in_app_or in I as [I|I]; auto. destruct Rest as [(-> & _)|(n & -> & N)]; [destruct I|]. destruct I as [<-|[]]. destruct (N _ A). }
  destruct (same_once rs m _ s dn b z T) as [H|(_ & _ & H)]; [intros; apply Same, in_or_app; auto| |].
  - destruct (H i o t (D _ _ _ I1 A1) A1).
  - eapply H; eauto.
Qed.
(** The last one. *)
Lemma taken_last rs m v0 l i b z : taken_all rs m v0 (l ++ [i]) b z -> exists b1 v1 q a b2, nth_error rs i = Some q /\ answered m i a /\ taken b1 v1 q a b2 z.
Proof.
  intros T. remember (l ++ [i]) as is eqn:E. induction T as [|is b v T IH|is b v j q x b' v' T IH Q A K]; [destruct l; discriminate|auto|].
  apply app_inj_tail in E as [_ ->]. exists b, v, q, x, b'. auto.
Qed.
Lemma speeds_last lo rs c clk u xs m0 u0 ys m u' l i q a : lo <= 15 -> lined lo c u ->
  exec xs (serve rs c clk) = Some m0 -> Forall just_worker xs -> m_wk m0 = None -> unit_in lo m0 u0 -> exec ys m0 = Some m -> unit_in lo m u' ->
  in_turn rs ys = l ++ [i] -> nth_error rs i = Some q -> answered m i a ->
  (forall o t, a = RespSpeed true o t -> u_mode u' = t) /\ (a = RespErr (Internal ErrSetPollFailed) -> exists b, wanted b q (u_mode u')).
Proof.
  intros Lo L Ex J Wn U0 Ey U' Eq Q A.
  destruct (speeds_believed lo rs c clk u xs m0 u0 ys m u' Lo L Ex J Wn U0 Ey U') as (dn & rest & b & z & Eq' & T & Rest). rewrite Eq in Eq'.
  destruct Rest as [(-> & _ & <-)|(n & -> & N)].
  - rewrite app_nil_r in Eq'. subst dn. destruct (taken_last _ _ _ _ _ _ _ T) as (b1 & v1 & q' & a' & b2 & Q' & A' & K). rewrite Q in Q'. injection Q' as <-.
    rewrite (answered_same _ _ _ _ A A'). split.
    + intros o t ->. inversion K; subst. reflexivity.
    + intros ->. inversion K; subst. exists b1. assumption.
  - apply app_inj_tail in Eq' as [_ ->]. destruct (N _ A).
Qed.

(** ** a case *)
Lemma belief_done : worker_done (exec even_before (serve belief_reqs stuck_line 0)) = true.
Proof. vm_compute. reflexivity. Qed.
Lemma belief_mode0 : mode_of (exec even_before (serve belief_reqs stuck_line 0)) 2 = Some 2.
Proof. vm_compute. reflexivity. Qed.
Lemma belief_mode : mode_of (exec (even_before ++ belief_run) (serve belief_reqs stuck_line 0)) 2 = Some 1.
Proof. vm_compute. reflexivity. Qed.
Lemma belief_case : exists m0 u0 m u', lined 15 stuck_line vent2 /\ exec even_before (serve belief_reqs stuck_line 0) = Some m0 /\ Forall just_worker even_before /\ m_wk m0 = None /\
  unit_in 15 m0 u0 /\ exec belief_run m0 = Some m /\ unit_in 15 m u' /\ u_mode u0 = 2 /\ u_mode u' = 1.
Proof.
  destruct (small_ok [60; 60; 8; 0; 9; 0] eq_refl eq_refl eq_refl) as (B & Ln & R). pose proof (simulated_lined _ B Ln R) as L. fold stuck_line in L.
  destruct (mode_known 15 belief_reqs stuck_line 0 vent2 even_before 2 ltac:(lia) L eq_refl belief_mode0) as (m0 & u0 & E0 & U0 & M0).
  destruct (mode_known 15 belief_reqs stuck_line 0 vent2 (even_before ++ belief_run) 1 ltac:(lia) L eq_refl belief_mode) as (m & u' & E & U & M).
  pose proof belief_done as Wd. rewrite E0 in Wd.
  destruct (exec_app_inv even_before belief_run _ _ E) as (m1 & E1 & Ej). assert (Em : m1 = m0) by congruence. subst m1.
  exists m0, u0, m, u'. split; [exact L|]. split; [exact E0|]. split; [apply just_repeat|]. split; [apply done_none; exact Wd|].
  split; [exact U0|]. split; [exact Ej|]. split; [exact U|]. split; [exact M0|exact M].
Qed.
