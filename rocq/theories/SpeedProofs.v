(** Proofs behind C122. *)
From Verif Require Import ProofBase Proto SpecProto SpecFrame SpecConn SpecLayout SpecServer SpecUnit SpecTrack ProtoProofs Scanner Conn Proc Lib QueryProofs
  FrameLemmas LayoutProofs OpLemmas Server ServerProofs ServerLemmas UnitProofs UnitClaims Machine SpecMachine MachineBase ThreadLogic MachineInv SpecFresh FreshLogic FreshInv OwnLogic OwnInv
  TrackLogic TrackInv TrackClaims SpeedLogic SpeedInv Samples SamplesServer SamplesUnit SamplesMachine SamplesSpeed SpecSpeed.

Lemma starting_run lo rs L0 k0 u0 L1 : lo <= 15 -> forall xs wait u k m m', Forall just_worker xs -> inv L1 rs wait m -> tracks lo rs L0 k0 u0 u k m -> starting rs L0 u k m ->
  exec xs m = Some m' -> exists u' k' wait', inv L1 rs wait' m' /\ tracks lo rs L0 k0 u0 u' k' m' /\ starting rs L0 u' k' m'.
Proof.
  intros Lo. induction xs as [|x xs IH]; intros wait u k m m' J Iv T S E; cbn in E.
  - injection E as <-. eauto 8.
  - destruct (exec1 m x) as [m1|] eqn:E1; [|discriminate]. destruct (inv_step _ _ _ _ _ _ Iv E1) as (w' & Nx & Iv').
    destruct (tracks_step lo Lo rs L0 k0 u0 L1 wait w' u k m x m1 Iv T E1 Nx) as (u' & k' & T' & more & Em & Cm & _).
    inversion J; subst. eapply (IH w' u' k'); [assumption|exact Iv'|exact T'| |exact E]. eapply (starting_step lo rs L1 wait u k m x m1 u' k' more L0 k0 u0); assumption.
Qed.
Lemma sound_steps lo rs v0 L0 k0 u0 L1 : lo <= 15 -> forall xs wait u k m m' js, inv L1 rs wait m -> tracks lo rs L0 k0 u0 u k m -> sound rs v0 u k m js \/ broken m js ->
  exec xs m = Some m' -> exists u' k' wait', inv L1 rs wait' m' /\ tracks lo rs L0 k0 u0 u' k' m' /\
    (sound rs v0 u' k' m' (fold_left (begin_one rs) xs js) \/ broken m' (fold_left (begin_one rs) xs js)).
Proof.
  intros Lo. induction xs as [|x xs IH]; intros wait u k m m' js Iv T S E; cbn in E.
  - injection E as <-. eauto 8.
  - destruct (exec1 m x) as [m1|] eqn:E1; [|discriminate]. destruct (inv_step _ _ _ _ _ _ Iv E1) as (w' & Nx & Iv').
    destruct (tracks_step lo Lo rs L0 k0 u0 L1 wait w' u k m x m1 Iv T E1 Nx) as (u' & k' & T' & more & Em & Cm & _).
    cbn [fold_left]. eapply (IH w' u' k'); [exact Iv'|exact T'| |exact E].
    destruct S as [S|S]; [eapply (sound_step lo rs v0 L1 wait u k m js x m1 u' k' more L0 k0 u0); assumption|right; eapply broken_run; eauto].
Qed.
Lemma same_unit lo {A} (m : machine A) u u' : unit_in lo m u -> unit_in lo m u' -> u = u'.
Proof. intros [A1 V1] [A2 V2]. eapply unit_unique; eauto. Qed.
Lemma answered_same {A} (m : machine A) i a b : answered m i a -> answered m i b -> a = b.
Proof. intros (t & N & R) (t' & N' & R'). congruence. Qed.

Lemma speeds_in_turn lo rs c clk u xs m0 u0 ys m u' : lo <= 15 -> lined lo c u ->
  exec xs (serve rs c clk) = Some m0 -> Forall just_worker xs -> m_wk m0 = None -> unit_in lo m0 u0 -> exec ys m0 = Some m -> unit_in lo m u' ->
  (forall i, In i (in_turn rs ys) -> exists a, answered m i a /\ a <> RespErr (Internal ErrSetPollFailed)) ->
  steps rs m (u_mode u0) (in_turn rs ys) (u_mode u').
Proof.
  intros Lo L Ex J Wn U0 Ey U' An.
  destruct (starting_run lo rs (c_log c) Idle u (c_log c) Lo xs None u Idle (serve rs c clk) m0 J) as (u1 & k1 & w1 & Iv1 & T1 & S1); auto.
  - apply inv_init. reflexivity.
  - apply tracks_init. exact L.
  - split; [reflexivity|]. cbn [serve m_wk m_g]. exists true, (Seated true (u_mode u) (u_mode u)), None, None. splits.
    + discriminate.
    + intros X. discriminate.
    + split; [discriminate|]. split; [congruence|]. split; [discriminate|auto].
    + apply sp_start.
  - assert (u1 = u0) by (eapply same_unit; [eapply tracks_in; eauto|exact U0]). subst u1.
    assert (S0 : sound rs (u_mode u0) u0 k1 m0 []) by (eapply starting_sound; eauto).
    destruct (sound_steps lo rs (u_mode u0) (c_log c) Idle u (c_log c) Lo ys w1 u0 k1 m0 m [] Iv1 T1 (or_introl S0) Ey) as (u2 & k2 & w2 & Iv2 & T2 & S2).
    assert (u2 = u') by (eapply same_unit; [eapply tracks_in; eauto|exact U']). subst u2. fold (in_turn rs ys) in S2.
    destruct S2 as [(dirty & hd & dn & Cl & Hn & Ej & Sp & Hh & Ho & Hw)|(i & I & B)].
    + destruct hd as [[i s]|].
      * destruct (Hh i s eq_refl) as ((t & Nt & _) & Sf). cbn [reached begun] in *. destruct (is_speed rs i) eqn:Sb.
        -- exfalso. destruct (An i) as (a & (t' & Nt' & Ra) & _); [rewrite Ej; apply in_or_app; right; left; reflexivity|]. rewrite Nt in Nt'. injection Nt' as <-.
           assert (Nq : exists q, nth_error rs i = Some q) by (unfold is_speed in Sb; destruct (nth_error rs i); [eauto|discriminate]). destruct Nq as (q & Nq).
           destruct (Ho i q t Nq Nt) as (pe & lw & _ & F & _). rewrite Ra in F. cbn [sp] in F. unfold outside in F. rewrite seat_own in F. discriminate.
        -- rewrite app_nil_r in Ej. rewrite Ej, <- (Sf eq_refl). exact Sp.
      * cbn [begun reached] in *. rewrite app_nil_r in Ej. rewrite Ej. exact Sp.
    + exfalso. destruct (An i I) as (a & A & N). apply N. eapply answered_same; eauto.
Qed.

(** Only steps up, only steps down. *)
Lemma ups_add rs m v is z : steps rs m v is z -> 0 <= v <= 4 -> (forall i, In i is -> nth_error rs i = Some (SetFanSpeedR 0 true)) -> z = Z.min 4 (v + Z.of_nat (length is)).
Proof.
  intros S. induction S as [v|v i is w a z q N A O S IH]; intros V U; [cbn; lia|].
  assert (q = SetFanSpeedR 0 true) by (rewrite (U i (or_introl eq_refl)) in N; congruence). subst q.
  assert (W : w = Z.min 4 (v + 1)).
  { inversion O as [t Wa Nt|Wa|x Nw]; subst.
    - inversion Wa; subst; try congruence; lia.
    - inversion Wa; subst; try congruence; lia.
    - destruct (Z_le_gt_dec (w + 1) 4) as [L|L]; [destruct (Nw (w + 1)); apply wa_up; exact L|lia]. }
  rewrite IH; [cbn [length]; lia|lia|]. intros j I. apply U. right. exact I.
Qed.
Lemma downs_add rs m v is z : steps rs m v is z -> 1 <= v <= 4 -> (forall i, In i is -> nth_error rs i = Some (SetFanSpeedR 0 false)) -> z = Z.max 1 (v - Z.of_nat (length is)).
Proof.
  intros S. induction S as [v|v i is w a z q N A O S IH]; intros V U; [cbn; lia|].
  assert (q = SetFanSpeedR 0 false) by (rewrite (U i (or_introl eq_refl)) in N; congruence). subst q.
  assert (W : w = Z.max 1 (v - 1)).
  { inversion O as [t Wa Nt|Wa|x Nw]; subst.
    - inversion Wa; subst; try congruence; lia.
    - inversion Wa; subst; try congruence; lia.
    - destruct (Z_le_gt_dec 1 (w - 1)) as [L|L]; [destruct (Nw (w - 1)); apply wa_down; exact L|lia]. }
  rewrite IH; [cbn [length]; lia|lia|]. intros j I. apply U. right. exact I.
Qed.
Lemma speeds_up lo rs c clk u xs m0 u0 ys m u' : lo <= 15 -> lined lo c u ->
  exec xs (serve rs c clk) = Some m0 -> Forall just_worker xs -> m_wk m0 = None -> unit_in lo m0 u0 -> exec ys m0 = Some m -> unit_in lo m u' ->
  (forall i, In i (in_turn rs ys) -> exists a, answered m i a /\ a <> RespErr (Internal ErrSetPollFailed)) ->
  (forall i, In i (in_turn rs ys) -> nth_error rs i = Some (SetFanSpeedR 0 true)) ->
  u_mode u' = Z.min 4 (u_mode u0 + Z.of_nat (length (in_turn rs ys))).
Proof.
  intros Lo L Ex J Wn U0 Ey U' An Up. eapply ups_add; [eapply (speeds_in_turn lo); eauto| |exact Up]. destruct U0 as [_ (_ & _ & _ & _ & V & _)]. exact V.
Qed.
Lemma speeds_down lo rs c clk u xs m0 u0 ys m u' : lo <= 15 -> lined lo c u ->
  exec xs (serve rs c clk) = Some m0 -> Forall just_worker xs -> m_wk m0 = None -> unit_in lo m0 u0 -> exec ys m0 = Some m -> unit_in lo m u' ->
  (forall i, In i (in_turn rs ys) -> exists a, answered m i a /\ a <> RespErr (Internal ErrSetPollFailed)) ->
  (forall i, In i (in_turn rs ys) -> nth_error rs i = Some (SetFanSpeedR 0 false)) -> u_mode u0 <> 0 ->
  u_mode u' = Z.max 1 (u_mode u0 - Z.of_nat (length (in_turn rs ys))).
Proof.
  intros Lo L Ex J Wn U0 Ey U' An Up N0. eapply downs_add; [eapply (speeds_in_turn lo); eauto| |exact Up]. destruct U0 as [_ (_ & _ & _ & _ & V & _)]. lia.
Qed.

(** The requests in turn are those for a speed that have begun, each once. *)
Lemma begin_in rs xs : forall js i, In i (fold_left (begin_one rs) xs js) <-> In i js \/ (is_speed rs i = true /\ In (Run i) xs).
Proof.
  induction xs as [|x xs IH]; intros js i; cbn [fold_left In].
  - intuition.
  - rewrite IH. destruct x as [j| |d|tk|j|j]; cbn [begin_one]; try (intuition discriminate).
    destruct (is_speed rs j) eqn:Sb; cbn [andb].
    + destruct (listed j js) eqn:Lj; cbn [negb].
      * apply listed_in in Lj. split; [intuition|]. intros [I|[S [E|I]]]; auto. injection E as ->. auto.
      * rewrite in_app_iff. cbn [In]. split; [intuition (subst; auto)|]. intros [I|[S [E|I]]]; auto. injection E as ->. auto.
    + split; [intuition|]. intros [I|[S [E|I]]]; auto. injection E as ->. congruence.
Qed.
Lemma nodup_snoc {A} (j : A) l : NoDup l -> ~ In j l -> NoDup (l ++ [j]).
Proof.
  intros N. induction N as [|y l Ny N IHl]; intros Nj; cbn [app]; [constructor; [exact Nj|constructor]|].
  constructor; [rewrite in_app_iff; cbn [In] in *; intuition (subst; intuition)|]. apply IHl. intros I. apply Nj. right. exact I.
Qed.
Lemma begin_nodup rs xs : forall js, NoDup js -> NoDup (fold_left (begin_one rs) xs js).
Proof.
  induction xs as [|x xs IH]; intros js N; cbn [fold_left]; auto. apply IH. destruct x as [j| |d|tk|j|j]; cbn [begin_one]; auto.
  destruct (is_speed rs j && _) eqn:E; auto. apply andb_true_iff in E as [_ E]. apply negb_true_iff in E.
  assert (Nj : ~ In j js) by (rewrite <- listed_in; congruence). apply nodup_snoc; auto.
Qed.
Lemma in_turn_all rs xs : NoDup (in_turn rs xs) /\ forall i, In i (in_turn rs xs) <-> is_speed rs i = true /\ In (Run i) xs.
Proof.
  split; [apply begin_nodup; constructor|]. intros i. unfold in_turn. rewrite begin_in. cbn. intuition.
Qed.

(** ** witnesses *)
Definition set_to (v : Z) (x : io) : Z := match x with Wr bs _ => match request_of bs with Some (153, [w]) => w | _ => v end | _ => v end.
Lemma course_mode rs k u l k' u' : course rs k u l k' u' -> u_mode u' = fold_left set_to l (u_mode u).
Proof.
  intros C. induction C as [|l k1 u1 x k2 u2 C IH T]; auto. rewrite fold_left_app. cbn [fold_left]. rewrite <- IH.
  destruct T as [gr G|gr pl B D5 D9|t I Th T|a b v I M|m t o1 o2 o3 o4 i1 i2 i3 i4 I M u1' d1 W| |]; cbn [set_to]; try reflexivity;
    try (rewrite request_framed; reflexivity).
  rewrite request_framed. simpl in G. intuition (subst; reflexivity).
Qed.
Lemma even_vent_ok : vent_ok 15 even_vent.
Proof. unfold vent_ok, even_vent, byte_ok. cbn. splits; auto; try lia; repeat apply Forall_cons; try apply Forall_nil; lia. Qed.
Lemma even_line_lined : lined 15 even_line even_vent.
Proof.
  destruct (small_ok even_fans eq_refl eq_refl eq_refl) as (B & Ln & R). unfold lined. splits; [split; reflexivity| | |apply even_vent_ok].
  - apply simulator_unit; auto using even_vent_ok.
  - apply simulator_clear; auto using even_vent_ok.
Qed.
(** The mode of the unit after an execution, from the log. *)
Lemma mode_after lo rs c clk u xs m : lo <= 15 -> lined lo c u -> c_log c = [] -> exec xs (serve rs c clk) = Some m ->
  exists u', unit_in lo m u' /\ u_mode u' = fold_left set_to (log_of m) (u_mode u).
Proof.
  intros Lo L E Ex. destruct (unit_course lo rs c clk u xs m Lo L Ex) as (l & k & u' & El & C & U). rewrite E in El. cbn in El. subst l.
  exists u'. split; auto. eapply course_mode; eauto.
Qed.
Definition mode_of (o : option (machine resp)) (v : Z) : option Z := match o with Some m => Some (fold_left set_to (log_of m) v) | None => None end.
Lemma mode_known lo rs c clk u xs v : lo <= 15 -> lined lo c u -> c_log c = [] -> mode_of (exec xs (serve rs c clk)) (u_mode u) = Some v ->
  exists m u', exec xs (serve rs c clk) = Some m /\ unit_in lo m u' /\ u_mode u' = v.
Proof.
  intros Lo L E M. destruct (exec xs (serve rs c clk)) as [m|] eqn:Ex; [|discriminate]. cbn [mode_of] in M. injection M as M.
  destruct (mode_after lo rs c clk u xs m Lo L E Ex) as (u' & U & Eu). exists m, u'. split; auto. split; auto. congruence.
Qed.
Definition failed_at (i : nat) (o : option (machine resp)) : bool := match o with
  | Some m => match nth_error (m_ts m) i with Some t => match t_p t with Ret (RespErr (Internal ErrSetPollFailed)) => true | _ => false end | None => false end | None => false end.
Lemma failed_answered i m : failed_at i (Some m) = true -> answered m i (RespErr (Internal ErrSetPollFailed)).
Proof.
  unfold failed_at, answered. destruct (nth_error (m_ts m) i) as [[p h]|]; [|discriminate]. cbn [t_p]. intros W. exists (mkThread p h). split; [reflexivity|]. cbn [t_p].
  destruct p as [a| | | | | | | | | | | | | |]; try discriminate. destruct a as [| | | | | | | | | |[|e]]; try discriminate. destruct e; try discriminate. reflexivity.
Qed.
Definition worker_done (o : option (machine resp)) : bool := match o with Some m => match m_wk m with None => true | _ => false end | None => false end.
Lemma done_none m : worker_done (Some m) = true -> m_wk m = None.
Proof. unfold worker_done. destruct (m_wk m); [discriminate|reflexivity]. Qed.
Lemma stuck_done : worker_done (exec even_before (serve stuck_reqs stuck_line 0)) = true.
Proof. vm_compute. reflexivity. Qed.
Lemma stuck_failed : let o := exec (even_before ++ stuck_during) (serve stuck_reqs stuck_line 0) in failed_at 0 o && failed_at 1 o = true.
Proof. vm_compute. reflexivity. Qed.
Lemma stuck_mode0 : mode_of (exec even_before (serve stuck_reqs stuck_line 0)) 2 = Some 2.
Proof. vm_compute. reflexivity. Qed.
Lemma stuck_mode : mode_of (exec (even_before ++ stuck_during) (serve stuck_reqs stuck_line 0)) 2 = Some 3.
Proof. vm_compute. reflexivity. Qed.
Lemma just_repeat n : Forall just_worker (repeat RunWk n).
Proof. apply Forall_forall. intros x I. apply repeat_spec in I. subst x. exact Logic.I. Qed.
Lemma speeds_lost : exists c u xs m0 u0 ys m u', lined 15 c u /\ exec xs (serve [SetFanSpeedR 0 true; SetFanSpeedR 0 true] c 0) = Some m0 /\ Forall just_worker xs /\ m_wk m0 = None /\
  unit_in 15 m0 u0 /\ exec ys m0 = Some m /\ unit_in 15 m u' /\ in_turn [SetFanSpeedR 0 true; SetFanSpeedR 0 true] ys = [0; 1]%nat /\
  answered m 0 (RespErr (Internal ErrSetPollFailed)) /\ answered m 1 (RespErr (Internal ErrSetPollFailed)) /\ u_mode u0 = 2 /\ u_mode u' = 3.
Proof.
  destruct (small_ok [60; 60; 8; 0; 9; 0] eq_refl eq_refl eq_refl) as (B & Ln & R). pose proof (simulated_lined _ B Ln R) as L. fold stuck_line in L. fold stuck_reqs.
  destruct (mode_known 15 stuck_reqs stuck_line 0 vent2 even_before 2 ltac:(lia) L eq_refl stuck_mode0) as (m0 & u0 & E0 & U0 & M0).
  destruct (mode_known 15 stuck_reqs stuck_line 0 vent2 (even_before ++ stuck_during) 3 ltac:(lia) L eq_refl stuck_mode) as (m & u' & E & U & M).
  pose proof stuck_done as Wd. rewrite E0 in Wd. pose proof stuck_failed as Wf. cbv zeta in Wf. rewrite E in Wf. apply andb_true_iff in Wf as [W0 W1].
  destruct (exec_app_inv even_before stuck_during _ _ E) as (m1 & E1 & Ej). assert (Em : m1 = m0) by congruence. subst m1.
  exists stuck_line, vent2, even_before, m0, u0, stuck_during, m, u'.
  split; [exact L|]. split; [exact E0|]. split; [apply just_repeat|]. split; [apply done_none; exact Wd|].
  split; [exact U0|]. split; [exact Ej|]. split; [exact U|]. split; [vm_compute; reflexivity|]. split; [apply failed_answered; exact W0|]. split; [apply failed_answered; exact W1|]. split; [exact M0|exact M].
Qed.
(** Executions that meet what is asked for. *)
Definition told_at (o : option (machine resp)) (i : nat) : bool := match o with
  | Some m => match nth_error (m_ts m) i with Some t => match t_p t with Ret (RespErr (Internal _)) => false | Ret _ => true | _ => false end | None => false end | None => false end.
Lemma told_answered i m : told_at (Some m) i = true -> exists a, answered m i a /\ a <> RespErr (Internal ErrSetPollFailed).
Proof.
  unfold told_at, answered. destruct (nth_error (m_ts m) i) as [[p h]|]; [|discriminate]. cbn [t_p]. intros W.
  destruct p as [a| | | | | | | | | | | | | |]; try discriminate. exists a. split; [eexists; split; [reflexivity|reflexivity]|]. intros ->. discriminate.
Qed.
Lemma speed_case rs ys v : worker_done (exec even_before (serve rs even_line 0)) = true -> mode_of (exec even_before (serve rs even_line 0)) 2 = Some 2 ->
  mode_of (exec (even_before ++ ys) (serve rs even_line 0)) 2 = Some v -> forallb (told_at (exec (even_before ++ ys) (serve rs even_line 0))) (in_turn rs ys) = true ->
  exists m0 u0 m u', lined 15 even_line even_vent /\ exec even_before (serve rs even_line 0) = Some m0 /\ Forall just_worker even_before /\ m_wk m0 = None /\
  unit_in 15 m0 u0 /\ exec ys m0 = Some m /\ unit_in 15 m u' /\ (forall i, In i (in_turn rs ys) -> exists a, answered m i a /\ a <> RespErr (Internal ErrSetPollFailed)) /\
  u_mode u0 = 2 /\ u_mode u' = v.
Proof.
  intros Wd M0 M1 W. pose proof even_line_lined as L.
  destruct (mode_known 15 rs even_line 0 even_vent even_before 2 ltac:(lia) L eq_refl M0) as (m0 & u0 & E0 & U0 & V0).
  destruct (mode_known 15 rs even_line 0 even_vent (even_before ++ ys) v ltac:(lia) L eq_refl M1) as (m & u' & E & U & V).
  rewrite E0 in Wd. rewrite E in W. destruct (exec_app_inv even_before ys _ _ E) as (m1 & E1 & Ej). assert (Em : m1 = m0) by congruence. subst m1.
  exists m0, u0, m, u'. split; [exact L|]. split; [exact E0|]. split; [apply just_repeat|]. split; [apply done_none; exact Wd|].
  split; [exact U0|]. split; [exact Ej|]. split; [exact U|]. split; [|split; [exact V0|exact V]].
  intros i I. apply told_answered. rewrite forallb_forall in W. apply W. exact I.
Qed.
Lemma even_case : exists m0 u0 m u', lined 15 even_line even_vent /\ exec even_before (serve even_reqs even_line 0) = Some m0 /\ Forall just_worker even_before /\ m_wk m0 = None /\
  unit_in 15 m0 u0 /\ exec (even_during ++ even_after) m0 = Some m /\ unit_in 15 m u' /\
  (forall i, In i (in_turn even_reqs (even_during ++ even_after)) -> exists a, answered m i a /\ a <> RespErr (Internal ErrSetPollFailed)) /\ u_mode u0 = 2 /\ u_mode u' = 3.
Proof. apply speed_case; vm_compute; reflexivity. Qed.
Lemma even_up_case : exists m0 u0 m u', lined 15 even_line even_vent /\ exec even_before (serve even_reqs even_line 0) = Some m0 /\ Forall just_worker even_before /\ m_wk m0 = None /\
  unit_in 15 m0 u0 /\ exec even_ups m0 = Some m /\ unit_in 15 m u' /\
  (forall i, In i (in_turn even_reqs even_ups) -> exists a, answered m i a /\ a <> RespErr (Internal ErrSetPollFailed)) /\ u_mode u0 = 2 /\ u_mode u' = 4.
Proof. apply speed_case; vm_compute; reflexivity. Qed.
Lemma even_down_case : exists m0 u0 m u', lined 15 even_line even_vent /\ exec even_before (serve down_reqs even_line 0) = Some m0 /\ Forall just_worker even_before /\ m_wk m0 = None /\
  unit_in 15 m0 u0 /\ exec even_downs m0 = Some m /\ unit_in 15 m u' /\
  (forall i, In i (in_turn down_reqs even_downs) -> exists a, answered m i a /\ a <> RespErr (Internal ErrSetPollFailed)) /\ u_mode u0 = 2 /\ u_mode u' = 1.
Proof. apply speed_case; vm_compute; reflexivity. Qed.
