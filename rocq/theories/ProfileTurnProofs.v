(** Proofs behind C124. *)
From Verif Require Import ProofBase Proto SpecProto SpecFrame SpecConn SpecLayout SpecServer SpecUnit SpecTrack ProtoProofs Scanner Conn Proc Lib QueryProofs
  FrameLemmas LayoutProofs OpLemmas Server ServerProofs ServerLemmas UnitProofs UnitClaims Machine SpecMachine MachineBase ThreadLogic MachineInv SpecFresh FreshLogic FreshInv OwnLogic OwnInv
  TrackLogic TrackInv TrackClaims SpeedProofs ProfileTurnLogic ProfileTurnInv Samples SamplesServer SamplesUnit SamplesMachine SamplesSpeed SamplesProfileTurns SpecSpeed SpecProfileTurns.

Section Slot.
Context (sl : nat) (Sl : (sl < 4)%nat).
Lemma starting_run lo rs L0 k0 u0 L1 : lo <= 15 -> forall xs wait u k m m', Forall just_worker xs -> inv L1 rs wait m -> tracks lo rs L0 k0 u0 u k m -> starting rs sl L0 u k m ->
  exec xs m = Some m' -> exists u' k' wait', inv L1 rs wait' m' /\ tracks lo rs L0 k0 u0 u' k' m' /\ starting rs sl L0 u' k' m'.
Proof.
  intros Lo. induction xs as [|x xs IH]; intros wait u k m m' J Iv T S E; cbn in E.
  - injection E as <-. eauto 8.
  - destruct (exec1 m x) as [m1|] eqn:E1; [|discriminate]. destruct (inv_step _ _ _ _ _ _ Iv E1) as (w' & Nx & Iv').
    destruct (tracks_step lo Lo rs L0 k0 u0 L1 wait w' u k m x m1 Iv T E1 Nx) as (u' & k' & T' & more & Em & Cm & _).
    inversion J; subst. eapply (IH w' u' k'); [assumption|exact Iv'|exact T'| |exact E]. eapply (starting_step lo rs sl Sl L1 wait u k m x m1 u' k' more L0 k0 u0); assumption.
Qed.
Lemma sound_steps lo rs v0 L0 k0 u0 L1 : lo <= 15 -> forall xs wait u k m m' js, inv L1 rs wait m -> tracks lo rs L0 k0 u0 u k m -> sound rs sl v0 u k m js ->
  exec xs m = Some m' -> exists u' k' wait', inv L1 rs wait' m' /\ tracks lo rs L0 k0 u0 u' k' m' /\ sound rs sl v0 u' k' m' (fold_left (begin_set rs sl) xs js).
Proof.
  intros Lo. induction xs as [|x xs IH]; intros wait u k m m' js Iv T S E; cbn in E.
  - injection E as <-. eauto 8.
  - destruct (exec1 m x) as [m1|] eqn:E1; [|discriminate]. destruct (inv_step _ _ _ _ _ _ Iv E1) as (w' & Nx & Iv').
    destruct (tracks_step lo Lo rs L0 k0 u0 L1 wait w' u k m x m1 Iv T E1 Nx) as (u' & k' & T' & more & Em & Cm & _).
    cbn [fold_left]. eapply (IH w' u' k'); [exact Iv'|exact T'| |exact E].
    eapply (sound_step lo rs sl Sl v0 L1 wait u k m js x m1 u' k' more L0 k0 u0); assumption.
Qed.
Lemma profiles_turn lo rs c clk u xs m0 u0 ys m u' : lo <= 15 -> lined lo c u ->
  exec xs (serve rs c clk) = Some m0 -> Forall just_worker xs -> m_wk m0 = None -> unit_in lo m0 u0 -> exec ys m0 = Some m -> unit_in lo m u' ->
  exists dn rest z, sets_in_turn rs sl ys = dn ++ rest /\ set_steps rs m (nth sl (u_in u0) 0) dn z /\
    (rest = [] /\ nth sl (u_in u') 0 = z \/ exists i, rest = [i] /\ forall a, ~ answered m i a).
Proof.
  intros Lo L Ex J Wn U0 Ey U'.
  destruct (starting_run lo rs (c_log c) Idle u (c_log c) Lo xs None u Idle (serve rs c clk) m0 J) as (u1 & k1 & w1 & Iv1 & T1 & S1); auto.
  - apply inv_init. reflexivity.
  - apply tracks_init. exact L.
  - split; [reflexivity|]. cbn [serve m_wk m_g]. exists true, (Seated true (part sl u) (part sl u)), None, None. splits.
    + discriminate.
    + intros X. discriminate.
    + split; [discriminate|]. split; [congruence|]. split; [discriminate|auto].
    + apply sp_start. exact Sl.
  - assert (u1 = u0) by (eapply same_unit; [eapply tracks_in; eauto|exact U0]). subst u1.
    assert (S0 : sound rs sl (part sl u0) u0 k1 m0 []) by (eapply starting_sound; eauto).
    destruct (sound_steps lo rs (part sl u0) (c_log c) Idle u (c_log c) Lo ys w1 u0 k1 m0 m [] Iv1 T1 S0 Ey) as (u2 & k2 & w2 & Iv2 & T2 & S2).
    assert (u2 = u') by (eapply same_unit; [eapply tracks_in; eauto|exact U']). subst u2. fold (sets_in_turn rs sl ys) in S2.
    destruct S2 as (dirty & hd & dn & Cl & Hn & Ej & Sp & Hh & Ho & Hw). exists dn, (begun rs sl hd), (reached sl hd u'). split; [exact Ej|]. split; [exact Sp|].
    destruct hd as [[i s]|]; [|left; split; reflexivity]. destruct (Hh i s eq_refl) as ((t & Nt & _) & Sf). cbn [reached begun]. destruct (is_set rs sl i) eqn:Sb.
    + right. exists i. split; [reflexivity|]. intros a (t' & Nt' & Ra). rewrite Nt in Nt'. injection Nt' as <-.
      assert (Nq : exists q, nth_error rs i = Some q) by (unfold is_set in Sb; destruct (nth_error rs i); [eauto|discriminate]). destruct Nq as (q & Nq).
      destruct (Ho i q t Nq Nt) as (pe & lw & _ & F & _). rewrite Ra in F. cbn [sp] in F. unfold outside in F. rewrite seat_own in F. discriminate.
    + left. split; [reflexivity|]. symmetry. apply (Sf eq_refl).
Qed.
End Slot.

Lemma steps_last rs m v is z : set_steps rs m v is z -> forall l i p t, is = l ++ [i] -> nth_error rs i = Some (SetFanProfileR p t) -> z = t mod 256.
Proof.
  intros S. induction S as [v|v i is w a z q N A O S IH]; intros l j p t E Nj; [destruct l; discriminate|].
  destruct l as [|y l].
  - cbn in E. injection E as <- ->. inversion S; subst. rewrite N in Nj. injection Nj as ->. inversion O; subst; congruence.
  - cbn in E. injection E as _ E. eauto.
Qed.
(** The last one decides. *)
Lemma profiles_last sl lo rs c clk u xs m0 u0 ys m u' : (sl < 4)%nat -> lo <= 15 -> lined lo c u ->
  exec xs (serve rs c clk) = Some m0 -> Forall just_worker xs -> m_wk m0 = None -> unit_in lo m0 u0 -> exec ys m0 = Some m -> unit_in lo m u' ->
  (forall i, In i (sets_in_turn rs sl ys) -> exists a, answered m i a) ->
  match rev (sets_in_turn rs sl ys) with
  | i :: _ => exists p t, nth_error rs i = Some (SetFanProfileR p t) /\ nth sl (u_in u') 0 = t mod 256
  | [] => nth sl (u_in u') 0 = nth sl (u_in u0) 0
  end.
Proof.
  intros Sl Lo L Ex J Wn U0 Ey U' An. destruct (profiles_turn sl Sl lo rs c clk u xs m0 u0 ys m u' Lo L Ex J Wn U0 Ey U') as (dn & rest & z & E & S & R).
  assert (Z : sets_in_turn rs sl ys = dn /\ nth sl (u_in u') 0 = z).
  { destruct R as [(-> & R)|(i & -> & R)]; [rewrite app_nil_r in E; auto|]. destruct (An i) as (a & A); [rewrite E; apply in_or_app; right; left; reflexivity|]. destruct (R a A). }
  destruct Z as [-> ->]. destruct (rev dn) as [|i l] eqn:Er.
  - assert (dn = []) by (rewrite <- (rev_involutive dn), Er; reflexivity). subst dn. inversion S; subst. reflexivity.
  - assert (Ed : dn = rev l ++ [i]) by (rewrite <- (rev_involutive dn), Er; reflexivity).
    assert (Q : exists q, nth_error rs i = Some q /\ exists a v w, set_step v q a w).
    { clear -S Ed. revert Ed. generalize (rev l). clear l. induction S as [v|v j is w a z q N A O S IH]; intros l E; [destruct l; discriminate|]. destruct l as [|y l]; cbn in E; injection E as -> E; [eauto 8|eauto]. }
    destruct Q as (q & Nq & a & v & w & O). assert (Es : exists p t, q = SetFanProfileR p t) by (destruct O; eauto). destruct Es as (p & t & ->). exists p, t. split; auto. eapply steps_last; eauto.
Qed.
(** The requests in turn are those that have begun, each once. *)
Lemma set_in rs sl xs : forall js i, In i (fold_left (begin_set rs sl) xs js) <-> In i js \/ (is_set rs sl i = true /\ In (Run i) xs).
Proof.
  induction xs as [|x xs IH]; intros js i; cbn [fold_left In].
  - intuition.
  - rewrite IH. destruct x as [j| |d|tk|j|j]; cbn [begin_set]; try (intuition discriminate).
    destruct (is_set rs sl j) eqn:Sb; cbn [andb].
    + destruct (listed j js) eqn:Lj; cbn [negb].
      * apply SpeedInv.listed_in in Lj. split; [intuition|]. intros [I|[S [E|I]]]; auto. injection E as ->. auto.
      * rewrite in_app_iff. cbn [In]. split; [intuition (subst; auto)|]. intros [I|[S [E|I]]]; auto. injection E as ->. auto.
    + split; [intuition|]. intros [I|[S [E|I]]]; auto. injection E as ->. congruence.
Qed.
Lemma set_nodup rs sl xs : forall js, NoDup js -> NoDup (fold_left (begin_set rs sl) xs js).
Proof.
  induction xs as [|x xs IH]; intros js N; cbn [fold_left]; auto. apply IH. destruct x as [j| |d|tk|j|j]; cbn [begin_set]; auto.
  destruct (is_set rs sl j && _) eqn:E; auto. apply andb_true_iff in E as [_ E]. apply negb_true_iff in E.
  assert (Nj : ~ In j js) by (rewrite <- SpeedInv.listed_in; congruence). apply nodup_snoc; auto.
Qed.
Lemma sets_all rs sl xs : NoDup (sets_in_turn rs sl xs) /\ forall i, In i (sets_in_turn rs sl xs) <-> is_set rs sl i = true /\ In (Run i) xs.
Proof.
  split; [apply set_nodup; constructor|]. intros i. unfold sets_in_turn. rewrite set_in. cbn. intuition.
Qed.

(** ** a case *)
Lemma turn_case ys : worker_done (exec even_before (serve turn_reqs even_line 0)) = true -> 
  match exec (even_before ++ ys) (serve turn_reqs even_line 0) with Some _ => true | None => false end = true ->
  exists m0 u0 m u', lined 15 even_line even_vent /\ exec even_before (serve turn_reqs even_line 0) = Some m0 /\ Forall just_worker even_before /\ m_wk m0 = None /\
  unit_in 15 m0 u0 /\ exec ys m0 = Some m /\ unit_in 15 m u' /\ exec (even_before ++ ys) (serve turn_reqs even_line 0) = Some m.
Proof.
  intros Wd W. pose proof even_line_lined as L.
  destruct (exec (even_before ++ ys) (serve turn_reqs even_line 0)) as [m|] eqn:E; [|discriminate]. clear W.
  destruct (exec_app_inv even_before ys _ _ E) as (m0 & E0 & Ej). rewrite E0 in Wd.
  destruct (mode_after 15 turn_reqs even_line 0 even_vent even_before m0 ltac:(lia) L eq_refl E0) as (u0 & U0 & _).
  destruct (mode_after 15 turn_reqs even_line 0 even_vent (even_before ++ ys) m ltac:(lia) L eq_refl E) as (u' & U' & _).
  exists m0, u0, m, u'. split; [exact L|]. split; [exact E0|]. split; [apply just_repeat|]. split; [apply done_none; exact Wd|].
  split; [exact U0|]. split; [exact Ej|]. split; [exact U'|]. reflexivity.
Qed.
Definition told_all (o : option (machine resp)) (is : list nat) : bool := forallb (told_at o) is.
Lemma turn_ex1 : exists m0 u0 m u', lined 15 even_line even_vent /\ exec even_before (serve turn_reqs even_line 0) = Some m0 /\ Forall just_worker even_before /\ m_wk m0 = None /\
  unit_in 15 m0 u0 /\ exec turn_during m0 = Some m /\ unit_in 15 m u'.
Proof. destruct (turn_case turn_during) as (m0 & u0 & m & u' & A & B & C & D & E & F & G & _); [vm_compute; reflexivity|vm_compute; reflexivity|]. exists m0, u0, m, u'. splits; assumption. Qed.
Lemma turn_ex2 : exists m0 u0 m u', lined 15 even_line even_vent /\ exec even_before (serve turn_reqs even_line 0) = Some m0 /\ Forall just_worker even_before /\ m_wk m0 = None /\
  unit_in 15 m0 u0 /\ exec (turn_during ++ turn_after) m0 = Some m /\ unit_in 15 m u' /\ (forall i, In i (sets_in_turn turn_reqs 1 (turn_during ++ turn_after)) -> exists a, answered m i a).
Proof.
  destruct (turn_case (turn_during ++ turn_after)) as (m0 & u0 & m & u' & A & B & C & D & E & F & G & H); [vm_compute; reflexivity|vm_compute; reflexivity|].
  exists m0, u0, m, u'. split; [assumption|]. split; [assumption|]. split; [assumption|]. split; [assumption|]. split; [assumption|]. split; [assumption|]. split; [assumption|].
  assert (W : told_all (exec (even_before ++ turn_during ++ turn_after) (serve turn_reqs even_line 0)) (sets_in_turn turn_reqs 1 (turn_during ++ turn_after)) = true) by (vm_compute; reflexivity).
  rewrite H in W. intros i I. unfold told_all in W. rewrite forallb_forall in W. destruct (told_answered i m (W i I)) as (a & Aa & _). exists a. exact Aa.
Qed.
