(** Of requests for the same only the first changes something (C127). *)
From Verif Require Import ProofBase Conn Proc Lib Server SpecServer SpecUnit Machine SpecMachine SpecFresh SpecTrack MachineBase SamplesMachine SamplesSpeed SamplesTwice
  SpeedProofs ProfileTurnProofs ComfortTurnProofs SpecSpeed SpecProfileTurns.

Lemma same_after rs m v is z : set_steps rs m v is z -> (forall i, In i is -> exists p t, nth_error rs i = Some (SetFanProfileR p t) /\ t mod 256 = v) ->
  forall i o t, In i is -> ~ answered m i (RespProfile true o t).
Proof.
  induction 1 as [v|v i is w a z q Q A S _ IH]; intros Same k o t I An; [destruct I|].
  destruct (Same i (or_introl eq_refl)) as (p & t' & Q' & Et). rewrite Q in Q'. injection Q' as ->. inversion S; subst; [congruence|].
  destruct I as [<-|I]; [pose proof (answered_same _ _ _ _ A An); discriminate|]. eapply IH; eauto. intros j J. apply Same. right. exact J.
Qed.
Lemma first_only rs m v is z w : set_steps rs m v is z -> (forall i, In i is -> exists p t, nth_error rs i = Some (SetFanProfileR p t) /\ t mod 256 = w) ->
  forall i o t, In i is -> answered m i (RespProfile true o t) -> hd_error is = Some i.
Proof.
  intros S Same k o t I An. destruct S as [v|v i is x a z q Q A S R]; [destruct I|]. destruct I as [->|I]; [reflexivity|]. exfalso.
  destruct (Same i (or_introl eq_refl)) as (p & t' & Q' & Et). rewrite Q in Q'. injection Q' as ->.
  assert (x = w) by (inversion S; subst; congruence). subst x.
  refine (same_after _ _ _ _ _ R _ k o t I An). intros j J. apply Same. right. exact J.
Qed.
Lemma profiles_twice j lo rs c clk u xs m0 u0 ys m u' w : (j < 4)%nat -> lo <= 15 -> lined lo c u ->
  exec xs (serve rs c clk) = Some m0 -> Forall just_worker xs -> m_wk m0 = None -> unit_in lo m0 u0 ->
  exec ys m0 = Some m -> unit_in lo m u' ->
  (forall i, In i (sets_in_turn rs j ys) -> exists p t, nth_error rs i = Some (SetFanProfileR p t) /\ t mod 256 = w) ->
  forall i o t, In i (sets_in_turn rs j ys) -> answered m i (RespProfile true o t) -> hd_error (sets_in_turn rs j ys) = Some i.
Proof.
  intros Hj Hlo L E0 J W U0 E U' Same i o t I An.
  destruct (profiles_turn j Hj lo rs c clk u xs m0 u0 ys m u' Hlo L E0 J W U0 E U') as (dn & rest & z & Eq & S & Rest).
  rewrite Eq in *. apply in_app_or in I as [I|I].
  - assert (H : hd_error dn = Some i) by (eapply first_only; eauto; intros k K; apply Same, in_or_app; auto).
    destruct dn; [discriminate|exact H].
  - destruct Rest as [[-> _]|(k & -> & N)]; [destruct I|]. destruct I as [->|[]]. destruct (N _ An).
Qed.

Definition asks (rs : list rpc) (t : Z) (i : nat) : Prop := exists a, nth_error rs i = Some (SetFanSpeedR a false) /\ a <> 0 /\ a mod 256 = t.
Lemma asks_wanted v a t : a <> 0 -> wanted v (SetFanSpeedR a false) t -> t = a mod 256 /\ 1 <= a mod 256 <= 4.
Proof. intros N W. inversion W; subst; [auto|congruence]. Qed.
Lemma same_speed rs m v is z t0 : v = t0 \/ ~ 1 <= t0 <= 4 -> steps rs m v is z -> (forall i, In i is -> asks rs t0 i) ->
  forall i o t, In i is -> ~ answered m i (RespSpeed true o t).
Proof.
  intros Ev S. induction S as [v|v i is w b z q Q A S _ IH]; intros Same k o t I An; [destruct I|].
  destruct (Same i (or_introl eq_refl)) as (a & Q' & N0 & Ea). rewrite Q in Q'. injection Q' as ->.
  assert (w = v /\ b <> RespSpeed true o t) as [-> Nb].
  { inversion S as [x Hw Hn|Hw|x Hw]; subst; try (split; [reflexivity|discriminate]).
    destruct (asks_wanted _ _ _ N0 Hw) as [-> R]. destruct Ev; [congruence|contradiction]. }
  destruct I as [<-|I].
  - pose proof (answered_same _ _ _ _ A An). contradiction.
  - eapply (IH Ev); eauto. intros j J. apply Same. right. exact J.
Qed.
Lemma speeds_twice lo rs c clk u xs m0 u0 ys m u' s : lo <= 15 -> lined lo c u ->
  exec xs (serve rs c clk) = Some m0 -> Forall just_worker xs -> m_wk m0 = None -> unit_in lo m0 u0 ->
  exec ys m0 = Some m -> unit_in lo m u' ->
  (forall i, In i (in_turn rs ys) -> exists a, answered m i a /\ a <> RespErr (Internal ErrSetPollFailed)) ->
  (forall i, In i (in_turn rs ys) -> exists a, nth_error rs i = Some (SetFanSpeedR a false) /\ a <> 0 /\ a mod 256 = s) ->
  forall i o t, In i (in_turn rs ys) -> answered m i (RespSpeed true o t) -> hd_error (in_turn rs ys) = Some i.
Proof.
  intros Hlo L E0 J W U0 E U' An Same i o t I Ai.
  pose proof (speeds_in_turn lo rs c clk u xs m0 u0 ys m u' Hlo L E0 J W U0 E U' An) as S. clear An.
  destruct S as [v|v k is w b z q Q A S R]; [destruct I|]. destruct I as [->|I]; [reflexivity|]. exfalso.
  destruct (Same k (or_introl eq_refl)) as (a & Q' & N0 & Ea). rewrite Q in Q'. injection Q' as ->.
  assert (Same' : forall i, In i is -> asks rs s i) by (intros; apply Same; right; auto).
  refine (same_speed _ _ _ _ _ s _ R Same' i o t I Ai).
  assert (D : 1 <= s <= 4 \/ ~ 1 <= s <= 4) by lia. destruct D as [D|D]; [left|right; exact D].
  assert (Wd : wanted v (SetFanSpeedR a false) s) by (rewrite <- Ea; constructor; [auto|lia]).
  inversion S as [x Hw Hn|Hw|x Hw]; subst; [| |destruct (Hw _ Wd)]; destruct (asks_wanted _ _ _ N0 Hw); auto.
Qed.

(** ** a case *)
Lemma twice_case : exists m0 u0 m u', lined 15 even_line even_vent /\ exec even_before (serve twice_reqs even_line 0) = Some m0 /\ Forall just_worker even_before /\ m_wk m0 = None /\
  unit_in 15 m0 u0 /\ exec twice_run m0 = Some m /\ unit_in 15 m u' /\
  (forall i, In i (in_turn twice_reqs twice_run) -> exists a, answered m i a /\ a <> RespErr (Internal ErrSetPollFailed)) /\ u_mode u0 = 2 /\ u_mode u' = 3.
Proof. apply speed_case; vm_compute; reflexivity. Qed.
Lemma twice_answers : let o := exec (even_before ++ twice_run) (serve twice_reqs even_line 0) in says o 4 true 21 22 && says o 5 true 21 22 = true.
Proof. vm_compute. reflexivity. Qed.
Lemma exec_joined (m0 m1 m : machine resp) xs ys : exec xs m0 = Some m1 -> exec ys m1 = Some m -> exec (xs ++ ys) m0 = Some m.
Proof. revert m0. induction xs as [|x xs IH]; intros m0 A B; cbn in *; [congruence|]. destruct (exec1 m0 x); [eauto|discriminate]. Qed.
Lemma comfort_twice : exists c u xs m0 u0 ys m u', lined 15 c u /\ exec xs (serve twice_reqs c 0) = Some m0 /\ Forall just_worker xs /\ m_wk m0 = None /\
  unit_in 15 m0 u0 /\ exec ys m0 = Some m /\ unit_in 15 m u' /\
  nth_error twice_reqs 4 = Some (SetComfortTempR 22) /\ nth_error twice_reqs 5 = Some (SetComfortTempR 22) /\
  answered m 4 (RespComfort true 21 22) /\ answered m 5 (RespComfort true 21 22).
Proof.
  destruct twice_case as (m0 & u0 & m & u' & L & E0 & J & W & U0 & E & U & _).
  pose proof twice_answers as Ta. cbv zeta in Ta. rewrite (exec_joined _ _ _ _ _ E0 E) in Ta. apply andb_true_iff in Ta as [A B]. apply says_answered in A, B.
  exists even_line, even_vent, even_before, m0, u0, twice_run, m, u'. 
  split; [exact L|]. split; [exact E0|]. split; [exact J|]. split; [exact W|]. split; [exact U0|]. split; [exact E|]. split; [exact U|].
  split; [reflexivity|]. split; [reflexivity|]. split; [exact A|exact B].
Qed.
