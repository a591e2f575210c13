(** Lemmas behind PropertiesMachine.v. *)
From Coq Require Import Permutation.
From Verif Require Import ProofBase Proto SpecProto SpecFrame SpecConn SpecLayout SpecServer SpecUnit ProtoProofs Scanner Conn ReadProofs Proc Lib QueryProofs
  FrameLemmas Server ServerProofs ServerLemmas ServerTimes Machine SpecMachine MachineBase ThreadLogic MachineInv MachineLive MachineFlush AtomicCalls
  Samples SamplesServer SamplesUnit SamplesMachine.

Lemma reach rs c clk xs m : exec xs (serve rs c clk) = Some m -> exists wait, inv (c_log c) rs wait m.
Proof. intros E. destruct (inv_exec _ _ _ _ _ _ (inv_init (c_log c) rs c clk eq_refl) E) as (w & _ & I). eauto. Qed.

Lemma no_deadlock rs c clk xs m : exec xs (serve rs c clk) = Some m ->
  (~ finished m -> exists x, working x /\ possible m x) /\ Acc works m /\
  exists ys m', Forall working ys /\ proceeds m ys m' /\ finished m'.
Proof.
  intros E. destruct (reach _ _ _ _ _ E) as (w & I). split; [eapply progress; eauto|]. split; [apply works_wf|eapply completes; eauto].
Qed.

Lemma good_seen (m : machine resp) c x : legal m -> good (pool_of (m_g m)) c x -> seen m c x /\ typed x.
Proof.
  intros Lg [->|(pl & I & D)].
  - split; [left; auto|apply blank_typed].
  - pose proof (proj1 (Forall_forall _ _) (Lg c) pl I) as B. pose proof (decodes_layout _ _ _ D B) as Ly.
    split; [right; exists pl; auto|eapply layout_typed; eauto].
Qed.
Lemma answer_of rs c clk xs m i r a : exec xs (serve rs c clk) = Some m -> nth_error rs i = Some r -> answered m i a ->
  (forall k, r <> FlushCacheR k) -> ThreadLogic.answer (pool_of (m_g m)) r a.
Proof.
  intros E R (t & T & P) N. destruct (reach _ _ _ _ _ E) as (w & _ & _ & _ & Th & _).
  specialize (Th _ _ _ R T). assert (F : follows (c_log c) (m_g m) t (fun P a => ThreadLogic.answer P r a)).
  { destruct r; try exact Th. destruct (N c0 eq_refl). }
  destruct t as [p h]. cbn in P. subst p. apply follows_finished in F. tauto.
Qed.
Lemma snapshot rs c clk xs m i k a : exec xs (serve rs c clk) = Some m -> legal m ->
  nth_error rs i = Some (getter_rpc k) -> answered m i a -> exists v, a = message v /\ seen m k v.
Proof.
  intros E Lg R A. assert (An : ThreadLogic.answer (pool_of (m_g m)) (getter_rpc k) a) by (eapply answer_of; eauto; destruct k; discriminate).
  destruct k; cbn [getter_rpc ThreadLogic.answer] in An; destruct An as (x & G & ->); destruct (good_seen _ _ _ Lg G) as [S T];
    exists x; split; auto using umsg_typed.
Qed.
Lemma u32_byte x : 0 <= x < 256 -> u32 x = x.
Proof. intros H. apply Z.mod_small. lia. Qed.
Lemma speed_answer rs c clk xs m i a b md o t : exec xs (serve rs c clk) = Some m -> legal m ->
  nth_error rs i = Some (SetFanSpeedR a b) -> answered m i (RespSpeed md o t) ->
  1 <= t <= 4 /\ (exists p, seen m CProf (VProf p) /\ o = CurrentMode p) /\
  (md = true -> exists p f1 f2, seen m CProf (VProf p) /\ seen m CFans (VFans f1) /\ seen m CFans (VFans f2) /\
     InPercent f1 = in_percent p t /\ OutPercent f2 = out_percent p t).
Proof.
  intros E Lg R A. assert (An := answer_of _ _ _ _ _ _ _ _ E R A ltac:(discriminate)). cbn [ThreadLogic.answer] in An.
  destruct An as (B & (v & G & ->) & H). split; auto. split.
  - exists v. destruct (good_seen _ _ _ Lg G) as [S T]. split; auto. apply u32_byte. cbn in T. tauto.
  - intros M. destruct (H M) as (p & fi & fo & G1 & G2 & G3 & E1 & E2). exists p, fi, fo.
    splits; auto; eapply good_seen; eauto.
Qed.
Lemma profile_answer rs c clk xs m i md t b o t' : exec xs (serve rs c clk) = Some m -> legal m ->
  nth_error rs i = Some (SetFanProfileR md t) -> answered m i (RespProfile b o t') ->
  t' = t /\ exists p, seen m CProf (VProf p) /\ o = in_percent p (md mod 256).
Proof.
  intros E Lg R A. assert (An := answer_of _ _ _ _ _ _ _ _ E R A ltac:(discriminate)). cbn [ThreadLogic.answer] in An.
  destruct An as (-> & v & G & ->). split; auto. exists v. destruct (good_seen _ _ _ Lg G) as [S T]. split; auto.
  apply u32_byte. fold (u8 md). cbn in T. unfold in_percent.
  destruct T as (_ & _ & _ & _ & T1 & T2 & T3 & T4 & _).
  destruct (Z.to_nat (u8 md - 1)) as [|[|[|[|n]]]]; cbn; auto; try lia. destruct n; cbn; lia.
Qed.
Lemma comfort_answer rs c clk xs m i t b o t' : exec xs (serve rs c clk) = Some m -> legal m ->
  nth_error rs i = Some (SetComfortTempR t) -> answered m i (RespComfort b o t') ->
  t' = t /\ exists v, seen m CTemp (VTemp v) /\ o = f32_to_u32 (Comfort v).
Proof.
  intros E Lg R A. assert (An := answer_of _ _ _ _ _ _ _ _ E R A ltac:(discriminate)). cbn [ThreadLogic.answer] in An.
  destruct An as (-> & v & G & ->). split; auto. exists v. destruct (good_seen _ _ _ Lg G). auto.
Qed.

Lemma wire_discipline rs c clk xs m : exec xs (serve rs c clk) = Some m -> rfree (locks_held m) LPm = true ->
  exists l, c_log (g_conn (m_g m)) = c_log c ++ l /\ session l.
Proof.
  intros E F. destruct (reach _ _ _ _ _ E) as (w & _ & _ & C & _). rewrite rfree_hs in F.
  destruct C as (_ & _ & S). destruct (S F) as (l & H). eauto.
Qed.
Lemma no_panic rs c clk xs m : exec xs (serve rs c clk) = Some m ->
  (forall i t, nth_error (m_ts m) i = Some t -> t_p t <> Crash) /\ (forall t, m_wk m = Some t -> t_p t <> Crash).
Proof.
  intros E. destruct (reach _ _ _ _ _ E) as (w & Len & _ & _ & Th & Wk).
  assert (F : forall (A : Type) (t : thread A) g R, follows (c_log c) g t R -> t_p t <> Crash).
  { intros A t g R (st & kn & _ & _ & _ & _ & S) X. rewrite X in S. exact S. }
  split.
  - intros i t T X. destruct (nth_error rs i) as [r|] eqn:R.
    + specialize (Th _ _ _ R T). destruct r; try (eapply F; eauto; fail). cbn [thread_ok] in Th. rewrite X in Th.
      destruct Th as (_ & [(_ & Y)|[(_ & Y)|(_ & Y)]]); discriminate.
    + apply nth_error_None in R. pose proof (proj1 (nth_error_Some (m_ts m) i) ltac:(congruence)). lia.
  - intros t T X. unfold worker_ok in Wk. destruct w as [j|].
    + destruct Wk as (k & p0 & h & _ & Y & Fo). rewrite Y in T. injection T as <-. cbn in X.
      destruct p0; try discriminate. eapply F; eauto.
    + rewrite T in Wk. eapply F; eauto.
Qed.

(** ** witnesses *)
Lemma split_witness : exists m, exec split_schedule split_poll = Some m /\ answered m 0 (RespSpeed true 2 3) /\
  fetched CFans (c_log (g_conn (m_g m))) = [fans_payload; [50; 10; 8; 0; 9; 0]; [10; 50; 8; 0; 9; 0]] /\
  fetched CProf (c_log (g_conn (m_g m))) = [prof_payload 2; prof_payload 3].
Proof.
  assert (H : match exec split_schedule split_poll with
    | Some m => nth_error (map (fun t => match t_p t with Ret r => Some r | _ => None end) (m_ts m)) 0 = Some (Some (RespSpeed true 2 3)) /\
        fetched CFans (c_log (g_conn (m_g m))) = [fans_payload; [50; 10; 8; 0; 9; 0]; [10; 50; 8; 0; 9; 0]] /\
        fetched CProf (c_log (g_conn (m_g m))) = [prof_payload 2; prof_payload 3]
    | None => False end) by (vm_compute; auto).
  destruct (exec split_schedule split_poll) as [m|]; [|contradiction]. exists m. destruct H as (A & B & C). splits; auto.
  rewrite nth_error_map in A. destruct (nth_error (m_ts m) 0) as [t|] eqn:T; [|discriminate]. exists t. split; auto.
  cbn in A. destruct (t_p t); try discriminate. congruence.
Qed.
Lemma poll_refuted : exists rs c xs m o t, exec xs (serve rs c 0) = Some m /\ legal m /\
  nth_error rs 0 = Some (SetFanSpeedR t false) /\ answered m 0 (RespSpeed true o t) /\
  ~ exists p f, brought m CProf (VProf p) /\ seen m CFans (VFans f) /\ InPercent f = in_percent p t /\ OutPercent f = out_percent p t.
Proof.
  destruct split_witness as (m & E & A & F & P). do 2 eexists. exists split_schedule, m, 2, 3. splits; [exact E| |reflexivity|exact A|].
  - assert (B : forallb (fun c => forallb (forallb (fun b => (0 <=? b) && (b <? 256))) (fetched c (c_log (g_conn (m_g m)))))
        [CBoot; CBypass; CTemp; CFans; CProf; CErr] = true).
    { clear - E. assert (X : match exec split_schedule split_poll with Some m =>
         forallb (fun c => forallb (forallb (fun b => (0 <=? b) && (b <? 256))) (fetched c (c_log (g_conn (m_g m)))))
        [CBoot; CBypass; CTemp; CFans; CProf; CErr] = true | None => False end) by (vm_compute; reflexivity).
      rewrite E in X. exact X. }
    intros c. rewrite forallb_forall in B. specialize (B c ltac:(destruct c; cbn; auto 10)). rewrite forallb_forall in B.
    apply Forall_forall. intros pl I. specialize (B pl I). rewrite forallb_forall in B. apply Forall_forall. intros x X. specialize (B x X). red. lia.
  - intros (p & f & Sp & Sf & E1 & E2). unfold seen, brought in Sp, Sf. rewrite F in Sf. rewrite P in Sp.
    assert (Pp : in_percent p 3 = 50 /\ out_percent p 3 = 50).
    { destruct Sp as (pl & [<-|[<-|[]]] & Ly); cbn in Ly; unfold profiles_layout in Ly;
        unfold in_percent, out_percent; cbn in *; intuition congruence. }
    assert (Ff : In (InPercent f, OutPercent f) [(35, 35); (50, 10); (10, 50); (0, 0)]).
    { destruct Sf as [Sf|(pl & [<-|[<-|[<-|[]]]] & Ly)]; [injection Sf as ->; cbn; auto| | |]; cbn in Ly; unfold fans_layout in Ly; cbn in Ly;
        destruct Ly as (-> & -> & _); cbn; auto. }
    destruct Pp as [Ep1 Ep2]. rewrite E1, E2, Ep1, Ep2 in Ff. cbn in Ff. intuition congruence.
Qed.

Lemma two_by_one {A} (p1 p2 : sproc A) r1 r2 c c' : one_by_one [(p1, r1); (p2, r2)] c c' ->
  let after p c := w_conn (snd (run p (mkWorld c init_shared [] 0 []))) in c' = after p2 (after p1 c).
Proof.
  intros H after. inversion H as [|? ? ? w1 ? ? R1 H1]; subst. inversion H1 as [|? ? ? w2 ? ? R2 H2]; subst. inversion H2; subst.
  unfold after. rewrite R1. cbn [snd]. rewrite R2. reflexivity.
Qed.
Lemma lost_update : exists m, only_runs lost_schedule /\ exec lost_schedule lost_start = Some m /\
  Forall2 (fun t r => t_p t = Ret r) (m_ts m) [None; None] /\
  forall l c', Permutation l (combine lost_calls [None; None]) -> one_by_one l lost_conn c' -> read_back c' <> read_back (g_conn (m_g m)).
Proof.
  assert (H : match exec lost_schedule lost_start with
    | Some m => map (fun t => match t_p t with Ret r => Some r | _ => None end) (m_ts m) = [Some None; Some None] /\
        read_back (g_conn (m_g m)) = RDone (mkProf 15 42 40 70 true 15 42 50 70 35 35 2, None)
    | None => False end) by (vm_compute; auto).
  destruct (exec lost_schedule lost_start) as [m|]; [|contradiction]. exists m. destruct H as (A & B). splits; auto.
  - unfold only_runs, lost_schedule. repeat (constructor; [exact I|]). constructor.
  - destruct (m_ts m) as [|t1 [|t2 [|]]]; try discriminate. cbn [map] in A. repeat constructor.
    + destruct (t_p t1); try discriminate. congruence.
    + destruct (t_p t2); try discriminate. congruence.
  - intros l c' Pm O. rewrite B. cbn [combine lost_calls] in Pm.
    apply Permutation_sym, Permutation_length_2_inv in Pm as [->| ->]; apply two_by_one in O; cbv zeta in O; subst c'; vm_compute; discriminate.
Qed.
Definition spares (i : nat) (x : item) : bool :=
  match x with Run j | Flush j | Succ j => negb (Nat.eqb j i) | _ => true end.
Lemma spares_step {A} i x (m m' : machine A) : spares i x = true -> exec1 m x = Some m' -> nth_error (m_ts m') i = nth_error (m_ts m) i.
Proof.
  intros S H. destruct x as [j| |d|t|j|j]; cbn [exec1 spares] in *.
  - apply negb_true_iff, Nat.eqb_neq in S. destruct (nth_error (m_ts m) j) as [t|]; [|discriminate]. destruct (tstep _ _ _) as [[t' g']|]; [|discriminate].
    inversion H; subst. cbn. apply nth_set_other. auto.
  - destruct (m_wk m) as [w|]; [|discriminate]. destruct (t_p w) as [[]| | | | | | | | | | | | | |]; try (destruct (t_h w));
      try (inversion H; subst; reflexivity); destruct (tstep _ _ _) as [[t' g']|]; inversion H; subst; reflexivity.
  - inversion H; subst. reflexivity.
  - destruct (m_wk m); inversion H; subst. reflexivity.
  - apply negb_true_iff, Nat.eqb_neq in S. destruct (m_wk m); [discriminate|]. destruct (nth_error (m_ts m) j) as [t|]; [|discriminate].
    destruct (t_p t); inversion H; subst. cbn. apply nth_set_other. auto.
  - apply negb_true_iff, Nat.eqb_neq in S. destruct (m_wk m) as [w|]; [|discriminate]. destruct (nth_error (m_ts m) j) as [t|]; [|discriminate].
    destruct (t_p w); try discriminate. destruct (t_p t); inversion H; subst. cbn. apply nth_set_other. auto.
Qed.
Lemma spares_exec {A} i : forall xs (m m' : machine A), forallb (spares i) xs = true -> exec xs m = Some m' -> nth_error (m_ts m') i = nth_error (m_ts m) i.
Proof.
  induction xs as [|x xs IH]; intros m m' S H; cbn in *; [inversion H; auto|]. apply andb_true_iff in S as [S1 S2].
  destruct (exec1 m x) as [m1|] eqn:E; [|discriminate]. rewrite (IH _ _ S2 H). eapply spares_step; eauto.
Qed.
Lemma race_witness : exists m, exec race_schedule race_start = Some m /\ race m CTemp.
Proof.
  assert (H : match exec race_schedule race_start with
    | Some m => match m_wk m with
                | Some w => match t_p w with Put f _ => Comfort (sh_temp (f init_shared)) <> f0 | _ => False end
                | _ => False end
    | None => False end) by (vm_compute; discriminate).
  pose proof (spares_exec 0 race_schedule race_start) as K.
  destruct (exec race_schedule race_start) as [m|]; [|contradiction]. exists m. split; auto.
  specialize (K m eq_refl eq_refl). change (nth_error (m_ts race_start) 0) with (Some (mkThread (handle (SetComfortTempR 21)) [])) in K.
  destruct (m_wk m) as [w|] eqn:W; [|contradiction].
  eexists. split; [eapply nth_error_In; exact K|]. cbn [t_p]. split.
  - cbn [handle]. unfold SetComfortTemp.
    eexists _, init_shared, (on_temp (fun _ => mkTemps (f32_of_Z 21) f0 f0 f0 f0 f0 f0 f0) init_shared).
    split; [reflexivity|]. split; [intros c' N; destruct c'; auto; congruence|]. split; [intros c'; destruct c'; reflexivity|].
    intros X. apply (f_equal (fun p => match p with Ret _ => true | _ => false end)) in X. vm_compute in X. discriminate.
  - left. exists w. split; auto. destruct (t_p w) as [a| |l k|l k|l k|l k|bs k|x k|k|f k|k|d k|c k|k|b k]; try contradiction.
    exists f, k, init_shared. split; auto. cbn [cached]. intros X. injection X as X. apply H. rewrite X. reflexivity.
Qed.
Lemma flush_answers rs c clk xs m i k a : exec xs (serve rs c clk) = Some m -> nth_error rs i = Some (FlushCacheR k) -> answered m i a ->
  exists b, a = RespFlush b /\ (b = true <-> flushes k <> []).
Proof.
  intros E R (t & T & P). destruct (reach _ _ _ _ _ E) as (w & _ & _ & _ & Th & _). specialize (Th _ _ _ R T). cbn [thread_ok] in Th.
  rewrite P in Th. destruct Th as (_ & [(_ & Y)|[(_ & Y)|(_ & Y)]]); try discriminate. injection Y as ->.
  exists (flush_known k). split; auto. apply known_flushes.
Qed.
