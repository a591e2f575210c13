(** Progress and termination of all interleavings. *)
From Verif Require Import ProofBase Proto SpecProto SpecFrame SpecConn SpecLayout SpecServer Scanner Conn ReadProofs Proc Lib QueryProofs
  FrameLemmas Server ServerProofs ServerLemmas Machine SpecMachine MachineBase ThreadLogic MachineInv.

Section From.
Context (L0 : list io).
(** ** progress *)

(** The lock a process is about to take. *)
Definition wants {A} (p : sproc A) : option (lockid * bool) :=
  match p with Lock l _ => Some (l, true) | RLock l _ => Some (l, false) | _ => None end.
Lemma wants_write {A} (p : sproc A) l : wants p = Some (l, true) -> exists k, p = Lock l k.
Proof. destruct p; intros H; inversion H; eauto. Qed.
Lemma wants_bind {A B} (p : sproc A) (f : A -> sproc B) : (forall a, p <> Ret a) -> wants (bind p f) = wants p.
Proof. intros N. destruct p; auto. destruct (N a eq_refl). Qed.

(** Somebody: the locks held, the lock wanted. *)
Definition agent {A} (m : machine A) (x : item) (h : held) (w : option (lockid * bool)) : Prop :=
  (exists i t, x = Run i /\ nth_error (m_ts m) i = Some t /\ h = t_h t /\ w = wants (t_p t)) \/
  (exists t, x = RunWk /\ m_wk m = Some t /\ h = t_h t /\ w = wants (t_p t)).

Lemma agent_possible {A} (m : machine A) x h l b : agent m x h (Some (l, b)) ->
  (if b then free (hs_of m) l = true else rfree (hs_of m) l = true /\ ~ writer_waits m l) -> possible m x.
Proof.
  intros Ag Fr. unfold possible. destruct Ag as [(i & t & -> & N & -> & W)|(t & -> & N & -> & W)]; cbn [exec1]; rewrite N.
  - destruct t as [p h]. cbn [t_p] in W. rewrite tstep_hs. unfold tstep. cbn [t_p t_h].
    destruct p; inversion W; subst.
    + rewrite Fr. split; [discriminate|]. intros t1 l1 k1 E. injection E as <-. discriminate.
    + destruct Fr as [-> Nw]. split; [discriminate|]. intros t1 l1 k1 E. injection E as <-. cbn. intros E. injection E as <- <-. auto.
  - destruct t as [p h]. cbn [t_p] in W. rewrite tstep_hs. unfold tstep. cbn [t_p t_h].
    destruct p; inversion W; subst.
    + rewrite Fr. split; [discriminate|]. intros t1 l1 k1 E. injection E as <-. discriminate.
    + destruct Fr as [-> Nw]. split; [discriminate|]. intros t1 l1 k1 E. injection E as <-. cbn. intros E. injection E as <- <-. auto.
Qed.

(** Goroutines at another step can take it. *)
Lemma follows_runs {A} hs (t : thread A) g R : follows L0 g t R -> wants (t_p t) = None -> (forall a, t_p t <> Ret a) ->
  exists t' g', tstep hs t g = Some (t', g').
Proof.
  intros (st & kn & E & _ & _ & _ & H) W N. destruct t as [p h]. unfold tstep. cbn [t_p t_h] in *.
  destruct p as [a| |l k|l k|l k|l k|bs k|x k|k|u k|k|d k|c k|k|b k]; cbn [sp] in H; try contradiction; try discriminate; eauto.
  - destruct (N a eq_refl).
  - destruct (release h l true); eauto.
  - destruct (release h l false); eauto.
  - destruct (conn_write _ _); eauto.
  - destruct (ReadPacket _ _) as [[[? ?]|] ?]; eauto.
Qed.
(** Whoever waits for a lock holds only lower ones. *)
Lemma follows_rank {A} (t : thread A) g R l b : follows L0 g t R -> wants (t_p t) = Some (l, b) ->
  forall l' b', In (l', b') (t_h t) -> (rank l' < rank l)%nat.
Proof.
  intros (st & kn & E & _ & _ & _ & H) W l' b' I. destruct t as [p h]. cbn [t_p t_h] in *. subst h.
  unfold erase in I. apply in_map_iff in I as ([[l1 b1] x] & E & I). injection E as -> ->.
  destruct p; inversion W; subst; cbn [sp] in H; destruct H as [B _]; eapply Forall_forall in B; eauto; exact B.
Qed.

(** What is known about everybody. *)
Definition lively {A} (m : machine A) : Prop := forall x h w, agent m x h w ->
  (forall l b, w = Some (l, b) -> forall l' b', In (l', b') h -> (rank l' < rank l)%nat) /\
  (w = None -> h <> [] -> exists y, working y /\ possible m y).
Lemma holder {A} (m : machine A) h l b : In h (hs_of m) -> In (l, b) h -> exists x w, agent m x h w.
Proof.
  intros [H|I] J.
  - unfold wk_h in H. destruct (m_wk m) as [t|] eqn:E; [|subst; contradiction]. subst h.
    exists RunWk, (wants (t_p t)). right. exists t. auto.
  - apply in_map_iff in I as (t & <- & I). apply In_nth_error in I as (i & I).
    exists (Run i), (wants (t_p t)). left. exists i, t. auto.
Qed.
Lemma not_free hs l : free hs l = false -> exists h b, In h hs /\ In (l, b) h.
Proof.
  intros F. unfold free in F. induction hs as [|h hs IH]; [discriminate|]. cbn [forallb] in F.
  apply andb_false_iff in F as [F|F].
  - unfold can_lock in F. apply andb_false_iff in F as [F|F]; apply negb_false_iff, holds_in in F; exists h; eexists; split; [left; auto|eauto|left; auto|eauto].
  - destruct (IH F) as (h' & b & I & J). exists h', b. split; [right; auto|auto].
Qed.
Lemma not_rfree hs l : rfree hs l = false -> exists h, In h hs /\ In (l, true) h.
Proof.
  intros F. unfold rfree in F. induction hs as [|h hs IH]; [discriminate|]. cbn [forallb] in F.
  apply andb_false_iff in F as [F|F].
  - unfold can_rlock in F. apply negb_false_iff, holds_in in F. exists h. split; [left; auto|eauto].
  - destruct (IH F) as (h' & I & J). exists h'. split; [right; auto|auto].
Qed.
Lemma writer_agent {A} (m : machine A) l : writer_waits m l -> exists x h, agent m x h (Some (l, true)).
Proof.
  intros [(i & t & k & N & E)|(t & k & N & E)].
  - exists (Run i), (t_h t). left. exists i, t. rewrite E. auto.
  - exists RunWk, (t_h t). right. exists t. rewrite E. auto.
Qed.
Lemma writer_dec {A} (m : machine A) l : writer_waits m l \/ ~ writer_waits m l.
Proof.
  assert (D : forall l', {l = l'} + {l <> l'}) by (intros; repeat decide equality).
  assert (T : forall ts : list (thread A), (exists i t k, nth_error ts i = Some t /\ t_p t = Lock l k) \/
     ~ exists i t k, nth_error ts i = Some t /\ t_p t = Lock l k).
  { induction ts as [|t ts [IH|IH]].
    - right. intros ([|i] & t & k & N & _); discriminate.
    - left. destruct IH as (i & t' & k & N & E). exists (S i), t', k. auto.
    - destruct (t_p t) as [| |l' k| | | | | | | | | | | |] eqn:E;
        try (right; intros ([|i] & t' & k' & N & E'); [injection N as <-; congruence|apply IH; exists i, t', k'; auto]; fail).
      destruct (D l') as [<-|Nl].
      + left. exists O, t, k. auto.
      + right; intros ([|i] & t' & k' & N & E'); [injection N as <-; congruence|apply IH; exists i, t', k'; auto]. }
  unfold writer_waits. destruct (T (m_ts m)) as [H|H]; [left; left; exact H|].
  destruct (m_wk m) as [w|]; [|right; intros [X|(t & k & X & _)]; [auto|discriminate]].
  destruct (t_p w) as [| |l' k| | | | | | | | | | | |] eqn:E;
    try (right; intros [X|(t & k' & X & Y)]; [auto|]; injection X as <-; congruence).
  destruct (D l') as [<-|Nl]; [left; right; eauto|].
  right. intros [X|(t & k' & X & Y)]; [auto|]. injection X as <-. congruence.
Qed.
Lemma agent_working {A} (m : machine A) x h w : agent m x h w -> working x.
Proof. intros [(i & t & -> & _)|(t & -> & _)]; exact I. Qed.
Lemma waiting_progress {A} (m : machine A) : lively m -> forall n x h l b,
  agent m x h (Some (l, b)) -> (3 <= rank l + n)%nat -> exists y, working y /\ possible m y.
Proof.
  intros L n. induction n as [|n IH]; intros x h l b Ag R.
  { assert (rank l <= 2)%nat by (destruct l; cbn; lia). lia. }
  (* whoever holds the lock gets on *)
  assert (Hold : forall h' b', In h' (hs_of m) -> In (l, b') h' -> exists y, working y /\ possible m y).
  { intros h' b' I J. destruct (holder m h' l b' I J) as (x' & w' & Ag').
    destruct (L _ _ _ Ag') as [Lr Lp]. destruct w' as [[l' b1]|].
    - specialize (Lr _ _ eq_refl _ _ J). eapply (IH x' h' l' b1); eauto. lia.
    - apply Lp; auto. intros ->. destruct J. }
  assert (Wr : forall x0 h0, agent m x0 h0 (Some (l, true)) -> exists y, working y /\ possible m y).
  { intros x0 h0 Ag0. destruct (free (hs_of m) l) eqn:F.
    - exists x0. split; [eapply agent_working; eauto|]. apply (agent_possible m x0 h0 l true Ag0). auto.
    - apply not_free in F as (h' & b' & I & J). eauto. }
  destruct b; [eauto|].
  destruct (writer_dec m l) as [W|W].
  - destruct (writer_agent _ _ W) as (x0 & h0 & Ag0). eauto.
  - destruct (rfree (hs_of m) l) eqn:F.
    + exists x. split; [eapply agent_working; eauto|]. apply (agent_possible m x h l false Ag). auto.
    + apply not_rfree in F as (h' & I & J). eauto.
Qed.

Lemma run_possible {A} (m : machine A) i t t' g' : nth_error (m_ts m) i = Some t -> wants (t_p t) = None ->
  tstep (hs_of m) t (m_g m) = Some (t', g') -> possible m (Run i).
Proof.
  intros N W S. split; [cbn [exec1]; rewrite N, tstep_hs, S; discriminate|].
  intros t0 l k E X. rewrite N in E. injection E as <-. rewrite X in W. discriminate.
Qed.
Lemma runwk_possible {A} (m : machine A) t t' g' : m_wk m = Some t -> wants (t_p t) = None ->
  tstep (hs_of m) t (m_g m) = Some (t', g') -> possible m RunWk.
Proof.
  intros N W S. split.
  - cbn [exec1]. rewrite N, tstep_hs, S. destruct (t_p t) as [[]| | | | | | | | | | | | | |]; try discriminate.
    destruct (t_h t); discriminate.
  - intros t0 l k E X. rewrite N in E. injection E as <-. rewrite X in W. discriminate.
Qed.

(** Somebody can go on as long as the worker is busy, whatever it is doing. *)
Section Inv.
Context (rs : list rpc) (wait : option nat) (m : machine resp) (I : inv L0 rs wait m).

Lemma thread_case i t : nth_error (m_ts m) i = Some t ->
  exists r, nth_error rs i = Some r /\ thread_ok L0 wait (m_g m) i r t.
Proof.
  intros N. destruct I as (Ln & _ & _ & Th & _). destruct (nth_error rs i) as [r|] eqn:E; eauto.
  apply nth_error_None in E. rewrite <- Ln in E. apply nth_error_None in E. congruence.
Qed.
Lemma worker_no_lock_progress t : m_wk m = Some t -> wants (t_p t) = None -> exists y, working y /\ possible m y.
Proof.
  intros W Wn. pose proof I as (Ln & _ & _ & Th & Wk). unfold worker_ok in Wk. destruct wait as [i|].
  - destruct Wk as (c & p0 & h & Nr & E & Fo). rewrite W in E. injection E as ->.
    destruct (is_ret p0) as [(b & ->)|Np].
    + (* it can hand over the result *)
      exists (Succ i). split; [exact Logic.I|]. split; [|exact Logic.I].
      assert (exists u, nth_error (m_ts m) i = Some u) as (u & Nu).
      { destruct (nth_error (m_ts m) i) eqn:E; eauto. apply nth_error_None in E. rewrite Ln in E. apply nth_error_None in E. congruence. }
      destruct (Th _ _ _ Nr Nu) as (_ & [[F _]|[[_ F]|[F _]]]); try congruence.
      cbn [exec1]. rewrite W, Nu. cbn [t_p bind]. rewrite F. discriminate.
    + cbn [t_p] in Wn. rewrite wants_bind in Wn by auto.
      destruct (follows_runs (hs_of m) _ _ _ Fo Wn Np) as ([p1 h1] & g' & S).
      exists RunWk. split; [exact Logic.I|].
      eapply (runwk_possible m _ (mkThread (do b <- p1; SendSucc b (Ret tt)) h1) g' W).
      * cbn [t_p]. rewrite wants_bind; auto.
      * revert S. unfold tstep. cbn [t_p t_h].
        destruct p0 as [a| |l k|l k|l k|l k|bs k|x k|k|f k|k|d k|z k|k|b k]; cbn [bind]; try discriminate; try (intros S; injection S as <- <- <-; reflexivity).
        -- destruct (release h l true); intros S; injection S as <- <- <-; reflexivity.
        -- destruct (release h l false); intros S; injection S as <- <- <-; reflexivity.
        -- destruct (conn_write _ _); intros S; injection S as <- <- <-; reflexivity.
        -- destruct (ReadPacket _ _) as [[[? ?]|] ?]; intros S; injection S as <- <- <-; reflexivity.
  - rewrite W in Wk. exists RunWk. split; [exact Logic.I|]. destruct (is_ret (t_p t)) as [([] & R)|Np].
    + destruct t as [p h]. cbn [t_p] in R. subst p. apply follows_finished in Wk as [-> _].
      split; [cbn [exec1]; rewrite W; discriminate|]. intros t l k E X. rewrite W in E. injection E as <-. discriminate.
    + destruct (follows_runs (hs_of m) _ _ _ Wk Wn Np) as (t' & g' & S). eapply runwk_possible; eauto.
Qed.
Lemma inv_lively : lively m.
Proof.
  intros x h w [(i & t & -> & N & -> & ->)|(t & -> & N & -> & ->)].
  - destruct (thread_case i t N) as (r & Nr & Ok).
    assert (D : (exists c, r = FlushCacheR c) \/ follows L0 (m_g m) t (fun P a => answer P r a)) by (destruct r; eauto).
    destruct D as [(c & ->)|Fo].
    + destruct Ok as (E & _). rewrite E. split; [intros l b _ l' b' []|congruence].
    + split; [intros l b W; eapply follows_rank; eauto|].
      intros W Hh. assert (Nr' : forall a, t_p t <> Ret a).
      { intros a E. destruct t as [p h]. cbn in *. subst p. apply follows_finished in Fo as [-> _]. congruence. }
      destruct (follows_runs (hs_of m) _ _ _ Fo W Nr') as (t' & g' & S). exists (Run i). split; [exact Logic.I|].
      eapply run_possible; eauto.
  - split; [|intros W _; eapply worker_no_lock_progress; eauto].
    intros l b W. pose proof I as (_ & _ & _ & _ & Wk). unfold worker_ok in Wk. destruct wait as [i|].
    + destruct Wk as (c & p0 & h & Nr & E & Fo). rewrite N in E. injection E as ->. cbn [t_p t_h] in *.
      destruct (is_ret p0) as [(a & ->)|Np]; [discriminate|]. rewrite wants_bind in W by auto.
      apply (follows_rank _ _ _ _ _ Fo W).
    + rewrite N in Wk. eapply follows_rank; eauto.
Qed.
Lemma agent_progress x h w : agent m x h w -> w <> None -> exists y, working y /\ possible m y.
Proof. intros Ag N. destruct w as [[l b]|]; [|congruence]. eapply (waiting_progress m inv_lively 3); eauto. lia. Qed.

Lemma worker_progress t : m_wk m = Some t -> exists y, working y /\ possible m y.
Proof.
  intros W. destruct (wants (t_p t)) as [w|] eqn:E; [|eapply worker_no_lock_progress; eauto].
  eapply (agent_progress RunWk (t_h t) (Some w)); [|discriminate]. right. exists t. auto.
Qed.
Lemma progress : ~ finished m -> exists y, working y /\ possible m y.
Proof.
  intros NF. destruct (m_wk m) as [t|] eqn:W; [eapply worker_progress; eauto|].
  (* an unfinished request *)
  assert (U : exists i t, nth_error (m_ts m) i = Some t /\ forall a, t_p t <> Ret a).
  { destruct (Forall_Exists_dec (fun t : thread resp => exists r, t_p t = Ret r)) with (l := m_ts m) as [F|F].
    - intros t. destruct (t_p t); eauto; right; intros (r & E); discriminate.
    - destruct NF. split; auto.
    - apply Exists_exists in F as (t & In_ & N). apply In_nth_error in In_ as (i & In_). exists i, t. split; auto.
      intros a E. apply N. eauto. }
  destruct U as (i & t & N & Nr). destruct (thread_case i t N) as (r & Hr & Ok).
  assert (D : (exists c, r = FlushCacheR c) \/ follows L0 (m_g m) t (fun P a => answer P r a)) by (destruct r; eauto).
  destruct D as [(c & ->)|Fo].
  - pose proof I as (_ & _ & _ & _ & Wk). unfold worker_ok in Wk. destruct Ok as (_ & [[Nw E]|[[Ew E]|[_ E]]]).
    + exists (Flush i). split; [exact Logic.I|]. split; [|exact Logic.I].
      cbn [exec1]. rewrite W, N, E. discriminate.
    + rewrite Ew in Wk. destruct Wk as (? & ? & ? & _ & E' & _). congruence.
    + destruct (Nr _ E).
  - destruct (wants (t_p t)) as [w|] eqn:E.
    + eapply (agent_progress (Run i) (t_h t) (Some w)); [|discriminate]. left. exists i, t. auto.
    + destruct (follows_runs (hs_of m) _ _ _ Fo E Nr) as (t' & g' & S). exists (Run i). split; [exact Logic.I|].
      eapply run_possible; eauto.
Qed.
End Inv.

(** ** termination *)
Inductive child {A} : sproc A -> sproc A -> Prop :=
| ch_lock l k : child k (Lock l k) | ch_unlock l k : child k (Unlock l k)
| ch_rlock l k : child k (RLock l k) | ch_runlock l k : child k (RUnlock l k)
| ch_write bs k r : child (k r) (WriteC bs k) | ch_read x k p e : child (k p e) (ReadC x k)
| ch_get k s : child (k s) (Get k) | ch_put f k : child k (Put f k)
| ch_now k t : child (k t) (Now k) | ch_sleep d k : child k (Sleep d k)
| ch_send c k : child k (SendFlush c k) | ch_recv k b : child (k b) (RecvSucc k)
| ch_succ b k : child k (SendSucc b k)
| ch_crash p : p <> Crash -> child Crash p.
Lemma crash_acc {A} : Acc (@child A) Crash.
Proof. constructor. intros y H. inversion H; congruence. Qed.
Lemma child_wf {A} : well_founded (@child A).
Proof. intros p. induction p; constructor; intros y C0; inversion C0; subst; auto using crash_acc. Qed.
Lemma tstep_child {A} hs (t t' : thread A) g g' : tstep hs t g = Some (t', g') -> child (t_p t') (t_p t).
Proof.
  destruct t as [p h]. unfold tstep. cbn [t_p t_h]. intros H.
  destruct p as [a| |l k|l k|l k|l k|bs k|x k|k|f k|k|d k|c k|k|b k]; try discriminate.
  - destruct (free hs l); [|discriminate]. injection H as <- <-. constructor.
  - destruct (release h l true); injection H as <- <-; constructor. discriminate.
  - destruct (rfree hs l); [|discriminate]. injection H as <- <-. constructor.
  - destruct (release h l false); injection H as <- <-; constructor. discriminate.
  - destruct (conn_write _ _). injection H as <- <-. constructor.
  - destruct (ReadPacket _ _) as [[[p e]|] c]; injection H as <- <-; [apply (ch_read x k)|apply ch_crash; discriminate].
  - injection H as <- <-. constructor.
  - injection H as <- <-. constructor.
  - injection H as <- <-. apply (ch_now k).
  - injection H as <- <-. constructor.
Qed.

(** Some member of the list gets smaller. *)
Inductive one_less {T} (R : T -> T -> Prop) : list T -> list T -> Prop :=
| ol_here y x l : R y x -> one_less R (y :: l) (x :: l)
| ol_there x l l' : one_less R l' l -> one_less R (x :: l') (x :: l).
Lemma one_less_wf {T} (R : T -> T -> Prop) : well_founded R -> well_founded (one_less R).
Proof.
  intros Wf l. induction l as [|x l IH]; [constructor; intros y H; inversion H|].
  revert l IH. induction x as [x IHx] using (well_founded_ind Wf). intros l Al.
  induction Al as [l Hl IHl]. constructor. intros z H. inversion H; subst; auto.
  - apply IHx; auto. constructor. auto.
Qed.
Lemma one_less_set {T} (R : T -> T -> Prop) l : forall i x y, nth_error l i = Some x -> R y x -> one_less R (set_nth i y l) l.
Proof.
  induction l as [|a l IH]; intros [|i] x y N H; try discriminate; cbn in *.
  - injection N as ->. constructor. auto.
  - apply ol_there. eauto.
Qed.
Definition tless {A} (t' t : thread A) : Prop := child (t_p t') (t_p t).
Lemma tless_wf {A} : well_founded (@tless A).
Proof.
  intros t. remember (t_p t) as p. revert t Heqp. induction (child_wf p) as [p _ IH]. intros t ->.
  constructor. intros t' H. eapply IH; eauto.
Qed.
Definition wless (w' w : option (thread unit)) : Prop :=
  match w', w with None, Some _ => True | Some t', Some t => tless t' t | _, _ => False end.
Lemma wless_wf : well_founded wless.
Proof.
  assert (N : Acc wless None) by (constructor; intros [|]; contradiction).
  intros [t|]; auto. induction (tless_wf t) as [t _ IH]. constructor. intros [t'|] H; auto.
Qed.
Lemma works_cases {A} (m' m : machine A) : works m' m ->
  one_less tless (m_ts m') (m_ts m) \/ m_ts m' = m_ts m /\ wless (m_wk m') (m_wk m).
Proof.
  intros (x & W & H). destruct x as [i| |d|tk|i|i]; try contradiction; cbn [exec1] in H.
  - destruct (nth_error (m_ts m) i) as [t|] eqn:N; [|discriminate].
    destruct (tstep _ t _) as [[t' g']|] eqn:S; [|discriminate]. injection H as <-. left.
    eapply one_less_set; eauto. eapply tstep_child; eauto.
  - destruct (m_wk m) as [t|] eqn:N; [|discriminate]. right.
    assert (Cs : (m_ts m' = m_ts m /\ m_wk m' = None) \/
      exists t' g', tstep (locks_held m) t (m_g m) = Some (t', g') /\ m' = mkMachine g' (m_ts m) (Some t')).
    { destruct (t_p t) as [[]| | | | | | | | | | | | | |]; try destruct (t_h t);
        try (destruct (tstep _ t (m_g m)) as [[t' g']|]; [|discriminate]; injection H as <-; eauto; fail).
      injection H as <-. auto. }
    destruct Cs as [[-> ->]|(t' & g' & S & ->)]; [cbn; auto|]. cbn. split; auto. eapply tstep_child; eauto.
  - destruct (m_wk m); [discriminate|]. destruct (nth_error (m_ts m) i) as [t|] eqn:N; [|discriminate].
    destruct (t_p t) eqn:E; try discriminate. injection H as <-. left. eapply one_less_set; eauto. unfold tless. rewrite E. constructor.
  - destruct (m_wk m) as [w|]; [|discriminate]. destruct (nth_error (m_ts m) i) as [t|] eqn:N; [|discriminate].
    destruct (t_p w); try discriminate. destruct (t_p t) eqn:E; try discriminate. injection H as <-. left.
    eapply one_less_set; eauto. unfold tless. rewrite E. apply (ch_recv k).
Qed.
Lemma works_wf {A} : well_founded (@works A).
Proof.
  intros m. remember (m_ts m) as ts. revert m Heqts.
  induction (one_less_wf _ (@tless_wf A) ts) as [ts _ IH]. intros m ->.
  remember (m_wk m) as wk. remember (m_ts m) as ts. revert m Heqwk Heqts.
  induction (wless_wf wk) as [wk _ IHw]. intros m -> ->.
  constructor. intros m' H. apply works_cases in H as [H|[E H]].
  - eapply IH; eauto.
  - eapply IHw; eauto.
Qed.
Lemma completes rs : forall m wait, inv L0 rs wait m -> exists xs m', Forall working xs /\ proceeds m xs m' /\ finished m'.
Proof.
  intros m. induction m as [m IH] using (well_founded_ind works_wf). intros wait I.
  assert (D : finished m \/ ~ finished m).
  { unfold finished. destruct (Forall_Exists_dec (fun t : thread resp => exists r, t_p t = Ret r)) with (l := m_ts m) as [F|F].
    - intros t. destruct (t_p t); eauto; right; intros (r & E); discriminate.
    - destruct (m_wk m); [right; intros [_ H]; discriminate|left; auto].
    - right. intros [H _]. apply Exists_exists in F as (t & In_ & N). rewrite Forall_forall in H. auto. }
  destruct D as [F|F]; [exists [], m; splits; auto; constructor|].
  destruct (progress rs wait m I F) as (y & W & P). destruct (exec1 m y) as [m1|] eqn:E; [|destruct P; congruence].
  destruct (inv_step _ _ _ _ _ _ I E) as (w1 & _ & I1).
  destruct (IH m1 (ex_intro _ y (conj W E)) w1 I1) as (xs & m' & Fw & Pr & Fi).
  exists (y :: xs), m'. splits; auto. econstructor; eauto.
Qed.
End From.
