(** Which reads of the caches are protected by locks. *)
From Verif Require Import ProofBase Proto SpecProto SpecFrame SpecConn SpecLayout SpecServer ProtoProofs Scanner Conn ReadProofs Proc Lib QueryProofs
  FrameLemmas Server ServerProofs ServerLemmas ServerTimes Machine SpecMachine MachineBase ThreadLogic MachineInv.

Definition agree (h : list cache) (s s' : shared) : Prop :=
  (forall c, In c h -> cached s c = cached s' c) /\ forall c, stamp s c = stamp s' c.
(** The process reads only caches in [h], whose locks it holds. *)
Fixpoint guarded {A} (h : list cache) (p : sproc A) (Q : list cache -> A -> Prop) : Prop :=
  match p with
  | Ret a => Q h a
  | Crash => True
  | Lock l k | RLock l k => guarded (match l with LC c => c :: h | _ => h end) k Q
  | Unlock l k | RUnlock l k => guarded (match l with LC c => remove cache_eq_dec c h | _ => h end) k Q
  | WriteC _ k => forall r, guarded h (k r) Q
  | ReadC _ k => forall q e, guarded h (k q e) Q
  | Get k => (forall s s', agree h s s' -> k s = k s') /\ forall s, guarded h (k s) Q
  | Put _ k => guarded h k Q
  | Now k => forall t, guarded h (k t) Q
  | Sleep _ k => guarded h k Q
  | SendFlush _ k => guarded h k Q
  | RecvSucc k => forall b, guarded h (k b) Q
  | SendSucc _ k => guarded h k Q
  end.
Lemma guarded_bind {A B} (p : sproc A) (f : A -> sproc B) Q : forall h,
  guarded h p (fun h' a => guarded h' (f a) Q) -> guarded h (bind p f) Q.
Proof.
  induction p as [a| |l k IH|l k IH|l k IH|l k IH|bs k IH|x k IH|k IH|g k IH|k IH|d k IH|c k IH|k IH|b k IH];
    intros h H; cbn [guarded bind] in *; auto.
  destruct H as [E H]. split; auto. intros s s' Ag. rewrite (E s s' Ag). reflexivity.
Qed.
Lemma guarded_weaken {A} (p : sproc A) (Q R : list cache -> A -> Prop) : (forall h a, Q h a -> R h a) ->
  forall h, guarded h p Q -> guarded h p R.
Proof.
  intros W. induction p as [a| |l k IH|l k IH|l k IH|l k IH|bs k IH|x k IH|k IH|g k IH|k IH|d k IH|c k IH|k IH|b k IH];
    intros h H; cbn [guarded] in *; auto.
  destruct H as [E H]. split; auto.
Qed.
(** Nothing but the connection. *)
Fixpoint conn_only {A} (p : sproc A) : Prop :=
  match p with
  | Ret _ | Crash => True
  | Lock l k | Unlock l k => (forall c, l <> LC c) /\ conn_only k
  | WriteC _ k => forall r, conn_only (k r)
  | ReadC _ k => forall q e, conn_only (k q e)
  | _ => False
  end.
Lemma conn_bind {A B} (p : sproc A) (f : A -> sproc B) : conn_only p -> (forall a, conn_only (f a)) -> conn_only (bind p f).
Proof.
  intros H F. induction p as [a| |l k IH|l k IH|l k IH|l k IH|bs k IH|x k IH|k IH|g k IH|k IH|d k IH|c k IH|k IH|b k IH];
    cbn [conn_only bind] in *; auto; try contradiction; destruct H; auto.
Qed.
Lemma conn_guarded {A} (p : sproc A) : conn_only p -> forall h, guarded h p (fun h' _ => h' = h).
Proof.
  intros H h. induction p as [a| |l k IH|l k IH|l k IH|l k IH|bs k IH|x k IH|k IH|g k IH|k IH|d k IH|c k IH|k IH|b k IH];
    cbn [conn_only guarded] in *; auto; try contradiction; destruct H as [N H]; destruct l; auto; destruct (N c eq_refl).
Qed.
Lemma conn_query p : conn_only (QueryPacket p).
Proof.
  unfold QueryPacket, WritePacket, with_lock. rewrite marshal_wire. cbn [conn_only]. split; [discriminate|].
  apply conn_bind; [|intros a; split; [discriminate|exact I]].
  apply conn_bind.
  - destruct (_ >? 255); cbn; [exact I|]. intros r. destruct (w_err r); exact I.
  - intros [b [e|]]; [exact I|]. cbn [conn_only]. intros q [e|]; [exact I|]. destruct (_ && _); [exact I|].
    apply conn_bind; [|intros [? ?]; exact I]. unfold WriteAck. cbn [conn_only]. intros r2. destruct (w_err r2); [|destruct (negb _)]; exact I.
Qed.
Lemma conn_getter {U} gr (zero : U) assert : conn_only (getter gr zero assert).
Proof.
  unfold getter, getQuery. apply conn_bind; [apply conn_bind; [apply conn_query|]|].
  - intros [q [e|]]; [exact I|]. destruct (DecodeResponse q); exact I.
  - intros [r [e|]]; [exact I|]. destruct r as [r|]; [|exact I]. destruct (assert r); exact I.
Qed.
Lemma guarded_update c force : guarded [] (Update c force) (fun h _ => h = []).
Proof.
  destruct c; unfold Update, boot_Update, bypass_Update, temp_Update, fans_Update, prof_Update, err_Update, with_lock;
    cbn [guarded bind]; intros now; (split; [intros s s' [_ E]|intros s]).
  1: specialize (E CBoot). 3: specialize (E CBypass). 5: specialize (E CTemp). 7: specialize (E CFans). 9: specialize (E CProf). 11: specialize (E CErr).
  1,3,5,7,9,11: cbn in E; rewrite E; reflexivity.
  all: apply guarded_bind; destruct (negb force && _); [reflexivity|]; apply guarded_bind;
    (eapply guarded_weaken; [|apply conn_guarded; apply conn_getter]); cbn beta; intros h [v [e|]] ->; reflexivity.
Qed.
Lemma guarded_then {B} (p : sproc unit) (q : sproc B) Q : guarded [] p (fun h _ => h = []) -> guarded [] q Q ->
  guarded [] (do _ <- p; q) Q.
Proof. intros H1 H2. apply guarded_bind. eapply guarded_weaken; [|exact H1]. cbn. intros h _ ->. exact H2. Qed.
Lemma guarded_caches force : guarded [] (UpdateCaches force) (fun h _ => h = []).
Proof. unfold UpdateCaches. repeat (apply guarded_then; [apply guarded_update|]). apply guarded_update. Qed.
Lemma guarded_tick t : guarded [] (on_tick t) (fun h _ => h = []).
Proof. destruct t; (apply guarded_then; apply guarded_update). Qed.
Lemma guarded_flush c : guarded [] (FlushCaches c) (fun h _ => h = []).
Proof.
  unfold FlushCaches. apply guarded_bind. cut (guarded [] (FlushCaches_body c) (fun h _ => h = [])).
  { intros H. eapply guarded_weaken; [|exact H]. cbn. auto. }
  unfold FlushCaches_body. repeat (match goal with |- context [if ?b then _ else _] => destruct b end;
    [apply guarded_then; [first [apply guarded_update|apply guarded_caches]|reflexivity]|]). reflexivity.
Qed.
Lemma guarded_careful r : careful r -> guarded [] (handle r) (fun h _ => h = []).
Proof.
  destruct r; try contradiction; intros _; cbn [handle FlushCache boot_Protobuf bypass_Protobuf temp_Protobuf fans_Protobuf prof_Protobuf err_Protobuf
    with_lock bind guarded];
  repeat (match goal with
          | |- _ /\ _ => split
          | |- forall _, _ => intro
          | E : agree [?c] ?s ?s' |- _ => destruct E as [E _]; specialize (E c (or_introl eq_refl)); cbn in E; injection E as E; rewrite E; reflexivity
          end); try reflexivity.
Qed.

(** ** in an execution *)
Definition guarding {A} (t : thread A) : Prop :=
  exists h Q, guarded h (t_p t) Q /\ forall c, In c h -> exists b, In (LC c, b) (t_h t).
Lemma release_other h : forall l b h' l' b', release h l b = Some h' -> In (l', b') h -> l' <> l -> In (l', b') h'.
Proof.
  induction h as [|[l0 b0] h IH]; intros l b h' l' b' H I N; cbn in *; [contradiction|].
  destruct (lock_eqb l0 l && Bool.eqb b0 b) eqn:E.
  - injection H as <-. destruct I as [I|I]; auto. injection I as -> ->. apply andb_true_iff in E as [E _]. apply lock_eqb_eq in E. congruence.
  - destruct (release h l b) as [h2|] eqn:R; [|discriminate]. injection H as <-. destruct I as [I|I]; [left; auto|right; eauto].
Qed.
Lemma guarding_step {A} hs (t t' : thread A) g g' : guarding t -> tstep hs t g = Some (t', g') -> guarding t'.
Proof.
  intros (h & Q & G & K) H. unfold tstep in H. destruct t as [p th]. cbn [t_p t_h] in *.
  assert (Kl : forall l b, forall c, In c (match l with LC c => c :: h | _ => h end) -> exists b', In (LC c, b') ((l, b) :: th)).
  { intros l b c I. destruct l; try (destruct (K c I) as (b' & I'); exists b'; right; auto; fail).
    destruct I as [<-|I]; [exists b; left; auto|]. destruct (K c I) as (b' & I'). exists b'. right. auto. }
  assert (Ku : forall l b th', release th l b = Some th' ->
     forall c, In c (match l with LC c => remove cache_eq_dec c h | _ => h end) -> exists b', In (LC c, b') th').
  { intros l b th' R c I. destruct l; try (destruct (K c I) as (b' & I'); exists b'; eapply release_other; eauto; discriminate).
    apply in_remove in I as [I N]. destruct (K c I) as (b' & I'). exists b'. eapply release_other; eauto. congruence. }
  destruct p as [a| |l k|l k|l k|l k|bs k|x k|k|f k|k|d k|c k|k|b k]; try discriminate; cbn [guarded] in G.
  - destruct (free hs l); inversion H; subst. eexists _, Q. split; [exact G|]. cbn [t_h]. auto.
  - destruct (release th l true) eqn:R; inversion H; subst.
    + eexists _, Q. split; [exact G|]. cbn [t_h]. eauto.
    + exists [], Q. split; [exact I|]. contradiction.
  - destruct (rfree hs l); inversion H; subst. eexists _, Q. split; [exact G|]. cbn [t_h]. auto.
  - destruct (release th l false) eqn:R; inversion H; subst.
    + eexists _, Q. split; [exact G|]. cbn [t_h]. eauto.
    + exists [], Q. split; [exact I|]. contradiction.
  - destruct (conn_write _ _). inversion H; subst. exists h, Q. split; auto. apply G.
  - destruct (ReadPacket _ _) as [[[p e]|] cn]; inversion H; subst; [exists h, Q; split; auto; apply G|exists [], Q; split; [exact I|contradiction]].
  - inversion H; subst. exists h, Q. split; auto. apply G.
  - inversion H; subst. exists h, Q. split; auto.
  - inversion H; subst. exists h, Q. split; auto. apply G.
  - inversion H; subst. exists h, Q. split; auto.
Qed.
Definition ginv (rs : list rpc) (m : machine resp) : Prop :=
  (forall i r t, nth_error rs i = Some r -> careful r -> nth_error (m_ts m) i = Some t -> guarding t) /\
  (forall w, m_wk m = Some w -> guarding w).
Lemma guarding_start {A} (p : sproc A) Q : guarded [] p Q -> guarding (mkThread p []).
Proof. intros G. exists [], Q. split; auto. contradiction. Qed.
Lemma ginv_step rs m x m' : ginv rs m -> exec1 m x = Some m' -> ginv rs m'.
Proof.
  intros [G1 G2] H. destruct x as [i| |d|t|i|i]; cbn [exec1] in H.
  - destruct (nth_error (m_ts m) i) as [t|] eqn:T; [|discriminate]. destruct (tstep _ t (m_g m)) as [[t' g']|] eqn:E; [|discriminate].
    inversion H; subst. split; cbn [m_ts m_wk]; auto. intros j r u R C U. apply nth_set_cases in U as [(-> & -> & _)|[N U]]; [|eauto].
    eapply guarding_step; [|exact E]. eauto.
  - destruct (m_wk m) as [w|] eqn:W; [|discriminate].
    assert (K : m' = mkMachine (m_g m) (m_ts m) None \/ exists t' g', tstep (locks_held m) w (m_g m) = Some (t', g') /\ m' = mkMachine g' (m_ts m) (Some t')).
    { destruct (t_p w) as [[]| | | | | | | | | | | | | |] eqn:P;
        try (destruct (tstep (locks_held m) w (m_g m)) as [[t' g']|] eqn:E; [|discriminate]; inversion H; eauto; fail).
      destruct (t_h w); [inversion H; auto|].
      destruct (tstep (locks_held m) w (m_g m)) as [[t' g']|] eqn:E; [|discriminate]; inversion H; eauto. }
    destruct K as [->|(t' & g' & E & ->)]; split; cbn [m_ts m_wk]; auto; [discriminate|].
    intros u U. injection U as <-. eapply guarding_step; [|exact E]. auto.
  - inversion H; subst. split; auto.
  - destruct (m_wk m); [discriminate|]. inversion H; subst. split; cbn [m_ts m_wk]; auto.
    intros w W. injection W as <-. eapply guarding_start, guarded_tick.
  - destruct (m_wk m); [discriminate|]. destruct (nth_error (m_ts m) i) as [t|] eqn:T; [|discriminate].
    destruct (t_p t) as [a| |l k|l k|l k|l k|bs k|x k|k|f k|k|d k|c k|k|b k] eqn:P; try discriminate. inversion H; subst. split; cbn [m_ts m_wk].
    + intros j r u R C U. apply nth_set_cases in U as [(-> & -> & _)|[N U]]; [|eauto].
      destruct (G1 _ _ _ R C T) as (h & Q & G & K). rewrite P in G. exists h, Q. auto.
    + intros w W. injection W as <-. eapply guarding_start, guarded_flush.
  - destruct (m_wk m) as [w|] eqn:W; [|discriminate]. destruct (nth_error (m_ts m) i) as [t|] eqn:T; [|discriminate].
    destruct (t_p w) as [a| |l k|l k|l k|l k|bs k|x k|k|f k|k|d k|c k|k|b k] eqn:Pw; try discriminate.
    destruct (t_p t) as [a| |l k1|l k1|l k1|l k1|bs k1|x k1|k1|f k1|k1|d k1|c k1|k1|b1 k1] eqn:P; try discriminate.
    inversion H; subst. split; cbn [m_ts m_wk].
    + intros j r u R C U. apply nth_set_cases in U as [(-> & -> & _)|[N U]]; [|eauto].
      destruct (G1 _ _ _ R C T) as (h & Q & G & K). rewrite P in G. exists h, Q. cbn [t_p t_h]. auto.
    + intros u U. injection U as <-. destruct (G2 _ eq_refl) as (h & Q & G & K). rewrite Pw in G. exists h, Q. auto.
Qed.
Lemma ginv_exec rs : forall xs m m', ginv rs m -> exec xs m = Some m' -> ginv rs m'.
Proof.
  induction xs as [|x xs IH]; intros m m' G H; cbn in H; [inversion H; subst; auto|].
  destruct (exec1 m x) as [m1|] eqn:E; [|discriminate]. apply (IH m1 m'); auto. eapply ginv_step; eauto.
Qed.
Lemma ginv_init rs c clk : ginv rs (serve rs c clk).
Proof.
  split; cbn [serve m_ts m_wk].
  - intros i r t R C T. rewrite nth_error_map, R in T. injection T as <-. eapply guarding_start, guarded_careful; auto.
  - intros w W. injection W as <-. eapply guarding_start, guarded_caches.
Qed.
Lemma reads_guarding {A} (t : thread A) c : guarding t -> reads (t_p t) c -> exists b, In (LC c, b) (t_h t).
Proof.
  intros (h & Q & G & K) (k & s & s' & P & Oth & St & N). rewrite P in G. cbn [guarded] in G. destruct G as [E _].
  destruct (in_dec cache_eq_dec c h) as [I|I]; auto. destruct N. apply E. split; auto.
  intros c' I'. apply Oth. intros ->. auto.
Qed.
Lemma writes_holds L0 {A} (t : thread A) g R c : follows L0 g t R -> writes (t_p t) c -> In (LC c, true) (t_h t).
Proof.
  intros (st & kn & <- & _ & _ & _ & S) (f & k & s & P & N). rewrite P in S. cbn [sp] in S.
  destruct S as (c0 & x & st' & x' & -> & _ & O & _). destruct (cache_eq_dec c c0) as [->|D]; [left; reflexivity|].
  destruct N. apply O. auto.
Qed.
(** No goroutine handling a careful request, and not the worker, reads a cache that another one is about to write. *)
Lemma no_race rs c clk xs m i r t k : exec xs (serve rs c clk) = Some m -> nth_error rs i = Some r -> careful r ->
  nth_error (m_ts m) i = Some t -> reads (t_p t) k ->
  (forall j t', nth_error (m_ts m) j = Some t' -> writes (t_p t') k -> False) /\
  (forall w, m_wk m = Some w -> writes (t_p w) k -> False).
Proof.
  intros E R C T Rd. destruct (inv_exec _ _ _ _ _ _ (inv_init (c_log c) rs c clk eq_refl) E) as (wait & _ & Len & Ex & _ & Th & Wk).
  destruct (ginv_exec rs xs _ _ (ginv_init rs c clk) E) as [G1 _].
  destruct (reads_guarding _ _ (G1 _ _ _ R C T) Rd) as (b & I).
  assert (Ni : nth_error (hs_of m) (S i) = Some (t_h t)) by (cbn [hs_of nth_error]; rewrite nth_error_map, T; reflexivity).
  split.
  - intros j t' T' Wr. assert (D : j <> i).
    { intros ->. rewrite T in T'. injection T' as <-. destruct Rd as (k1 & s & s' & P & _). destruct Wr as (f & k2 & s2 & P2 & _). congruence. }
    destruct (nth_error rs j) as [r'|] eqn:R'; [|apply nth_error_None in R';
      pose proof (proj1 (nth_error_Some (m_ts m) j) ltac:(congruence)); lia].
    assert (H : In (LC k, true) (t_h t')).
    { specialize (Th _ _ _ R' T'). destruct r'; try (eapply writes_holds; eauto; fail).
      cbn [thread_ok] in Th. destruct Wr as (f & k2 & s2 & P & _). rewrite P in Th.
      destruct Th as (_ & [(_ & Y)|[(_ & Y)|(_ & Y)]]); discriminate. }
    apply (Ex (S j) (S i) (t_h t') (t_h t) (LC k) b); auto. cbn [hs_of nth_error]. rewrite nth_error_map, T'. reflexivity.
  - intros w W Wr. assert (H : In (LC k, true) (t_h w)).
    { unfold worker_ok in Wk. destruct wait as [j|].
      - destruct Wk as (q & p0 & h & _ & Y & Fo). rewrite Y in W. injection W as <-. cbn [t_p t_h] in *.
        eapply (writes_holds _ (mkThread p0 h)); [exact Fo|]. destruct Wr as (f & k2 & s2 & P & N). cbn [t_p].
        destruct p0; try discriminate. cbn [bind] in P. injection P as <- _. exists f0, p0, s2. auto.
      - rewrite W in Wk. eapply writes_holds; eauto. }
    apply (Ex 0%nat (S i) (t_h w) (t_h t) (LC k) b); auto. cbn [hs_of nth_error]. unfold wk_h. rewrite W. reflexivity.
Qed.
