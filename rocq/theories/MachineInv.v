(** The invariant of all interleavings of the server. *)
From Verif Require Import ProofBase Proto SpecProto SpecFrame SpecConn SpecLayout SpecServer Scanner Conn ReadProofs Proc Lib QueryProofs
  FrameLemmas Server ServerProofs ServerLemmas ServerTimes Machine MachineBase ThreadLogic.

(** ** logs only grow *)
Lemma replies_prefix req a : forall b pl, In pl (replies_to req b) -> In pl (replies_to req (a ++ b)).
Proof.
  induction a as [|x a IH]; intros b pl H; auto.
  specialize (IH b pl H). cbn [app]. remember (a ++ b) as r. cbn [replies_to].
  destruct r as [|[|[|] ? [|]] [|[|] r]]; auto. destruct (_ && _); auto. right. auto.
Qed.
Lemma replies_suffix req a : forall b pl, In pl (replies_to req a) -> In pl (replies_to req (a ++ b)).
Proof.
  induction a as [|x a IH]; intros b pl H; [contradiction|].
  cbn [app]. cbn [replies_to] in *. specialize (IH b pl).
  destruct a as [|[|[|] ? [|]] [|[|] a]]; auto; try contradiction;
    try (cbn [app]; destruct b as [|[|[|] ? [|]] [|[|] b]]; auto; try destruct (_ && _); auto; try contradiction; right; auto; fail).
  cbn [app] in *. destruct (_ && _); auto. destruct H as [H|H]; [left; auto|right; auto].
Qed.
Lemma fetched_prefix c a b pl : In pl (fetched c b) -> In pl (fetched c (a ++ b)).
Proof. unfold fetched. rewrite !filter_In. intros [H A]. split; auto. apply replies_prefix. auto. Qed.
Lemma fetched_suffix c a b pl : In pl (fetched c a) -> In pl (fetched c (a ++ b)).
Proof. unfold fetched. rewrite !filter_In. intros [H A]. split; auto. apply replies_suffix. auto. Qed.

Lemma write_log cn bs r cn' : conn_write cn bs = (r, cn') -> c_log cn' = c_log cn ++ [Wr bs r].
Proof. unfold conn_write. destruct (react _ _) as [[? ?] ?]. intros H. injection H as <- <-. reflexivity. Qed.
Lemma read_log cn x p e cn' : ReadPacket cn x = (Done (p, e), cn') ->
  c_log (log_io cn' (Rd x p e)) = c_log cn ++ [Rd x p e] /\ (e <> None -> p = zero_packet).
Proof.
  intros R. pose proof (read_packet_inv _ _ _ _ R) as ((_ & Lg) & p' & e' & u & v & E & _ & _ & H).
  injection E as -> ->. cbn. rewrite Lg. split; auto. intros N. destruct H as [H|(H & _)]; auto. congruence.
Qed.

Section From.
Context (L0 : list io).   (* what was done on the connection before *)

(** What has been done since are complete exchanges. *)
Definition sess (l : list io) : Prop := exists s, l = L0 ++ s /\ session s.
Lemma sess_app l kn : sess l -> proper kn -> sess (l ++ kn).
Proof.
  intros (s & -> & S) (cmd & data & x & p & e & Pm & X). exists (s ++ kn). rewrite app_assoc. split; auto.
  apply session_app; auto. eapply session_one; eauto.
Qed.

(** ** one goroutine *)
Definition pool_of (g : mem) : pool := fun c pl => In pl (fetched c (c_log (g_conn g))).
Fixpoint ordered (st : stack) : Prop :=
  match st with [] => True | e :: r => below r (fst (fst e)) /\ ordered r end.
Definition follows {A} (g : mem) (t : thread A) (R : pool -> A -> Prop) : Prop :=
  exists st kn, erase st = t_h t /\ ordered st /\ sees st (g_sh g) /\
    (In (LPm, true) (t_h t) -> exists l0, c_log (g_conn g) = l0 ++ kn /\ sess l0) /\
    sp st kn (pool_of g) (t_p t) (fun st' _ P' a => st' = [] /\ R P' a).

Lemma lock_eqb_eq a b : lock_eqb a b = true -> a = b.
Proof. destruct a as [| | | |[]], b as [| | | |[]]; cbn; congruence. Qed.
Lemma cache_eq_dec (a b : cache) : {a = b} + {a <> b}.
Proof. decide equality. Defined.
Lemma holds_in h l b : holds h l b = true <-> In (l, b) h.
Proof.
  unfold holds. rewrite existsb_exists. split.
  - intros ([l' b'] & I & E). cbn in E. apply andb_true_iff in E as [E1 E2]. apply lock_eqb_eq in E1. apply eqb_prop in E2. subst. auto.
  - intros I. exists (l, b). split; auto. cbn. rewrite lock_eqb_refl, eqb_reflx. reflexivity.
Qed.
Lemma free_in hs l : free hs l = true <-> forall h b, In h hs -> ~ In (l, b) h.
Proof.
  unfold free, can_lock. rewrite forallb_forall. split.
  - intros F h b I X. specialize (F h I). apply andb_true_iff in F as [F1 F2]. apply holds_in in X.
    destruct b; rewrite X in *; discriminate.
  - intros F h I. apply andb_true_iff. split; apply negb_true_iff; apply not_true_iff_false; rewrite holds_in; apply F; auto.
Qed.
Lemma rfree_in hs l : rfree hs l = true <-> forall h, In h hs -> ~ In (l, true) h.
Proof.
  unfold rfree, can_rlock. rewrite forallb_forall. split.
  - intros F h I X. specialize (F h I). apply holds_in in X. rewrite X in F. discriminate.
  - intros F h I. apply negb_true_iff. apply not_true_iff_false. rewrite holds_in. auto.
Qed.

Definition consistent (hs : list held) (g : mem) : Prop :=
  (forall c, rfree hs (LC c) = true -> good (pool_of g) c (cached (g_sh g) c)) /\ all_mixed (pool_of g) (g_sh g) /\
  (rfree hs LPm = true -> sess (c_log (g_conn g))).
Definition upward {A} (R : pool -> A -> Prop) : Prop := forall P P' a, sub P P' -> R P a -> R P' a.
Lemma upward_up {A} (R : pool -> A -> Prop) : upward R -> up (fun st' _ P' a => st' = [] /\ R P' a).
Proof. intros U st kn P P' a S [E H]. split; eauto. Qed.

(** What a step of one goroutine does to the rest of the world. *)
Definition effect {A} (t t' : thread A) (g g' : mem) : Prop :=
  all_mixed (pool_of g') (g_sh g') /\ sub (pool_of g) (pool_of g') /\
  (c_log (g_conn g') = c_log (g_conn g) \/ In (LPm, true) (t_h t)) /\
  (forall c, ~ In (LC c, true) (t_h t) -> cached (g_sh g') c = cached (g_sh g) c) /\
  (forall c, In (LC c, true) (t_h t) -> ~ In (LC c, true) (t_h t') -> good (pool_of g') c (cached (g_sh g') c)) /\
  (In (LPm, true) (t_h t) -> ~ In (LPm, true) (t_h t') -> sess (c_log (g_conn g'))).

Lemma tstep_sound {A} hs (t t' : thread A) g g' R :
  upward R -> follows g t R -> tstep hs t g = Some (t', g') -> consistent hs g ->
  follows g' t' R /\ effect t t' g g'.
Proof.
  intros U (st & kn & E & Od & V & K & H) St (Co & Mi & Se). pose proof (upward_up R U) as UQ.
  destruct t as [p h]. unfold tstep in St. cbn [t_p t_h] in *. subst h.
  assert (Same : forall t1, t_h t1 = erase st -> effect (mkThread p (erase st)) t1 g g).
  { intros t1 E1. unfold effect. cbn [t_h]. rewrite E1. splits; auto; try (intros c I N; contradiction); intros I N; contradiction. }
  destruct p as [a| |l k|l k|l k|l k|bs k|x k|k|f k|k|d k|c k|k|b k]; cbn [sp] in H; try discriminate.
  - (* Lock *)
    destruct (free hs l) eqn:F; [|discriminate]. injection St as <- <-. destruct H as [B H].
    rewrite free_in in F. split.
    + exists ((l, true, match l with LC c => cached (g_sh g) c | _ => blank CErr end) :: st), (match l with LPm => [] | _ => kn end).
      splits; auto; [split; auto|..].
      * intros c b x [I|I]; [injection I as -> <- <-; reflexivity|eauto].
      * cbn [t_h]. intros I. destruct l; [exists (c_log (g_conn g)); rewrite app_nil_r; split; auto; apply Se; rewrite rfree_in; auto|..];
          (destruct I as [I|I]; [discriminate|auto]).
      * apply H; auto. intros c ->. apply Co. rewrite rfree_in. intros h I. apply F. auto.
    + unfold effect. cbn [t_h]. splits; auto; [intros c I N|intros I N]; destruct N; right; auto.
  - (* Unlock *)
    destruct H as (x & st' & -> & G & Pr & H). cbn [erase map fst] in St. rewrite release_head in St. injection St as <- <-.
    split.
    + exists st', (match l with LPm => [] | _ => kn end). destruct Od as [Ob Od]. splits; auto.
      * intros c b y I. eapply V. right. eauto.
      * cbn [t_h]. intros I. destruct l; [|apply K; right; auto..]. exfalso. unfold erase in I.
        apply in_map_iff in I as ([[l1 b1] y] & E & I). cbn in E. injection E as -> ->.
        eapply Forall_forall in Ob; [|exact I]. cbn in Ob. lia.
      * apply H; auto. intros ->. destruct (K (or_introl eq_refl)) as (l0 & L & _). intros c pl I. unfold pool_of. rewrite L.
        apply fetched_prefix. auto.
    + unfold effect. cbn [t_h erase map fst]. splits; auto.
      * intros c [I|I] N; [|contradiction]. injection I as ->. rewrite (V c true x) by (left; auto). auto.
      * intros [I|I] N; [|contradiction]. injection I as ->. destruct (K (or_introl eq_refl)) as (l0 & L & S0).
        rewrite L. apply sess_app; auto.
  - (* RLock *)
    destruct (rfree hs l) eqn:F; [|discriminate]. injection St as <- <-. destruct H as (B & (c0 & ->) & H).
    split.
    + exists ((LC c0, false, cached (g_sh g) c0) :: st), kn. splits; auto; [split; auto|..].
      * intros c b x [I|I]; [injection I as -> <- <-; reflexivity|eauto].
      * cbn [t_h]. intros [I|I]; [discriminate|auto].
      * apply H; auto. intros c I. injection I as <-. auto.
    + unfold effect. cbn [t_h]. splits; auto; [intros c I N|intros I N]; destruct N; right; auto.
  - (* RUnlock *)
    destruct H as (x & st' & -> & H). cbn [erase map fst] in St. rewrite release_head_f in St. injection St as <- <-.
    split.
    + exists st', kn. destruct Od as [Ob Od]. splits; auto.
      * intros c b y I. eapply V. right. eauto.
      * cbn [t_h]. intros I. apply K. right. auto.
    + unfold effect. cbn [t_h erase map fst]. splits; auto; [intros c [I|I] N|intros [I|I] N]; try discriminate; contradiction.
  - (* WriteC *)
    destruct H as [L H]. destruct (conn_write (g_conn g) bs) as [r cn] eqn:W. injection St as <- <-.
    apply write_log in W. destruct (K L) as (l0 & E0 & S0).
    assert (S : sub (pool_of g) (pool_of (mkMem cn (g_sh g) (g_clk g)))).
    { intros c pl I. unfold pool_of in *. cbn [g_conn]. rewrite W. apply fetched_suffix. auto. }
    split.
    + exists st, (kn ++ [Wr bs r]). splits; auto.
      * intros _. exists l0. cbn [g_conn]. rewrite W, E0, app_assoc. auto.
      * eapply sp_sub; eauto.
    + unfold effect. cbn [t_h g_conn g_sh]. splits; auto; try (intros c; eapply mixed_sub; eauto; fail); try (intros c I N; contradiction); try (intros I N; contradiction).
  - (* ReadC *)
    destruct H as [L H]. destruct (ReadPacket (g_conn g) x) as [o cn] eqn:W.
    pose proof (read_packet_inv _ _ _ _ W) as (_ & p & e & _ & _ & -> & _). injection St as <- <-.
    apply read_log in W as [W Z]. destruct (K L) as (l0 & E0 & S0).
    assert (S : sub (pool_of g) (pool_of (mkMem (log_io cn (Rd x p e)) (g_sh g) (g_clk g)))).
    { intros c pl I. unfold pool_of in *. cbn [g_conn]. rewrite W. apply fetched_suffix. auto. }
    split.
    + exists st, (kn ++ [Rd x p e]). splits; auto.
      * intros _. exists l0. cbn [g_conn]. rewrite W, E0, app_assoc. auto.
      * eapply sp_sub; eauto.
    + unfold effect. cbn [t_h g_sh]. splits; auto; try (intros c; eapply mixed_sub; eauto; fail); try (intros c I N; contradiction); try (intros I N; contradiction).
  - (* Get *)
    injection St as <- <-. split; [|apply Same; reflexivity]. exists st, kn. splits; auto; cbn [t_p]; first [exact H | apply H; auto].
  - (* Put *)
    destruct H as (c0 & x & st' & x' & -> & F & O & M & H). injection St as <- <-.
    assert (X : cached (f (g_sh g)) c0 = x') by (apply F; apply (V c0 true); left; auto).
    split.
    + exists ((LC c0, true, x') :: st'), kn. splits; auto.
      intros c b y [I|I]; [injection I as -> <- <-; auto|].
      cbn [g_sh]. destruct (cache_eq_dec c c0) as [->|N].
      * (* the lock cannot be held twice *)
        exfalso. destruct Od as [Ob _]. cbn in Ob. eapply Forall_forall in Ob; [|exact I]. cbn in Ob. lia.
      * rewrite O by auto. eapply V. right. eauto.
    + unfold effect. cbn [t_h g_conn g_sh]. splits; auto.
      * intros c. destruct (cache_eq_dec c c0) as [->|N]; [rewrite X; auto|rewrite O by auto; apply Mi].
      * intros c N. apply O. intros ->. apply N. left. auto.
      * intros c I N. contradiction.
  - (* Now *)
    injection St as <- <-. split; [|apply Same; reflexivity]. exists st, kn. splits; auto; cbn [t_p]; first [exact H | apply H; auto].
  - (* Sleep *)
    injection St as <- <-. split; [|apply Same; reflexivity]. exists st, kn. splits; auto; cbn [t_p]; first [exact H | apply H; auto].
Qed.

(** A step of one goroutine as seen by another. *)
Lemma follows_other {A B} (t t' : thread A) (u : thread B) g g' R :
  upward R -> effect t t' g g' -> (forall l b, In (l, true) (t_h t) -> ~ In (l, b) (t_h u)) ->
  follows g u R -> follows g' u R.
Proof.
  intros U (Mi & S & L & F & _ & _) D (st & kn & E & Od & V & K & H). exists st, kn. splits; auto.
  - intros c b x I. rewrite F; [eapply V; eauto|]. intros X. apply (D _ b X). rewrite <- E.
    unfold erase. apply in_map_iff. exists (LC c, b, x). auto.
  - intros I. destruct L as [L|L]; [rewrite L; auto|]. destruct (D _ true L I).
  - eapply sp_sub; eauto. apply upward_up. auto.
Qed.
Lemma follows_finished {A} g (a : A) h R : follows g (mkThread (Ret a) h) R -> h = [] /\ R (pool_of g) a.
Proof. intros (st & kn & E & _ & _ & _ & H). cbn in *. destruct H as [-> H]. split; auto. Qed.
Lemma follows_start {A} g (p : sproc A) (R : pool -> A -> Prop) :
  tidy [] (pool_of g) p R -> follows g (mkThread p []) R.
Proof.
  intros T. exists [], []. cbn [t_h t_p erase map ordered]. splits; auto.
  - intros c b x [].
  - intros [].
  - eapply sp_weaken; [|exact T]. cbn. intros st' kn' P' a _ (-> & _ & _ & H). auto.
Qed.
Lemma follows_clock {A} g clk (t : thread A) R : follows g t R -> follows (mkMem (g_conn g) (g_sh g) clk) t R.
Proof. intros H. exact H. Qed.

(** ** the locks of all goroutines: the worker first, without locks if it is waiting *)
Definition wk_h {A} (m : machine A) : held := match m_wk m with Some w => t_h w | None => [] end.
Definition hs_of {A} (m : machine A) : list held := wk_h m :: map t_h (m_ts m).
Lemma free_hs {A} (m : machine A) l : free (locks_held m) l = free (hs_of m) l.
Proof. unfold locks_held, hs_of, wk_h. destruct (m_wk m); reflexivity. Qed.
Lemma rfree_hs {A} (m : machine A) l : rfree (locks_held m) l = rfree (hs_of m) l.
Proof. unfold locks_held, hs_of, wk_h. destruct (m_wk m); reflexivity. Qed.
Lemma tstep_hs {A B} (m : machine A) (t : thread B) g : tstep (locks_held m) t g = tstep (hs_of m) t g.
Proof. unfold tstep. destruct (t_p t); auto; rewrite ?free_hs, ?rfree_hs; auto. Qed.

Definition excl (hs : list held) : Prop := forall i j hi hj l b, i <> j ->
  nth_error hs i = Some hi -> nth_error hs j = Some hj -> In (l, true) hi -> ~ In (l, b) hj.
Inductive moved (hs : list held) (h h' : held) : Prop :=
| mv_same : h' = h -> moved hs h h'
| mv_lock l : free hs l = true -> h' = (l, true) :: h -> moved hs h h'
| mv_rlock l : rfree hs l = true -> h' = (l, false) :: h -> moved hs h h'
| mv_release l b : release h l b = Some h' -> moved hs h h'.
Lemma tstep_moved {A} hs (t t' : thread A) g g' : tstep hs t g = Some (t', g') -> moved hs (t_h t) (t_h t').
Proof.
  destruct t as [p h]. unfold tstep. cbn [t_p t_h]. intros H.
  destruct p as [a| |l k|l k|l k|l k|bs k|x k|k|f k|k|d k|c k|k|b k]; try discriminate.
  - destruct (free hs l) eqn:F; [|discriminate]. injection H as <- <-. eapply mv_lock; eauto.
  - destruct (release h l true) eqn:F; injection H as <- <-; [eapply mv_release; eauto|apply mv_same; auto].
  - destruct (rfree hs l) eqn:F; [|discriminate]. injection H as <- <-. eapply mv_rlock; eauto.
  - destruct (release h l false) eqn:F; injection H as <- <-; [eapply mv_release; eauto|apply mv_same; auto].
  - destruct (conn_write _ _). injection H as <- <-. apply mv_same; auto.
  - destruct (ReadPacket _ _) as [[[p e]|] c]; injection H as <- <-; apply mv_same; auto.
  - injection H as <- <-. apply mv_same; auto.
  - injection H as <- <-. apply mv_same; auto.
  - injection H as <- <-. apply mv_same; auto.
  - injection H as <- <-. apply mv_same; auto.
Qed.
Lemma release_in h : forall l b h' x, release h l b = Some h' -> In x h' -> In x h.
Proof.
  induction h as [|e h IH]; intros l b h' x H I; [discriminate|]. cbn [release] in H.
  destruct (lock_eqb _ _ && _); [injection H as <-; right; auto|].
  destruct (release h l b) eqn:R; [|discriminate]. injection H as <-. destruct I as [->|I]; [left; auto|right; eauto].
Qed.
Lemma excl_moved hs n h h' : excl hs -> nth_error hs n = Some h -> moved hs h h' -> excl (set_nth n h' hs).
Proof.
  intros X N M.
  (* what others hold excludes what has just been taken *)
  assert (W : forall l, In (l, true) h' -> In (l, true) h \/ free hs l = true).
  { intros l I. destruct M as [->|l0 F ->|l0 F ->|l0 b F]; auto.
    - destruct I as [I|I]; auto. injection I as ->. auto.
    - destruct I as [I|I]; auto. discriminate.
    - left. eapply release_in; eauto. }
  assert (V : forall l b, In (l, b) h' -> In (l, b) h \/ rfree hs l = true).
  { intros l b I. destruct M as [->|l0 F ->|l0 F ->|l0 b0 F]; auto.
    - destruct I as [I|I]; auto. injection I as -> <-. right. rewrite free_in in F. rewrite rfree_in. intros. apply F. auto.
    - destruct I as [I|I]; auto. injection I as -> <-. auto.
    - left. eapply release_in; eauto. }
  intros i j hi hj l b D Ni Nj I J.
  apply nth_set_cases in Ni. apply nth_set_cases in Nj.
  destruct Ni as [(<- & -> & _)|[Di Ni]], Nj as [(<- & -> & _)|[Dj Nj]]; try congruence.
  - destruct (W l I) as [I'|F]; [exact (X _ _ _ _ l b D N Nj I' J)|].
    rewrite free_in in F. apply (F hj b); auto. eapply nth_error_In; eauto.
  - destruct (V l b J) as [J'|F]; [exact (X _ _ _ _ l b D Ni N I J')|].
    rewrite rfree_in in F. apply (F hi); auto. eapply nth_error_In; eauto.
  - exact (X _ _ _ _ l b D Ni Nj I J).
Qed.
Lemma consistent_step {A} hs n (t t' : thread A) g g' :
  nth_error hs n = Some (t_h t) -> consistent hs g -> effect t t' g g' -> consistent (set_nth n (t_h t') hs) g'.
Proof.
  intros N (Co & _ & Se) (Mi & S & Lg & F & G & Gs).
  assert (Rf : forall l, rfree (set_nth n (t_h t') hs) l = true -> (In (l, true) (t_h t) -> ~ In (l, true) (t_h t')) /\
     (~ In (l, true) (t_h t) -> rfree hs l = true)).
  { intros l Fr. rewrite rfree_in in Fr. split.
    - intros _. apply Fr. eapply nth_error_In. eapply nth_set_same; eauto.
    - intros Hd. rewrite rfree_in. intros h I. apply In_nth_error in I as (j & J). destruct (Nat.eq_dec n j) as [<-|D].
      + rewrite N in J. injection J as <-. auto.
      + apply Fr. eapply nth_error_In. rewrite nth_set_other; eauto. }
  split; [|split; auto].
  2:{ intros Fr. destruct (Rf _ Fr) as [R1 R2]. destruct (holds (t_h t) LPm true) eqn:Hd.
      - apply holds_in in Hd. auto.
      - apply not_true_iff_false in Hd. rewrite holds_in in Hd. destruct Lg as [->|Lg]; [auto|contradiction]. }
  intros c Fr. destruct (Rf _ Fr) as [R1 R2].
  destruct (holds (t_h t) (LC c) true) eqn:Hd.
  - apply holds_in in Hd. apply G; auto.
  - apply not_true_iff_false in Hd. rewrite holds_in in Hd. rewrite F by auto. eapply good_sub; [exact S|]. auto.
Qed.

(** ** the whole server *)
Definition await (b : bool) : sproc resp := Ret (RespFlush b).
Definition thread_ok (wait : option nat) (g : mem) (i : nat) (r : rpc) (t : thread resp) : Prop :=
  match r with
  | FlushCacheR c =>
      t_h t = [] /\
      (wait <> Some i /\ t_p t = FlushCache c \/ wait = Some i /\ t_p t = RecvSucc await \/
       wait <> Some i /\ t_p t = Ret (RespFlush (flush_known c)))
  | _ => follows g t (fun P a => answer P r a)
  end.
Definition worker_ok (rs : list rpc) (wait : option nat) (g : mem) (wk : option (thread unit)) : Prop :=
  match wait with
  | None => match wk with None => True | Some w => follows g w (fun _ _ => True) end
  | Some i => exists c p0 h, nth_error rs i = Some (FlushCacheR c) /\
      wk = Some (mkThread (do b <- p0; SendSucc b (Ret tt)) h) /\
      follows g (mkThread p0 h) (fun _ b => b = flush_known c)
  end.
Definition inv (rs : list rpc) (wait : option nat) (m : machine resp) : Prop :=
  length (m_ts m) = length rs /\ excl (hs_of m) /\ consistent (hs_of m) (m_g m) /\
  (forall i r t, nth_error rs i = Some r -> nth_error (m_ts m) i = Some t -> thread_ok wait (m_g m) i r t) /\
  worker_ok rs wait (m_g m) (m_wk m).
(** Who is being served, after the item. *)
Definition next (wait : option nat) (x : item) : option (option nat) :=
  match x, wait with
  | Flush i, None => Some (Some i)
  | Succ i, Some j => if Nat.eqb i j then Some None else None
  | Tick _, None => Some None
  | Flush _, Some _ | Succ _, None | Tick _, Some _ => None
  | _, _ => Some wait
  end.

Lemma upward_answer r : upward (fun P a => answer P r a).
Proof. intros P P' a S H. eapply answer_sub; eauto. Qed.
Lemma upward_true : upward (fun (_ : pool) (_ : unit) => True).
Proof. intros P P' a _ _. exact I. Qed.
Lemma upward_known c : upward (fun (_ : pool) b => b = flush_known c).
Proof. intros P P' a _ H. exact H. Qed.
Hint Resolve upward_answer upward_true upward_known : core.

Lemma set_nth_map {T U} (f : T -> U) l : forall i x, map f (set_nth i x l) = set_nth i (f x) (map f l).
Proof. induction l as [|a l IH]; intros [|i] x; cbn; auto. rewrite IH. auto. Qed.

Lemma thread_other {A} (t t' : thread A) wait g g' i r u :
  effect t t' g g' -> (forall l b, In (l, true) (t_h t) -> ~ In (l, b) (t_h u)) ->
  thread_ok wait g i r u -> thread_ok wait g' i r u.
Proof. intros E D. destruct r; cbn [thread_ok]; auto; apply (follows_other t t'); auto. Qed.
Lemma worker_other {A} (t t' : thread A) rs wait g g' wk :
  effect t t' g g' -> (forall l b w, wk = Some w -> In (l, true) (t_h t) -> ~ In (l, b) (t_h w)) ->
  worker_ok rs wait g wk -> worker_ok rs wait g' wk.
Proof.
  intros E D. unfold worker_ok. destruct wait as [i|].
  - intros (c & p0 & h & N & -> & H). exists c, p0, h. splits; auto. eapply (follows_other t t'); eauto.
    cbn [t_h]. intros l b I. apply (D l b _ eq_refl I).
  - destruct wk as [w|]; auto. intros H. eapply (follows_other t t'); eauto.
Qed.

Lemma tstep_bind {A B} hs (p0 : sproc A) h (f : A -> sproc B) g t' g' :
  tstep hs (mkThread (bind p0 f) h) g = Some (t', g') -> (forall a, p0 <> Ret a) ->
  exists p1 h1, tstep hs (mkThread p0 h) g = Some (mkThread p1 h1, g') /\ t' = mkThread (bind p1 f) h1.
Proof.
  unfold tstep. cbn [t_p t_h].
  destruct p0 as [a| |l k|l k|l k|l k|bs k|x k|k|u k|k|d k|c k|k|b k]; cbn [bind]; intros H N; try discriminate.
  - destruct (N a eq_refl).
  - destruct (free hs l); [|discriminate]. injection H as <- <-. eauto.
  - destruct (release h l true); injection H as <- <-; [eauto|]. exists Crash, h. auto.
  - destruct (rfree hs l); [|discriminate]. injection H as <- <-. eauto.
  - destruct (release h l false); injection H as <- <-; [eauto|]. exists Crash, h. auto.
  - destruct (conn_write _ _). injection H as <- <-. eauto.
  - destruct (ReadPacket _ _) as [[[p e]|] c]; injection H as <- <-; [eauto|]. exists Crash, h. auto.
  - injection H as <- <-. eauto.
  - injection H as <- <-. eauto.
  - injection H as <- <-. eauto.
  - injection H as <- <-. eauto.
Qed.
Lemma is_ret {A} (p : sproc A) : (exists a, p = Ret a) \/ forall a, p <> Ret a.
Proof. destruct p; eauto; right; intros; discriminate. Qed.

Lemma inv_step rs wait m x m' : inv rs wait m -> exec1 m x = Some m' ->
  exists wait', next wait x = Some wait' /\ inv rs wait' m'.
Proof.
  intros (Ln & X & Co & Th & Wk) H. destruct x as [i| |d|tk|i|i]; cbn [exec1] in H.
  - (* Run *)
    destruct (nth_error (m_ts m) i) as [t|] eqn:Ni; [|discriminate]. rewrite tstep_hs in H.
    destruct (tstep (hs_of m) t (m_g m)) as [[t' g']|] eqn:S; [|discriminate]. injection H as <-.
    exists wait. split; [destruct wait; reflexivity|].
    assert (Nh : nth_error (hs_of m) (Datatypes.S i) = Some (t_h t)) by (cbn; rewrite nth_error_map, Ni; reflexivity).
    assert (Nr : exists r, nth_error rs i = Some r).
    { destruct (nth_error rs i) eqn:E; eauto. apply nth_error_None in E. rewrite <- Ln in E. apply nth_error_None in E. congruence. }
    destruct Nr as (r & Nr). pose proof (Th _ _ _ Nr Ni) as Tr.
    (* goroutines in FlushCache never step on their own *)
    assert (Fo : follows (m_g m) t (fun P a => answer P r a) /\ forall c, r <> FlushCacheR c).
    { destruct r; try (split; [exact Tr|discriminate]). exfalso. cbn [thread_ok] in Tr. destruct t as [p h]. cbn in Tr.
      destruct Tr as (-> & [[_ ->]|[[_ ->]|[_ ->]]]); discriminate. }
    destruct Fo as [Fo Nf]. destruct (tstep_sound _ _ _ _ _ _ (upward_answer r) Fo S Co) as [Fo' Ef].
    pose proof (tstep_moved _ _ _ _ _ S) as Mv.
    assert (Hs : hs_of (mkMachine g' (set_nth i t' (m_ts m)) (m_wk m)) = set_nth (Datatypes.S i) (t_h t') (hs_of m)).
    { unfold hs_of. cbn [m_ts set_nth wk_h m_wk]. rewrite set_nth_map. reflexivity. }
    unfold inv. rewrite Hs. cbn [m_ts m_g m_wk]. rewrite set_nth_length. splits; auto.
    + eapply excl_moved; eauto.
    + eapply consistent_step; eauto.
    + intros j rj tj Rj Tj. apply nth_set_cases in Tj as [(<- & -> & _)|[Dj Tj]].
      * rewrite Nr in Rj. injection Rj as <-. destruct r; try exact Fo'. destruct (Nf c eq_refl).
      * eapply thread_other; eauto. intros l b I. eapply (X (Datatypes.S i) (Datatypes.S j)); eauto. cbn. rewrite nth_error_map, Tj. reflexivity.
    + eapply worker_other; eauto. intros l b w E I. eapply (X (Datatypes.S i) 0%nat); eauto. cbn. unfold wk_h. rewrite E. reflexivity.
  - (* RunWk *)
    destruct (m_wk m) as [w|] eqn:W; [|discriminate].
    exists wait. split; [destruct wait; reflexivity|].
    destruct w as [p h]. cbn [t_p t_h] in H.
    assert (Cs : (p = Ret tt /\ h = [] /\ m' = mkMachine (m_g m) (m_ts m) None) \/
      exists t' g', tstep (hs_of m) (mkThread p h) (m_g m) = Some (t', g') /\ m' = mkMachine g' (m_ts m) (Some t')).
    { destruct p as [[]| | | | | | | | | | | | | |]; try destruct h; 
        try (rewrite tstep_hs in H; destruct (tstep (hs_of m) _ (m_g m)) as [[t' g']|]; [|discriminate]; injection H as <-; eauto; fail).
      injection H as <-. auto. }
    clear H. destruct Cs as [(-> & -> & ->)|(t' & g' & S & ->)].
    + assert (Hs : hs_of (mkMachine (m_g m) (m_ts m) None) = hs_of m) by (unfold hs_of, wk_h; rewrite W; reflexivity).
      unfold inv. rewrite Hs. cbn [m_ts m_g m_wk]. splits; auto.
      unfold worker_ok in *. destruct wait as [i|]; auto. exfalso.
      destruct Wk as (c & p0 & h & _ & E & _). injection E as E _. destruct p0; discriminate.
    + assert (Nh : nth_error (hs_of m) 0 = Some h) by (cbn; unfold wk_h; rewrite W; reflexivity).
      assert (Hs : hs_of (mkMachine g' (m_ts m) (Some t')) = set_nth 0 (t_h t') (hs_of m)) by reflexivity.
      pose proof (tstep_moved _ _ _ _ _ S) as Mv. cbn [t_h] in Mv.
      assert (Wk' : worker_ok rs wait g' (Some t') /\ exists A (t t2 : thread A), t_h t = h /\ t_h t2 = t_h t' /\ effect t t2 (m_g m) g').
      { unfold worker_ok in *. destruct wait as [i|].
        - destruct Wk as (c & p0 & h0 & Nr & E & Fo). injection E as -> <-.
          destruct (is_ret p0) as [(a & ->)|N]; [cbn in S; discriminate|].
          destruct (tstep_bind _ _ _ _ _ _ _ S N) as (p1 & h1 & S1 & ->).
          destruct (tstep_sound _ _ _ _ _ _ (upward_known c) Fo S1 Co) as [Fo' Ef]. split; [eauto 10|].
          exists bool, (mkThread p0 h), (mkThread p1 h1). auto.
        - destruct (tstep_sound _ _ _ _ _ _ upward_true Wk S Co) as [Fo' Ef]. split; auto.
          exists unit, (mkThread p h), t'. auto. }
      destruct Wk' as (Wk' & A & t & t2 & E1 & E2 & Ef).
      unfold inv. rewrite Hs. cbn [m_ts m_g m_wk]. splits; auto.
      * eapply excl_moved; eauto.
      * rewrite <- E2. eapply consistent_step; eauto. rewrite E1. exact Nh.
      * intros j rj tj Rj Tj. eapply thread_other; eauto. intros l b I. rewrite E1 in I. eapply (X 0%nat (Datatypes.S j)); eauto.
        cbn. rewrite nth_error_map, Tj. reflexivity.
  - (* Pass *)
    injection H as <-. exists wait. split; [destruct wait; reflexivity|]. unfold inv.
    change (hs_of _) with (hs_of m). cbn [m_ts m_g m_wk]. splits; auto.
  - (* Tick *)
    destruct (m_wk m) eqn:W; [discriminate|]. injection H as <-.
    assert (wait = None) as -> by (destruct wait as [i|]; auto; destruct Wk as (? & ? & ? & _ & E & _); discriminate).
    exists None. split; auto.
    assert (Hs : hs_of (mkMachine (m_g m) (m_ts m) (Some (mkThread (on_tick tk) []))) = hs_of m) by (unfold hs_of, wk_h; rewrite W; reflexivity).
    unfold inv. rewrite Hs. cbn [m_ts m_g m_wk]. splits; auto. cbn. apply follows_start. apply tidy_tick.
  - (* Flush *)
    destruct (m_wk m) eqn:W; [discriminate|]. destruct (nth_error (m_ts m) i) as [[p h]|] eqn:Ni; [|discriminate]. cbn [t_p t_h] in H.
    destruct p as [| | | | | | | | | | | |c k| |]; try discriminate. injection H as <-.
    assert (wait = None) as -> by (destruct wait as [j|]; auto; destruct Wk as (? & ? & ? & _ & E & _); discriminate).
    exists (Some i). split; auto.
    assert (Nr : exists r, nth_error rs i = Some r).
    { destruct (nth_error rs i) eqn:E; eauto. apply nth_error_None in E. rewrite <- Ln in E. apply nth_error_None in E. congruence. }
    destruct Nr as (r & Nr). pose proof (Th _ _ _ Nr Ni) as Tr.
    assert (E : r = FlushCacheR c /\ h = [] /\ k = RecvSucc await).
    { destruct r; try (destruct Tr as (? & ? & _ & _ & _ & _ & []); fail). cbn in Tr.
      destruct Tr as (-> & [[_ E]|[[_ E]|[_ E]]]); try discriminate. injection E as -> ->. auto. }
    destruct E as (-> & -> & ->).
    match goal with |- inv _ _ ?q => assert (Hs : hs_of q = hs_of m) end.
    { unfold hs_of, wk_h. cbn [m_ts m_wk t_h]. rewrite W, set_nth_map. cbn [t_h]. f_equal.
      clear -Ni. revert i Ni. induction (m_ts m) as [|a l IH]; intros [|i] Ni; cbn in *; try discriminate.
      - injection Ni as ->. reflexivity.
      - rewrite IH; auto. }
    unfold inv. rewrite Hs. cbn [m_ts m_g m_wk]. rewrite set_nth_length. splits; auto.
    + intros j rj tj Rj Tj. apply nth_set_cases in Tj as [(<- & -> & _)|[Dj Tj]].
      * rewrite Nr in Rj. injection Rj as <-. cbn. auto.
      * specialize (Th _ _ _ Rj Tj). destruct rj; auto. cbn [thread_ok] in *. destruct Th as (E & [[_ F]|[[F _]|[_ F]]]);
          try discriminate; split; auto; [left|right; right]; split; auto; congruence.
    + cbn. exists c, (FlushCaches_body c), []. splits; auto. apply follows_start. apply tidy_flush.
  - (* Succ *)
    destruct (m_wk m) as [[pw hw]|] eqn:W; [|discriminate]. destruct (nth_error (m_ts m) i) as [[p h]|] eqn:Ni; [|discriminate].
    cbn [t_p t_h] in H.
    destruct pw as [| | | | | | | | | | | | | |b kw]; try discriminate.
    destruct p as [| | | | | | | | | | | | |k|]; try discriminate. injection H as <-.
    destruct wait as [j|]; [|destruct Wk as (? & ? & _ & _ & _ & _ & [])].
    assert (Nr : exists r, nth_error rs i = Some r).
    { destruct (nth_error rs i) eqn:E; eauto. apply nth_error_None in E. rewrite <- Ln in E. apply nth_error_None in E. congruence. }
    destruct Nr as (r & Nr). pose proof (Th _ _ _ Nr Ni) as Tr.
    assert (E : (exists c, r = FlushCacheR c) /\ j = i /\ h = [] /\ k = await).
    { destruct r; try (destruct Tr as (? & ? & _ & _ & _ & _ & []); fail). cbn in Tr.
      destruct Tr as (-> & [[_ E]|[[F E]|[_ E]]]); try discriminate. injection E as ->. injection F as ->. eauto. }
    destruct E as ((c & ->) & -> & -> & ->). cbn [next]. rewrite Nat.eqb_refl. exists None. split; auto.
    destruct Wk as (c' & p0 & h & Nr' & E & Fo). rewrite Nr in Nr'. injection Nr' as <-. injection E as E ->.
    destruct p0 as [b0| | | | | | | | | | | | | |]; try discriminate; cbn [bind] in E; [|destruct Fo as (? & ? & _ & _ & _ & _ & [])].
    injection E as -> ->. apply follows_finished in Fo as [-> ->].
    match goal with |- inv _ _ ?q => assert (Hs : hs_of q = hs_of m) end.
    { unfold hs_of, wk_h. cbn [m_ts m_wk t_h]. rewrite W, set_nth_map. cbn [t_h]. f_equal.
      clear -Ni. revert i Ni. induction (m_ts m) as [|a l IH]; intros [|i] Ni; cbn in *; try discriminate.
      - injection Ni as ->. reflexivity.
      - rewrite IH; auto. }
    unfold inv. rewrite Hs. cbn [m_ts m_g m_wk]. rewrite set_nth_length. splits; auto.
    + intros l rl tl Rl Tl. apply nth_set_cases in Tl as [(<- & -> & _)|[Dl Tl]].
      * rewrite Nr in Rl. injection Rl as <-. cbn. split; auto. right. right. split; [discriminate|reflexivity].
      * specialize (Th _ _ _ Rl Tl). destruct rl; auto. cbn [thread_ok] in *. destruct Th as (E & [[_ F]|[[F _]|[_ F]]]);
          [|congruence|]; split; auto; [left|right; right]; split; auto; discriminate.
    + cbn. exists [], []. cbn. splits; auto. intros ? ? ? []. intros [].
Qed.

Lemma inv_init rs c clk : c_log c = L0 -> inv rs None (serve rs c clk).
Proof.
  intros El. unfold inv, serve. cbn [m_ts m_g m_wk]. rewrite map_length.
  match goal with |- context[hs_of ?q] => assert (Hs : forall h, In h (hs_of q) -> h = []) end.
  { intros h [<-|I]; auto. cbn in I. rewrite map_map in I. cbn in I. apply in_map_iff in I as (? & <- & _). auto. }
  splits; auto.
  - intros i j hi hj l b _ I _ X. apply nth_error_In in I. rewrite (Hs _ I) in X. destruct X.
  - split; [|split]; [intros d _|intros d; apply mixed_good|]; try (left; destruct d; reflexivity).
    intros _. exists []. cbn [g_conn]. rewrite app_nil_r. split; auto. constructor.
  - intros i r t Ri Ti. rewrite nth_error_map, Ri in Ti. injection Ti as <-.
    assert (D : (exists z, r = FlushCacheR z) \/ forall z, r <> FlushCacheR z) by (destruct r; eauto; right; discriminate).
    destruct D as [(z & ->)|D].
    + cbn. split; auto. left. split; auto. discriminate.
    + assert (F : follows (mkMem c init_shared clk) (mkThread (handle r) []) (fun P a => answer P r a))
        by (apply follows_start, tidy_rpc; auto).
      destruct r; try exact F. destruct (D c0 eq_refl).
  - cbn [worker_ok]. apply follows_start. apply tidy_caches. intros d. auto.
Qed.
Fixpoint nexts (wait : option nat) (xs : list item) : option (option nat) :=
  match xs with
  | [] => Some wait
  | x :: r => match next wait x with Some w => nexts w r | None => None end
  end.
Lemma inv_exec rs : forall xs wait m m', inv rs wait m -> exec xs m = Some m' ->
  exists wait', nexts wait xs = Some wait' /\ inv rs wait' m'.
Proof.
  induction xs as [|x xs IH]; intros wait m m' I H; cbn in *.
  - injection H as <-. eauto.
  - destruct (exec1 m x) as [m1|] eqn:E; [|discriminate]. destruct (inv_step _ _ _ _ _ I E) as (w & -> & I1). eauto.
Qed.
End From.
