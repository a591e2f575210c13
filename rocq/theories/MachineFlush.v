(** The cache worker sends its queries before it reports success. *)
From Verif Require Import ProofBase Proto SpecProto SpecFrame SpecConn SpecLayout SpecServer ProtoProofs Scanner Conn ReadProofs Proc Lib QueryProofs
  FrameLemmas Server ServerProofs ServerLemmas ServerTimes Machine SpecMachine MachineBase ThreadLogic MachineInv.

(** The frames in [T] are still to be written before the process reports success. *)
Fixpoint owes {A} (T : list Z -> Prop) (p : sproc A) (Q : (list Z -> Prop) -> A -> Prop) : Prop :=
  match p with
  | Ret a => Q T a
  | Crash => True
  | Lock _ k | Unlock _ k | RLock _ k | RUnlock _ k => owes T k Q
  | WriteC bs k => forall r, owes (fun x => T x /\ x <> bs) (k r) Q
  | ReadC _ k => forall q e, owes T (k q e) Q
  | Get k => forall s, owes T (k s) Q
  | Put _ k => owes T k Q
  | Now k => forall t, owes T (k t) Q
  | Sleep _ k => owes T k Q
  | SendSucc _ _ => forall x, ~ T x
  | SendFlush _ _ | RecvSucc _ => False
  end.
Lemma owes_bind {A B} (p : sproc A) (f : A -> sproc B) Q : forall T,
  owes T p (fun T' a => owes T' (f a) Q) -> owes T (bind p f) Q.
Proof.
  induction p as [a| |l k IH|l k IH|l k IH|l k IH|bs k IH|x k IH|k IH|g k IH|k IH|d k IH|c k IH|k IH|b k IH];
    intros T H; cbn [owes bind] in *; auto.
Qed.
Lemma owes_weaken {A} (p : sproc A) (Q R : (list Z -> Prop) -> A -> Prop) : (forall T a, Q T a -> R T a) ->
  forall T, owes T p Q -> owes T p R.
Proof.
  intros W. induction p as [a| |l k IH|l k IH|l k IH|l k IH|bs k IH|x k IH|k IH|g k IH|k IH|d k IH|c k IH|k IH|b k IH];
    intros T H; cbn [owes] in *; auto.
Qed.
(** No channels. *)
Fixpoint nochan {A} (p : sproc A) : Prop :=
  match p with
  | Ret _ | Crash => True
  | Lock _ k | Unlock _ k | RLock _ k | RUnlock _ k => nochan k
  | WriteC _ k => forall r, nochan (k r)
  | ReadC _ k => forall q e, nochan (k q e)
  | Get k => forall s, nochan (k s)
  | Put _ k => nochan k
  | Now k => forall t, nochan (k t)
  | Sleep _ k => nochan k
  | SendSucc _ _ | SendFlush _ _ | RecvSucc _ => False
  end.
Lemma nochan_bind {A B} (p : sproc A) (f : A -> sproc B) : nochan p -> (forall a, nochan (f a)) -> nochan (bind p f).
Proof.
  intros H F. induction p as [a| |l k IH|l k IH|l k IH|l k IH|bs k IH|x k IH|k IH|g k IH|k IH|d k IH|c k IH|k IH|b k IH];
    cbn [nochan bind] in *; auto.
Qed.
Lemma owes_any {A} (p : sproc A) (Q : (list Z -> Prop) -> A -> Prop) : nochan p -> forall T : list Z -> Prop,
  (forall (T' : list Z -> Prop) a, (forall x, T' x -> T x) -> Q T' a) -> owes T p Q.
Proof.
  intros N. induction p as [a| |l k IH|l k IH|l k IH|l k IH|bs k IH|x k IH|k IH|g k IH|k IH|d k IH|c k IH|k IH|b k IH];
    intros T H; cbn [owes nochan] in *; auto; try contradiction.
  intros r. apply IH; auto. intros T' a S. apply H. intros x X. apply (S x X).
Qed.
Lemma nochan_lock {A} l (p : sproc A) : nochan p -> nochan (with_lock l p).
Proof. intros H. unfold with_lock. cbn [nochan]. apply nochan_bind; auto. intros a. exact I. Qed.
Lemma nochan_lift {A} (o : outcome A) : nochan (lift (S := shared) o).
Proof. destruct o; exact I. Qed.

(** Like [T], without the frame of query [gr]. *)
Definition less (gr : Z) (T T' : list Z -> Prop) : Prop := forall x, T' x -> T x /\ x <> framed gr [].
Lemma owes_query gr T : owes T (QueryPacket (EncodeGetRequest gr)) (fun T' _ => less gr T T').
Proof.
  unfold QueryPacket, WritePacket, with_lock. rewrite marshal_wire. cbn [EncodeGetRequest p_data length Z.of_nat Z.gtb Z.compare lift bind owes].
  intros r. change (pktStart ++ wire (p_cmd (EncodeGetRequest gr)) [] ++ pktEnd) with (framed gr []).
  apply owes_any.
  - apply nochan_bind; [|intros a; exact I]. apply nochan_bind; [destruct (w_err r); exact I|].
    intros [b e]. destruct e; [exact I|]. cbn [nochan]. intros q [e|]; [exact I|]. destruct (_ && _); [exact I|].
    apply nochan_bind; [|intros [? ?]; exact I]. unfold WriteAck. cbn [nochan]. intros r2.
    destruct (w_err r2); [|destruct (negb _)]; exact I.
  - intros T' a S x X. exact (S x X).
Qed.
Lemma nochan_rest {T} (zero : T) (assert : Response -> option T) (b : option Response * option err) :
  nochan (A := T * option err) (let (resp, e) := b in
   match e with
  | Some e => Ret (zero, Some e)
  | None => match resp with
            | Some r => match assert r with Some v => Ret (v, None) | None => Crash end
            | None => Crash
            end
  end).
Proof. destruct b as [r [e|]]; [exact I|]. destruct r as [r|]; [|exact I]. destruct (assert r); exact I. Qed.
Lemma owes_getter {U} gr (zero : U) assert T : owes T (getter gr zero assert) (fun T' _ => less gr T T').
Proof.
  unfold getter, getQuery. apply owes_bind, owes_bind. eapply owes_weaken; [|apply owes_query].
  cbn beta. intros T' q L. apply owes_any.
  - destruct q as [q [e|]]; [exact I|]. apply nochan_lift.
  - intros T2 b S2. apply owes_any; [apply nochan_rest|].
    intros T3 a S3 x X. apply L. auto.
Qed.
Lemma owes_update c T : owes T (Update c true) (fun T' _ => less (request c) T T').
Proof.
  destruct c; unfold Update, boot_Update, bypass_Update, temp_Update, fans_Update, prof_Update, err_Update, with_lock;
    cbn [owes bind negb andb]; intros now s; apply owes_bind, owes_bind;
    (eapply owes_weaken; [|apply owes_getter]); cbn beta; intros T' [v [e|]] L; cbn; exact L.
Qed.
(** The frames of a list of queries. *)
Definition frames (cs : list cache) : list Z -> Prop := fun x => exists c, In c cs /\ x = framed (request c) [].
Lemma owes_flush c : owes (frames (flushes c)) (FlushCaches c) (fun _ _ => False).
Proof.
  unfold FlushCaches. apply owes_bind. 
  assert (One : forall k (T : list Z -> Prop), (forall x, T x -> x = framed (request k) []) ->
    owes T (do _ <- Update k true; Ret true) (fun T' _ => forall x, ~ T' x)).
  { intros k T H. apply owes_bind. eapply owes_weaken; [|apply owes_update]. cbn. intros T' _ L x X. destruct (L x X). auto. }
  cut (owes (frames (flushes c)) (FlushCaches_body c) (fun T' _ => forall x, ~ T' x)).
  { intros H. eapply owes_weaken; [|exact H]. intros T b E. exact E. }
  unfold FlushCaches_body, TBootInfo, TBypass, TFans, TTemps, TProfiles, TAll.
  destruct (Z.eqb_spec c 0) as [->|]; [apply One; intros x (k & [<-|[]] & ->); reflexivity|].
  destruct (Z.eqb_spec c 4) as [->|]; [apply One; intros x (k & [<-|[]] & ->); reflexivity|].
  destruct (Z.eqb_spec c 1) as [->|]; [apply One; intros x (k & [<-|[]] & ->); reflexivity|].
  destruct (Z.eqb_spec c 2) as [->|]; [apply One; intros x (k & [<-|[]] & ->); reflexivity|].
  destruct (Z.eqb_spec c 3) as [->|]; [apply One; intros x (k & [<-|[]] & ->); reflexivity|].
  destruct (Z.eqb_spec c 10) as [->|].
  - apply owes_bind. unfold UpdateCaches.
    apply owes_bind; eapply owes_weaken; [|apply owes_update]; cbn beta; intros T1 _ L1.
    apply owes_bind; eapply owes_weaken; [|apply owes_update]; cbn beta; intros T2 _ L2.
    apply owes_bind; eapply owes_weaken; [|apply owes_update]; cbn beta; intros T3 _ L3.
    apply owes_bind; eapply owes_weaken; [|apply owes_update]; cbn beta; intros T4 _ L4.
    apply owes_bind; eapply owes_weaken; [|apply owes_update]; cbn beta; intros T5 _ L5.
    eapply owes_weaken; [|apply owes_update]; cbn beta; intros T6 _ L6. cbn. intros x X.
    destruct (L6 x X) as [X5 N6]. destruct (L5 x X5) as [X4 N5]. destruct (L4 x X4) as [X3 N4].
    destruct (L3 x X3) as [X2 N3]. destruct (L2 x X2) as [X1 N2]. destruct (L1 x X1) as [(k & I & E) N1].
    cbn in I. decompose [or] I; subst; auto.
  - cbn. intros x (k & I & _). destruct c as [|c|c]; [congruence| |contradiction].
    repeat (destruct c as [c|c|]; cbn in I; try contradiction; try congruence).
Qed.

(** ** in an execution *)
Lemma tstep_log {A} hs (t t' : thread A) g g' : tstep hs t g = Some (t', g') ->
  exists l, c_log (g_conn g') = c_log (g_conn g) ++ l.
Proof.
  unfold tstep. destruct (t_p t); try discriminate; intros H.
  - destruct (free hs l); inversion H; subst. exists []. rewrite app_nil_r. auto.
  - destruct (release _ _ _); inversion H; subst; exists []; rewrite app_nil_r; auto.
  - destruct (rfree hs l); inversion H; subst. exists []. rewrite app_nil_r. auto.
  - destruct (release _ _ _); inversion H; subst; exists []; rewrite app_nil_r; auto.
  - destruct (conn_write _ _) eqn:E. inversion H; subst. cbn. apply write_log in E. eauto.
  - destruct (ReadPacket _ _) as [o cn] eqn:E. destruct (read_packet_inv _ _ _ _ E) as (_ & p' & e' & u & v & -> & _).
    inversion H; subst. destruct (read_log _ _ _ _ _ E) as [Lg _]. cbn in *. rewrite Lg. eauto.
  - inversion H; subst. exists []. rewrite app_nil_r. auto.
  - inversion H; subst. exists []. rewrite app_nil_r. auto.
  - inversion H; subst. exists []. rewrite app_nil_r. auto.
  - inversion H; subst. exists []. rewrite app_nil_r. auto.
Qed.
Definition owing (L1 : list io) (cs : list cache) (m : machine resp) : Prop :=
  exists w T l, m_wk m = Some w /\ c_log (g_conn (m_g m)) = L1 ++ l /\ owes T (t_p w) (fun _ _ => False) /\
    forall c, In c cs -> T (framed (request c) []) \/ exists r, In (Wr (framed (request c) []) r) l.
Lemma tstep_owes {A} hs (t t' : thread A) g g' T Q : tstep hs t g = Some (t', g') -> owes T (t_p t) Q ->
  exists T' l, c_log (g_conn g') = c_log (g_conn g) ++ l /\ owes T' (t_p t') Q /\
    forall x, T x -> T' x \/ exists r, In (Wr x r) l.
Proof.
  unfold tstep. intros H O. destruct (t_p t); try discriminate; cbn [owes] in O.
  - destruct (free hs l); inversion H; subst. exists T, []. rewrite app_nil_r. auto.
  - destruct (release _ _ _); inversion H; subst; exists T, []; rewrite app_nil_r; cbn; auto.
  - destruct (rfree hs l); inversion H; subst. exists T, []. rewrite app_nil_r. auto.
  - destruct (release _ _ _); inversion H; subst; exists T, []; rewrite app_nil_r; cbn; auto.
  - destruct (conn_write _ _) as [r cn] eqn:E. inversion H; subst. cbn. apply write_log in E.
    exists (fun x => T x /\ x <> bs), [Wr bs r]. split; auto. split; [apply O|].
    intros x X. destruct (list_eq_dec Z.eq_dec x bs) as [->|N]; [right; exists r; left; auto|left; auto].
  - destruct (ReadPacket _ _) as [o cn] eqn:E. destruct (read_packet_inv _ _ _ _ E) as (_ & p' & e' & u & v & -> & _).
    inversion H; subst. cbn. destruct (read_log _ _ _ _ _ E) as [Lg _]. cbn in Lg. rewrite Lg. exists T. eauto.
  - inversion H; subst. exists T, []. rewrite app_nil_r. cbn. auto.
  - inversion H; subst. exists T, []. rewrite app_nil_r. cbn. auto.
  - inversion H; subst. exists T, []. rewrite app_nil_r. cbn. auto.
  - inversion H; subst. exists T, []. rewrite app_nil_r. cbn. auto.
Qed.
Lemma owing_step L1 cs m x m' : owing L1 cs m -> no_channel x -> exec1 m x = Some m' -> owing L1 cs m'.
Proof.
  intros (w & T & l & Hw & Lg & O & K) N H. destruct x as [i| |d|t|i|i]; try contradiction; cbn [exec1] in H.
  - destruct (nth_error (m_ts m) i) as [t|]; [|discriminate]. destruct (tstep _ t (m_g m)) as [[t' g']|] eqn:E; [|discriminate].
    inversion H; subst. destruct (tstep_log _ _ _ _ _ E) as (l2 & L2). exists w, T, (l ++ l2). cbn [m_wk m_g].
    split; auto. split; [rewrite L2, Lg, app_assoc; auto|]. split; auto.
    intros c I. destruct (K c I) as [X|(r & X)]; auto. right. exists r. apply in_or_app. auto.
  - rewrite Hw in H. assert (R : exists t' g', tstep (locks_held m) w (m_g m) = Some (t', g') /\ m' = mkMachine g' (m_ts m) (Some t')).
    { destruct (t_p w) as [[]| | | | | | | | | | | | | |] eqn:P; [cbn in O; contradiction|..];
        (destruct (tstep (locks_held m) w (m_g m)) as [[t' g']|] eqn:E; [|discriminate]; inversion H; eauto). }
    destruct R as (t' & g' & E & ->). destruct (tstep_owes _ _ _ _ _ _ _ E O) as (T' & l2 & L2 & O' & K').
    exists t', T', (l ++ l2). cbn [m_wk m_g]. split; auto. split; [rewrite L2, Lg, app_assoc; auto|]. split; auto.
    intros c I. destruct (K c I) as [X|(r & X)].
    + destruct (K' _ X) as [Y|(r & Y)]; auto. right. exists r. apply in_or_app. auto.
    + right. exists r. apply in_or_app. auto.
  - inversion H; subst. exists w, T, l. auto.
Qed.
Lemma owing_exec L1 cs : forall xs m m', owing L1 cs m -> Forall no_channel xs -> exec xs m = Some m' -> owing L1 cs m'.
Proof.
  induction xs as [|x xs IH]; intros m m' O F H; cbn in H; [inversion H; subst; auto|].
  inversion F; subst. destruct (exec1 m x) as [m1|] eqn:E; [|discriminate]. apply (IH m1 m'); auto. eapply owing_step; eauto.
Qed.
Lemma exec_app {A} : forall xs ys (m : machine A), exec (xs ++ ys) m = match exec xs m with Some m1 => exec ys m1 | None => None end.
Proof. induction xs as [|x xs IH]; intros ys m; cbn; auto. destruct (exec1 m x); auto. Qed.
Lemma nexts_app : forall xs ys w, nexts w (xs ++ ys) = match nexts w xs with Some w1 => nexts w1 ys | None => None end.
Proof. induction xs as [|x xs IH]; intros ys w; cbn; auto. destruct (next w x); auto. Qed.
(** While a request is being served nothing happens on the channels. *)
Lemma nexts_serving i : forall xs w, Forall (fun x => forall k, x <> Succ k) xs -> nexts (Some i) xs = Some w ->
  w = Some i /\ Forall no_channel xs.
Proof.
  induction xs as [|x xs IH]; intros w F H; cbn [nexts] in H; [inversion H; auto|].
  inversion F as [|? ? N F']; subst. destruct x as [j| |d|t|j|j]; cbn [next] in H; try discriminate;
    try (destruct (IH w F' H); split; auto; constructor; cbn; auto; fail).
  destruct (N j eq_refl).
Qed.
Lemma known_flushes q : flush_known q = true <-> flushes q <> [].
Proof.
  rewrite flush_known_ok. split.
  - intros [<-|[<-|[<-|[<-|[<-|[<-|[]]]]]]]; discriminate.
  - intros H. destruct q as [|q|q]; [left; auto| |destruct (H eq_refl)].
    repeat (destruct q as [q|q|]; cbn in *; try (destruct (H eq_refl)); auto 10).
Qed.
Lemma flush_pairs rs c clk s1 i s2 j m0 m m' :
  exec s1 (serve rs c clk) = Some m0 -> exec (Flush i :: s2) m0 = Some m -> exec1 m (Succ j) = Some m' ->
  Forall (fun x => forall k, x <> Succ k) s2 ->
  i = j /\ Forall no_channel s2 /\ exists k b t l, nth_error rs i = Some (FlushCacheR k) /\
    nth_error (m_ts m') i = Some t /\ t_p t = Ret (RespFlush b) /\ (b = true <-> flushes k <> []) /\
    c_log (g_conn (m_g m')) = c_log (g_conn (m_g m0)) ++ l /\
    forall q, In q (flushes k) -> exists r, In (Wr (framed (request q) []) r) l.
Proof.
  intros E0 E1 E2 NS. pose proof (inv_init (c_log c) rs c clk eq_refl) as I0.
  destruct (inv_exec _ _ _ _ _ _ I0 E0) as (w0 & N0 & I1).
  assert (E12 : exec ((Flush i :: s2) ++ [Succ j]) m0 = Some m') by (rewrite exec_app, E1; cbn [exec]; rewrite E2; reflexivity).
  destruct (inv_exec _ _ _ _ _ _ I1 E12) as (w1 & N1 & I2). rewrite nexts_app in N1. cbn [nexts] in N1.
  destruct w0 as [|]; [discriminate|]. cbn [next] in N1.
  destruct (nexts (Some i) s2) as [w2|] eqn:N2; [|discriminate]. destruct (nexts_serving _ _ _ NS N2) as [-> NC].
  cbn [next] in N1. destruct (Nat.eqb_spec j i) as [->|]; [|discriminate]. split; auto. split; auto.
  cbn [exec] in E1. destruct (exec1 m0 (Flush i)) as [m1|] eqn:F1; [|discriminate].
  cbn [exec1] in F1. destruct (m_wk m0) eqn:W0; [discriminate|]. destruct (nth_error (m_ts m0) i) as [t0|] eqn:T0; [|discriminate].
  destruct (t_p t0) as [a| |l0 k0|l0 k0|l0 k0|l0 k0|bs k0|x0 k0|k0|f0 k0|k0|d0 k0|q0 k0|k0|b0 k0] eqn:P0; try discriminate. inversion F1; subst m1. clear F1.
  pose proof I1 as I1'. destruct I1 as (Len & _ & _ & Th & _).
  destruct (nth_error rs i) as [r|] eqn:R; [|exfalso; apply nth_error_None in R;
    pose proof (proj1 (nth_error_Some (m_ts m0) i) ltac:(congruence)); lia].
  assert (Rk : r = FlushCacheR q0).
  { specialize (Th _ _ _ R T0). destruct r; cbn [thread_ok] in Th;
      try (destruct Th as (st & kn & _ & _ & _ & _ & Sp); rewrite P0 in Sp; contradiction).
    destruct Th as (_ & [(_ & E)|[(_ & E)|(_ & E)]]); rewrite P0 in E; inversion E; subst; auto. }
  subst r. rename q0 into q.
  assert (O1 : owing (c_log (g_conn (m_g m0))) (flushes q)
     (mkMachine (m_g m0) (set_nth i (mkThread k0 (t_h t0)) (m_ts m0)) (Some (mkThread (FlushCaches q) [])))).
  { exists (mkThread (FlushCaches q) []), (frames (flushes q)), []. cbn [m_wk m_g t_p]. rewrite app_nil_r.
    split; auto. split; auto. split; [apply owes_flush|]. intros k I. left. exists k. auto. }
  pose proof (owing_exec _ _ _ _ _ O1 NC E1) as (w & T & l & Hw & Lg & O & K).
  cbn [exec1] in E2. rewrite Hw in E2. destruct (nth_error (m_ts m) i) as [ti|] eqn:Ti; [|discriminate].
  destruct (t_p w) as [a| |l1 k1|l1 k1|l1 k1|l1 k1|bs k1|x1 k1|k1|f1 k1|k1|d1 k1|q1 k1|k1|b1 k1] eqn:Pw; try discriminate. destruct (t_p ti) as [a| |l2 k2|l2 k2|l2 k2|l2 k2|bs k2|x2 k2|k2|f2 k2|k2|d2 k2|q2 k2|k2|b2 k2] eqn:Pi; try discriminate. inversion E2; subst m'. clear E2.
  assert (E1' : exec (Flush i :: s2) m0 = Some m).
  { cbn [exec exec1]. rewrite W0, T0, P0. exact E1. }
  destruct (inv_exec _ _ _ _ _ _ I1' E1') as (w3 & N3 & I3). cbn [nexts next] in N3. rewrite N2 in N3. injection N3 as <-.
  destruct I3 as (_ & _ & _ & Th3 & _). specialize (Th3 _ _ _ R Ti). cbn [thread_ok] in Th3.
  destruct Th3 as (_ & [(X & _)|[(_ & E)|(X & _)]]); [congruence| |congruence]. rewrite Pi in E. injection E as ->.
  destruct I2 as (Len2 & _ & _ & Th2 & _). cbn [m_ts m_g] in *.
  assert (Nt : nth_error (set_nth i (mkThread (await b1) (t_h ti)) (m_ts m)) i = Some (mkThread (await b1) (t_h ti)))
    by (eapply nth_set_same; eauto).
  exists q, b1, (mkThread (await b1) (t_h ti)), l. splits; auto.
  - specialize (Th2 _ _ _ R Nt). cbn [thread_ok t_p t_h await] in Th2.
    destruct Th2 as (_ & [(_ & E)|[(_ & E)|(_ & E)]]); [discriminate|discriminate|]. injection E as ->. apply known_flushes.
  - intros k I. cbn [owes] in O. destruct (K k I) as [X|X]; auto. destruct (O _ X).
Qed.
