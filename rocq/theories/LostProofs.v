(** Proofs about a connection on which nothing arrives any more. *)
From Verif Require Import ProofBase GoStrings Proto Scanner Conn Proc Lib Server Samples SamplesServer SpecServer ServerLemmas Machine SpecMachine SamplesLost SpecLost.

(** ** Processes that change no variable *)
Section Safe.
Variable s0 : shared.
Variable rd : bool -> packet -> option err -> Prop.
Variable wr : wres -> Prop.
Fixpoint safe {A} (p : sproc A) (post : A -> Prop) : Prop :=
  match p with
  | Ret a => post a
  | Crash => True
  | Lock _ k | Unlock _ k | RLock _ k | RUnlock _ k | Sleep _ k | SendFlush _ k | SendSucc _ k => safe k post
  | WriteC _ k => forall r, wr r -> safe (k r) post
  | ReadC x k => forall q e, rd x q e -> safe (k q e) post
  | Get k => safe (k s0) post
  | Put _ _ => False
  | Now k => forall t, safe (k t) post
  | RecvSucc k => forall b, safe (k b) post
  end.
Lemma safe_bind {A B} (p : sproc A) (k : A -> sproc B) : forall post, safe p (fun a => safe (k a) post) -> safe (bind p k) post.
Proof. induction p; intros post W; cbn in *; eauto. Qed.
Lemma safe_impl {A} (p : sproc A) : forall (P Q : A -> Prop), (forall a, P a -> Q a) -> safe p P -> safe p Q.
Proof. induction p; intros P Q I W; cbn in *; eauto. Qed.
Lemma safe_lock {A} l (p : sproc A) (post : A -> Prop) : safe p post -> safe (with_lock l p) post.
Proof. intros W. unfold with_lock. cbn [safe]. apply safe_bind. eapply safe_impl; [|exact W]. intros a H. exact H. Qed.
Lemma safe_lift {A} (o : outcome A) (post : A -> Prop) : (forall a, post a) -> safe (lift o) post.
Proof. intros H. destruct o; cbn; auto. Qed.

Definition failing (p : packet) : Prop := safe (QueryPacket p) (fun r => snd r <> None).
Hypothesis gets : forall gr, In gr [103; 223; 209; 11; 205; 217] -> failing (EncodeGetRequest gr).
Lemma getter_safe {T} gr (z : T) a : In gr [103; 223; 209; 11; 205; 217] -> safe (getter gr z a) (fun r => snd r <> None).
Proof.
  intros G. unfold getter, getQuery. apply safe_bind, safe_bind. eapply safe_impl; [|exact (gets gr G)]. intros [q e] E. cbn in E. destruct e; [|congruence].
  cbn. discriminate.
Qed.
Lemma update_safe c f (post : unit -> Prop) : post tt -> safe (Update c f) post.
Proof.
  intros P. destruct c; cbn [Update]; unfold boot_Update, bypass_Update, temp_Update, fans_Update, prof_Update, err_Update;
    apply safe_lock; cbn [safe]; intros now;
    (match goal with |- safe (if ?b then _ else _) _ => destruct b; [exact P|] end);
    apply safe_bind; (eapply safe_impl; [|apply getter_safe; cbn; tauto]); intros [v e] E; cbn in E; (destruct e; [exact P|congruence]).
Qed.
Lemma caches_safe f : safe (UpdateCaches f) (fun _ => True).
Proof. unfold UpdateCaches. do 5 (apply safe_bind; apply update_safe). apply update_safe. exact I. Qed.
Lemma flush_safe c : safe (FlushCaches c) (fun _ => True).
Proof.
  unfold FlushCaches. apply safe_bind. apply (safe_impl _ (fun _ => True)); [intros; exact I|]. unfold FlushCaches_body.
  assert (One : forall d, safe (do _ <- Update d true; Ret true) (fun _ => True)) by (intros; apply safe_bind; apply update_safe; exact I).
  repeat (match goal with |- safe (if ?b then _ else _) _ => destruct b end; [first [apply One | apply safe_bind; eapply safe_impl; [|apply caches_safe]; intros; exact I]|]).
  exact I.
Qed.
Lemma tick_safe t : safe (on_tick t) (fun _ => True).
Proof. destruct t; cbn [on_tick]; apply safe_bind, update_safe, update_safe; exact I. Qed.

(** The set requests may do what they like, as long as they do no harm here. *)
Lemma profile_safe m s : safe (SetFanProfile m s) (fun e => e <> None).
Proof.
  unfold SetFanProfile. destruct (m >? 3); [cbn; discriminate|]. destruct (s >? 100); [cbn; discriminate|]. apply safe_lock, safe_bind.
  eapply safe_impl; [|apply getter_safe; cbn; tauto]. intros [v e] E. cbn in E. destruct e; [|congruence]. cbn. discriminate.
Qed.
Lemma setprofile_safe a t : safe (SetFanProfileRPC a t) no_change.
Proof.
  unfold SetFanProfileRPC. destruct (_ || _); [exact I|]. destruct (_ || _); [exact I|]. apply safe_lock. cbn [safe].
  match goal with |- safe (match ?o with _ => _ end) _ => destruct o as [v|]; [|exact I] end.
  destruct (negb _); [|reflexivity]. apply safe_bind. eapply safe_impl; [|apply profile_safe]. intros [e|] E; [exact I|congruence].
Qed.
Lemma query_any p (post : packet * option err -> Prop) : (forall r, post r) -> safe (QueryPacket p) post.
Proof.
  intros H. unfold QueryPacket. apply safe_lock, safe_bind. apply (safe_impl _ (fun _ => True)).
  - intros [b [e|]] _; [apply H|]. cbn [safe]. intros q [e|] _; [apply H|]. destruct (_ && _); [apply H|]. apply safe_bind. unfold WriteAck. cbn [safe]. intros r _.
    destruct (w_err r); [apply H|]. destruct (negb _); apply H.
  - unfold WritePacket. apply safe_bind. apply safe_lift. intros [pb [e|]]; [exact I|]. cbn [safe]. intros r _. destruct (w_err r); exact I.
Qed.
Lemma set_any r (post : option err -> Prop) : (forall e, post e) -> safe (setQuery r) post.
Proof. intros H. unfold setQuery. destruct (EncodeSetRequest r) as [p [e|]]; [apply H|]. apply safe_bind. apply query_any. intros [q e]. apply H. Qed.
Lemma poll_safe k i o : safe (poll_loop k i o) (fun _ => True).
Proof.
  induction k as [|k IH]; [exact I|]. cbn [poll_loop]. apply safe_bind, update_safe. cbn [safe].
  destruct (_ =? _); [|exact IH]. cbn [safe]. destruct (_ =? _); [exact I|exact IH].
Qed.
Lemma comfort_gen (P : option err -> Prop) t : (forall r, safe (setQuery r) P) ->
  safe (SetComfortTemp t) (fun a => P None \/ no_change a).
Proof.
  intros S. unfold SetComfortTemp. cbn [safe]. destruct (t >? 255); [right; exact I|]. destruct (negb _); [|right; reflexivity].
  apply safe_lock, safe_bind. eapply safe_impl; [|apply S]. intros [e|] E; [right; exact I|]. apply safe_bind, update_safe. left. exact E.
Qed.
Lemma speed_gen (P : option err -> Prop) a r : (forall r, safe (setQuery r) P) ->
  safe (SetFanSpeed a r) (fun b => P None \/ no_change b).
Proof.
  intros S. unfold SetFanSpeed. apply safe_lock. cbn [safe]. destruct (modifySpeed _ a r) as [t [e|]]; [right; exact I|]. destruct (negb _); [|right; reflexivity].
  apply safe_bind. eapply safe_impl; [|apply S]. intros [e|] E; [right; exact I|]. apply safe_bind. unfold UpdatePoll. cbn [safe].
  destruct (Lookup _ _) as [[i o] [e|]]; [right; exact I|]. cbn [safe]. eapply safe_impl; [|apply poll_safe].
  intros [e|] _; [right; exact I|]. apply safe_bind, update_safe. left. exact E.
Qed.
Definition shows (q : rpc) (a : resp) : Prop := forall c, q = getter_rpc c -> typed (cached s0 c) -> a = message (cached s0 c).
Lemma getter_shows c : safe (handle (getter_rpc c)) (shows (getter_rpc c)).
Proof.
  apply (safe_impl _ (fun a => typed (cached s0 c) -> a = message (cached s0 c))).
  { intros a H c' E T. destruct c, c'; try discriminate; auto. }
  destruct c; cbn [handle getter_rpc]; apply safe_bind, safe_lock; cbn [safe]; intros T; rewrite <- (umsg_typed _ T); reflexivity.
Qed.

(** ** The machine *)
Variable CI : conn -> Prop.
Hypothesis ci_write : forall c bs, CI c -> let (r, c') := conn_write c bs in wr r /\ CI c'.
Hypothesis ci_read : forall c x, CI c -> match ReadPacket c x with (Done (p, e), c') => rd x p e /\ CI (log_io c' (Rd x p e)) | (Panic, c') => CI c' end.
Definition inv (P : nat -> resp -> Prop) (m : machine resp) : Prop :=
  CI (g_conn (m_g m)) /\ g_sh (m_g m) = s0 /\ (forall i t, nth_error (m_ts m) i = Some t -> safe (t_p t) (P i)) /\
  match m_wk m with Some t => safe (t_p t) (fun _ => True) | None => True end.
Lemma nth_set_same {T} (l : list T) i x y : nth_error (set_nth i x l) i = Some y -> x = y.
Proof. revert i. induction l as [|z l IH]; intros [|i] E; cbn in *; try discriminate; [congruence|eauto]. Qed.
Lemma nth_set_other {T} (l : list T) i j x : i <> j -> nth_error (set_nth j x l) i = nth_error l i.
Proof. revert i j. induction l as [|z l IH]; intros [|i] [|j] N; cbn; auto; try congruence. Qed.
Lemma set_safe (P : nat -> resp -> Prop) ts i t : (forall j u, nth_error ts j = Some u -> safe (t_p u) (P j)) -> safe (t_p t) (P i) ->
  forall j u, nth_error (set_nth i t ts) j = Some u -> safe (t_p u) (P j).
Proof.
  intros H S j u N. destruct (Nat.eq_dec j i) as [->|D]; [apply nth_set_same in N; subst; auto|]. rewrite nth_set_other in N by auto. eauto.
Qed.
Lemma tstep_safe {A} hs (t t' : thread A) g g' post : tstep hs t g = Some (t', g') -> CI (g_conn g) -> g_sh g = s0 -> safe (t_p t) post ->
  CI (g_conn g') /\ g_sh g' = s0 /\ safe (t_p t') post.
Proof.
  intros T C E S. unfold tstep in T. destruct (t_p t) eqn:P; cbn [safe] in S; try discriminate; try contradiction.
  - destruct (free hs l); [|discriminate]. injection T as <- <-. auto.
  - destruct (release _ _ _); injection T as <- <-; cbn; auto.
  - destruct (rfree hs l); [|discriminate]. injection T as <- <-. auto.
  - destruct (release _ _ _); injection T as <- <-; cbn; auto.
  - pose proof (ci_write (g_conn g) bs C) as W. destruct (conn_write _ _) as [r c]. injection T as <- <-. cbn. destruct W. auto.
  - pose proof (ci_read (g_conn g) expect C) as R. destruct (ReadPacket _ _) as [[[q e]|] c]; injection T as <- <-; cbn; [destruct R; auto|auto].
  - injection T as <- <-. cbn. rewrite E. auto.
  - injection T as <- <-. cbn. auto.
  - injection T as <- <-. cbn. auto.
Qed.
Lemma step_inv P m m' x : exec1 m x = Some m' -> inv P m -> inv P m'.
Proof.
  intros E (C & G & T & W). destruct x as [i| |d|t|i|i]; cbn [exec1] in E.
  - destruct (nth_error (m_ts m) i) as [t|] eqn:N; [|discriminate]. destruct (tstep _ _ _) as [[t' g']|] eqn:S; [|discriminate]. injection E as <-.
    destruct (tstep_safe _ _ _ _ _ (P i) S C G (T _ _ N)) as (C' & G' & S'). split; [exact C'|]. split; [exact G'|]. split; [|exact W]. cbn [m_ts]. apply set_safe; auto.
  - destruct (m_wk m) as [t|] eqn:K; [|discriminate].
    assert (Go : forall t' g', tstep (locks_held m) t (m_g m) = Some (t', g') -> inv P (mkMachine g' (m_ts m) (Some t'))).
    { intros t' g' S. destruct (tstep_safe _ _ _ _ _ _ S C G W) as (C' & G' & S'). split; [exact C'|]. split; [exact G'|]. split; [exact T|exact S']. }
    destruct (t_p t) eqn:Q;
      try (destruct (tstep _ _ _) as [[t' g']|] eqn:S; [|discriminate]; injection E as <-; eapply Go; eauto).
    destruct a. destruct (t_h t).
    + injection E as <-. split; [exact C|]. split; [exact G|]. split; [exact T|exact I].
    + destruct (tstep _ _ _) as [[t' g']|] eqn:S; [|discriminate]; injection E as <-; eapply Go; eauto.
  - injection E as <-. split; [exact C|]. split; [exact G|]. split; [exact T|exact W].
  - destruct (m_wk m); [discriminate|]. injection E as <-. split; [exact C|]. split; [exact G|]. split; [exact T|]. cbn. apply tick_safe.
  - destruct (m_wk m); [discriminate|]. destruct (nth_error (m_ts m) i) as [t|] eqn:N; [|discriminate]. pose proof (T _ _ N) as S.
    destruct (t_p t) eqn:Q; try discriminate. injection E as <-. split; [exact C|]. split; [exact G|]. split; [cbn [m_ts]; apply set_safe; auto|]. cbn. apply flush_safe.
  - destruct (m_wk m) as [w|] eqn:K; [|discriminate]. destruct (nth_error (m_ts m) i) as [t|] eqn:N; [|discriminate]. pose proof (T _ _ N) as S.
    destruct (t_p w) eqn:Q; try discriminate. destruct (t_p t) eqn:R; try discriminate. injection E as <-. split; [exact C|]. split; [exact G|].
    split; [cbn [m_ts]; apply set_safe; auto; cbn; apply S|exact W].
Qed.
Lemma exec_inv P xs : forall m m', exec xs m = Some m' -> inv P m -> inv P m'.
Proof.
  induction xs as [|x xs IH]; intros m m' E H; cbn in E; [congruence|]. destruct (exec1 m x) eqn:E1; [|discriminate]. eauto using step_inv.
Qed.
Variable good : rpc -> resp -> Prop.
Hypothesis handles : forall q, safe (handle q) (good q).
Lemma safe_all (p : sproc resp) : forall Pr : rpc -> Prop, (forall q, Pr q -> safe p (good q)) -> (exists q, Pr q) -> safe p (fun a => forall q, Pr q -> good q a).
Proof. clear handles. induction p; intros Pr U X; cbn in *; auto. destruct X as [q X]. exact (U q X). Qed.
Lemma begins m : CI (g_conn (m_g m)) -> g_sh (m_g m) = s0 -> resting m -> inv (fun i a => forall q, to_come m i q -> good q a) m.
Proof.
  intros C G [W T]. split; [exact C|]. split; [exact G|]. split; [|rewrite W; exact I]. intros i t N.
  pose proof (proj1 (Forall_forall _ _) T t (nth_error_In _ _ N)) as [[q Q]|[a Q]]; rewrite Q.
  - assert (U : forall q', to_come m i q' -> safe (handle q) (good q')).
    { intros q' (t' & N' & Q'). rewrite N in N'. injection N' as <-. rewrite <- Q, Q'. apply handles. }
    apply safe_all; [exact U|]. exists q, t. auto.
  - cbn. intros q (t' & N' & Q'). rewrite N in N'. injection N' as <-. pose proof (handles q) as H. rewrite <- Q', Q in H. exact H.
Qed.
End Safe.

(** ** Connections *)
Lemma top_empty s : s_data s = [] -> match scan_top s with TTok _ _ => False | TFalse s' | TRead s' => s_data s' = [] end.
Proof.
  intros D. unfold scan_top. rewrite D. change (0 <? len (@nil byte)) with false. cbn [orb].
  assert (G : match scan_grow s with TTok _ _ => False | TFalse s' | TRead s' => s_data s' = [] end).
  { unfold scan_grow. match goal with |- context [if s_end ?x =? _ then _ else _] => set (s1 := x) end. assert (D1 : s_data s1 = []) by (unfold s1; destruct (_ && _); auto).
    destruct (s_end s1 =? s_buflen s1); [|exact D1]. destruct (s_buflen s1 >=? maxTokenSize); [|exact D1]. exact D1. }
  destruct (s_err s); [|exact G]. cbn. reflexivity.
Qed.
Lemma feed_empty s e : s_data s = [] -> s_data (scan_feed s [] e) = [].
Proof.
  intros D. unfold scan_feed. destruct (_ <? _); [exact D|]. destruct e; [cbn; rewrite D; reflexivity|]. change (0 <? len (@nil byte)) with false. cbv iota zeta.
  destruct (_ >? _); cbn; rewrite D; reflexivity.
Qed.
Lemma wait_empty evs : forall pre s post, Forall no_bytes evs -> s_data s = [] ->
  match scan_wait evs pre s post with
  | (STok _ _, _, _) => False
  | (SFalse s', r, _) => s_data s' = [] /\ Forall no_bytes r
  | (STime, r, _) => Forall no_bytes r
  end.
Proof.
  induction evs as [|e evs IH]; intros pre s post N D; cbn [scan_wait]; pose proof (top_empty s D) as T; destruct (scan_top s) as [tok s'|s'|s']; try contradiction; auto.
  inversion N as [|? ? N1 N2]; subst. destruct e as [bs e| |].
  - cbn in N1. subst bs. destruct pre as [|o pre]; [apply IH; auto; apply feed_empty; auto|]. destruct (scan_top _); apply IH; auto.
  - exact N2.
  - destruct pre; apply IH; auto.
Qed.
Lemma timeout_empty c s : cut_off c -> s_data s = [] ->
  match ScanTimeout c s with (tok, e, s', c') => tok = [] /\ s_data s' = [] /\ cut_off c' /\ c_dev c' = c_dev c /\ c_log c' = c_log c end.
Proof.
  intros [M N] D. unfold ScanTimeout, cut_off. pose proof (wait_empty (c_pend c) (c_orph c) s [] N D) as W. pose proof (top_empty s D) as T.
  assert (Go : match (match scan_wait (c_pend c) (c_orph c) s [] with
      | (STok tok s', r, os) => ((tok, None), s', mkConn (c_dev c) r os (c_log c))
      | (SFalse s', r, os) => (([], None), s', mkConn (c_dev c) r os (c_log c))
      | (STime, r, os) => (([], Some ErrTimeout), s, mkConn (c_dev c) r os (c_log c))
      end) with (tok, e, s', c') => tok = [] /\ s_data s' = [] /\ (mute (c_dev c') /\ Forall no_bytes (c_pend c')) /\ c_dev c' = c_dev c /\ c_log c' = c_log c end).
  { destruct (scan_wait _ _ _ _) as [[[tok s'|s'|] r] os]; [contradiction| |]; cbn; tauto. }
  destruct (c_pend c) as [|[bs e| |] r]; try exact Go. inversion N; subst. destruct (scan_top s); [contradiction| |]; cbn; auto.
Qed.
Lemma read_empty c x : cut_off c -> match ReadPacket c x with
  | (Done (p, e), c') => (e <> None \/ p = zero_packet) /\ cut_off c' /\ c_dev c' = c_dev c /\ c_log c' = c_log c
  | (Panic, _) => False end.
Proof.
  intros C. unfold ReadPacket. pose proof (timeout_empty c new_scanner C eq_refl) as T1. destruct (ScanTimeout c new_scanner) as [[[t1 e1] s1] c1].
  destruct T1 as (-> & D1 & C1 & V1 & L1). destruct e1; [auto|]. change (negb (len (@nil byte) =? 0)) with false. cbv iota. destruct x; cbn [negb]; [|auto].
  pose proof (timeout_empty c1 s1 C1 D1) as T2. destruct (ScanTimeout c1 s1) as [[[t2 e2] s2] c2]. destruct T2 as (-> & D2 & C2 & V2 & L2). rewrite V1 in V2. rewrite L1 in L2.
  destruct e2; [auto|]. change (negb (len (@nil byte) =? 0)) with false. cbv iota.
  pose proof (timeout_empty c2 s2 C2 D2) as T3. destruct (ScanTimeout c2 s2) as [[[t3 e3] s3] c3]. destruct T3 as (-> & D3 & C3 & V3 & L3). rewrite V2 in V3. rewrite L2 in L3.
  destruct e3; [auto|]. change ((len (@nil byte) >? 0) && (len (@nil byte) <? 4)) with false. change (len (@nil byte) >=? 4) with false. cbv iota. auto.
Qed.
Definition rd0 (_ : bool) (p : packet) (e : option err) : Prop := e <> None \/ p = zero_packet.
Definition wr0 (_ : wres) : Prop := True.
Lemma write_empty c bs : cut_off c -> let (r, c') := conn_write c bs in cut_off c' /\ c_log c' = c_log c ++ [Wr bs r].
Proof.
  intros [M N]. unfold conn_write. destruct (react (c_dev c) bs) as [[d evs] w] eqn:R. inversion M as [d0 H]; subst. destruct (H _ _ _ _ R) as [E M'].
  split; [split; cbn; [exact M'|apply Forall_app; auto]|reflexivity].
Qed.
Definition ci0 (l0 : list io) (c : conn) : Prop := cut_off c /\ exists l, c_log c = l0 ++ l /\ Forall nothing_read l.
Lemma ci0_write l0 c bs : ci0 l0 c -> let (r, c') := conn_write c bs in wr0 r /\ ci0 l0 c'.
Proof.
  intros [C (l & L & F)]. pose proof (write_empty c bs C) as W. destruct (conn_write c bs) as [r c']. destruct W as [C' L']. split; [exact I|]. split; auto.
  exists (l ++ [Wr bs r]). rewrite L', L, app_assoc. split; auto. apply Forall_app. split; auto. repeat constructor.
Qed.
Lemma ci0_read l0 c x : ci0 l0 c -> match ReadPacket c x with (Done (p, e), c') => rd0 x p e /\ ci0 l0 (log_io c' (Rd x p e)) | (Panic, c') => ci0 l0 c' end.
Proof.
  intros [C (l & L & F)]. pose proof (read_empty c x C) as R. destruct (ReadPacket c x) as [[[p e]|] c']; [|contradiction]. destruct R as (R & C' & _ & L').
  split; [exact R|]. split; [exact C'|]. exists (l ++ [Rd x p e]). cbn. rewrite L', L, app_assoc. split; auto. apply Forall_app. split; auto.
Qed.
Lemma get_fails s0 (rd : bool -> packet -> option err -> Prop) wr gr : (forall x p e, rd x p e -> e <> None \/ p = zero_packet) ->
  In gr [103; 223; 209; 11; 205; 217] -> failing s0 rd wr (EncodeGetRequest gr).
Proof.
  intros Z G. unfold failing, QueryPacket. apply safe_lock, safe_bind. apply (safe_impl _ _ _ _ (fun _ => True)).
  - intros [b [e|]] _; [cbn; discriminate|]. cbn [safe]. intros q [e|] R; [cbn; discriminate|]. apply Z in R. destruct R as [R| ->]; [congruence|].
    assert (Y : p_expect (EncodeGetRequest gr) && negb (p_cmd zero_packet =? u8 (p_cmd (EncodeGetRequest gr) + 1)) = true).
    { cbn in G. repeat (destruct G as [<-|G]; [reflexivity|]). destruct G. }
    rewrite Y. cbn. discriminate.
  - unfold WritePacket. apply safe_bind. apply safe_lift. intros [pb [e|]]; [exact I|]. cbn [safe]. intros r _. destruct (w_err r); exact I.
Qed.

(** ** Nothing arrives *)
Definition good0 (s0 : shared) (q : rpc) (a : resp) : Prop := shows s0 q a /\ (forall m t, q = SetFanProfileR m t -> no_change a).
Lemma handle0 s0 q : safe s0 rd0 wr0 (handle q) (good0 s0 q).
Proof.
  pose proof (get_fails s0 rd0 wr0) as G0. assert (G : forall gr, In gr [103; 223; 209; 11; 205; 217] -> failing s0 rd0 wr0 (EncodeGetRequest gr)) by (intros; apply G0; auto).
  assert (Sh : forall c, safe s0 rd0 wr0 (handle (getter_rpc c)) (good0 s0 (getter_rpc c))).
  { intros c. eapply safe_impl; [|apply getter_shows]. intros a H. split; [exact H|]. destruct c; discriminate. }
  destruct q.
  - apply (Sh CBoot). - apply (Sh CBypass). - apply (Sh CErr). - apply (Sh CFans). - apply (Sh CProf). - apply (Sh CTemp).
  - eapply safe_impl; [|apply (comfort_gen _ _ _ G (fun _ => True)); intros; apply set_any; auto]. intros a _. split; [intros [] E; discriminate|discriminate].
  - eapply safe_impl; [|apply (speed_gen _ _ _ G (fun _ => True)); intros; apply set_any; auto]. intros a _. split; [intros [] E; discriminate|discriminate].
  - eapply safe_impl; [|apply (setprofile_safe _ _ _ G)]. intros a H. split; [intros [] E; discriminate|auto].
  - cbn. intros b. split; [intros [] E; discriminate|discriminate].
Qed.
Lemma lost_inv m ys m' : cut_off (g_conn (m_g m)) -> resting m -> exec ys m = Some m' ->
  inv (g_sh (m_g m)) rd0 wr0 (ci0 (c_log (g_conn (m_g m)))) (fun i a => forall q, to_come m i q -> good0 (g_sh (m_g m)) q a) m'.
Proof.
  intros C R E. eapply exec_inv; [| | |exact E|].
  - intros. apply get_fails; auto.
  - intros. apply ci0_write. auto.
  - intros. apply ci0_read. auto.
  - apply begins; auto; [apply handle0|]. split; [exact C|]. exists []. rewrite app_nil_r. auto.
Qed.
Lemma lost_frozen m ys m' : cut_off (g_conn (m_g m)) -> resting m -> exec ys m = Some m' -> g_sh (m_g m') = g_sh (m_g m).
Proof. intros C R E. apply (lost_inv m ys m' C R E). Qed.
Lemma lost_log m ys m' : cut_off (g_conn (m_g m)) -> resting m -> exec ys m = Some m' ->
  exists l, c_log (g_conn (m_g m')) = c_log (g_conn (m_g m)) ++ l /\ Forall nothing_read l.
Proof. intros C R E. apply (lost_inv m ys m' C R E). Qed.
Lemma lost_good m ys m' i q a : cut_off (g_conn (m_g m)) -> resting m -> exec ys m = Some m' -> to_come m i q -> answered m' i a -> good0 (g_sh (m_g m)) q a.
Proof.
  intros C R E T (t & N & P). destruct (lost_inv m ys m' C R E) as (_ & _ & S & _). pose proof (S i t N) as H. rewrite P in H. apply H, T.
Qed.
Lemma lost_getters m ys m' i c a : cut_off (g_conn (m_g m)) -> resting m -> exec ys m = Some m' -> to_come m i (getter_rpc c) -> answered m' i a ->
  typed (cached (g_sh (m_g m)) c) -> a = message (cached (g_sh (m_g m)) c).
Proof. intros C R E T A Ty. apply (lost_good m ys m' i _ a C R E T A); auto. Qed.
Lemma lost_profile m ys m' i p s a : cut_off (g_conn (m_g m)) -> resting m -> exec ys m = Some m' -> to_come m i (SetFanProfileR p s) -> answered m' i a -> no_change a.
Proof. intros C R E T A. eapply (lost_good m ys m' i _ a C R E T A); eauto. Qed.

(** ** No change is reported *)
Definition rd1 (_ : bool) (p : packet) (e : option err) : Prop := e <> None.
Lemma set_hangs s0 wr r : safe s0 rd1 wr (setQuery r) (fun e => e <> None).
Proof.
  unfold setQuery. destruct (EncodeSetRequest r) as [p [e|]]; [cbn; discriminate|]. apply safe_bind. unfold QueryPacket. apply safe_lock, safe_bind.
  apply (safe_impl _ _ _ _ (fun _ => True)).
  - intros [b [e|]] _; [cbn; discriminate|]. cbn [safe]. intros q [e|] R; [cbn; discriminate|]. congruence.
  - unfold WritePacket. apply safe_bind. apply safe_lift. intros [pb [e|]]; [exact I|]. cbn [safe]. intros w _. destruct (w_err w); exact I.
Qed.
Definition wr1 (r : wres) : Prop := w_err r <> None.
Lemma set_refused s0 rd r : safe s0 rd wr1 (setQuery r) (fun e => e <> None).
Proof.
  unfold setQuery. destruct (EncodeSetRequest r) as [p [e|]]; [cbn; discriminate|]. apply safe_bind. unfold QueryPacket. apply safe_lock, safe_bind.
  apply (safe_impl _ _ _ _ (fun x => snd x <> None)).
  - intros [b [e|]] E; [cbn; discriminate|]. cbn in E. congruence.
  - unfold WritePacket. apply safe_bind. apply safe_lift. intros [pb [e|]]; [cbn; discriminate|]. cbn [safe]. intros w W. unfold wr1 in W. destruct (w_err w); [cbn; discriminate|congruence].
Qed.
Lemma handle_none s0 (rd : bool -> packet -> option err -> Prop) wr q : (forall x p e, rd x p e -> e <> None \/ p = zero_packet) ->
  (forall r, safe s0 rd wr (setQuery r) (fun e => e <> None)) -> safe s0 rd wr (handle q) no_change.
Proof.
  intros R S. assert (G : forall gr, In gr [103; 223; 209; 11; 205; 217] -> failing s0 rd wr (EncodeGetRequest gr)) by (intros; apply get_fails; auto).
  destruct q; try (cbn; exact I).
  - eapply safe_impl; [|apply (comfort_gen _ _ _ G _ _ S)]. intros a [E|N]; [congruence|exact N].
  - eapply safe_impl; [|apply (speed_gen _ _ _ G _ _ _ S)]. intros a [E|N]; [congruence|exact N].
  - apply (setprofile_safe _ _ _ G).
  - cbn. intros b. exact I.
Qed.
(** A scanner that has not been given anything. *)
Definition unfed (s : scanner) : Prop := s = new_scanner \/ s = mkScanner 4096 0 [] None 0.
Lemma top_unfed s : unfed s -> exists s', scan_top s = TRead s' /\ unfed s'.
Proof. intros [-> | ->]; eexists; (split; [reflexivity|right; reflexivity]). Qed.
Lemma wait_hangs evs : forall pre s post, Forall no_data evs -> unfed s ->
  match scan_wait evs pre s post with (STime, r, _) => Forall no_data r | _ => False end.
Proof.
  induction evs as [|e evs IH]; intros pre s post N U; cbn [scan_wait]; destruct (top_unfed s U) as (s' & T & U'); rewrite T; auto.
  inversion N as [|? ? N1 N2]; subst. destruct e as [bs e| |]; [destruct N1|exact N2|]. destruct pre; apply IH; auto.
Qed.
Lemma read_hangs c x : hangs c -> match ReadPacket c x with (Done (p, e), c') => e <> None /\ hangs c' | (Panic, _) => False end.
Proof.
  intros [M N]. unfold ReadPacket, ScanTimeout. pose proof (wait_hangs (c_pend c) (c_orph c) new_scanner [] N (or_introl eq_refl)) as W.
  assert (Go : scan_wait (c_pend c) (c_orph c) new_scanner [] = scan_wait (c_pend c) (c_orph c) new_scanner []) by reflexivity.
  destruct (c_pend c) as [|[bs e| |] r]; [| |inversion N; subst; cbn [scan_top new_scanner]|].
  - destruct (scan_wait _ _ _ _) as [[[tok s'|s'|] r] os]; try contradiction. split; [discriminate|]. split; auto.
  - inversion N. contradiction.
  - change (scan_top new_scanner) with (TRead (mkScanner 4096 0 [] None 0)). cbv iota. split; [discriminate|]. split; auto.
  - destruct (scan_wait _ _ _ _) as [[[tok s'|s'|] r'] os]; try contradiction. split; [discriminate|]. split; auto.
Qed.
Lemma write_hangs c bs : hangs c -> let (r, c') := conn_write c bs in hangs c'.
Proof.
  intros [M N]. unfold conn_write. destruct (react (c_dev c) bs) as [[d evs] w] eqn:R. inversion M as [d0 H]; subst. destruct (H _ _ _ _ R) as [E M'].
  split; cbn; [exact M'|apply Forall_app; auto].
Qed.
Lemma hang_none m ys m' i q a : hangs (g_conn (m_g m)) -> resting m -> exec ys m = Some m' -> to_come m i q -> answered m' i a -> no_change a.
Proof.
  intros C R E T (t & N & P).
  assert (V : inv (g_sh (m_g m)) rd1 wr0 hangs (fun i a => forall q, to_come m i q -> no_change a) m').
  { eapply exec_inv; [| | |exact E|].
    - intros. apply get_fails; auto; intros x p e X; left; exact X.
    - intros c bs H. pose proof (write_hangs c bs H) as W. destruct (conn_write c bs). split; [exact I|exact W].
    - intros c x H. pose proof (read_hangs c x H) as W. destruct (ReadPacket c x) as [[[p e]|] c']; [|contradiction]. exact W.
    - apply (begins _ _ _ _ (fun _ => no_change)); auto. intros q'. apply handle_none; [intros x p e X; left; exact X|]. intros r. apply set_hangs. }
  destruct V as (_ & _ & S & _). pose proof (S i t N) as H. rewrite P in H. exact (H q T).
Qed.
Definition ci2 (c : conn) : Prop := cut_off c /\ refusing (c_dev c).
Lemma refused_none m ys m' i q a : cut_off (g_conn (m_g m)) -> refusing (c_dev (g_conn (m_g m))) -> resting m -> exec ys m = Some m' -> to_come m i q -> answered m' i a -> no_change a.
Proof.
  intros C Rf R E T (t & N & P).
  assert (V : inv (g_sh (m_g m)) rd0 wr1 ci2 (fun i a => forall q, to_come m i q -> no_change a) m').
  { eapply exec_inv; [| | |exact E|].
    - intros. apply get_fails; auto.
    - intros c bs [H D]. pose proof (write_empty c bs H) as W. unfold conn_write in *. destruct (react (c_dev c) bs) as [[d evs] w] eqn:X. inversion D as [d0 D']; subst.
      destruct (D' _ _ _ _ X) as [D1 D2]. split; [exact D1|]. split; [apply W|exact D2].
    - intros c x [H D]. pose proof (read_empty c x H) as W. destruct (ReadPacket c x) as [[[p e]|] c']; [|contradiction]. destruct W as (W1 & W2 & W3 & _).
      split; [exact W1|]. split; [exact W2|]. cbn. rewrite W3. exact D.
    - apply (begins _ _ _ _ (fun _ => no_change)); auto; [|split; auto]. intros q'. apply handle_none; [auto|]. intros r. apply set_refused. }
  destruct V as (_ & _ & S & _). pose proof (S i t N) as H. rewrite P in H. exact (H q T).
Qed.
Lemma lost_none m ys m' i q a : hangs (g_conn (m_g m)) \/ (cut_off (g_conn (m_g m)) /\ refusing (c_dev (g_conn (m_g m)))) ->
  resting m -> exec ys m = Some m' -> to_come m i q -> answered m' i a -> no_change a.
Proof. intros [H|[C F]]; [exact (hang_none m ys m' i q a H)|exact (refused_none m ys m' i q a C F)]. Qed.

(** ** The samples *)
Lemma closed_mute : mute closed.
Proof.
  cofix IH. constructor. intros bs d' evs w H. cbn in H. injection H as <- <- <-. split; [repeat constructor|exact IH].
Qed.
Lemma reset_mute : mute reset.
Proof. cofix IH. constructor. intros bs d' evs w H. cbn in H. injection H as <- <- <-. split; [repeat constructor|exact IH]. Qed.
Lemma reset_refusing : refusing reset.
Proof. cofix IH. constructor. intros bs d' evs w H. cbn in H. injection H as <- <- <-. split; [discriminate|exact IH]. Qed.
Lemma unplugged_hanging : hanging unplugged.
Proof. cofix IH. constructor. intros bs d' evs w H. cbn in H. injection H as <- <- <-. split; [constructor|exact IH]. Qed.
Lemma worker_only n : forall (m m' : machine resp), exec (repeat RunWk n) m = Some m' -> m_ts m' = m_ts m.
Proof.
  induction n as [|n IH]; intros m m' E; cbn [repeat exec] in E; [congruence|]. destruct (exec1 m RunWk) as [m1|] eqn:E1; [|discriminate]. rewrite (IH _ _ E).
  cbn [exec1] in E1. destruct (m_wk m) as [t|]; [|discriminate].
  assert (Go : match tstep (locks_held m) t (m_g m) with Some (t', g') => Some (mkMachine g' (m_ts m) (Some t')) | None => None end = Some m1 -> m_ts m1 = m_ts m).
  { destruct (tstep _ _ _) as [[t' g']|]; [|discriminate]. intros H. injection H as <-. reflexivity. }
  destruct (t_p t); try exact (Go E1). destruct a. destruct (t_h t); [|exact (Go E1)]. injection E1 as <-. reflexivity.
Qed.
Lemma start_ts rs d m : after_start rs d = Some m -> m_ts m = map (fun r => mkThread (handle r) []) rs.
Proof. unfold after_start. generalize 94%nat as n. intros n E. rewrite (worker_only n _ _ E). reflexivity. Qed.
Lemma start_exec rs d m : after_start rs d = Some m -> exists c xs, exec xs (serve rs c 0) = Some m.
Proof. unfold after_start. intros E. eexists. eexists. exact E. Qed.
Lemma started_resting d : exists m, after_start four d = Some m /\ resting m /\ c_dev (g_conn (m_g m)) = d /\ c_pend (g_conn (m_g m)) = [] /\
  (forall i q, nth_error four i = Some q -> to_come m i q).
Proof.
  assert (H : match after_start four d with Some m => m_wk m = None /\ c_dev (g_conn (m_g m)) = d /\ c_pend (g_conn (m_g m)) = [] | None => False end) by (vm_compute; auto).
  destruct (after_start four d) as [m|] eqn:E; [|destruct H]. exists m. destruct H as (W & D & P). split; [reflexivity|].
  apply start_ts in E. assert (T : forall i q, nth_error four i = Some q -> to_come m i q).
  { intros i q N. exists (mkThread (handle q) []). rewrite E, nth_error_map, N. split; reflexivity. }
  split; [split; [exact W|]|split; [exact D|split; [exact P|exact T]]]. rewrite E. apply Forall_forall. intros t I. apply in_map_iff in I. destruct I as (q & <- & _). left. exists q. reflexivity.
Qed.
Definition one_by_one : list item := repeat (Run 0) 16 ++ repeat (Run 1) 10 ++ repeat (Run 2) 9.
Lemma closed_told : exists m m', after_start four closed = Some m /\ cut_off (g_conn (m_g m)) /\ resting m /\ exec one_by_one m = Some m' /\
  to_come m 0 (SetComfortTempR 23) /\ answered m' 0 (RespComfort true 21 23) /\
  to_come m 1 GetTempsRPC /\ answered m' 1 (message (cached (g_sh (m_g m)) CTemp)) /\ f32_trunc (Comfort (sh_temp (g_sh (m_g m)))) = 21 /\
  to_come m 2 (SetFanProfileR 2 60) /\ answered m' 2 (RespErr (Internal (LibErr ErrInvalidResponse))).
Proof.
  destruct (started_resting closed) as (m & E & R & D & P & T).
  assert (H : match after_start four closed with Some m => match exec one_by_one m with
     | Some m' => nth_error (map t_p (m_ts m')) 0 = Some (Ret (RespComfort true 21 23)) /\ nth_error (map t_p (m_ts m')) 1 = Some (Ret (message (cached (g_sh (m_g m)) CTemp))) /\
         f32_trunc (Comfort (sh_temp (g_sh (m_g m)))) = 21 /\ nth_error (map t_p (m_ts m')) 2 = Some (Ret (RespErr (Internal (LibErr ErrInvalidResponse))))
     | None => False end | None => False end) by (vm_compute; auto).
  rewrite E in H. destruct (exec one_by_one m) as [m'|] eqn:X; [|destruct H]. destruct H as (A0 & A1 & F & A2). exists m, m'.
  assert (An : forall i a, nth_error (map t_p (m_ts m')) i = Some (Ret a) -> answered m' i a).
  { intros i a N. rewrite nth_error_map in N. destruct (nth_error (m_ts m') i) as [t|] eqn:Nt; [|discriminate]. injection N as N. exists t. auto. }
  split; [exact E|]. split; [split; [rewrite D; apply closed_mute|rewrite P; constructor]|]. split; [exact R|]. split; [exact X|].
  split; [apply T; reflexivity|]. split; [apply An; exact A0|]. split; [apply T; reflexivity|]. split; [apply An; exact A1|]. split; [exact F|].
  split; [apply T; reflexivity|apply An; exact A2].
Qed.
Lemma unplugged_hangs : exists m, after_start four unplugged = Some m /\ hangs (g_conn (m_g m)) /\ resting m.
Proof.
  destruct (started_resting unplugged) as (m & E & R & D & P & T). exists m. split; [exact E|]. split; [|exact R]. split; [rewrite D; apply unplugged_hanging|rewrite P; constructor].
Qed.
Lemma reset_refuses : exists m, after_start four reset = Some m /\ cut_off (g_conn (m_g m)) /\ refusing (c_dev (g_conn (m_g m))) /\ resting m.
Proof.
  destruct (started_resting reset) as (m & E & R & D & P & T). exists m. split; [exact E|]. split; [split; [rewrite D; apply reset_mute|rewrite P; constructor]|]. split; [rewrite D; apply reset_refusing|exact R].
Qed.
Lemma lost_lies : exists rs c xs m ys m' i q, exec xs (serve rs c 0) = Some m /\ cut_off (g_conn (m_g m)) /\ resting m /\ exec ys m = Some m' /\
  to_come m i q /\ answered m' i (RespComfort true 21 23).
Proof.
  destruct closed_told as (m & m' & E & C & R & X & T & A & _). apply start_exec in E. destruct E as (c & xs & E).
  exists four, c, xs, m, one_by_one, m', 0%nat, (SetComfortTempR 23).
  split; [exact E|]. split; [exact C|]. split; [exact R|]. split; [exact X|]. split; [exact T|exact A].
Qed.
