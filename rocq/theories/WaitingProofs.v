(** Proofs about waiting: a budget that every step respects. *)
From Coq Require Import String.
From Verif Require Import ProofBase GoStrings Proto Scanner Conn Proc Lib Server Wire Twirp Machine HttpMachine SpecTwirp TwirpProofs SamplesWaiting SpecWaiting.
Open Scope list_scope.

(** [wp p n post]: with budget [n], whatever happens, [p] ends with a result and a rest of the budget such that [post], and never
    runs out of it before.  A flush that is sent costs [fc]. *)
Section WP.
Variable fc : Z -> Z.
Fixpoint wp {A} (p : sproc A) (n : Z) (post : A -> Z -> Prop) : Prop :=
  match p with
  | Ret a => post a n
  | Crash => 0 <= n
  | Lock _ k | Unlock _ k | RLock _ k | RUnlock _ k | Put _ k | SendSucc _ k => wp k n post
  | WriteC _ k => forall r, wp (k r) n post
  | ReadC _ k => forall q e, wp (k q e) (n - 1000000000) post
  | Get k => forall s, wp (k s) n post
  | Now k => forall t, wp (k t) n post
  | Sleep d k => 0 <= d /\ wp k (n - d) post
  | SendFlush c k => 0 <= fc c /\ wp k (n - fc c) post
  | RecvSucc k => forall b, wp (k b) n post
  end.
Lemma wp_bind {A B} (p : sproc A) (k : A -> sproc B) : forall n post, wp p n (fun a m => wp (k a) m post) -> wp (bind p k) n post.
Proof. induction p; intros n post W; cbn in *; eauto; destruct W; eauto. Qed.
Lemma wp_impl {A} (p : sproc A) : forall n (P Q : A -> Z -> Prop), (forall a m, P a m -> Q a m) -> wp p n P -> wp p n Q.
Proof. induction p; intros n P Q I W; cbn in *; eauto; destruct W; eauto. Qed.
Lemma wp_lock {A} l (p : sproc A) n post : wp p n post -> wp (with_lock l p) n post.
Proof. intros W. unfold with_lock. cbn [wp]. apply wp_bind. eapply wp_impl; [|exact W]. intros a m H. exact H. Qed.
(** [costs p c]: [p] needs at most [c]. *)
Definition costs {A} (p : sproc A) (c : Z) : Prop := forall n (post : A -> Z -> Prop), c <= n -> (forall a m, n - c <= m -> post a m) -> wp p n post.
Lemma costs_bind {A B} (p : sproc A) (k : A -> sproc B) c d : costs p c -> 0 <= d -> (forall a, costs (k a) d) -> costs (bind p k) (c + d).
Proof.
  intros P D K n post N H. apply wp_bind. apply P; [lia|]. intros a m M. apply K; [lia|]. intros b r R. apply H. lia.
Qed.
Lemma costs_ret {A} (a : A) c : 0 <= c -> costs (Ret a : sproc A) c.
Proof. intros C n post N H. cbn. apply H. lia. Qed.
Lemma costs_crash {A} c : 0 <= c -> costs (Crash : sproc A) c.
Proof. intros C n post N H. cbn. lia. Qed.
Lemma costs_lift {A} (o : outcome A) c : 0 <= c -> costs (lift o : sproc A) c.
Proof. destruct o; [apply costs_ret|apply costs_crash]. Qed.
Lemma costs_lock {A} l (p : sproc A) c : costs p c -> costs (with_lock l p) c.
Proof. intros P n post N H. apply wp_lock. apply P; auto. Qed.
Lemma costs_more {A} (p : sproc A) c d : costs p c -> c <= d -> costs p d.
Proof. intros P L n post N H. apply P; [lia|]. intros a m M. apply H. lia. Qed.

(** ** The library *)
Lemma query_costs p : costs (QueryPacket p) (ms 1000).
Proof.
  unfold QueryPacket. apply costs_lock. replace (ms 1000) with (0 + ms 1000) by lia. apply costs_bind; [|unfold ms; lia|].
  - unfold WritePacket. replace 0 with (0 + 0) by lia. apply costs_bind; [apply costs_lift; lia|lia|]. intros [pb [e|]]; [apply costs_ret; lia|].
    intros n post N H. cbn. intros r. destruct (w_err r); cbn; apply H; lia.
  - intros [b [e|]]; [apply costs_ret; unfold ms; lia|]. intros n post N H. cbn [wp]. intros q [e|]; [cbn; apply H; unfold ms in *; lia|].
    destruct (p_expect p && negb (p_cmd q =? u8 (p_cmd p + 1))); [cbn; apply H; unfold ms in *; lia|].
    cbn. intros r. destruct (w_err r); [cbn; apply H; unfold ms in *; lia|]. destruct (negb (w_n r =? len pktAck)); cbn; apply H; unfold ms in *; lia.
Qed.
Lemma setQuery_costs r : costs (setQuery r) (ms 1000).
Proof.
  unfold setQuery. destruct (EncodeSetRequest r) as [p [e|]]; [apply costs_ret; unfold ms; lia|].
  replace (ms 1000) with (ms 1000 + 0) by lia. apply costs_bind; [apply query_costs|lia|]. intros [q e]. apply costs_ret. lia.
Qed.
Lemma getter_costs {T} gr (z : T) a : costs (getter gr z a) (ms 1000).
Proof.
  unfold getter, getQuery. replace (ms 1000) with (ms 1000 + 0 + 0) by lia. apply costs_bind; [|lia|].
  - apply costs_bind; [apply query_costs|lia|]. intros [q [e|]]; [apply costs_ret; lia|]. apply costs_lift. lia.
  - intros [r [e|]]; [apply costs_ret; lia|]. destruct r as [r|]; [|apply costs_crash; lia]. destruct (a r); [apply costs_ret|apply costs_crash]; lia.
Qed.
Lemma profile_costs m s : costs (SetFanProfile m s) (ms 2000).
Proof.
  unfold SetFanProfile. destruct (m >? 3); [apply costs_ret; unfold ms; lia|]. destruct (s >? 100); [apply costs_ret; unfold ms; lia|]. apply costs_lock.
  replace (ms 2000) with (ms 1000 + ms 1000) by (unfold ms; lia). apply costs_bind; [apply getter_costs|unfold ms; lia|].
  intros [v [e|]]; [apply costs_ret; unfold ms; lia|apply setQuery_costs].
Qed.

(** ** The server *)
Ltac refresh := apply costs_lock; intros n post N H; cbn [wp]; intros now s;
  match goal with |- wp (if ?b then _ else _) _ _ => destruct b; [cbn; apply H; unfold ms in *; lia|] end;
  apply wp_bind; apply (getter_costs _ _ _); [exact N|]; intros [v [e|]] m M; cbn; intros; apply H; unfold ms in *; lia.
Lemma update_costs c f : costs (Update c f) (ms 1000).
Proof. destruct c; cbn [Update]; unfold boot_Update, bypass_Update, temp_Update, fans_Update, prof_Update, err_Update; refresh. Qed.
Lemma caches_costs f : costs (UpdateCaches f) (ms 6000).
Proof.
  unfold UpdateCaches. replace (ms 6000) with (ms 1000 + (ms 1000 + (ms 1000 + (ms 1000 + (ms 1000 + ms 1000))))) by (unfold ms; lia).
  do 5 (apply costs_bind; [apply update_costs|unfold ms; lia|intros _]). apply update_costs.
Qed.
Lemma flush_costs c : costs (FlushCaches c) (flush_time c).
Proof.
  unfold FlushCaches. replace (flush_time c) with (flush_time c + 0) by lia. apply costs_bind; [|lia|].
  2:{ intros b n post N H. cbn. apply H. lia. }
  assert (One : forall d, costs (do _ <- Update d true; Ret true) (ms 1000)).
  { intros d. replace (ms 1000) with (ms 1000 + 0) by lia. apply costs_bind; [apply update_costs|lia|]. intros. apply costs_ret. lia. }
  unfold FlushCaches_body, flush_time, TBootInfo, TBypass, TFans, TTemps, TProfiles, TAll.
  destruct (c =? 0) eqn:E0; [apply Z.eqb_eq in E0; subst; apply One|]. destruct (c =? 4) eqn:E4; [apply Z.eqb_eq in E4; subst; apply One|].
  destruct (c =? 1) eqn:E1; [apply Z.eqb_eq in E1; subst; apply One|]. destruct (c =? 2) eqn:E2; [apply Z.eqb_eq in E2; subst; apply One|].
  destruct (c =? 3) eqn:E3; [apply Z.eqb_eq in E3; subst; apply One|].
  destruct (c =? 10) eqn:E10.
  - replace (ms 6000) with (ms 6000 + 0) by lia. apply costs_bind; [apply caches_costs|lia|]. intros. apply costs_ret. lia.
  - apply costs_ret. destruct ((0 <=? c) && (c <=? 4)); unfold ms; lia.
Qed.
Lemma tick_costs t : costs (on_tick t) (ms 2000).
Proof.
  replace (ms 2000) with (ms 1000 + ms 1000) by (unfold ms; lia).
  destruct t; cbn [on_tick]; (apply costs_bind; [apply update_costs|unfold ms; lia|intros _; apply update_costs]).
Qed.
Definition polling (k : nat) : Z := match k with O => 0 | S _ => Z.of_nat k * ms 1500 + ms 500 end.
Lemma poll_wp k i o : forall n (post : option srv_err -> Z -> Prop), polling k <= n ->
  (forall r m, n - polling k + (match r with None => ms 1000 | Some _ => 0 end) <= m -> post r m) -> wp (poll_loop k i o) n post.
Proof.
  induction k as [|k IH]; intros n post N H; [cbn; apply H; cbn; lia|]. cbn [poll_loop]. apply wp_bind.
  assert (PS : polling (S k) >= ms 2000 /\ polling (S k) >= polling k + ms 1500) by (destruct k; cbn [polling]; unfold ms; lia).
  apply update_costs; [unfold ms in *; lia|].
  intros _ m M. cbn [wp]. intros s.
  assert (P : 0 <= second / 2 /\ wp (poll_loop k i o) (m - second / 2) post).
  { change (second / 2) with (ms 500). split; [unfold ms; lia|]. apply IH; [unfold ms in *; lia|]. intros r j J. apply H. destruct r; unfold ms in *; lia. }
  destruct (InPercent (sh_fans s) =? i); [|exact P]. cbn [wp]. intros s'. destruct (OutPercent (sh_fans s') =? o); [|exact P].
  cbn [wp]. apply H. unfold ms in *. lia.
Qed.
Lemma speed_costs a r : costs (SetFanSpeed a r) (ms 16500).
Proof.
  unfold SetFanSpeed. apply costs_lock. intros n post N H. cbn [wp]. intros s. destruct (modifySpeed (CurrentMode (sh_prof s)) a r) as [t [e|]].
  { cbn. apply H. unfold ms in *. lia. }
  destruct (negb (u8 t =? CurrentMode (sh_prof s))); [|cbn; apply H; unfold ms in *; lia].
  apply wp_bind. apply setQuery_costs; [unfold ms in *; lia|]. intros [e|] m M; [cbn; apply H; unfold ms in *; lia|].
  apply wp_bind. unfold UpdatePoll. cbn [wp]. intros s'. destruct (Lookup (sh_prof s') (u8 t)) as [[i o] [e|]].
  { cbn. apply H. unfold ms in *. lia. }
  cbn [wp]. apply poll_wp; [unfold polling, ms in *; lia|]. intros [e|] k K; cbn [polling] in K.
  - cbn. apply H. unfold ms in *. lia.
  - apply wp_bind. apply update_costs; [unfold ms in *; lia|]. intros _ j J. cbn. intros. apply H. unfold ms in *. lia.
Qed.
Lemma comfort_costs t : costs (SetComfortTemp t) (ms 2000).
Proof.
  unfold SetComfortTemp. intros n post N H. cbn [wp]. intros s. destruct (t >? 255); [cbn; apply H; unfold ms in *; lia|].
  destruct (negb _); [|cbn; apply H; unfold ms in *; lia]. apply wp_lock. apply wp_bind. apply setQuery_costs; [unfold ms in *; lia|].
  intros [e|] m M; [cbn; apply H; unfold ms in *; lia|]. apply wp_bind. apply update_costs; [unfold ms in *; lia|]. intros _ j J. cbn. apply H. unfold ms in *. lia.
Qed.
Lemma setprofile_costs a t : costs (SetFanProfileRPC a t) (ms 3000).
Proof.
  unfold SetFanProfileRPC. destruct (_ || _); [apply costs_ret; unfold ms; lia|]. destruct (_ || _); [apply costs_ret; unfold ms; lia|]. apply costs_lock.
  intros n post N H. cbn [wp]. intros s.
  match goal with |- wp (match ?o with _ => _ end) _ _ => destruct o as [v|] end; [|cbn; unfold ms in *; lia].
  destruct (negb _); [|cbn; apply H; unfold ms in *; lia]. apply wp_bind. apply profile_costs; [unfold ms in *; lia|].
  intros [e|] m M; [cbn; apply H; unfold ms in *; lia|]. apply wp_bind. apply update_costs; [unfold ms in *; lia|]. intros _ j J. cbn. apply H. unfold ms in *. lia.
Qed.
Definition full (q : rpc) : Z := match q with FlushCacheR c => fc c | _ => patience q end.
Ltac getter := replace 0 with (0 + 0) by lia; apply costs_bind; [apply costs_lock; intros n post N H; cbn; intros; apply H; lia|lia|intros; apply costs_ret; lia].
Lemma handle_costs q : (forall c, 0 <= fc c) -> costs (handle q) (full q).
Proof.
  intros P. destruct q; cbn [handle full patience].
  - getter. - getter. - getter. - getter. - getter. - getter.
  - apply comfort_costs.
  - apply speed_costs.
  - apply setprofile_costs.
  - unfold FlushCache. intros n post N H. cbn. split; auto. intros. apply H. lia.
Qed.

(** ** The machine *)
Definition left {A} (_ : A) (n : Z) : Prop := 0 <= n.
Lemma wp_left {A} (p : sproc A) : forall n, wp p n left -> 0 <= n.
Proof.
  induction p; intros n W; cbn in *; eauto.
  - pose proof (H zero_packet None _ (W _ _)). lia.
  - destruct W as [D W]. apply IHp in W. lia.
  - destruct W as [D W]. apply IHp in W. lia.
  Unshelve. all: repeat constructor.
Qed.
Lemma wp_waiting {A} (p : sproc A) n : wp p n left -> wait_of p <= n.
Proof.
  intros W. pose proof (wp_left _ _ W). destruct p; cbn in *; auto.
  - pose proof (wp_left _ _ (W zero_packet None)). lia.
  - destruct W as [D W]. apply wp_left in W. lia.
Qed.
Lemma tstep_wp {A} hs (t t' : thread A) g g' n : tstep hs t g = Some (t', g') -> wp (t_p t) n left -> wp (t_p t') (n - wait_of (t_p t)) left.
Proof.
  intros T W. pose proof (wp_waiting _ _ W) as L. unfold tstep in T. destruct (t_p t) eqn:P; cbn [wp wait_of] in *; try discriminate; rewrite ?Z.sub_0_r.
  - destruct (free hs l); [|discriminate]. injection T as <- <-. exact W.
  - destruct (release _ _ _); injection T as <- <-; [exact W|exact L].
  - destruct (rfree hs l); [|discriminate]. injection T as <- <-. exact W.
  - destruct (release _ _ _); injection T as <- <-; [exact W|exact L].
  - destruct (conn_write _ _). injection T as <- <-. apply W.
  - destruct (ReadPacket _ _) as [[[q e]|] c]; injection T as <- <-; [apply W|cbn; lia].
  - injection T as <- <-. apply W.
  - injection T as <- <-. exact W.
  - injection T as <- <-. apply W.
  - injection T as <- <-. apply W.
Qed.

(** Everybody has a budget: the requests [bs], the worker [wb]. *)
Definition holds {A} (m : machine A) (bs : list Z) (wb : Z) : Prop :=
  Forall2 (fun t b => wp (t_p t) b left) (m_ts m) bs /\ match m_wk m with Some t => wp (t_p t) wb left | None => 0 <= wb end.
Lemma holds_wk {A} (m : machine A) bs wb : holds m bs wb -> 0 <= wb.
Proof. intros [_ H]. destruct (m_wk m); [eapply wp_left; eauto|auto]. Qed.
Lemma holds_nth {A} (m : machine A) bs wb i t : holds m bs wb -> nth_error (m_ts m) i = Some t -> exists b, nth_error bs i = Some b /\ wp (t_p t) b left.
Proof.
  intros [H _]. revert i. induction H as [|t' b ts bs W H IH]; intros [|i] E; cbn in *; try discriminate; eauto. injection E as <-. eauto.
Qed.
Lemma set_holds {A} (ts : list (thread A)) bs i t b :
  Forall2 (fun t b => wp (t_p t) b left) ts bs -> wp (t_p t) b left -> Forall2 (fun t b => wp (t_p t) b left) (set_nth i t ts) (set_nth i b bs).
Proof. intros H W. revert i. induction H; intros [|i]; cbn; constructor; auto. Qed.
Definition after (x : item) (w c : Z) (bs bs' : list Z) (wb wb' : Z) : Prop :=
  match x with
  | Run i => exists b, nth_error bs i = Some b /\ bs' = set_nth i (b - w) bs /\ wb' = wb
  | RunWk => bs' = bs /\ wb' = wb - w
  | Tick _ => bs' = bs /\ wb' = ms 2000
  | Flush i => exists b, nth_error bs i = Some b /\ bs' = set_nth i (b - fc c) bs /\ wb' = flush_time c
  | _ => bs' = bs /\ wb' = wb
  end.
Lemma set_same {T} (l : list T) i x : nth_error l i = Some x -> set_nth i x l = l.
Proof. revert i. induction l as [|y l IH]; intros [|i] E; cbn in *; try discriminate; [congruence|]. rewrite IH; auto. Qed.
Lemma costs_left {A} (p : sproc A) c : 0 <= c -> costs p c -> wp p c left.
Proof. intros C P. apply P; [lia|]. intros a m M. unfold left. lia. Qed.
Lemma step_holds {A} (m m' : machine A) x bs wb : exec1 m x = Some m' -> holds m bs wb ->
  exists c bs' wb', holds m' bs' wb' /\ after x (step_waiting m x) c bs bs' wb wb'.
Proof.
  intros E Hs. destruct Hs as [Hb Hw]. assert (Hs : holds m bs wb) by (split; auto). destruct x as [i| |d|t|i|i]; cbn [exec1] in E; unfold after.
  - cbn [step_waiting]. destruct (nth_error (m_ts m) i) as [t|] eqn:N; [|discriminate]. destruct (holds_nth _ _ _ _ _ Hs N) as (b & Nb & W).
    destruct (tstep _ _ _) as [[t' g']|] eqn:T; [|discriminate]. injection E as <-. exists 0, (set_nth i (b - wait_of (t_p t)) bs), wb.
    split; [split; cbn [m_ts m_wk]; auto; apply set_holds; auto; eapply tstep_wp; eauto|eauto].
  - cbn [step_waiting]. destruct (m_wk m) as [t|] eqn:K; [|discriminate].
    assert (Go : forall t' g', tstep (locks_held m) t (m_g m) = Some (t', g') -> holds (mkMachine g' (m_ts m) (Some t')) bs (wb - wait_of (t_p t))).
    { intros t' g' T. split; cbn [m_ts m_wk]; auto. eapply tstep_wp; eauto. }
    exists 0, bs, (wb - wait_of (t_p t)). split; [|auto]. destruct (t_p t) eqn:P;
      try (destruct (tstep _ _ _) as [[t' g']|] eqn:T; [|discriminate]; injection E as <-; eapply Go; eauto).
    destruct a. destruct (t_h t).
    + injection E as <-. split; cbn [m_ts m_wk]; auto. cbn in Hw |- *. unfold left in Hw. lia.
    + destruct (tstep _ _ _) as [[t' g']|] eqn:T; [|discriminate]; injection E as <-; eapply Go; eauto.
  - injection E as <-. exists 0, bs, wb. split; [split; auto|auto].
  - destruct (m_wk m); [discriminate|]. injection E as <-. exists 0, bs, (ms 2000). split; [split; cbn [m_ts m_wk t_p]; auto|auto].
    apply costs_left; [unfold ms; lia|apply tick_costs].
  - destruct (m_wk m); [discriminate|]. destruct (nth_error (m_ts m) i) as [t|] eqn:N; [|discriminate]. destruct (holds_nth _ _ _ _ _ Hs N) as (b & Nb & W).
    destruct (t_p t) eqn:P; try discriminate. injection E as <-. cbn [wp] in W. exists c, (set_nth i (b - fc c) bs), (flush_time c).
    split; [split; cbn [m_ts m_wk t_p]; [apply set_holds; auto; apply W|]|eauto].
    apply costs_left; [unfold flush_time, ms; destruct (c =? 10); [lia|]; destruct (_ && _); lia|apply flush_costs].
  - destruct (m_wk m) as [w|] eqn:K; [|discriminate]. destruct (nth_error (m_ts m) i) as [t|] eqn:N; [|discriminate]. destruct (holds_nth _ _ _ _ _ Hs N) as (b & Nb & W).
    destruct (t_p w) eqn:P; try discriminate. destruct (t_p t) eqn:Q; try discriminate. injection E as <-. exists 0, bs, wb. split; [|auto]. split; cbn [m_ts m_wk t_p].
    + rewrite <- (set_same bs i b Nb). apply set_holds; auto. cbn [t_p]. apply W.
    + exact Hw.
Qed.
End WP.

Lemma flush_pos c : 0 <= flush_time c.
Proof. unfold flush_time, ms. destruct (c =? 10); [lia|]. destruct (_ && _); lia. Qed.
Lemma flush_6 c : flush_time c <= ms 6000.
Proof. unfold flush_time, ms. destruct (c =? 10); [lia|]. destruct (_ && _); lia. Qed.
Lemma nth_set_same {T} (l : list T) i x y : nth_error l i = Some y -> nth_error (set_nth i x l) i = Some x.
Proof. revert i. induction l as [|z l IH]; intros [|i] E; cbn in *; try discriminate; auto. Qed.
Lemma nth_set_other {T} (l : list T) i j x : i <> j -> nth_error (set_nth j x l) i = nth_error l i.
Proof. revert i j. induction l as [|z l IH]; intros [|i] [|j] N; cbn; auto; try congruence. Qed.
Lemma total_set l i b d : nth_error l i = Some b -> total (set_nth i (b - d) l) = total l - d.
Proof. revert i. induction l as [|z l IH]; intros [|i] E; cbn in *; try discriminate; [injection E as <-; lia|]. unfold total in *. rewrite (IH _ E). lia. Qed.
Lemma step_blocked {A} (m : machine A) fc bs wb x : exec1 m x = None -> holds fc m bs wb -> step_waiting m x = 0.
Proof.
  intros E H. destruct x as [i| |d|t|i|i]; cbn in *; auto.
  - destruct (nth_error _ _) as [t|]; auto. unfold tstep in E. destruct (t_p t); cbn; auto; try discriminate; destruct (ReadPacket _ _) as [[[? ?]|] ?]; discriminate.
  - destruct (m_wk m) as [t|]; auto. destruct (t_p t) eqn:P; cbn; auto; unfold tstep in E; rewrite P in E; try discriminate;
    destruct (ReadPacket _ _) as [[[? ?]|] ?]; discriminate.
Qed.
Lemma holds_budget {A} fc (m : machine A) bs wb i b : holds fc m bs wb -> nth_error bs i = Some b -> 0 <= b.
Proof.
  intros [H _]. revert i. induction H as [|t b' ts bs W H IH]; intros [|i] N; cbn in N; try discriminate; [|exact (IH _ N)].
  injection N as <-. eapply wp_left; exact W.
Qed.
Definition nofc (_ : Z) : Z := 0.
Lemma request_waited {A} xs : forall (m : machine A) bs wb i b, holds nofc m bs wb -> nth_error bs i = Some b -> waited (by_request i) m xs <= b.
Proof.
  induction xs as [|x xs IH]; intros m bs wb i b H N; cbn [waited].
  { eapply holds_budget; eauto. }
  assert (B0 : 0 <= b).
  { eapply holds_budget; eauto. }
  destruct (exec1 m x) as [m'|] eqn:E.
  2:{ pose proof (step_blocked m nofc bs wb x E H). destruct (by_request i x); lia. }
  destruct (step_holds nofc m m' x bs wb E H) as (c & bs' & wb' & H' & Af).
  destruct x as [j| |d|t|j|j]; cbn [by_request after] in *; try (destruct Af as [-> _]; rewrite Z.add_0_l; eapply IH; eauto).
  - destruct Af as (b1 & N1 & -> & ->). destruct (Nat.eqb i j) eqn:Ij.
    + apply Nat.eqb_eq in Ij. subst j. assert (b1 = b) by congruence. subst b1.
      pose proof (IH m' _ _ i (b - step_waiting m (Run i)) H' (nth_set_same _ _ _ _ N)). lia.
    + apply Nat.eqb_neq in Ij. rewrite Z.add_0_l. eapply IH; eauto. rewrite nth_set_other; auto.
  - destruct Af as (b1 & N1 & -> & ->). rewrite Z.add_0_l. unfold nofc in H' at 2. rewrite Z.sub_0_r, (set_same _ _ _ N1) in H'. eapply IH; eauto.
Qed.
Lemma worker_waited {A} fc xs : forall (m : machine A) bs wb, holds fc m bs wb -> waited by_worker m xs <= wb + ms 2000 * ticks xs + ms 6000 * flushes xs.
Proof.
  induction xs as [|x xs IH]; intros m bs wb H; cbn [waited]; pose proof (holds_wk _ _ _ _ H) as B0.
  { cbn. lia. }
  assert (T0 : forall l, 0 <= ticks l /\ 0 <= flushes l).
  { induction l as [|y l L]; [cbn; lia|]. unfold ticks, flushes, total in *. cbn [map fold_right]. destruct y; lia. }
  assert (TS : ticks (x :: xs) = (match x with Tick _ => 1 | _ => 0 end) + ticks xs /\ flushes (x :: xs) = (match x with Flush _ => 1 | _ => 0 end) + flushes xs) by (split; reflexivity).
  destruct TS as [-> ->]. destruct (T0 xs) as [T1 T2].
  destruct (exec1 m x) as [m'|] eqn:E.
  2:{ rewrite (step_blocked m fc bs wb x E H). destruct (by_worker x), x; unfold ms; cbn beta iota; lia. }
  destruct (step_holds fc m m' x bs wb E H) as (c & bs' & wb' & H' & Af). pose proof (IH m' bs' wb' H') as I.
  destruct x as [j| |d|t|j|j]; cbn [by_worker after] in *.
  - destruct Af as (? & _ & _ & ->). unfold ms in *. lia.
  - destruct Af as (_ & ->). unfold ms in *. lia.
  - destruct Af as (_ & ->). unfold ms in *. lia.
  - destruct Af as (_ & ->). unfold ms in *. lia.
  - destruct Af as (? & _ & _ & ->). pose proof (flush_6 c). unfold ms in *. lia.
  - destruct Af as (_ & ->). unfold ms in *. lia.
Qed.
Lemma holds_total {A} fc (m : machine A) bs wb : holds fc m bs wb -> 0 <= total bs + wb.
Proof.
  intros H. pose proof (holds_wk _ _ _ _ H). destruct H as [H _]. enough (0 <= total bs) by lia. clear - H.
  induction H as [|t b ts bs W H IH]; cbn; [lia|]. apply wp_left in W. unfold total in *. lia.
Qed.
Lemma all_waited {A} xs : forall (m : machine A) bs wb, holds flush_time m bs wb -> waited by_anyone m xs <= total bs + wb + ms 2000 * ticks xs.
Proof.
  induction xs as [|x xs IH]; intros m bs wb H; cbn [waited]; pose proof (holds_total _ _ _ _ H) as B0.
  { cbn. lia. }
  assert (T0 : forall l, 0 <= ticks l).
  { induction l as [|y l L]; [cbn; lia|]. unfold ticks, total in *. cbn [map fold_right]. destruct y; lia. }
  assert (TS : ticks (x :: xs) = (match x with Tick _ => 1 | _ => 0 end) + ticks xs) by reflexivity.
  rewrite TS. pose proof (T0 xs) as T1. cbn [by_anyone].
  destruct (exec1 m x) as [m'|] eqn:E.
  2:{ rewrite (step_blocked m flush_time bs wb x E H). destruct x; unfold ms; cbn beta iota; lia. }
  destruct (step_holds flush_time m m' x bs wb E H) as (c & bs' & wb' & H' & Af). pose proof (IH m' bs' wb' H') as I. pose proof (holds_wk _ _ _ _ H) as W0.
  destruct x as [j| |d|t|j|j]; cbn [after] in *.
  - destruct Af as (b & N & -> & ->). rewrite (total_set _ _ _ _ N) in I. unfold ms in *. lia.
  - destruct Af as (-> & ->). unfold ms in *. lia.
  - destruct Af as (-> & ->). cbn [step_waiting]. unfold ms in *. lia.
  - destruct Af as (-> & ->). cbn [step_waiting]. unfold ms in *. lia.
  - destruct Af as (b & N & -> & ->). rewrite (total_set _ _ _ _ N) in I. cbn [step_waiting]. unfold ms in *. lia.
  - destruct Af as (-> & ->). cbn [step_waiting]. unfold ms in *. lia.
Qed.

(** ** The theorems *)
Lemma patience_pos q : 0 <= patience q.
Proof. destruct q; cbn; unfold ms; lia. Qed.
Lemma serve_holds fc rs c clk : (forall d, 0 <= fc d) -> holds fc (serve rs c clk) (map (full fc) rs) (ms 6000).
Proof.
  intros P. split; cbn [serve m_ts m_wk t_p].
  - induction rs as [|q rs IH]; cbn; constructor; auto. cbn [t_p]. apply costs_left; [destruct q; cbn; auto; unfold ms; lia|apply handle_costs; auto].
  - apply costs_left; [unfold ms; lia|apply caches_costs].
Qed.
Lemma waits_request rs c clk xs i q : nth_error rs i = Some q -> waited (by_request i) (serve rs c clk) xs <= patience q.
Proof.
  intros N. eapply request_waited; [apply serve_holds; unfold nofc; lia|]. rewrite nth_error_map, N. cbn. destruct q; reflexivity.
Qed.
Lemma waits_worker rs c clk xs : waited by_worker (serve rs c clk) xs <= ms 6000 + ms 2000 * ticks xs + ms 6000 * flushes xs.
Proof. apply (worker_waited nofc xs _ (map (full nofc) rs)). apply serve_holds. unfold nofc. lia. Qed.
Lemma waits_all rs c clk xs : waited by_anyone (serve rs c clk) xs <= ms 6000 + ms 2000 * ticks xs + total (map on_behalf rs).
Proof.
  pose proof (all_waited xs _ _ _ (serve_holds flush_time rs c clk flush_pos)) as H.
  assert (E : map (full flush_time) rs = map on_behalf rs) by (apply map_ext; intros []; reflexivity). rewrite E in H. lia.
Qed.

(** A flush: the worker is at it no longer than its kind allows. *)
Lemma step_budgets {A} (m m' : machine A) x bs wb : exec1 m x = Some m' -> holds flush_time m bs wb ->
  exists bs' wb', holds flush_time m' bs' wb' /\ forall i b', nth_error bs' i = Some b' -> exists b, nth_error bs i = Some b /\ b' <= b.
Proof.
  intros E H. pose proof (holds_nth flush_time m bs wb) as Hn. destruct (step_holds flush_time m m' x bs wb E H) as (c & bs' & wb' & H' & Af). exists bs', wb'. split; auto.
  assert (Set' : forall j b d i b', 0 <= d -> nth_error bs j = Some b -> nth_error (set_nth j (b - d) bs) i = Some b' -> exists b0, nth_error bs i = Some b0 /\ b' <= b0).
  { intros j b d i b' D N N'. destruct (Nat.eq_dec i j) as [->|Ij].
    - rewrite (nth_set_same _ _ _ _ N) in N'. injection N' as <-. exists b. split; auto. lia.
    - rewrite nth_set_other in N' by auto. exists b'. split; auto. lia. }
  assert (P : 0 <= step_waiting m x).
  { assert (WP : forall B (p : sproc B) n, wp flush_time p n left -> 0 <= wait_of p) by (intros B [] n W; cbn in *; try lia; apply W).
    destruct x as [j| |d|t|j|j]; cbn [step_waiting]; try lia.
    - destruct (nth_error (m_ts m) j) as [t|] eqn:N; [|lia]. destruct (Hn j t H N) as (b & _ & W). eauto.
    - destruct H as [_ H]. destruct (m_wk m); [eauto|lia]. }
  intros i b' N'. destruct x as [j| |d|t|j|j]; cbn [after] in Af.
  - destruct Af as (b & N & -> & _). eapply Set'; eauto.
  - destruct Af as [-> _]. exists b'. split; auto. lia.
  - destruct Af as [-> _]. exists b'. split; auto. lia.
  - destruct Af as [-> _]. exists b'. split; auto. lia.
  - destruct Af as (b & N & -> & _). exact (Set' _ _ _ _ _ (flush_pos c) N N').
  - destruct Af as [-> _]. exists b'. split; auto. lia.
Qed.
Lemma exec_budgets {A} xs : forall (m m' : machine A) bs wb, exec xs m = Some m' -> holds flush_time m bs wb ->
  exists bs' wb', holds flush_time m' bs' wb' /\ forall i b', nth_error bs' i = Some b' -> exists b, nth_error bs i = Some b /\ b' <= b.
Proof.
  induction xs as [|x xs IH]; intros m m' bs wb E H; cbn in E.
  { injection E as <-. exists bs, wb. split; auto. intros i b N. exists b. split; auto. lia. }
  destruct (exec1 m x) as [m1|] eqn:E1; [|discriminate]. destruct (step_budgets _ _ _ _ _ E1 H) as (bs1 & wb1 & H1 & L1).
  destruct (IH _ _ _ _ E H1) as (bs2 & wb2 & H2 & L2). exists bs2, wb2. split; auto. intros i b N. destruct (L2 _ _ N) as (b1 & N1 & B1).
  destruct (L1 _ _ N1) as (b0 & N0 & B0). exists b0. split; auto. lia.
Qed.
Lemma waits_flush rs c clk xs m i k m' ys : exec xs (serve rs c clk) = Some m -> nth_error rs i = Some (FlushCacheR k) -> exec1 m (Flush i) = Some m' ->
  ticks ys = 0 -> flushes ys = 0 -> waited by_worker m' ys <= flush_time k.
Proof.
  intros E N E1 T F. destruct (exec_budgets _ _ _ _ _ E (serve_holds flush_time rs c clk flush_pos)) as (bs & wb & H & L).
  pose proof (step_holds flush_time m m' (Flush i) bs wb E1 H) as (d & bs' & wb' & H' & b & Nb & -> & ->).
  destruct (L _ _ Nb) as (b0 & N0 & B0). rewrite nth_error_map, N in N0. cbn in N0. injection N0 as <-.
  pose proof (worker_waited flush_time ys m' _ _ H') as W. rewrite T, F in W.
  pose proof (holds_budget _ _ _ _ i (b - flush_time d) H' (nth_set_same _ _ _ _ Nb)). lia.
Qed.

(** ** HTTP *)
Lemma front_path ul uj h pb q : front ul uj h = Call pb q -> h_path h = method_path (rpc_name q).
Proof.
  unfold front. intros H. destruct (negb _); [discriminate|]. destruct (hasPrefix _ _); [|discriminate]. unfold dispatch in H.
  destruct (negb (beq (h_method h) _)); [discriminate|].
  destruct (parseTwirpPath _) as [[p s] m] eqn:P. destruct (beq s _) eqn:S; cbn [negb] in H; [|discriminate].
  destruct (beq p _) eqn:Q; cbn [negb] in H; [|discriminate]. apply beq_eq in S, Q. subst p s. apply parse_path in P.
  destruct (find_route m rt_routes) as [r|] eqn:F; [|discriminate]. destruct (contentType _ _) as [pb'|]; [|discriminate].
  match type of H with match ?o with _ => _ end = _ => destruct o as [v|]; [|discriminate] end. injection H as <- <-. rewrite P. unfold method_path. rewrite str_app. f_equal.
  revert F. unfold rt_routes. cbn [find_route rt_name].
  repeat (match goal with |- context [beq m (str ?n)] => destruct (beq m (str n)) eqn:?E end;
    [match goal with E : beq m (str ?n) = true |- _ => apply beq_eq in E; intros F; injection F as <-; exact E end|clear E]).
  discriminate.
Qed.
Definition http_budget ul uj (x : hreq * list byte) : Z := match front ul uj (fst x) with Answer _ => 0 | Call _ q => patience q end.
Lemma http_holds ul uj hs c clk : holds nofc (serve_http ul uj hs c clk) (map (http_budget ul uj) hs) (ms 6000).
Proof.
  split; cbn [serve_http m_ts m_wk t_p].
  - induction hs as [|x hs IH]; cbn [map]; constructor; auto. cbn [t_p]. unfold serveHTTP, http_budget. destruct (front ul uj (fst x)) as [a|pb q].
    + cbn. unfold left. lia.
    + apply costs_left; [apply patience_pos|]. replace (patience q) with (patience q + 0) by lia. apply costs_bind; [|lia|intros; apply costs_ret; lia].
      eapply costs_more; [apply handle_costs; unfold nofc; lia|]. destruct q; cbn; unfold nofc; lia.
  - apply costs_left; [unfold ms; lia|apply caches_costs].
Qed.
Lemma waits_http ul uj hs c clk xs i h t : nth_error hs i = Some (h, t) -> path_patience (h_path h) (waited (by_request i) (serve_http ul uj hs c clk) xs).
Proof.
  intros N. assert (W : waited (by_request i) (serve_http ul uj hs c clk) xs <= http_budget ul uj (h, t)).
  { eapply request_waited; [apply http_holds|]. rewrite nth_error_map, N. reflexivity. }
  unfold http_budget in W. cbn [fst] in W. destruct (front ul uj h) as [a|pb q] eqn:F.
  { unfold path_patience, ms. repeat split; intros; lia. }
  apply front_path in F. rewrite F. destruct q; cbn [patience rpc_name] in *; unfold path_patience;
    repeat split; intros; try discriminate; try congruence; unfold ms in *; try lia.
Qed.

(** ** The deadline of the HTTP server *)
Lemma room rs c clk xs i q : nth_error rs i = Some q -> (forall a r, q <> SetFanSpeedR a r) -> waited (by_request i) (serve rs c clk) xs < WriteTimeout.
Proof.
  intros N S. pose proof (waits_request rs c clk xs i q N) as W. unfold WriteTimeout, second. destruct q; cbn [patience] in W; unfold ms in W; try lia.
  destruct (S abs rel). reflexivity.
Qed.
Lemma no_room_speed : exists m, exec slow_speed (serve [SetFanSpeedR 3 false] slow_unit 0) = Some m /\ map t_p (m_ts m) = [Ret (RespSpeed true 2 3)] /\
  waited (by_request 0) (serve [SetFanSpeedR 3 false] slow_unit 0) slow_speed = ms 16500.
Proof.
  assert (H : match exec slow_speed (serve [SetFanSpeedR 3 false] slow_unit 0) with
              | Some m => map t_p (m_ts m) = [Ret (RespSpeed true 2 3)] | None => False end) by (vm_compute; reflexivity).
  destruct (exec slow_speed _) as [m|]; [|destruct H]. exists m. split; [reflexivity|]. split; [exact H|]. vm_compute; reflexivity.
Qed.
Lemma no_room_flush : exists m m' m'', exec dead_start (serve [FlushCacheR 10] dead_unit 0) = Some m /\ exec1 m (Flush 0) = Some m' /\ exec dead_flush m' = Some m'' /\
  map t_p (m_ts m'') = [Ret (RespFlush true)] /\ ticks dead_flush = 0 /\ flushes dead_flush = 0 /\ waited by_worker m' dead_flush = ms 6000.
Proof.
  assert (H : match exec dead_start (serve [FlushCacheR 10] dead_unit 0) with
              | Some m => match exec1 m (Flush 0) with
                          | Some m' => match exec dead_flush m' with
                                       | Some m'' => map t_p (m_ts m'') = [Ret (RespFlush true)] /\ waited by_worker m' dead_flush = ms 6000
                                       | None => False end
                          | None => False end
              | None => False end) by (vm_compute; auto).
  destruct (exec dead_start _) as [m|]; [|destruct H]. destruct (exec1 m (Flush 0)) as [m'|] eqn:E; [|destruct H].
  destruct (exec dead_flush m') as [m''|] eqn:E2; [|destruct H]. destruct H as [H1 H2]. exists m, m', m''. repeat split; auto.
Qed.
Lemma no_room :
  (exists m, exec slow_speed (serve [SetFanSpeedR 3 false] slow_unit 0) = Some m /\ map t_p (m_ts m) = [Ret (RespSpeed true 2 3)] /\
    WriteTimeout < waited (by_request 0) (serve [SetFanSpeedR 3 false] slow_unit 0) slow_speed) /\
  (exists m m' m'', exec dead_start (serve [FlushCacheR 10] dead_unit 0) = Some m /\ exec1 m (Flush 0) = Some m' /\ exec dead_flush m' = Some m'' /\
    map t_p (m_ts m'') = [Ret (RespFlush true)] /\ ticks dead_flush = 0 /\ flushes dead_flush = 0 /\ WriteTimeout < waited by_worker m' dead_flush).
Proof.
  split.
  - destruct no_room_speed as (m & A & B & C). exists m. rewrite C. repeat split; auto.
  - destruct no_room_flush as (m & m' & m'' & A & B & C & D & E & F & G). exists m, m', m''. rewrite G. repeat split; auto.
Qed.
