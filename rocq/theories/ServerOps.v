(** Lemmas behind PropertiesServer.v: the individual operations. *)
From Coq Require Import SpecFloat.
From Verif Require Import ProofBase GoStrings Proto SpecProto SpecFrame SpecConn SpecOps SpecLayout SpecServer ProtoProofs
  Scanner Conn FrameProofs ReplyProofs ReadProofs Proc Lib QueryProofs FrameLemmas LayoutProofs TrimProofs OpLemmas Server
  ServerProofs ServerLemmas Samples.

(** ** staleness *)
Lemma is_stale last now : isStale last now = true <-> 4500000000 < now - last.
Proof.
  unfold isStale, time_sub. change (Z.quot fastCacheStale 10) with 500000000.
  unfold fastCacheStale, second. change (5 * 1000000000) with 5000000000.
  rewrite orb_true_iff, !Z.gtb_lt. lia.
Qed.

Lemma one_query_nonempty c l : one_query c l -> l <> [].
Proof. intros (p & e & X) ->. inversion X. simpl in *. lia. Qed.

Lemma idle_lock w l : idle w -> can_lock (w_held w) l = true.
Proof. unfold idle. intros ->. reflexivity. Qed.

(** C24, C25 *)
Lemma refresh_spec w c force : idle w -> exists w' l, run (Update c force) w = (RDone tt, w') /\
  idle w' /\ added w w' l /\ w_clk w <= w_clk w' /\
  (force = true \/ 4500000000 < w_clk w' - stamp (w_sh w) c -> one_query c l) /\
  (force = false -> w_clk w' - stamp (w_sh w) c <= 4500000000 -> l = []) /\
  (fetched c l = [] -> w_sh w' = w_sh w) /\
  (forall p r, fetched c l = p :: r -> r = [] /\ stamp (w_sh w') c = w_clk w' /\
     (bytes_ok p -> layout_of c p (cached (w_sh w') c)) /\
     forall c', c' <> c -> cached (w_sh w') c' = cached (w_sh w) c' /\ stamp (w_sh w') c' = stamp (w_sh w) c').
Proof.
  intros I. exists (upd c force w). rewrite run_update by auto using idle_lock.
  destruct (upd_spec c force w) as (l & A & H & K & Q & F0 & F1 & O). exists l.
  assert (St : isStale (stamp (w_sh w) c) (w_clk (upd c force w)) = true <->
               4500000000 < w_clk (upd c force w) - stamp (w_sh w) c) by apply is_stale.
  splits; auto.
  - unfold idle in *. congruence.
  - intros G. destruct Q as [(_ & F & S)|[Q _]]; auto. destruct G as [G|G]; [congruence|].
    apply St in G. congruence.
  - intros F S. destruct Q as [(E & _)|[Q G]]; auto. destruct G as [G|G]; [congruence|]. apply St in G. lia.
  - intros p r E. destruct (F1 p r E) as (-> & S & Lay). splits; auto. intros c' N.
    destruct (O c' N) as (_ & C & T). auto.
Qed.

(** ** comfort temperature *)
Lemma is_trunc f k : f32_is f k -> f32_trunc f = k.
Proof.
  unfold f32_is. intros [_ H]. revert H.
  destruct f as [s|s| |s m e]; simpl; try contradiction; [intros [_ H]; auto|].
  intros [[E H]|[E H]].
  - replace (0 <=? e) with true by lia. destruct s; subst k; lia.
  - replace (0 <=? e) with false by lia.
    assert (P : 0 < 2 ^ (- e)) by (apply Z.pow_pos_nonneg; lia).
    destruct s.
    + assert (Hm : Z.pos m = (- k) * 2 ^ (- e)) by lia. rewrite Hm, Z.div_mul by lia. lia.
    + assert (Hm : Z.pos m = k * 2 ^ (- e)) by lia. rewrite Hm, Z.div_mul by lia. lia.
Qed.

Lemma run_rpc r w : idle w -> (forall c, r <> FlushCacheR c) ->
  run (handle r) w = (RDone (fst (f_rpc r w)), snd (f_rpc r w)) /\ idle (snd (f_rpc r w)).
Proof.
  intros I N. destruct (does_rpc r N w (idle_locks w I)) as [R _]. split; auto.
  unfold idle. rewrite (does_held _ _ _ w (does_rpc r N) (idle_locks w I)). exact I.
Qed.

Lemma setq_cases r w cmd data : EncodeSetRequest r = (mkPacket cmd data false, None) ->
  exists l out, added w (set_conn w (snd (setq r (w_conn w)))) l /\
    exchange cmd data false out (fst (setq r (w_conn w))) l.
Proof. intros E. destruct (setq_exchange r (w_conn w) cmd data E) as (out & l & A & X). exists l, out. auto. Qed.

Lemma upd_forced c w : exists l, added w (upd c true w) l /\ one_query c l /\ w_clk w <= w_clk (upd c true w).
Proof.
  destruct (upd_spec c true w) as (l & A & _ & K & Q & _). exists l. splits; auto.
  destruct Q as [(_ & F & _)|[Q _]]; [discriminate|auto].
Qed.

Lemma added_app w1 w2 w3 a b : added w1 w2 a -> added w2 w3 b -> added w1 w3 (a ++ b).
Proof. unfold added. intros A B. rewrite B, A, app_assoc. reflexivity. Qed.
Lemma added_nil w w' : w_conn w' = w_conn w -> added w w' [].
Proof. unfold added. intros ->. rewrite app_nil_r. reflexivity. Qed.

Lemma comfort_spec w t k : idle w -> 0 <= t -> f32_is (Comfort (sh_temp (w_sh w))) k -> 0 <= k <= 107 ->
  exists r w' l, run (handle (SetComfortTempR t)) w = (RDone r, w') /\ idle w' /\ added w w' l /\
  (255 < t -> r = RespErr (InvalidArgument ArgComfortTemp) /\ w' = w) /\
  (108 <= t <= 255 -> r = RespErr (Internal (LibErr ErrTooHigh)) /\ l = [] /\ w_sh w' = w_sh w) /\
  (t = k -> r = RespComfort false k t /\ w' = w) /\
  (t <= 107 -> t <> k ->
     (exists out e, exchange 211 [2 * (t + 20)] false out (Some e) l /\
        r = RespErr (Internal (LibErr e)) /\ w_sh w' = w_sh w) \/
     (exists out l1 l2, l = l1 ++ l2 /\ exchange 211 [2 * (t + 20)] false out None l1 /\
        one_query CTemp l2 /\ r = RespComfort true k t)).
Proof.
  intros I T0 F K. destruct (run_rpc (SetComfortTempR t) w I) as [R I']; [discriminate|].
  cbn [f_rpc] in *. exists (fst (f_comfort t w)), (snd (f_comfort t w)).
  unfold f_comfort in *. cbv zeta in *.
  assert (U8 : f32_to_u8 (Comfort (sh_temp (w_sh w))) = k).
  { unfold f32_to_u8. rewrite (is_trunc _ _ F). apply Z.mod_small. lia. }
  assert (U32 : f32_to_u32 (Comfort (sh_temp (w_sh w))) = k).
  { unfold f32_to_u32. rewrite (is_trunc _ _ F). apply Z.mod_small. lia. }
  rewrite U8, U32 in *.
  destruct (t >? 255) eqn:T.
  { exists []. splits; auto using added_nil; try lia; auto. }
  assert (Ut : u8 t = t) by (apply Z.mod_small; lia). rewrite Ut in *.
  destruct (k =? t) eqn:E; cbn [negb] in *.
  { assert (k = t) by lia. subst k. exists []. splits; auto using added_nil; try lia. }
  destruct (t >? 107) eqn:T7.
  { assert (Q : setq (SRComfort (f32_of_Z t)) (w_conn w) = (Some ErrTooHigh, w_conn w)).
    { unfold setq, EncodeSetRequest. cbn [requestType SetRequest_MarshalBinary].
      destruct (of_Z_exact t ltac:(lia)) as [_ Tt]. unfold temperature_MarshalBinary. rewrite Tt, T7. reflexivity. }
    rewrite Q in *. cbn [fst snd] in *. exists []. splits; auto using added_nil; try lia. }
  assert (En : EncodeSetRequest (SRComfort (f32_of_Z t)) = (mkPacket 211 [2 * (t + 20)] false, None)).
  { unfold EncodeSetRequest. cbn [requestType SetRequest_MarshalBinary]. rewrite temp_encode by lia. reflexivity. }
  destruct (setq_cases _ w _ _ En) as (l & out & A & X).
  destruct (setq _ (w_conn w)) as [[e|] cn]; cbn [fst snd] in *.
  - exists l. splits; auto; try lia. intros _ _. left. exists out, e. auto.
  - destruct (upd_forced CTemp (set_conn w cn)) as (l2 & A2 & Q2 & _).
    exists (l ++ l2). splits; auto; try lia.
    + eapply added_app; eauto.
    + intros _ _. right. exists out, l, l2. auto.
Qed.

(** With a negative cached comfort temperature the reply shows a different number. *)
Lemma comfort_refuted : exists w, idle w /\ f32_is (Comfort (sh_temp (w_sh w))) (-5) /\
  fst (run (handle (SetComfortTempR 21)) w) = RDone (RespComfort true 4294967291 21).
Proof.
  set (d := script [[Data [7; 243] None]; [Data (reply 210 [82; 60; 70; 72; 66; 15; 40; 40; 40]) None]; []]).
  exists (mkWorld (fresh d) (on_temp (fun _ => mkTemps (f32_of_Z (-5)) f0 f0 f0 f0 f0 f0 f0) init_shared) [] 0 []).
  subst d. split; [vm_compute; reflexivity|]. split; [apply LayoutProofs.f32_isb_ok|]; vm_compute; reflexivity.
Qed.

(** ** polling *)
Lemma held_upd c f w : w_held (upd c f w) = w_held w.
Proof. destruct (upd_spec c f w) as (l & _ & H & _). exact H. Qed.

Lemma queries_app a b l1 l2 : queries a l1 -> queries b l2 -> queries (a ++ b) (l1 ++ l2).
Proof. induction 1; intros Q; cbn [app]; auto. rewrite <- app_assoc. constructor; auto. Qed.
Lemma queries_one c l : one_query c l -> queries [c] l.
Proof. intros Q. rewrite <- (app_nil_r l). repeat constructor. exact Q. Qed.

Lemma nth_poll_shift w n : idle w -> nth_poll w (S n) = nth_poll (add_clock (upd CFans true w) half_second) n.
Proof.
  intros I. induction n as [|n IH].
  - cbn [nth_poll]. rewrite (run_update CFans true w) by (apply idle_lock; exact I). reflexivity.
  - cbn [nth_poll] in *. rewrite IH. reflexivity.
Qed.

Lemma poll_spec n i o : forall w, idle w -> exists l, added w (snd (f_poll n i o w)) l /\ idle (snd (f_poll n i o w)) /\
  ((exists k, (k < n)%nat /\ f_poll n i o w = (None, nth_poll w k) /\ fans_at i o (nth_poll w k) /\
      (forall j, (j < k)%nat -> ~ fans_at i o (nth_poll w j)) /\
      queries (repeat CFans (S k)) l /\ w_clk w + Z.of_nat k * half_second <= w_clk (nth_poll w k)) \/
   (fst (f_poll n i o w) = Some ErrSetPollFailed /\
      (forall j, (j < n)%nat -> ~ fans_at i o (nth_poll w j)) /\
      queries (repeat CFans n) l /\ w_clk w + Z.of_nat n * half_second <= w_clk (snd (f_poll n i o w)) /\
      w_sh (snd (f_poll n i o w)) = match n with O => w_sh w | S m => w_sh (nth_poll w m) end)).
Proof.
  induction n as [|n IH]; intros w I.
  - exists []. cbn [f_poll snd fst]. splits; auto using added_nil. right. splits; auto.
    + intros j H. lia.
    + constructor.
    + lia.
  - cbn [f_poll]. cbv zeta. destruct (upd_forced CFans w) as (l1 & A1 & Q1 & K1).
    assert (N0 : nth_poll w 0 = upd CFans true w) by (cbn [nth_poll]; rewrite run_update by (intros; apply idle_lock; exact I); reflexivity).
    assert (I1 : idle (upd CFans true w)) by (unfold idle in *; rewrite held_upd; auto).
    destruct (_ && _) eqn:M.
    + exists l1. cbn [fst snd]. splits; auto. left. exists 0%nat.
      apply andb_true_iff in M as [M1 M2]. splits.
      * lia.
      * rewrite N0. reflexivity.
      * rewrite N0. split; lia.
      * intros j H. lia.
      * apply (queries_one CFans). auto.
      * rewrite N0. lia.
    + destruct (IH (add_clock (upd CFans true w) half_second)) as (l2 & A2 & I2 & C); [exact I1|].
      change 500000000 with half_second in *.
      assert (NM : ~ fans_at i o (nth_poll w 0)).
      { rewrite N0. unfold fans_at. intros [H1 H2]. rewrite H1, H2, !Z.eqb_refl in M. discriminate. }
      exists (l1 ++ l2). splits; auto.
      * eapply added_app; [exact A1|exact A2].
      * destruct C as [(k & Hk & E & F & N & Q & K)|(E & N & Q & K & Sh)].
        -- left. exists (S k). rewrite nth_poll_shift by auto. splits; auto.
           ++ lia.
           ++ intros [|j] H; auto. rewrite nth_poll_shift by auto. apply N. lia.
           ++ cbn [repeat]. constructor; auto.
           ++ cbn [add_clock w_clk] in K. unfold half_second in *. lia.
        -- right. splits; auto.
           ++ intros [|j] H; auto. rewrite nth_poll_shift by auto. apply N. lia.
           ++ cbn [repeat]. constructor; auto.
           ++ cbn [add_clock w_clk] in K. unfold half_second in *. lia.
           ++ rewrite Sh. destruct n as [|n]; [rewrite N0; reflexivity|]. rewrite nth_poll_shift by auto. reflexivity.
Qed.

(** C32 *)
Lemma update_poll_spec w n v i o : idle w -> Lookup (sh_prof (w_sh w)) v = (i, o, None) ->
  exists r w' l, run (UpdatePoll n v) w = (RDone r, w') /\ idle w' /\ added w w' l /\
  ((exists k, (k < n)%nat /\ r = None /\ w' = nth_poll w k /\ fans_at i o w' /\
      (forall j, (j < k)%nat -> ~ fans_at i o (nth_poll w j)) /\ queries (repeat CFans (S k)) l) \/
   (r = Some ErrSetPollFailed /\ (forall j, (j < n)%nat -> ~ fans_at i o (nth_poll w j)) /\
      queries (repeat CFans n) l /\ w_clk w + Z.of_nat n * half_second <= w_clk w')).
Proof.
  intros I Lk. assert (V : 1 <= v <= 4).
  { unfold Lookup in Lk. destruct (v =? 1) eqn:?; [lia|]. destruct (v =? 2) eqn:?; [lia|].
    destruct (v =? 3) eqn:?; [lia|]. destruct (v =? 4) eqn:?; [lia|discriminate]. }
  destruct (does_updpoll n v V w) as [R _]; [intros; apply idle_lock; auto|].
  unfold f_updpoll in R. rewrite Lk in R.
  destruct (poll_spec n i o w I) as (l & A & I' & C).
  exists (fst (f_poll n i o w)), (snd (f_poll n i o w)), l. splits; auto.
  destruct C as [(k & Hk & E & F & N & Q & K)|(E & N & Q & K & _)].
  - left. exists k. rewrite E. cbn [fst snd]. splits; auto.
  - right. splits; auto.
Qed.

(** C50 *)
Lemma poll_leak w n v : idle w -> ~ (1 <= v <= 4) -> exists w',
  run (UpdatePoll n v) w = (RDone (Some (LibErr ErrNotExist)), w') /\ w_held w' = [(LC CProf, false)] /\
  w_sh w' = w_sh w /\ w_conn w' = w_conn w /\
  forall force, fst (run (Update CProf force) w') = RBlocked.
Proof.
  intros I V. unfold UpdatePoll. cbn [run]. unfold idle in I. rewrite I. cbn [can_rlock holds existsb negb].
  unfold Lookup. replace (v =? 1) with false by lia. replace (v =? 2) with false by lia.
  replace (v =? 3) with false by lia. replace (v =? 4) with false by lia. cbn [run].
  eexists. splits; try reflexivity.
Qed.

(** ** fan speed *)
Lemma speed_encode v : v <= 4 -> EncodeSetRequest (SRSpeed v) = (mkPacket 153 [v] false, None).
Proof. intros H. unfold EncodeSetRequest. simpl. replace (v >? 4) with false by lia. reflexivity. Qed.

Lemma speed_spec w abs rel o : idle w -> 0 <= abs -> CurrentMode (sh_prof (w_sh w)) = o -> 0 <= o < 256 ->
  exists r w' l, run (handle (SetFanSpeedR abs rel)) w = (RDone r, w') /\ idle w' /\ added w w' l /\
    w_clk w <= w_clk w' /\
    speed_outcome o (speed_target o abs rel) w r w' l /\
    (r = RespErr (Internal ErrSetPollFailed) -> w_clk w + 5000000000 <= w_clk w').
Proof.
  intros I A0 Co O. destruct (run_rpc (SetFanSpeedR abs rel) w I) as [R I']; [discriminate|].
  cbn [f_rpc] in *. exists (fst (f_speed abs rel w)), (snd (f_speed abs rel w)).
  unfold f_speed in *. cbv zeta in *. rewrite Co in *.
  assert (U : forall x, 0 <= x < 256 -> u32 x = x) by (intros; apply Z.mod_small; lia).
  destruct (modifySpeed o abs rel) as [v [e|]] eqn:M; cbn [fst snd] in *.
  { exists []. splits; auto using added_nil; try lia.
    - unfold modifySpeed in M. unfold speed_target. destruct (abs =? 0) eqn:Z0; cbn [negb andb] in M.
      + destruct rel.
        * destruct ((u8 (o + 1) <? 1) || (u8 (o + 1) >? 4)) eqn:B; [|discriminate]. injection M as _ <-.
          apply so_range with (v := o + 1); auto. unfold u8 in B. lia.
        * destruct ((u8 (o - 1) <? 1) || (u8 (o - 1) >? 4)) eqn:B; [|discriminate]. injection M as _ <-.
          apply so_range with (v := o - 1); auto. unfold u8 in B. lia.
      + destruct rel.
        * injection M as _ <-. apply so_both. reflexivity.
        * destruct ((u8 abs <? 1) || (u8 abs >? 4)) eqn:B; [|discriminate]. injection M as _ <-.
          assert (V : ~ 1 <= u8 abs <= 4) by lia. pose proof (so_range o (Some (u8 abs)) w (u8 abs) eq_refl V) as Q.
          unfold u8 in Q. rewrite Z.mod_mod in Q by lia. exact Q.
    - intros E. injection E as ->. exfalso. unfold modifySpeed in M.
      destruct (_ && rel); [discriminate|]. destruct (_ || _) in M; discriminate. }
  assert (T : speed_target o abs rel = Some v).
  { unfold modifySpeed in M. unfold speed_target. destruct (abs =? 0) eqn:Z0; cbn [negb andb] in M; destruct rel; try discriminate.
    - destruct ((u8 (o + 1) <? 1) || (u8 (o + 1) >? 4)) eqn:B; [discriminate|]. injection M as <-.
      f_equal. unfold u8 in *. lia.
    - destruct ((u8 (o - 1) <? 1) || (u8 (o - 1) >? 4)) eqn:B; [discriminate|]. injection M as <-.
      f_equal. unfold u8 in *. lia.
    - destruct ((u8 abs <? 1) || (u8 abs >? 4)) eqn:B; [discriminate|]. injection M as <-. reflexivity. }
  apply modify_range in M. assert (Uv : u8 v = v) by (apply Z.mod_small; lia). rewrite Uv, !U in * by lia.
  destruct (v =? o) eqn:E; cbn [negb] in *.
  { assert (v = o) by lia. subst v. cbn [fst snd] in *. exists []. splits; auto using added_nil; try lia; try discriminate.
    apply so_already; auto. }
  destruct (setq_cases _ w _ _ (speed_encode v ltac:(lia))) as (l & out & A & X).
  destruct (setq _ (w_conn w)) as [[e|] cn]; cbn [fst snd] in *.
  { exists l. splits; auto; try discriminate; try (cbn [set_conn w_clk]; lia).
    eapply so_set_failed; eauto. lia. }
  unfold f_updpoll in *. 
  destruct (Lookup (sh_prof (w_sh (set_conn w cn))) v) as [[i u] e0].
  destruct (poll_spec 10 i u (set_conn w cn)) as (l2 & A2 & I2 & C); [exact I|].
  destruct (f_poll 10 i u (set_conn w cn)) as [[e|] w2] eqn:P; cbn [fst snd] in *.
  - destruct C as [(k & _ & C & _)|(C & _ & Q & K & _)]; [discriminate|]. injection C as ->.
    exists (l ++ l2). splits; auto.
    + eapply added_app; eauto.
    + cbn [set_conn w_clk] in K. unfold half_second in K. lia.
    + eapply so_poll_failed; eauto. lia.
  - destruct C as [(k & Hk & C & _ & _ & Q & K)|(C & _)]; [|discriminate].
    destruct (upd_forced CProf w2) as (l3 & A3 & Q3 & K3).
    exists (l ++ (l2 ++ l3)). splits; auto.
    + eapply added_app; [exact A|]. eapply added_app; eauto.
    + injection C as ->. cbn [set_conn w_clk] in K. unfold half_second in K. lia.
    + eapply so_done with (k := S k); eauto; try lia.
      apply queries_app; auto using queries_one.
    + discriminate.
Qed.
