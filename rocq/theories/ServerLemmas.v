(** Lemmas behind PropertiesServer.v: what operations of the server do to connection and caches. *)
From Coq Require Import SpecFloat.
From Verif Require Import ProofBase GoStrings Proto SpecProto SpecFrame SpecConn SpecOps SpecLayout SpecServer ProtoProofs
  Scanner Conn FrameProofs ReplyProofs ReadProofs Proc Lib QueryProofs FrameLemmas LayoutProofs TrimProofs OpLemmas Server ServerProofs.

(** ** getter RPCs *)
Definition umsg (v : rec) : resp :=
  match v with
  | VBoot b => RespBoot (mkPbBoot (u32 (MajorVersion b)) (u32 (MinorVersion b)) (u32 (BetaVersion b)) (DeviceName b))
  | VBypass b => RespBypass (mkPbBypass (u32 (Factor b)) (u32 (Level b)) (u32 (Correction b)) (SummerMode b))
  | VTemp t => RespTemps (mkPbTemps (Comfort t) (OutsideAir t) (SupplyAir t) (InsideAir t)
                                    (ExhaustAir t) (GeoHeat t) (Reheating t) (KitchenHood t))
  | VFans f => RespFans (mkPbFans (u32 (InPercent f)) (u32 (OutPercent f)) (u32 (InSpeed f)) (u32 (OutSpeed f)))
  | VProf p => RespProf (mkPbProf (u32 (OutAway p)) (u32 (OutLow p)) (u32 (OutMid p)) (u32 (OutHigh p)) (InFanActive p)
                                  (u32 (InAway p)) (u32 (InLow p)) (u32 (InMid p)) (u32 (InHigh p))
                                  (u32 (CurrentOut p)) (u32 (CurrentIn p)) (u32 (CurrentMode p)))
  | VErr e => RespErrors (mkPbErrors (EFilter e))
  end.
Lemma umsg_typed v : typed v -> umsg v = message v.
Proof.
  assert (B : forall x, 0 <= x < 65536 -> u32 x = x) by (intros; apply Z.mod_small; lia).
  destruct v; simpl; auto; intros H; rewrite !B by lia; reflexivity.
Qed.

Lemma does_getter c : does (handle (getter_rpc c)) [LC c] (fun w => (umsg (cached (w_sh w) c), w)).
Proof.
  intros w L. specialize (L (LC c) (or_introl eq_refl)).
  destruct w as [cn s h k a]. cbn [w_held] in L.
  destruct c; cbn [getter_rpc handle bind boot_Protobuf bypass_Protobuf temp_Protobuf fans_Protobuf
    prof_Protobuf err_Protobuf with_lock run w_held]; rewrite L; cbn [run set_held w_sh w_held];
    rewrite release_head; split; reflexivity.
Qed.

(** Byte values give records in range. *)
Lemma be_bytes_range l : bytes_ok l -> forall acc, 0 <= acc -> 0 <= be_bytes acc l.
Proof.
  induction 1 as [|b l B _ IH]; intros acc A; cbn [be_bytes]; auto.
  apply IH. unfold byte_ok in B. lia.
Qed.
Lemma byte_at_range l i : bytes_ok l -> 0 <= byte_at l i < 256.
Proof.
  intros B. unfold byte_at, be_at.
  assert (B2 : bytes_ok (skipn i l)).
  { unfold bytes_ok in *. rewrite <- (firstn_skipn i l) in B. apply Forall_app in B. tauto. }
  destruct (skipn i l) as [|b r]; cbn [firstn be_bytes]; [lia|].
  inversion B2; subst. unfold byte_ok in *. lia.
Qed.
Lemma layout_typed c p v : bytes_ok p -> layout_of c p v -> typed v.
Proof.
  intros B H. pose proof (fun i => byte_at_range p i B) as R.
  destruct c, v; try contradiction; simpl in *; auto.
  - destruct H as (-> & -> & -> & _). auto.
  - destruct H as (-> & -> & -> & _). auto.
  - destruct H as (-> & -> & -> & ->). splits; try apply R; apply Z.mod_pos_bound; reflexivity.
  - destruct H as (-> & -> & -> & -> & -> & -> & -> & -> & -> & -> & -> & _). splits; apply R.
Qed.
Lemma blank_typed c : typed (blank c).
Proof. destruct c; simpl; auto; splits; lia. Qed.

Lemma message_inj v1 v2 : message v1 = message v2 -> v1 = v2.
Proof. destruct v1 as [[]|[]|[]|[]|[]|[]], v2 as [[]|[]|[]|[]|[]|[]]; simpl; intros H; inversion H; reflexivity. Qed.

(** ** following the caches *)
Definition tracks (w w' : world shared) (l : list io) : Prop :=
  added w w' l /\ starts l /\
  forall c, (fetched c l = [] -> cached (w_sh w') c = cached (w_sh w) c) /\
            (forall p r, rev (fetched c l) = p :: r -> bytes_ok p -> layout_of c p (cached (w_sh w') c)).

Lemma tracks_refl w w' : w_conn w' = w_conn w -> w_sh w' = w_sh w -> tracks w w' [].
Proof.
  intros C S. split; [|split]; [unfold added; rewrite C, app_nil_r; reflexivity|exact I|].
  intros c. rewrite S. split; auto. intros p r H. discriminate.
Qed.
Lemma tracks_trans w1 w2 w3 a b : tracks w1 w2 a -> tracks w2 w3 b -> tracks w1 w3 (a ++ b).
Proof.
  intros (A1 & S1 & T1) (A2 & S2 & T2). split; [|split].
  - unfold added in *. rewrite A2, A1, app_assoc. reflexivity.
  - apply starts_app; auto.
  - intros c. destruct (T1 c) as [U1 V1], (T2 c) as [U2 V2]. rewrite fetched_app by auto.
    split.
    + intros H. apply app_eq_nil in H as [H1 H2]. rewrite U2, U1; auto.
    + intros p r H B. rewrite rev_app_distr in H. destruct (rev (fetched c b)) as [|q t] eqn:E.
      * cbn [app] in H. assert (F : fetched c b = []).
        { rewrite <- (rev_involutive (fetched c b)), E. reflexivity. }
        rewrite (U2 F). eapply V1; eauto.
      * cbn [app] in H. injection H as -> _. eapply V2; eauto.
Qed.
Lemma tracks_exchange w cn cmd data x p e l : c_log cn = c_log (w_conn w) ++ l ->
  exchange cmd data x p e l -> x = false \/ data <> [] ->
  tracks w (set_conn w cn) l.
Proof.
  intros A X N. split; [exact A|]. split; [eapply exchange_starts; eauto|].
  intros c. assert (F : fetched c l = []).
  { unfold fetched. rewrite (exchange_replies _ _ _ _ _ _ (request c) X).
    destruct N as [-> | N]; destruct data; rewrite ?andb_false_r; try reflexivity; congruence. }
  rewrite F. split; [reflexivity|]. intros q r H. discriminate.
Qed.

Lemma request_inj a b : request a = request b -> a = b.
Proof. destruct a, b; simpl; congruence || discriminate. Qed.
Lemma other_fetched c c' p e l : exchange (request c) [] true p e l -> c' <> c -> fetched c' l = [].
Proof.
  intros X N. unfold fetched. rewrite (exchange_replies _ _ _ _ _ _ (request c') X).
  destruct (Z.eqb_spec (request c') (request c)) as [H|]; [apply request_inj in H; contradiction|reflexivity].
Qed.

(** Everything about one refresh. *)
Lemma upd_spec c force w : exists l,
  added w (upd c force w) l /\ w_held (upd c force w) = w_held w /\ w_clk w <= w_clk (upd c force w) /\
  (l = [] /\ force = false /\ isStale (stamp (w_sh w) c) (w_clk (upd c force w)) = false \/
   one_query c l /\ (force = true \/ isStale (stamp (w_sh w) c) (w_clk (upd c force w)) = true)) /\
  (fetched c l = [] -> w_sh (upd c force w) = w_sh w) /\
  (forall p r, fetched c l = p :: r -> r = [] /\ stamp (w_sh (upd c force w)) c = w_clk (upd c force w) /\
             (bytes_ok p -> layout_of c p (cached (w_sh (upd c force w)) c))) /\
  (forall c', c' <> c -> fetched c' l = [] /\ cached (w_sh (upd c force w)) c' = cached (w_sh w) c' /\
                         stamp (w_sh (upd c force w)) c' = stamp (w_sh w) c').
Proof.
  unfold upd. set (w1 := tick_clock w).
  destruct (negb force && negb (isStale (stamp (w_sh w) c) (w_clk w1))) eqn:D.
  - exists []. apply andb_true_iff in D as [D1 D2]. apply negb_true_iff in D1. apply negb_true_iff in D2.
    splits; try reflexivity; auto.
    + unfold added. rewrite app_nil_r. reflexivity.
    + unfold w1, tick_clock. cbn [w_clk]. lia.
    + intros p r H. discriminate.
  - destruct (fetch_spec c (w_conn w)) as (p & e & l & A & X & M).
    pose proof (fetch_kind c (w_conn w)) as K.
    destruct (fetch c (w_conn w)) as [o cn]. cbn [fst snd] in *.
    assert (St : force = true \/ isStale (stamp (w_sh w) c) (w_clk w1) = true).
    { destruct force; auto. cbn [negb andb] in D. apply negb_false_iff in D. auto. }
    exists l. destruct o as [v|].
    + destruct M as (-> & F & Lay). specialize (K v eq_refl). splits; auto.
      * unfold w1, tick_clock. cbn. lia.
      * right. split; [exists p, None; auto|]. cbn [set_conn set_sh w_clk]. exact St.
      * rewrite F. discriminate.
      * intros q r H. rewrite F in H. injection H as <- <-. cbn [set_conn set_sh w_sh w_clk].
        rewrite store_stamp, store_cached. split; auto. destruct c, v; try contradiction; auto.
      * intros c' N. split; [eapply other_fetched; eauto|]. cbn [set_conn set_sh w_sh w_clk].
        rewrite store_stamp, store_cached. destruct c, v, c'; try contradiction; auto.
    + splits; auto.
      * unfold w1, tick_clock. cbn. lia.
      * right. split; [exists p, e; auto|]. exact St.
      * intros q r H. rewrite M in H. discriminate.
      * intros c' N. split; [eapply other_fetched; eauto|]. auto.
Qed.

Lemma one_query_starts c l : one_query c l -> starts l.
Proof. intros (p & e & X). eapply exchange_starts; eauto. Qed.

Lemma upd_tracks c force w : exists l, tracks w (upd c force w) l /\ (l = [] \/ one_query c l).
Proof.
  destruct (upd_spec c force w) as (l & A & _ & _ & Q & F0 & F1 & O). exists l. split.
  - split; [auto|]. split; [destruct Q as [[-> _]|[Q _]]; [exact I|eapply one_query_starts; eauto]|].
    intros c'. destruct (cache_eqb_spec c' c) as [-> | N].
    + split; [intros H; rewrite F0 by auto; reflexivity|]. intros p r H B.
      destruct (fetched c l) as [|q t] eqn:E; [discriminate|]. destruct (F1 q t eq_refl) as (-> & _ & Lay).
      injection H as -> _. auto.
    + destruct (O c' N) as (F & C & _). rewrite F. split; auto. intros p r H. discriminate.
  - tauto.
Qed.

Lemma setq_tracks r w : exists l,
  tracks w (set_conn w (snd (setq r (w_conn w)))) l /\
  (l = [] \/ exists cmd data out, EncodeSetRequest r = (mkPacket cmd data false, None) /\
     exchange cmd data false out (fst (setq r (w_conn w))) l).
Proof.
  destruct (EncodeSetRequest r) as [sr [e|]] eqn:E.
  - exists []. unfold setq. rewrite E. split; auto. apply tracks_refl; reflexivity.
  - assert (S : exists cmd data, sr = mkPacket cmd data false).
    { unfold EncodeSetRequest in E. destruct (_ =? 0); [discriminate|].
      destruct (SetRequest_MarshalBinary r) as [bin [e|]]; [discriminate|]. injection E as <-. eauto. }
    destruct S as (cmd & data & ->).
    destruct (setq_exchange r (w_conn w) cmd data E) as (out & l & A & X).
    exists l. split; [eapply tracks_exchange; eauto|]. right. eauto.
Qed.

Lemma poll_tracks n i o : forall w, exists l, tracks w (snd (f_poll n i o w)) l.
Proof.
  induction n as [|m IH]; intros w; cbn [f_poll].
  - exists []. apply tracks_refl; reflexivity.
  - destruct (upd_tracks CFans true w) as (l1 & T1 & _). destruct (_ && _).
    + exists l1. exact T1.
    + destruct (IH (add_clock (upd CFans true w) 500000000)) as (l2 & T2).
      exists (l1 ++ l2). eapply tracks_trans; eauto.
Qed.
Lemma updpoll_tracks n v w : exists l, tracks w (snd (f_updpoll n v w)) l.
Proof. unfold f_updpoll. destruct (Lookup _ _) as [[i o] e]. apply poll_tracks. Qed.

Lemma comfort_tracks t w : exists l, tracks w (snd (f_comfort t w)) l.
Proof.
  unfold f_comfort. destruct (t >? 255); [exists []; apply tracks_refl; reflexivity|].
  destruct (negb _); [|exists []; apply tracks_refl; reflexivity].
  destruct (setq_tracks (SRComfort (f32_of_Z (u8 t))) w) as (l & T & _).
  destruct (setq _ (w_conn w)) as [[e|] cn]; cbn [fst snd] in *; [eauto|].
  destruct (upd_tracks CTemp true (set_conn w cn)) as (l2 & T2 & _).
  exists (l ++ l2). eapply tracks_trans; eauto.
Qed.

Lemma speed_tracks a r w : exists l, tracks w (snd (f_speed a r w)) l.
Proof.
  unfold f_speed. cbv zeta. destruct (modifySpeed _ _ _) as [v [e|]]; [exists []; apply tracks_refl; reflexivity|].
  destruct (negb _); [|exists []; apply tracks_refl; reflexivity].
  destruct (setq_tracks (SRSpeed (u8 v)) w) as (l & T & _).
  destruct (setq _ (w_conn w)) as [[e|] cn]; cbn [fst snd] in *; [eauto|].
  destruct (updpoll_tracks 10 (u8 v) (set_conn w cn)) as (l2 & T2).
  destruct (f_updpoll 10 (u8 v) (set_conn w cn)) as [[e|] w2]; cbn [fst snd] in *.
  - exists (l ++ l2). eapply tracks_trans; eauto.
  - destruct (upd_tracks CProf true w2) as (l3 & T3 & _).
    exists ((l ++ l2) ++ l3). eapply tracks_trans; [eapply tracks_trans|]; eauto.
Qed.

Lemma tl_exchange_fetched c cmd data x p e l : exchange cmd data x p e l -> fetched c (tl l) = [].
Proof. intros X. unfold fetched. destruct X; try reflexivity; destruct x; try reflexivity. Qed.

(** The SetFanProfile RPC: its own query, then possibly the set and the refresh. *)
Lemma profile_tracks m t w : exists l,
  (l = [] /\ tracks w (snd (f_profile m t w)) []) \/
  (exists l0 l1 w0 p e, l = l0 ++ l1 /\ added w w0 l0 /\ w_sh w0 = w_sh w /\ exchange 205 [] true p e l0 /\
     tracks w0 (snd (f_profile m t w)) l1).
Proof.
  unfold f_profile. destruct (_ || _) eqn:M; [exists []; left; split; auto; apply tracks_refl; reflexivity|].
  destruct (_ || _) eqn:T in |- *; [exists []; left; split; auto; apply tracks_refl; reflexivity|].
  destruct (profile_in _ _) as [o|]; [|exists []; left; split; auto; apply tracks_refl; reflexivity].
  destruct (negb _); [|exists []; left; split; auto; apply tracks_refl; reflexivity].
  unfold fprofile. replace (u8 m - 1 >? 3) with false by lia. replace (u8 t >? 100) with false by lia.
  unfold getq. destruct (query_exchange (mkPacket 205 [] true) (w_conn w)) as (l0 & Lg & X).
  destruct (query _ _) as [[q qe] c1] eqn:Q. cbn [fst snd p_cmd p_data p_expect] in *.
  destruct qe as [e|].
  { exists (l0 ++ []). right. exists l0, [], (set_conn w c1), q, (Some e). splits; auto. apply tracks_refl; reflexivity. }
  destruct (prof_total (p_data q)) as (cfp & e & D). rewrite D. destruct e as [e|].
  { exists (l0 ++ []). right. exists l0, [], (set_conn w c1), q, None. splits; auto. apply tracks_refl; reflexivity. }
  destruct (setq_tracks (SRProfiles (change_profile (u8 m - 1) (u8 t) cfp)) (set_conn w c1)) as (l1 & T1 & _).
  cbn [w_conn set_conn] in T1.
  destruct (setq _ c1) as [[e|] c2]; cbn [fst snd] in *.
  - exists (l0 ++ l1). right. exists l0, l1, (set_conn w c1), q, None. splits; auto.
  - destruct (upd_tracks CProf true (set_conn w c2)) as (l2 & T2 & _).
    exists (l0 ++ (l1 ++ l2)). right. exists l0, (l1 ++ l2), (set_conn w c1), q, None. splits; auto.
    eapply tracks_trans; eauto.
Qed.

(** ** ticks, flushes, start-up *)
Definition f_seq (cs : list cache) (force : bool) (w : world shared) : world shared :=
  fold_left (fun w c => upd c force w) cs w.
Lemma seq_tracks cs force : forall w, exists l, tracks w (f_seq cs force w) l.
Proof.
  induction cs as [|c cs IH]; intros w; cbn [f_seq fold_left].
  - exists []. apply tracks_refl; reflexivity.
  - destruct (upd_tracks c force w) as (l1 & T1 & _). destruct (IH (upd c force w)) as (l2 & T2).
    exists (l1 ++ l2). eapply tracks_trans; eauto.
Qed.

Lemma does_then {A} (p : sproc unit) (q : sproc A) l1 l2 f g : does p l1 (fun w => (tt, f w)) -> does q l2 g ->
  does (do _ <- p; q) (l1 ++ l2) (fun w => g (f w)).
Proof. intros P Q. exact (does_bind _ _ _ _ _ (fun _ => g) P (fun _ => Q)). Qed.
Lemma does_seq2 a b force : does (do _ <- Update a force; Update b force) [LC a; LC b; LPm]
  (fun w => (tt, f_seq [a; b] force w)).
Proof.
  eapply does_weaken with (l1 := [LC a; LPm] ++ [LC b; LPm]); [simpl; intuition|].
  eapply does_ext; [|exact (does_then _ _ _ _ _ _ (does_update a force) (does_update b force))]. reflexivity.
Qed.
Definition all_caches : list cache := [CBoot; CBypass; CTemp; CFans; CProf; CErr].
Definition all_locks : list lockid := [LPm; LAm; LFan; LTemp; LC CBoot; LC CBypass; LC CTemp; LC CFans; LC CProf; LC CErr].
Ltac all_in := let x := fresh in intros x; destruct x as [| | | |[]]; simpl; intuition discriminate.
Lemma does_all force : does (UpdateCaches force) all_locks (fun w => (tt, f_seq all_caches force w)).
Proof.
  unfold UpdateCaches.
  eapply does_weaken; [|exact (
    does_then _ _ _ _ _ _ (does_update CBoot force) (
    does_then _ _ _ _ _ _ (does_update CBypass force) (
    does_then _ _ _ _ _ _ (does_update CTemp force) (
    does_then _ _ _ _ _ _ (does_update CFans force) (
    does_then _ _ _ _ _ _ (does_update CProf force) (does_update CErr force)))))) ].
  intros x H. simpl in *. intuition.
Qed.

Definition flush_caches (c : Z) : list cache :=
  if c =? TBootInfo then [CBoot] else if c =? TBypass then [CBypass] else if c =? TFans then [CFans]
  else if c =? TTemps then [CTemp] else if c =? TProfiles then [CProf] else if c =? TAll then all_caches else [].
Definition flush_known (c : Z) : bool :=
  (c =? TBootInfo) || (c =? TBypass) || (c =? TFans) || (c =? TTemps) || (c =? TProfiles) || (c =? TAll).
Lemma does_flush c : does (FlushCaches_body c) all_locks (fun w => (flush_known c, f_seq (flush_caches c) true w)).
Proof.
  unfold FlushCaches_body, flush_known, flush_caches.
  assert (One : forall k, does (do _ <- Update k true; Ret true) all_locks (fun w => (true, f_seq [k] true w))).
  { intros k. eapply does_weaken; [|eapply does_ext; [|exact (does_then _ _ _ _ _ _ (does_update k true) (does_ret true))]].
    - intros x H. destruct k; simpl in *; intuition.
    - reflexivity. }
  destruct (c =? TBootInfo); [apply One|]. destruct (c =? TBypass); [apply One|].
  destruct (c =? TFans); [apply One|]. destruct (c =? TTemps); [apply One|].
  destruct (c =? TProfiles); [apply One|]. destruct (c =? TAll); cbn [orb].
  - eapply does_weaken with (l1 := all_locks ++ []); [intros; rewrite app_nil_r in *; auto|].
    eapply does_ext; [|exact (does_then _ _ _ _ _ _ (does_all true) (does_ret true))]. reflexivity.
  - nolocks.
Qed.
Definition tick_caches (t : tick) : list cache :=
  match t with TickFast => [CTemp; CFans] | TickSlow => [CProf; CBypass] | TickGlacial => [CBoot; CErr] end.
Lemma does_tick t : does (on_tick t) all_locks (fun w => (tt, f_seq (tick_caches t) false w)).
Proof.
  destruct t; cbn [on_tick tick_caches]; (eapply does_weaken; [|apply does_seq2]); simpl; intuition.
Qed.

(** ** any RPC *)
Definition f_rpc (r : rpc) (w : world shared) : resp * world shared :=
  match r with
  | GetBootInfo => (umsg (cached (w_sh w) CBoot), w)
  | GetBypassRPC => (umsg (cached (w_sh w) CBypass), w)
  | GetErrorsRPC => (umsg (cached (w_sh w) CErr), w)
  | GetFansRPC => (umsg (cached (w_sh w) CFans), w)
  | GetFanProfilesRPC => (umsg (cached (w_sh w) CProf), w)
  | GetTempsRPC => (umsg (cached (w_sh w) CTemp), w)
  | SetComfortTempR t => f_comfort t w
  | SetFanSpeedR a b => f_speed a b w
  | SetFanProfileR m t => f_profile m t w
  | FlushCacheR c => (RespFlush (flush_known c), f_seq (flush_caches c) true w)
  end.
Lemma does_rpc r : (forall c, r <> FlushCacheR c) -> does (handle r) all_locks (f_rpc r).
Proof.
  intros N. destruct r; cbn [f_rpc].
  - eapply does_weaken; [|apply (does_getter CBoot)]. simpl; intuition.
  - eapply does_weaken; [|apply (does_getter CBypass)]. simpl; intuition.
  - eapply does_weaken; [|apply (does_getter CErr)]. simpl; intuition.
  - eapply does_weaken; [|apply (does_getter CFans)]. simpl; intuition.
  - eapply does_weaken; [|apply (does_getter CProf)]. simpl; intuition.
  - eapply does_weaken; [|apply (does_getter CTemp)]. simpl; intuition.
  - eapply does_weaken; [|apply does_comfort]. simpl; intuition.
  - eapply does_weaken; [|apply does_speed]. simpl; intuition.
  - eapply does_weaken; [|apply does_profile]. simpl; intuition.
  - exfalso. eapply N. reflexivity.
Qed.
Definition f_op (o : op) (w : world shared) : world shared :=
  match o with
  | ORpc r => snd (f_rpc r w)
  | OTick t => f_seq (tick_caches t) false w
  | OStart => f_seq all_caches true w
  end.
Lemma does_op o : does (perform o) all_locks (fun w => (tt, f_op o w)).
Proof.
  destruct o as [r|t|]; cbn [perform f_op].
  - destruct r; try (
      match goal with |- does (do _ <- handle ?r; Ret tt) _ _ =>
        eapply does_weaken with (l1 := all_locks ++ []); [intros; rewrite app_nil_r in *; auto|];
        eapply does_ext; [|eapply does_bind; [apply (does_rpc r); intros ? H; discriminate|intro; apply does_ret]];
        reflexivity end).
    eapply does_weaken with (l1 := all_locks ++ []); [intros; rewrite app_nil_r in *; auto|].
    eapply does_ext; [|eapply does_bind; [apply does_flush|intro; apply does_ret]]. reflexivity.
  - apply does_tick.
  - apply does_all.
Qed.

Lemma idle_locks w : idle w -> forall l, In l all_locks -> can_lock (w_held w) l = true.
Proof. unfold idle. intros -> l _. reflexivity. Qed.
Lemma run_op o w : idle w -> run (perform o) w = (RDone tt, f_op o w) /\ idle (f_op o w).
Proof.
  intros I. destruct (does_op o w (idle_locks w I)) as [R _]. split; auto.
  unfold idle. rewrite (does_held _ _ _ w (does_op o) (idle_locks w I) : w_held (f_op o w) = w_held w). exact I.
Qed.

Lemma op_tracks o w : exists l, added w (f_op o w) l /\ forall c,
  (op_fetches c (o, l) = [] -> cached (w_sh (f_op o w)) c = cached (w_sh w) c) /\
  (forall p r, rev (op_fetches c (o, l)) = p :: r -> bytes_ok p -> layout_of c p (cached (w_sh (f_op o w)) c)).
Proof.
  assert (T0 : forall l, tracks w (f_op o w) l -> (forall c, op_fetches c (o, l) = fetched c l) -> exists l, added w (f_op o w) l /\ forall c,
    (op_fetches c (o, l) = [] -> cached (w_sh (f_op o w)) c = cached (w_sh w) c) /\
    (forall p r, rev (op_fetches c (o, l)) = p :: r -> bytes_ok p -> layout_of c p (cached (w_sh (f_op o w)) c))).
  { intros l (A & _ & T) E. exists l. split; auto. intros c. rewrite E. apply T. }
  destruct o as [r|t|].
  - destruct r.
    1-6: apply (T0 []); [apply tracks_refl; reflexivity|reflexivity].
    + destruct (comfort_tracks t w) as (l & T). apply (T0 l); auto.
    + destruct (speed_tracks abs rel w) as (l & T). apply (T0 l); auto.
    + destruct (profile_tracks mode tgt w) as (l & [[-> T]|(l0 & l1 & w0 & p & e & -> & A0 & S0 & X & T)]).
      * apply (T0 []); auto.
      * exists (l0 ++ l1). cbn [f_op f_rpc op_fetches]. destruct T as (A1 & S1 & T1). split.
        { unfold added in *. rewrite A1, A0, app_assoc. reflexivity. }
        intros c. rewrite S0 in T1.
        assert (F : fetched c (tl (l0 ++ l1)) = fetched c l1).
        { assert (N : l0 <> []) by (destruct X; try discriminate; simpl in *; lia).
          destruct l0 as [|x l0]; [contradiction|]. cbn [app tl]. rewrite fetched_app by auto.
          replace (fetched c l0) with (@nil (list Z)); [reflexivity|].
          symmetry. apply (tl_exchange_fetched c _ _ _ _ _ _ X). }
        rewrite F. apply T1.
    + destruct (seq_tracks (flush_caches c) true w) as (l & T). apply (T0 l); auto.
  - destruct (seq_tracks (tick_caches t) false w) as (l & T). apply (T0 l); auto.
  - destruct (seq_tracks all_caches true w) as (l & T). apply (T0 l); auto.
Qed.

Lemma history_tracks ops : forall w h w', idle w -> history ops w = (h, w') ->
  idle w' /\ forall c,
    (flat_map (op_fetches c) h = [] -> cached (w_sh w') c = cached (w_sh w) c) /\
    (forall p r, rev (flat_map (op_fetches c) h) = p :: r -> bytes_ok p -> layout_of c p (cached (w_sh w') c)).
Proof.
  induction ops as [|o ops IH]; intros w h w' I H; cbn [history] in H.
  - injection H as <- <-. split; auto. intros c. split; auto. intros p r H. discriminate.
  - destruct (run_op o w I) as [R I1]. rewrite R in H. cbn [snd] in H.
    destruct (history ops (f_op o w)) as [h2 w2] eqn:E. injection H as <- <-.
    destruct (IH _ _ _ I1 E) as [I2 T2]. split; auto.
    destruct (op_tracks o w) as (l & A & T1). intros c.
    replace (skipn _ (c_log (w_conn (f_op o w)))) with l.
    2:{ unfold added in A. rewrite A, skipn_app, skipn_all, Nat.sub_diag. reflexivity. }
    cbn [flat_map]. specialize (T1 c). specialize (T2 c). split.
    + intros H. apply app_eq_nil in H as [H1 H2]. destruct T1 as [T1 _], T2 as [T2 _]. rewrite T2, T1; auto.
    + intros p r H B. rewrite rev_app_distr in H. destruct (rev (flat_map (op_fetches c) h2)) as [|q t] eqn:E2.
      * cbn [app] in H. assert (F : flat_map (op_fetches c) h2 = []).
        { rewrite <- (rev_involutive (flat_map _ _)), E2. reflexivity. }
        destruct T2 as [T2 _]. rewrite (T2 F). eapply T1; eauto.
      * cbn [app] in H. injection H as -> _. eapply T2; eauto.
Qed.

(** C23 *)
Lemma getters_serve_last w ops h w' c : idle w -> w_sh w = init_shared -> history ops w = (h, w') ->
  let payloads := flat_map (op_fetches c) h in
  Forall bytes_ok payloads ->
  holds_last c (w_sh w') payloads /\
  run (handle (getter_rpc c)) w' = (RDone (message (cached (w_sh w') c)), w').
Proof.
  intros I S H payloads B. destruct (history_tracks ops w h w' I H) as [I' T]. destruct (T c) as [T0 T1].
  assert (HL : holds_last c (w_sh w') payloads).
  { unfold holds_last. destruct (rev payloads) as [|p r] eqn:E.
    - rewrite T0; [rewrite S; destruct c; reflexivity|]. fold payloads.
      rewrite <- (rev_involutive payloads), E. reflexivity.
    - eapply T1; eauto. }
  split; auto.
  destruct (does_getter c w') as [R _]; [intros l [<-|[]]; unfold idle in I'; rewrite I'; reflexivity|].
  rewrite R. cbn [fst snd]. rewrite umsg_typed; auto.
  unfold holds_last in HL. destruct (rev payloads) as [|p r] eqn:E.
  - rewrite HL. apply blank_typed.
  - assert (Bp : bytes_ok p).
    { rewrite Forall_forall in B. apply B. rewrite in_rev, E. left. auto. }
    eapply layout_typed; eauto.
Qed.
