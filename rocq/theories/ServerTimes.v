(** Lemmas behind PropertiesServer.v: profiles, flushes, timers, everything the server sends. *)
From Coq Require Import SpecFloat.
From Verif Require Import ProofBase GoStrings Proto SpecProto SpecFrame SpecConn SpecOps SpecLayout SpecServer ProtoProofs
  Scanner Conn FrameProofs ReplyProofs ReadProofs Proc Lib QueryProofs FrameLemmas LayoutProofs TrimProofs OpLemmas Server
  ServerProofs ServerLemmas ServerOps Samples.

(** ** fan profiles *)
Lemma prof_fails l v e : FanProfiles_Unmarshal l = Done (v, Some e) -> length l <> 14%nat.
Proof.
  intros H L. do 14 (destruct l as [|? l]; [discriminate|]). destruct l; [|discriminate].
  vm_compute in H. discriminate.
Qed.

Lemma profile_spec w m t : idle w -> 0 <= m -> 0 <= t -> m <= 255 -> t <= 255 ->
  exists r w' l, run (handle (SetFanProfileR m t)) w = (RDone r, w') /\ idle w' /\ added w w' l /\
  (~ (1 <= m <= 4) -> r = RespErr (InvalidArgument ArgMode) /\ w' = w) /\
  (1 <= m <= 4 -> ~ (15 <= t <= 100) -> r = RespErr (InvalidArgument ArgTargetSpeed) /\ w' = w) /\
  (1 <= m <= 4 -> 15 <= t <= 100 ->
     let o := in_percent (sh_prof (w_sh w)) m in
     byte_ok o -> profile_outcome o m t w r w' l).
Proof.
  intros I M0 T0 M255 T255. destruct (run_rpc (SetFanProfileR m t) w I) as [R I']; [discriminate|].
  cbn [f_rpc] in *. exists (fst (f_profile m t w)), (snd (f_profile m t w)).
  unfold f_profile in *.
  assert (Um : u8 m = m) by (apply Z.mod_small; lia). assert (Ut : u8 t = t) by (apply Z.mod_small; lia).
  rewrite Um, Ut in *.
  destruct ((m <? 1) || (m >? 4)) eqn:M.
  { exists []. splits; auto using added_nil; try (intros; exfalso; lia). }
  destruct ((t <? 15) || (t >? 100)) eqn:T.
  { exists []. splits; auto using added_nil; try (intros; exfalso; lia). }
  unfold in_percent. set (p := sh_prof (w_sh w)) in *. cbv zeta.
  assert (P : profile_in p (m - 1) = Some (nth (Z.to_nat (m - 1)) [InAway p; InLow p; InMid p; InHigh p] 0)).
  { assert (m = 1 \/ m = 2 \/ m = 3 \/ m = 4) as [-> |[-> |[-> | ->]]] by lia; reflexivity. }
  rewrite P in *. set (o := nth _ _ _) in *. clearbody o.
  destruct (o =? t) eqn:E; cbn [negb] in *.
  { assert (o = t) by lia. subst o. cbn [fst snd] in *. exists []. splits; auto using added_nil; try (intros; exfalso; lia).
    intros _ _ B. replace (u32 t) with t by (symmetry; apply Z.mod_small; lia). apply po_already. reflexivity. }
  unfold fprofile in *. replace (m - 1 >? 3) with false in R, I' |- * by lia. replace (t >? 100) with false in R, I' |- * by lia.
  unfold getq in *.
  destruct (query_exchange (mkPacket 205 [] true) (w_conn w)) as (l & Lg & X).
  destruct (query _ _) as [[q qe] c1] eqn:Q. cbn [fst snd p_cmd p_data p_expect] in *.
  destruct qe as [e|].
  { cbn [fst snd] in *. exists l. splits; auto; try exact Lg; try (intros; exfalso; lia). intros _ _ B. eapply po_query_failed; eauto; [lia|discriminate]. }
  destruct (prof_total (p_data q)) as (cfp & e & D). rewrite D in *. destruct e as [e|].
  { cbn [fst snd] in *. exists l. splits; auto; try exact Lg; try (intros; exfalso; lia). intros _ _ B. eapply po_query_failed; eauto; [lia|].
    intros _. eapply prof_fails; eauto. }
  pose proof (profile_request_ok _ _ (m - 1) t ltac:(lia) D) as En.
  destruct (setq_exchange _ c1 _ _ En) as (out & l2 & Lg2 & X2).
  destruct (setq _ c1) as [[e2|] c2]; cbn [fst snd] in *.
  - exists (l ++ l2). splits; auto; try (intros; exfalso; lia).
    + unfold added. cbn [set_conn w_conn]. rewrite Lg2, Lg, <- app_assoc. reflexivity.
    + intros _ _ B. eapply po_set_failed; eauto; [lia|]. apply prof_len in D. exact D.
  - destruct (upd_forced CProf (set_conn w c2)) as (l3 & A3 & Q3 & _).
    exists (l ++ l2 ++ l3). splits; auto; try (intros; exfalso; lia).
    + unfold added in *. cbn [set_conn w_conn] in *. rewrite A3, Lg2, Lg, <- !app_assoc. reflexivity.
    + intros _ _ B. replace (u32 o) with o by (symmetry; apply Z.mod_small; unfold byte_ok in B; lia).
      eapply po_done; eauto; [lia|]. apply prof_len in D. exact D.
Qed.

(** ** flushes *)
Lemma one_query_head c l : one_query c l -> starts l.
Proof. intros (p & e & X). eapply exchange_starts; eauto. Qed.

Lemma seq_spec cs force : NoDup cs -> forall w, exists l,
  added w (f_seq cs force w) l /\ starts l /\ w_clk w <= w_clk (f_seq cs force w) /\
  (force = true -> queries cs l) /\
  forall c, (~ In c cs -> fetched c l = [] /\ stamp (w_sh (f_seq cs force w)) c = stamp (w_sh w) c) /\
    (fetched c l = [] -> cached (w_sh (f_seq cs force w)) c = cached (w_sh w) c /\
                         stamp (w_sh (f_seq cs force w)) c = stamp (w_sh w) c) /\
    (forall p r, fetched c l = p :: r -> r = [] /\ w_clk w <= stamp (w_sh (f_seq cs force w)) c /\
       (bytes_ok p -> layout_of c p (cached (w_sh (f_seq cs force w)) c))).
Proof.
  induction 1 as [|a cs N ND IH]; intros w; cbn [f_seq fold_left].
  - exists []. splits; auto using added_nil; try lia.
    + exact I.
    + intros _. constructor.
    + intros c. splits; auto. intros p r H. discriminate.
  - fold (f_seq cs force (upd a force w)). destruct (upd_spec a force w) as (l1 & A1 & _ & K1 & Q1 & F0 & F1 & O1).
    destruct (IH (upd a force w)) as (l2 & A2 & S2 & K2 & Q2 & C2).
    assert (S1 : starts l1) by (destruct Q1 as [(-> & _)|[Q _]]; [exact I|eapply one_query_head; eauto]).
    exists (l1 ++ l2). splits.
    + eapply added_app; eauto.
    + apply starts_app; auto.
    + lia.
    + intros F. destruct Q1 as [(_ & G & _)|[Q _]]; [congruence|]. constructor; auto.
    + intros c. rewrite fetched_app by auto. destruct (C2 c) as (C2a & C2b & C2c).
      assert (Dec : a = c \/ c <> a) by (destruct a, c; auto; right; discriminate).
      destruct Dec as [-> |D].
      * destruct (C2a N) as [E2 St2]. rewrite E2, app_nil_r. destruct (C2b E2) as [Ca2 _]. splits.
        -- intros H. exfalso. apply H. left. auto.
        -- intros H. rewrite Ca2, St2, (F0 H). auto.
        -- intros p r H. destruct (F1 p r H) as (-> & St & Lay). rewrite St2, Ca2. splits; auto. lia.
      * destruct (O1 c D) as (E1 & Ca1 & St1). rewrite E1. cbn [app]. splits.
        -- intros H. destruct C2a as [E2 St2]; [intros G; apply H; right; auto|]. rewrite St2. auto.
        -- intros H. destruct (C2b H) as [-> ->]. auto.
        -- intros p r H. destruct (C2c p r H) as (-> & St & Lay). splits; auto. lia.
Qed.

Lemma all_nodup : NoDup all_caches.
Proof. repeat constructor; simpl; intuition discriminate. Qed.
Lemma flushes_ok c : flush_caches c = flushes c.
Proof.
  unfold flush_caches, flushes, TBootInfo, TBypass, TFans, TTemps, TProfiles, TAll.
  destruct c as [|c|c]; try reflexivity.
  do 4 (destruct c as [c|c|]; try reflexivity).
Qed.
Lemma flush_known_ok c : flush_known c = true <-> In c [0; 1; 2; 3; 4; 10].
Proof.
  unfold flush_known, TBootInfo, TBypass, TFans, TTemps, TProfiles, TAll.
  rewrite !orb_true_iff, !Z.eqb_eq. simpl. lia.
Qed.
Lemma flush_nodup c : NoDup (flushes c).
Proof.
  unfold flushes. destruct c as [|c|c]; try (repeat constructor; simpl; tauto).
  do 4 (destruct c as [c|c|]; try (repeat constructor; simpl; intuition discriminate)).
Qed.

(** C34, C35 *)
Lemma flush_spec w c : idle w -> exists b w' l, run (FlushCaches_body c) w = (RDone b, w') /\ idle w' /\ added w w' l /\
  (b = true <-> In c [0; 1; 2; 3; 4; 10]) /\
  queries (flushes c) l /\
  forall k, In k (flushes c) ->
    (fetched k l = [] -> cached (w_sh w') k = cached (w_sh w) k /\ stamp (w_sh w') k = stamp (w_sh w) k) /\
    (forall p r, fetched k l = p :: r -> r = [] /\ w_clk w <= stamp (w_sh w') k /\
       (bytes_ok p -> layout_of k p (cached (w_sh w') k))).
Proof.
  intros I. destruct (does_flush c w (idle_locks w I)) as [R _].
  pose proof (does_held _ _ _ w (does_flush c) (idle_locks w I)) as H. cbn [fst snd] in *.
  rewrite flushes_ok in *.
  destruct (seq_spec (flushes c) true (flush_nodup c) w) as (l & A & _ & K & Q & C).
  eexists; eexists; exists l. splits; eauto.
  - unfold idle in *. congruence.
  - apply flush_known_ok.
  - intros k _. apply C.
Qed.

(** C49 *)
Lemma tick_caches_ok t : tick_caches t = [tick_first t; tick_second t].
Proof. destruct t; reflexivity. Qed.

Lemma stale_query w c : exists l, added w (upd c false w) l /\ w_clk w <= w_clk (upd c false w) /\
  (l = [] \/ one_query c l) /\
  (l <> [] <-> 4500000000 < w_clk (upd c false w) - stamp (w_sh w) c).
Proof.
  destruct (upd_spec c false w) as (l & A & _ & K & Q & _). exists l. splits; auto.
  - destruct Q as [(-> & _)|[Q _]]; auto.
  - rewrite <- is_stale. destruct Q as [(-> & _ & S)|[Q S]].
    + split; [congruence|]. rewrite S. discriminate.
    + split; [intros _; destruct S; [discriminate|auto]|]. intros _. eapply one_query_nonempty; eauto.
Qed.

Lemma tick_spec w t : idle w -> exists (w1 w' : world shared) l1 l2, run (on_tick t) w = (RDone tt, w') /\ idle w' /\
  added w w' (l1 ++ l2) /\ w_clk w <= w_clk w1 <= w_clk w' /\
  (l1 = [] \/ one_query (tick_first t) l1) /\ (l2 = [] \/ one_query (tick_second t) l2) /\
  (l1 <> [] <-> 4500000000 < w_clk w1 - stamp (w_sh w) (tick_first t)) /\
  (l2 <> [] <-> 4500000000 < w_clk w' - stamp (w_sh w) (tick_second t)).
Proof.
  intros I. destruct (does_tick t w (idle_locks w I)) as [R _].
  pose proof (does_held _ _ _ w (does_tick t) (idle_locks w I)) as H. cbn [fst snd] in *.
  rewrite tick_caches_ok in *. cbn [f_seq fold_left] in *.
  destruct (stale_query w (tick_first t)) as (l1 & A1 & K1 & Q1 & S1).
  destruct (stale_query (upd (tick_first t) false w) (tick_second t)) as (l2 & A2 & K2 & Q2 & S2).
  exists (upd (tick_first t) false w). eexists; exists l1, l2. splits; eauto.
  - unfold idle in *. congruence.
  - eapply added_app; eauto.
  - rewrite S2. destruct (upd_spec (tick_first t) false w) as (l & _ & _ & _ & _ & _ & _ & O).
    destruct (O (tick_second t)) as (_ & _ & ->); [destruct t; discriminate|]. tauto.
Qed.

Lemma start_spec w : idle w -> exists w' l, run StartCaches w = (RDone tt, w') /\ idle w' /\ added w w' l /\
  queries [CBoot; CBypass; CTemp; CFans; CProf; CErr] l.
Proof.
  intros I. destruct (run_op OStart w I) as [R I']. cbn [perform f_op] in *.
  destruct (seq_spec all_caches true all_nodup w) as (l & A & _ & _ & Q & _).
  exists (f_seq all_caches true w), l. splits; auto. 
Qed.

(** ** everything sent *)
Definition goes (w w' : world shared) : Prop :=
  w_clk w <= w_clk w' /\
  (forall c, stamp (w_sh w') c = stamp (w_sh w) c \/ w_clk w <= stamp (w_sh w') c) /\
  exists l, added w w' l /\ session l.
Lemma session_app a b : session a -> session b -> session (a ++ b).
Proof. induction 1; intros; cbn [app]; auto. rewrite <- app_assoc. econstructor; eauto. Qed.
Lemma session_one cmd data x p e l : permitted cmd data x -> exchange cmd data x p e l -> session l.
Proof. intros P X. rewrite <- (app_nil_r l). econstructor; eauto. constructor. Qed.
Lemma goes_refl w : goes w w.
Proof. unfold goes. splits; [lia|auto|]. exists []. split; auto using added_nil. constructor. Qed.
Lemma goes_trans a b c : goes a b -> goes b c -> goes a c.
Proof.
  intros (K1 & S1 & l1 & A1 & Q1) (K2 & S2 & l2 & A2 & Q2). unfold goes. splits.
  - lia.
  - intros k. destruct (S1 k), (S2 k); try (right; lia). left. congruence.
  - exists (l1 ++ l2). split; [eapply added_app; eauto|apply session_app; auto].
Qed.
Lemma goes_upd c force w : goes w (upd c force w).
Proof.
  destruct (upd_spec c force w) as (l & A & _ & K & Q & F0 & F1 & O). unfold goes. splits; auto.
  - intros k. assert (Dec : c = k \/ k <> c) by (destruct c, k; auto; right; discriminate).
    destruct Dec as [<- |D].
    + destruct (fetched c l) as [|p r]; [rewrite F0 by auto; auto|].
      destruct (F1 p r eq_refl) as (_ & -> & _). auto.
    + destruct (O k D) as (_ & _ & ->). auto.
  - exists l. split; auto. destruct Q as [(-> & _)|[(p & e & X) _]]; [constructor|].
    eapply session_one; eauto. constructor.
Qed.
Lemma goes_setq r w : (forall cmd data, EncodeSetRequest r = (mkPacket cmd data false, None) -> permitted cmd data false) ->
  goes w (set_conn w (snd (setq r (w_conn w)))).
Proof.
  intros P. destruct (setq_tracks r w) as (l & (A & _) & C). unfold goes. splits; [cbn [set_conn w_clk]; lia|auto|].
  exists l. split; auto. destruct C as [-> |(cmd & data & out & E & X)]; [constructor|].
  eapply session_one; eauto.
Qed.
Lemma goes_clock w n : 0 <= n -> goes w (add_clock w n).
Proof. intros. unfold goes. splits; [cbn; lia|auto|]. exists []. split; [apply added_nil; reflexivity|constructor]. Qed.
Lemma goes_seq cs force : forall w, goes w (f_seq cs force w).
Proof.
  induction cs as [|c cs IH]; intros w; cbn [f_seq fold_left]; [apply goes_refl|].
  eapply goes_trans; [apply goes_upd|apply IH].
Qed.
Lemma goes_poll n i o : forall w, goes w (snd (f_poll n i o w)).
Proof.
  induction n as [|n IH]; intros w; cbn [f_poll]; [apply goes_refl|]. cbv zeta.
  destruct (_ && _); cbn [snd]; [apply goes_upd|].
  eapply goes_trans; [apply goes_upd|]. eapply goes_trans; [|apply IH]. apply goes_clock. lia.
Qed.

Lemma goes_op o w : goes w (f_op o w).
Proof.
  destruct o as [r|t|]; cbn [f_op]; try apply goes_seq.
  destruct r; cbn [f_rpc snd]; try apply goes_refl; try apply goes_seq.
  - unfold f_comfort. cbv zeta. destruct (t >? 255); [apply goes_refl|]. destruct (negb _); [|apply goes_refl].
    pose proof (goes_setq (SRComfort (f32_of_Z (u8 t))) w) as G.
    destruct (setq _ (w_conn w)) as [[e|] cn]; cbn [fst snd] in *; try (eapply goes_trans; [|apply goes_upd]);
      apply G; intros cmd data H; unfold EncodeSetRequest in H; cbn [requestType SetRequest_MarshalBinary] in H;
      (assert (B : 0 <= u8 t < 256) by (apply Z.mod_pos_bound; lia));
      (destruct (Z.leb_spec (u8 t) 107) as [L|L];
       [rewrite temp_encode in H by lia; injection H as <- <-; constructor; lia|]);
      unfold temperature_MarshalBinary in H; destruct (of_Z_exact (u8 t) ltac:(lia)) as [_ Tt];
      rewrite Tt in H; replace (u8 t >? 107) with true in H by lia; discriminate.
  - unfold f_speed. cbv zeta. destruct (modifySpeed _ _ _) as [v [e|]] eqn:M; [apply goes_refl|].
    destruct (negb _); [|apply goes_refl]. apply modify_range in M.
    assert (Uv : u8 v = v) by (apply Z.mod_small; lia). rewrite Uv.
    pose proof (goes_setq (SRSpeed v) w) as G.
    assert (P : forall cmd data, EncodeSetRequest (SRSpeed v) = (mkPacket cmd data false, None) -> permitted cmd data false).
    { intros cmd data H. rewrite speed_encode in H by lia. injection H as <- <-. constructor. lia. }
    destruct (setq _ (w_conn w)) as [[e|] cn]; cbn [fst snd] in *; [exact (G P)|].
    unfold f_updpoll. destruct (Lookup _ _) as [[i u] e0].
    pose proof (goes_poll 10 i u (set_conn w cn)) as G2.
    destruct (f_poll 10 i u (set_conn w cn)) as [[e|] w2]; cbn [fst snd] in *.
    + eapply goes_trans; [exact (G P)|exact G2].
    + eapply goes_trans; [exact (G P)|]. eapply goes_trans; [exact G2|apply goes_upd].
  - unfold f_profile. destruct (_ || _) eqn:M; [apply goes_refl|]. destruct (_ || _) eqn:T in |- *; [apply goes_refl|].
    destruct (profile_in _ _); [|apply goes_refl]. destruct (negb _); [|apply goes_refl].
    unfold fprofile. replace (u8 mode - 1 >? 3) with false by lia. replace (u8 tgt >? 100) with false by lia. unfold getq.
    destruct (query_exchange (mkPacket 205 [] true) (w_conn w)) as (l & Lg & X).
    destruct (query _ _) as [[q qe] c1] eqn:Q. cbn [fst snd p_cmd p_data p_expect] in *.
    assert (G1 : goes w (set_conn w c1)).
    { unfold goes. splits; [cbn [set_conn w_clk]; lia|auto|]. exists l. split; auto. eapply session_one; eauto. exact (may_get CProf). }
    destruct qe as [e|]; [exact G1|].
    destruct (prof_total (p_data q)) as (cfp & e & D). rewrite D. destruct e as [e|]; [exact G1|].
    pose proof (goes_setq (SRProfiles (change_profile (u8 mode - 1) (u8 tgt) cfp)) (set_conn w c1)) as G2.
    cbn [set_conn w_conn] in G2.
    assert (P : forall cmd data, EncodeSetRequest (SRProfiles (change_profile (u8 mode - 1) (u8 tgt) cfp)) =
      (mkPacket cmd data false, None) -> permitted cmd data false).
    { intros cmd data H. unfold EncodeSetRequest in H. simpl in H. injection H as <- <-. constructor. }
    destruct (setq _ c1) as [[e|] c2]; cbn [fst snd] in *.
    + eapply goes_trans; [exact G1|exact (G2 P)].
    + eapply goes_trans; [exact G1|]. eapply goes_trans; [exact (G2 P)|]. apply goes_upd.
Qed.

Lemma history_goes ops : forall w h w', idle w -> history ops w = (h, w') -> idle w' /\ goes w w'.
Proof.
  induction ops as [|o ops IH]; intros w h w' I H; cbn [history] in H.
  - injection H as <- <-. split; auto. apply goes_refl.
  - destruct (run_op o w I) as [R I1]. rewrite R in H. cbn [snd] in H.
    destruct (history ops (f_op o w)) as [h2 w2] eqn:E. injection H as <- <-.
    destruct (IH _ _ _ I1 E) as [I2 G2]. split; auto. eapply goes_trans; [apply goes_op|exact G2].
Qed.

(** C51 *)
Lemma history_session w ops h w' : idle w -> history ops w = (h, w') -> idle w' /\ exists l, added w w' l /\ session l.
Proof. intros I H. destruct (history_goes ops w h w' I H) as [I' (_ & _ & G)]. auto. Qed.

Lemma framed_cmd cmd data : nth 3 (framed cmd data) 0 = cmd mod 256 \/ nth 3 (framed cmd data) 0 = cmd.
Proof. unfold framed. simpl. auto. Qed.

Lemma session_no_hours l : session l -> forall r, ~ In (Wr (framed 221 []) r) l.
Proof.
  induction 1 as [|cmd data x p e l q P X S IH]; intros r H; [destruct H|].
  apply in_app_or in H as [H|H]; [|exact (IH r H)].
  assert (N : cmd <> 221) by (inversion P as [c| | |]; try discriminate; destruct c; discriminate).
  assert (F : framed 221 [] <> framed cmd data).
  { intros E. apply (f_equal (fun l => nth 3 l 0)) in E. destruct (framed_cmd cmd data) as [G|G]; rewrite G in E.
    - simpl in E. inversion P; subst; try (vm_compute in E; discriminate). destruct c; vm_compute in E; discriminate.
    - simpl in E. congruence. }
  assert (Ak : framed 221 [] <> ack_seq) by discriminate.
  inversion X; subst; simpl in H; intuition congruence.
Qed.

(** C43 *)
Lemma fresh_after_tick w0 t c w1 l ops h w2 fired D : idle w0 ->
  refreshed_by t c -> run (on_tick t) w0 = (RDone tt, w1) -> added w0 w1 l -> queries_ok c l ->
  history ops w1 = (h, w2) ->
  fired <= w_clk w0 -> w_clk w2 <= fired + period t + D ->
  w_clk w2 - stamp (w_sh w2) c <= period t + 4500000000 + D.
Proof.
  intros I Rf R A Qok H Fi K2.
  destruct (does_tick t w0 (idle_locks w0 I)) as [R' _]. rewrite R in R'. injection R' as ->.
  assert (I1 : idle (f_seq (tick_caches t) false w0)).
  { unfold idle. rewrite (does_held _ _ _ w0 (does_tick t) (idle_locks w0 I) : w_held (f_seq (tick_caches t) false w0) = w_held w0). exact I. }
  destruct (history_goes _ _ _ _ I1 H) as [_ (K & St & _)].
  assert (F : w_clk w0 - 4500000000 <= stamp (w_sh (f_seq (tick_caches t) false w0)) c).
  { assert (U : forall w, exists lw, added w (upd c false w) lw /\ w_clk w <= w_clk (upd c false w) /\
      ((one_query c lw -> fetched c lw <> []) -> w_clk w - 4500000000 <= stamp (w_sh (upd c false w)) c)).
    { intros w. destruct (upd_spec c false w) as (lw & Aw & _ & Kw & Qw & F0 & F1 & _). exists lw. splits; auto.
      intros Q. destruct Qw as [(-> & _ & S)|[Qw _]].
      - rewrite F0 by reflexivity. assert (S2 : ~ (4500000000 < w_clk (upd c false w) - stamp (w_sh w) c)).
        { rewrite <- is_stale. rewrite S. discriminate. } lia.
      - specialize (Q Qw). destruct (fetched c lw) as [|p r]; [congruence|].
        destruct (F1 p r eq_refl) as (_ & -> & _). lia. }
    rewrite tick_caches_ok in *. cbn [f_seq fold_left] in *.
    assert (Cs : c = tick_first t \/ c = tick_second t) by (destruct t; destruct Rf; auto).
    destruct Cs as [-> | ->].
    - destruct (U w0) as (l1 & A1 & K1 & G1).
      destruct (upd_spec (tick_second t) false (upd (tick_first t) false w0)) as (l2 & A2 & _ & _ & _ & _ & _ & O).
      destruct (O (tick_first t)) as (_ & _ & ->); [destruct t; discriminate|]. apply G1.
      intros Q1. apply (Qok [] l1 l2); auto. cbn [app].
      pose proof (added_app _ _ _ _ _ A1 A2) as A3. unfold added in A, A3. rewrite A3 in A.
      apply app_inv_head in A. auto.
    - destruct (upd_spec (tick_first t) false w0) as (l1 & A1 & _ & K1 & _ & _ & _ & O).
      destruct (U (upd (tick_first t) false w0)) as (l2 & A2 & K2' & G2).
      etransitivity; [|apply G2]; [lia|].
      intros Q2. apply (Qok l1 l2 []); auto. rewrite app_nil_r.
      pose proof (added_app _ _ _ _ _ A1 A2) as A3. unfold added in A, A3. rewrite A3 in A.
      apply app_inv_head in A. auto. }
  assert (G : goes w0 (f_seq (tick_caches t) false w0)) by apply goes_seq.
  destruct G as (K0 & _). destruct (St c) as [-> |S]; lia.
Qed.
