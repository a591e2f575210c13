(** The RPC server on a unit that follows the protocol. *)
From Verif Require Import ProofBase Proto SpecProto SpecFrame SpecConn SpecLayout SpecUnit ProtoProofs Scanner Conn
  FrameProofs ReplyProofs ReadProofs Proc Lib QueryProofs FrameLemmas LayoutProofs OpLemmas
  Server SpecServer ServerProofs ServerLemmas ServerOps ServerClaims UnitProofs.

(** ** whatever the line does, reading does not change the unit *)
Lemma fetch_unit lo b k c u : unit_at lo b u (c_dev c) -> vent_ok lo u -> unit_at lo b u (c_dev (snd (fetch k c))).
Proof. intros U V. destruct k; cbn [fetch]; unfold getrec; cbn [snd]; apply getq_unit; auto; simpl; auto 10. Qed.
Lemma upd_unit lo b k force w u : unit_at lo b u (c_dev (w_conn w)) -> vent_ok lo u -> unit_at lo b u (c_dev (w_conn (upd k force w))).
Proof.
  intros U V. unfold upd. destruct (_ && _); auto. pose proof (fetch_unit lo b k _ u U V) as H.
  destruct (fetch k (w_conn w)) as [o cn]. destruct o; exact H.
Qed.
Lemma poll_unit lo b n i o u : vent_ok lo u -> forall w, unit_at lo b u (c_dev (w_conn w)) -> unit_at lo b u (c_dev (w_conn (snd (f_poll n i o w)))).
Proof.
  intros V. induction n as [|n IH]; intros w U; cbn [f_poll]; auto.
  pose proof (upd_unit lo b CFans true w u U V) as U1. destruct (_ && _); auto.
Qed.
Lemma updpoll_unit lo b n v w u : vent_ok lo u -> unit_at lo b u (c_dev (w_conn w)) -> unit_at lo b u (c_dev (w_conn (snd (f_updpoll n v w)))).
Proof. intros V U. unfold f_updpoll. destruct (Lookup _ _) as [[i o] e]. apply poll_unit; auto. Qed.
Lemma seq_unit lo b cs force u : vent_ok lo u -> forall w, unit_at lo b u (c_dev (w_conn w)) -> unit_at lo b u (c_dev (w_conn (f_seq cs force w))).
Proof. intros V. unfold f_seq. induction cs as [|c r IH]; intros w U; cbn [fold_left]; auto. apply IH, upd_unit; auto. Qed.

Lemma speed_unit lo b w abs rel u : unit_at lo b u (c_dev (w_conn w)) -> vent_ok lo u ->
  exists u', unit_at lo b u' (c_dev (w_conn (snd (f_speed abs rel w)))) /\ vent_ok lo u' /\
    u_in u' = u_in u /\ u_out u' = u_out u /\ u_comfort u' = u_comfort u /\
    (forall m o t, fst (f_speed abs rel w) = RespSpeed m o t -> 1 <= t <= 4 /\
       (m = true -> (b = true \/ quiet (w_conn w)) -> u_mode u' = t) /\
       (m = false -> u' = u /\ CurrentMode (sh_prof (w_sh w)) = t)).
Proof.
  intros U V. unfold f_speed. cbv zeta. destruct (modifySpeed _ abs rel) as [v [e|]] eqn:M; cbn [fst snd].
  { exists u. splits; auto. discriminate. }
  apply modify_range in M. assert (U8 : u8 v = v) by (apply Z.mod_small; lia). assert (U32 : u32 v = v) by (apply Z.mod_small; lia).
  rewrite U8, U32. destruct (v =? CurrentMode (sh_prof (w_sh w))) eqn:E; cbn [negb].
  { cbn [fst snd]. exists u. splits; auto. intros m o t H. injection H as <- <- <-. splits; try lia; try discriminate. intros _. split; auto. lia. }
  destruct (setq_unit lo b _ _ _ (w_conn w) u (mkVent (u_out u) (u_in u) v (u_comfort u)) (speed_encode v ltac:(lia)) U (sv_speed lo u v ltac:(lia)) ltac:(simpl; lia))
    as (u' & e & cn & -> & U' & Or & B & Q & _).
  assert (V' : vent_ok lo u').
  { destruct Or as [-> | ->]; auto. destruct V as (? & ? & ? & ? & ? & ?). unfold vent_ok. cbn [u_out u_in u_mode u_comfort]. splits; auto; lia. }
  assert (P : u_in u' = u_in u /\ u_out u' = u_out u /\ u_comfort u' = u_comfort u) by (destruct Or as [-> | ->]; auto). destruct P as (Pi & Po & Pc).
  destruct e as [e|]; cbn [fst snd].
  { exists u'. splits; auto. discriminate. }
  pose proof (updpoll_unit lo b 10 v (set_conn w cn) u' V' U') as Up.
  destruct (f_updpoll 10 v (set_conn w cn)) as [e w2]. cbn [snd] in Up.
  destruct e as [e|]; cbn [fst snd].
  { exists u'. splits; auto. discriminate. }
  exists u'. splits; auto.
  - apply upd_unit; auto.
  - intros m o t H. injection H as <- <- <-. splits; try lia; try discriminate. intros _ [-> |Qt].
    + rewrite B by auto. reflexivity.
    + destruct (Q Qt eq_refl) as [-> _]. reflexivity.
Qed.

Lemma profile_in_percent p m : 1 <= m <= 4 -> profile_in p (m - 1) = Some (in_percent p m).
Proof. intros H. assert (m = 1 \/ m = 2 \/ m = 3 \/ m = 4) as [-> |[-> |[-> | ->]]] by lia; reflexivity. Qed.

Lemma profile_unit lo b w m t u : unit_at lo b u (c_dev (w_conn w)) -> vent_ok lo u -> quiet (w_conn w) -> 1 <= m <= 4 -> 15 <= t <= 100 -> lo <= t ->
  exists u', unit_at lo b u' (c_dev (w_conn (snd (f_profile m t w)))) /\ vent_ok lo u' /\
    (u' = u \/ with_profile (Z.to_nat (m - 1)) t u u') /\
    (forall md o t', fst (f_profile m t w) = RespProfile md o t' -> t' = t /\
       (md = true -> with_profile (Z.to_nat (m - 1)) t u u') /\
       (md = false -> u' = u /\ in_percent (sh_prof (w_sh w)) m = t)).
Proof.
  intros U V Qt M T Lo. unfold f_profile.
  assert (Um : u8 m = m) by (apply Z.mod_small; lia). assert (Ut : u8 t = t) by (apply Z.mod_small; lia). rewrite Um, Ut.
  replace ((m <? 1) || (m >? 4)) with false by lia. replace ((t <? 15) || (t >? 100)) with false by lia.
  rewrite profile_in_percent by lia. destruct (in_percent _ m =? t) eqn:E; cbn [negb].
  { exists u. cbn [fst snd]. splits; auto. intros md o t' H. injection H as <- <- <-. splits; auto; try discriminate. intros _. split; auto. lia. }
  destruct (fprofile_unit lo b (m - 1) t (w_conn w) u U V ltac:(lia) ltac:(lia) Lo Qt) as (u' & e & cn & -> & U' & V' & Or & Ok & _).
  destruct e as [e|]; cbn [fst snd].
  { exists u'. splits; auto. discriminate. }
  exists u'. splits; auto.
  - apply upd_unit; auto.
  - intros md o t' H. injection H as <- <- <-. splits; auto; try discriminate. intros _. apply Ok. reflexivity.
Qed.

Lemma comfort_encode t : 0 <= t <= 107 -> EncodeSetRequest (SRComfort (f32_of_Z t)) = (mkPacket 211 [2 * (t + 20)] false, None).
Proof. intros T. unfold EncodeSetRequest. cbn [requestType SetRequest_MarshalBinary]. rewrite temp_encode by lia. reflexivity. Qed.
Lemma comfort_refused t : 107 < t <= 255 -> exists p e, EncodeSetRequest (SRComfort (f32_of_Z t)) = (p, Some e).
Proof.
  intros T. unfold EncodeSetRequest. cbn [requestType SetRequest_MarshalBinary].
  destruct (temp_reject t ltac:(lia) ltac:(lia)) as (e & ->). exists zero_packet, e. reflexivity.
Qed.
Definition warmed (u : vent) (t : Z) : vent := mkVent (u_out u) (u_in u) (u_mode u) (2 * (t + 20)).
Lemma warmed_ok lo u t : vent_ok lo u -> 0 <= t <= 107 -> vent_ok lo (warmed u t).
Proof. intros (? & ? & ? & ? & ? & ?) T. unfold vent_ok, warmed, byte_ok. cbn [u_out u_in u_mode u_comfort]. splits; auto; lia. Qed.
Lemma comfort_unit lo b w t u : unit_at lo b u (c_dev (w_conn w)) -> vent_ok lo u -> 0 <= t ->
  exists u', unit_at lo b u' (c_dev (w_conn (snd (f_comfort t w)))) /\ vent_ok lo u' /\
    u_in u' = u_in u /\ u_out u' = u_out u /\ u_mode u' = u_mode u /\
    (u_comfort u' = u_comfort u \/ t <= 107 /\ u_comfort u' = 2 * (t + 20)) /\
    (forall m o t', fst (f_comfort t w) = RespComfort m o t' -> t' = t /\ t <= 255 /\
       (m = true -> t <= 107 /\ ((b = true \/ quiet (w_conn w)) -> u_comfort u' = 2 * (t + 20))) /\
       (m = false -> u' = u /\ f32_to_u8 (Comfort (sh_temp (w_sh w))) = t)).
Proof.
  intros U V T. unfold f_comfort. cbv zeta. destruct (t >? 255) eqn:T5; cbn [fst snd].
  { exists u. splits; auto. discriminate. }
  assert (U8 : u8 t = t) by (apply Z.mod_small; lia). rewrite U8.
  destruct (_ =? t) eqn:E; cbn [negb fst snd].
  { exists u. splits; auto. intros m o t' H. injection H as <- <- <-. splits; auto; try lia; try discriminate. intros _. split; auto. lia. }
  destruct (Z.le_gt_cases t 107) as [T7|T7].
  2:{ destruct (comfort_refused t ltac:(lia)) as (p & e & En). unfold setq. rewrite En. cbn [fst snd set_conn w_conn].
      exists u. splits; auto; discriminate. }
  destruct (setq_unit lo b _ _ _ (w_conn w) u (warmed u t) (comfort_encode t ltac:(lia)) U (sv_comfort lo u (2 * (t + 20)) ltac:(unfold byte_ok; lia)) ltac:(simpl; lia))
    as (u' & e & cn & -> & U' & Or & B & Q & _).
  assert (V' : vent_ok lo u') by (destruct Or as [-> | ->]; auto using warmed_ok).
  assert (P : u_in u' = u_in u /\ u_out u' = u_out u /\ u_mode u' = u_mode u) by (destruct Or as [-> | ->]; auto). destruct P as (Pi & Po & Pm).
  assert (Pc : u_comfort u' = u_comfort u \/ t <= 107 /\ u_comfort u' = 2 * (t + 20)) by (destruct Or as [-> | ->]; auto).
  destruct e as [e|]; cbn [fst snd].
  { exists u'. splits; auto. discriminate. }
  exists u'. splits; auto.
  - apply upd_unit; auto.
  - intros m o t' H. injection H as <- <- <-. splits; auto; try lia; try discriminate. intros _. split; auto. intros [-> |Qt].
    + rewrite B by auto. reflexivity.
    + destruct (Q Qt eq_refl) as [-> _]. reflexivity.
Qed.

(** ** a good line *)

Lemma clear_query p c : clear (c_dev c) -> clear (c_dev (snd (query p c))).
Proof.
  intros C. unfold query. destruct (_ >? 255); auto. unfold conn_write at 1.
  destruct (react (c_dev c) (frame p)) as [[d evs] r] eqn:R. destruct (clear_now _ C _ _ _ _ R) as [_ C1].
  destruct (w_err r); auto.
  match goal with |- context [ReadPacket ?x _] => set (c1 := x) end.
  destruct (ReadPacket c1 (p_expect p)) as [o c2] eqn:R1. pose proof (read_dev _ _ _ _ R1) as D2.
  destruct o as [[q e]|]; cbv zeta; [|cbn [snd]; rewrite D2; exact C1].
  destruct e; [cbn [snd log_io c_dev]; rewrite D2; exact C1|].
  destruct (_ && _); [cbn [snd log_io c_dev]; rewrite D2; exact C1|].
  unfold conn_write. cbn [log_io c_dev]. rewrite D2. unfold c1. cbn [c_dev].
  destruct (react d [7; 243]) as [[d2 evs2] r2] eqn:R2. destruct (clear_now _ C1 _ _ _ _ R2) as [_ C2]. exact C2.
Qed.
Lemma clear_legible gr d : clear d -> legible_to gr d.
Proof. intros C d' chunks r pl R E. destruct (clear_now _ C _ _ _ _ R) as [H _]. eapply H; eauto. Qed.

Lemma query_good lo gr c u : lined lo c u -> In gr reads -> exists out c', query (mkPacket gr [] true) c = ((out, None), c') /\
  lined lo c' u /\ (gr = 205 -> describes u (p_data out)) /\ (gr = 209 -> measures u (p_data out)).
Proof.
  intros (Q & U & C & V) I. destruct (query_read lo true gr c u U V I) as (out & e & c' & E & U' & Ok & Rl).
  assert (e = None) as -> by (apply Rl; auto using clear_legible). destruct (Ok Q eq_refl) as (Q' & _ & D & D9).
  exists out, c'. splits; auto. pose proof (clear_query (mkPacket gr [] true) c C) as C'. rewrite E in C'.
  unfold lined. splits; auto.
Qed.
Lemma getq_good {T} lo gr (zero : T) dec c u : lined lo c u -> In gr reads -> lined lo (snd (getq gr zero dec c)) u.
Proof.
  intros L I. unfold getq. destruct (query_good lo gr c u L I) as (out & c' & -> & L' & _).
  destruct (dec (p_data out)) as [[v [e|]]|]; auto.
Qed.
Lemma fetch_good lo k c u : lined lo c u -> lined lo (snd (fetch k c)) u /\
  (k = CProf -> exists fp, fst (fetch k c) = Some (VProf fp) /\ reports u fp) /\
  (k = CTemp -> exists t, fst (fetch k c) = Some (VTemp t) /\ shows_comfort u t).
Proof.
  intros L. splits.
  - destruct k; cbn [fetch]; unfold getrec; cbn [snd]; apply getq_good; auto; simpl; auto 10.
  - intros ->. cbn [fetch]. unfold getrec, getq.
    destruct (query_good lo 205 c u L) as (out & c' & -> & _ & D & _); [simpl; auto|].
    destruct (describes_decodes _ _ (D eq_refl)) as (fp & F). rewrite F. cbn [fst snd]. exists fp. split; auto.
    eapply describes_reports; eauto.
  - intros ->. cbn [fetch]. unfold getrec, getq.
    destruct (query_good lo 209 c u L) as (out & c' & -> & _ & _ & D); [simpl; auto 10|]. destruct (D eq_refl) as (Ln & Bk & Ec).
    destruct (temps_spec _ Bk) as [_ Sp]. destruct (Sp Ln) as (t & F & Lay). rewrite F. cbn [fst snd]. exists t. split; auto.
    unfold shows_comfort. rewrite Ec. apply Lay.
Qed.
Lemma store_temp k v now s c : fst (fetch k c) = Some v -> k <> CTemp -> sh_temp (store v now s) = sh_temp s.
Proof.
  intros F N. destruct k; cbn [fetch] in F; unfold getrec in F;
    try (match goal with F : context [getq ?a ?b ?c ?d] |- _ => destruct (getq a b c d) as [[x [e|]] c'] end;
    cbn [fst snd] in F; [discriminate|injection F as <-; reflexivity]). contradiction.
Qed.
Lemma store_prof k v now s c : fst (fetch k c) = Some v -> k <> CProf -> sh_prof (store v now s) = sh_prof s.
Proof.
  intros F N. destruct k; cbn [fetch] in F; unfold getrec in F;
    try (match goal with F : context [getq ?a ?b ?c ?d] |- _ => destruct (getq a b c d) as [[x [e|]] c'] end;
    cbn [fst snd] in F; [discriminate|injection F as <-; reflexivity]). contradiction.
Qed.
Lemma upd_good lo k force w u : lined lo (w_conn w) u -> lined lo (w_conn (upd k force w)) u /\
  (reports u (sh_prof (w_sh w)) -> reports u (sh_prof (w_sh (upd k force w)))) /\
  (k = CProf -> force = true -> reports u (sh_prof (w_sh (upd k force w)))) /\
  (shows_comfort u (sh_temp (w_sh w)) -> shows_comfort u (sh_temp (w_sh (upd k force w)))) /\
  (k = CTemp -> force = true -> shows_comfort u (sh_temp (w_sh (upd k force w)))).
Proof.
  intros L. unfold upd. cbv zeta. destruct (negb force && _) eqn:F.
  { splits; auto; intros _ ->; discriminate. }
  destruct (fetch_good lo k (w_conn w) u L) as (L' & P & PT). pose proof (store_prof k) as SP. pose proof (store_temp k) as ST.
  specialize (fun v now s => SP v now s (w_conn w)). specialize (fun v now s => ST v now s (w_conn w)).
  destruct (fetch k (w_conn w)) as [o cn]. cbn [fst snd] in *.
  assert (R : k = CProf -> reports u (sh_prof (w_sh (set_conn (match o with Some v => set_sh (tick_clock w) (store v (w_clk (tick_clock w)) (w_sh w)) | None => tick_clock w end) cn)))).
  { intros K. destruct (P K) as (fp & -> & Rp). exact Rp. }
  assert (RT : k = CTemp -> shows_comfort u (sh_temp (w_sh (set_conn (match o with Some v => set_sh (tick_clock w) (store v (w_clk (tick_clock w)) (w_sh w)) | None => tick_clock w end) cn)))).
  { intros K. destruct (PT K) as (fp & -> & Rp). exact Rp. }
  splits; [destruct o; exact L'| |auto| |auto].
  - intros Rp. destruct o as [v|]; [|exact Rp].
    destruct k; try (cbn [set_conn set_sh w_sh]; rewrite SP; auto; discriminate). auto.
  - intros Rp. destruct o as [v|]; [|exact Rp].
    destruct k; try (cbn [set_conn set_sh w_sh]; rewrite ST; auto; discriminate). auto.
Qed.
Lemma upd_synced lo k force w u : synced lo w u -> synced lo (upd k force w) u.
Proof. intros [L R]. destruct (upd_good lo k force w u L) as (L' & R' & _). split; auto. Qed.
Lemma seq_synced lo cs force u : forall w, synced lo w u -> synced lo (f_seq cs force w) u.
Proof. unfold f_seq. induction cs as [|c r IH]; intros w S; cbn [fold_left]; auto. apply IH, upd_synced; auto. Qed.
Lemma poll_good lo n i o u : forall w, lined lo (w_conn w) u -> lined lo (w_conn (snd (f_poll n i o w))) u.
Proof.
  induction n as [|n IH]; intros w L; cbn [f_poll]; auto.
  pose proof (proj1 (upd_good lo CFans true w u L)) as L1. destruct (_ && _); auto.
Qed.

Lemma setq_good lo r cmd data c u u1 : EncodeSetRequest r = (mkPacket cmd data false, None) ->
  lined lo c u -> serves lo u cmd data u1 [7; 243] -> (length data <= 255)%nat -> vent_ok lo u1 ->
  exists c', setq r c = (None, c') /\ lined lo c' u1.
Proof.
  intros E (Q & U & C & V) S L V1.
  destruct (setq_unit lo true r cmd data c u u1 E U S L) as (u' & e & c' & Sq & U' & _ & B & Q' & Ok).
  rewrite (Ok eq_refl Q) in *. destruct (Q' Q eq_refl) as [-> Qc]. exists c'. split; auto.
  unfold lined. splits; auto. unfold setq in Sq. rewrite E in Sq.
  pose proof (clear_query (mkPacket cmd data false) c C) as C'.
  destruct (query _ c) as [[p e0] c0]. injection Sq as _ <-. exact C'.
Qed.

Lemma poll_error n : forall i o w e, fst (f_poll n i o w) = Some e -> e = ErrSetPollFailed.
Proof. induction n as [|n IH]; intros i o w e; cbn [f_poll]; [cbn; congruence|]. destruct (_ && _); [discriminate|apply IH]. Qed.
Lemma poll_fans n i o : forall w, fst (f_poll n i o w) = None -> fans_at i o (snd (f_poll n i o w)).
Proof.
  induction n as [|n IH]; intros w; cbn [f_poll]; [discriminate|]. cbv zeta. destruct (_ && _) eqn:E; [|apply IH].
  intros _. cbn [snd]. unfold fans_at. lia.
Qed.
Lemma upd_prof_fans i o w : fans_at i o w -> fans_at i o (upd CProf true w).
Proof.
  intros F. unfold upd. cbn [negb andb]. destruct (fetch CProf (w_conn w)) as [v cn] eqn:E.
  destruct v as [v|]; [|exact F]. cbn [fetch] in E. unfold getrec in E.
  destruct (getq _ _ _ _) as [[x [e|]] c'] in E; cbn [fst snd] in E; [discriminate|]. injection E as <- _. exact F.
Qed.
Lemma speed_synced lo abs rel w u : synced lo w u ->
  fst (f_speed abs rel w) <> RespErr (Internal ErrSetPollFailed) -> exists u', synced lo (snd (f_speed abs rel w)) u' /\
    forall m o t, fst (f_speed abs rel w) = RespSpeed m o t -> u_mode u' = t /\
      (m = true -> fans_at (in_percent (sh_prof (w_sh w)) t) (out_percent (sh_prof (w_sh w)) t) (snd (f_speed abs rel w))).
Proof.
  intros [L R]. unfold f_speed. cbv zeta. destruct (modifySpeed _ abs rel) as [v [e|]] eqn:M; cbn [fst snd].
  { intros _. exists u. split; [split; auto|]. discriminate. }
  apply modify_range in M. assert (U8 : u8 v = v) by (apply Z.mod_small; lia). assert (U32 : u32 v = v) by (apply Z.mod_small; lia).
  rewrite U8, U32. destruct (v =? CurrentMode (sh_prof (w_sh w))) eqn:E; cbn [negb].
  { cbn [fst snd]. intros _. exists u. split; [split; auto|]. intros m o t H. injection H as <- <- <-. destruct R as (_ & _ & <-). split; [lia|discriminate]. }
  destruct (setq_good lo _ _ _ (w_conn w) u (mkVent (u_out u) (u_in u) v (u_comfort u)) (speed_encode v ltac:(lia)) L (sv_speed lo u v ltac:(lia)) ltac:(simpl; lia))
    as (cn & -> & L').
  { destruct L as (_ & _ & _ & ? & ? & ? & ? & ? & ?). unfold vent_ok. cbn [u_out u_in u_mode u_comfort]. splits; auto; lia. }
  set (u' := mkVent _ _ _ _) in *. unfold f_updpoll.
  rewrite lookup_percent by lia.
  pose proof (poll_good lo 10 (in_percent (sh_prof (w_sh (set_conn w cn))) v) (out_percent (sh_prof (w_sh (set_conn w cn))) v) u' (set_conn w cn) L') as Lp.
  pose proof (poll_error 10 (in_percent (sh_prof (w_sh (set_conn w cn))) v) (out_percent (sh_prof (w_sh (set_conn w cn))) v) (set_conn w cn)) as Pe.
  pose proof (poll_fans 10 (in_percent (sh_prof (w_sh (set_conn w cn))) v) (out_percent (sh_prof (w_sh (set_conn w cn))) v) (set_conn w cn)) as Pf.
  destruct (f_poll 10 _ _ (set_conn w cn)) as [e w2]. cbn [fst snd] in *. destruct e as [e|]; cbn [fst snd].
  { intros N. exfalso. pose proof (Pe e eq_refl). subst e. apply N. reflexivity. }
  intros _. exists u'. split.
  - destruct (upd_good lo CProf true w2 u' Lp) as (L2 & _ & R2 & _). split; auto.
  - intros m o t H. injection H as _ _ <-. split; [reflexivity|]. intros _. apply upd_prof_fans. auto.
Qed.

Lemma fprofile_good lo m t c u : lined lo c u -> 0 <= m <= 3 -> 0 <= t <= 100 -> lo <= t ->
  exists u' c', fprofile m t c = (None, c') /\ lined lo c' u' /\ with_profile (Z.to_nat m) t u u'.
Proof.
  intros L M T Lo. unfold fprofile. replace (m >? 3) with false by lia. replace (t >? 100) with false by lia. unfold getq.
  destruct (query_good lo 205 c u L) as (out & c1 & -> & L1 & D & _); [simpl; auto|].
  destruct (describes_decodes _ _ (D eq_refl)) as (fp & F). rewrite F.
  destruct (profile_step lo u (p_data out) fp m t M T Lo ltac:(apply L) (D eq_refl) F) as (u1 & S & W & V1).
  destruct (setq_good lo _ _ _ c1 u u1 (profile_request_ok _ _ m t M F) L1 S) as (c2 & -> & L2); auto.
  { unfold profile_request. simpl. lia. }
  exists u1, c2. auto.
Qed.

Lemma profile_synced lo m t w u : lo <= 15 -> synced lo w u -> exists u', synced lo (snd (f_profile m t w)) u' /\
  forall md o t', fst (f_profile m t w) = RespProfile md o t' -> 1 <= m <= 4 -> 15 <= t <= 100 ->
    in_percent (sh_prof (w_sh (snd (f_profile m t w)))) m = t /\
    (md = true -> with_profile (Z.to_nat (m - 1)) t u u') /\ (md = false -> u' = u).
Proof.
  intros Lo [L R]. unfold f_profile.
  destruct ((u8 m <? 1) || (u8 m >? 4)) eqn:M; [exists u; split; [split; auto|discriminate]|].
  destruct ((u8 t <? 15) || (u8 t >? 100)) eqn:T; [exists u; split; [split; auto|discriminate]|].
  assert (Pi := profile_in_percent (sh_prof (w_sh w)) (u8 m) ltac:(lia)). rewrite Pi.
  assert (Sm : 1 <= m <= 4 -> u8 m = m) by (intros; apply Z.mod_small; lia).
  assert (St : 15 <= t <= 100 -> u8 t = t) by (intros; apply Z.mod_small; lia).
  destruct (in_percent _ (u8 m) =? u8 t) eqn:E; cbn [negb].
  { exists u. split; [split; auto|]. cbn [fst snd]. intros md o t' H M4 T4. injection H as <- <- <-.
    rewrite Sm, St in * by auto. splits; auto; try discriminate. lia. }
  destruct (fprofile_good lo (u8 m - 1) (u8 t) (w_conn w) u L ltac:(lia) ltac:(lia) ltac:(lia)) as (u' & cn & -> & L' & W).
  cbn [fst snd]. exists u'. destruct (upd_good lo CProf true (set_conn w cn) u' L') as (L2 & _ & R2 & _).
  specialize (R2 eq_refl eq_refl). split; [split; auto|]. intros md o t' H M4 T4. injection H as <- <- <-.
  rewrite Sm, St in * by auto. splits; auto; try discriminate.
  destruct R2 as (_ & R2 & _). unfold in_percent. rewrite R2. destruct W as (_ & _ & _ & _ & W).
  destruct (W (Z.to_nat (m - 1)) ltac:(lia)) as [_ W']. rewrite Nat.eqb_refl in W'. exact W'.
Qed.

(** The comfort temperature on a good line: it reaches the unit, unless the cached one equals the target. *)
Lemma comfort_good lo t w u : lined lo (w_conn w) u ->
  (snd (f_comfort t w) = w \/ snd (f_comfort t w) = set_conn w (w_conn w)) /\
  (forall m o t', fst (f_comfort t w) = RespComfort m o t' -> m = false /\ f32_to_u8 (Comfort (sh_temp (w_sh w))) = u8 t) \/
  u8 t <= 107 /\ fst (f_comfort t w) = RespComfort true (f32_to_u32 (Comfort (sh_temp (w_sh w)))) t /\
    exists cn, lined lo cn (warmed u (u8 t)) /\ snd (f_comfort t w) = upd CTemp true (set_conn w cn).
Proof.
  intros L. assert (T : 0 <= u8 t < 256) by (apply Z.mod_pos_bound; lia). unfold f_comfort. cbv zeta. destruct (t >? 255) eqn:T5; [left; split; auto; discriminate|]. destruct (_ =? u8 t) eqn:C; cbn [negb fst snd].
  { left. split; auto. intros m o t' H. injection H as <- _ _. split; auto. lia. }
  generalize dependent (u8 t). intros v T.
  destruct (Z.le_gt_cases v 107) as [T7|T7].
  - right. destruct (setq_good lo _ _ _ (w_conn w) u (warmed u v) (comfort_encode v ltac:(lia)) L
      (sv_comfort lo u (2 * (v + 20)) ltac:(unfold byte_ok; lia)) ltac:(simpl; lia)) as (cn & -> & L').
    { apply warmed_ok; [apply L|lia]. }
    cbn [fst snd]. splits; auto. exists cn. auto.
  - left. destruct (comfort_refused v ltac:(lia)) as (p & e & En). unfold setq. rewrite En. cbn [fst snd]. split; auto. discriminate.
Qed.
Lemma comfort_synced lo t w u : synced lo w u -> exists u', synced lo (snd (f_comfort t w)) u'.
Proof.
  intros [L R]. destruct (comfort_good lo t w u L) as [[[->| ->] _]|(_ & _ & cn & L' & ->)].
  - exists u. split; auto.
  - exists u. split; auto.
  - exists (warmed u (u8 t)). apply upd_synced. split; auto.
Qed.

Lemma op_synced lo o w u : lo <= 15 -> synced lo w u ->
  (forall a r, o = ORpc (SetFanSpeedR a r) -> fst (f_speed a r w) <> RespErr (Internal ErrSetPollFailed)) ->
  exists u', synced lo (f_op o w) u'.
Proof.
  intros Lo S N. destruct o as [r|t|]; cbn [f_op].
  - destruct r; cbn [f_rpc snd]; eauto.
    + eapply comfort_synced; eauto.
    + destruct (speed_synced lo abs rel w u S) as (u' & S' & _); eauto.
    + destruct (profile_synced lo mode tgt w u Lo S) as (u' & S' & _); eauto.
    + eexists. apply seq_synced; eauto.
  - eexists. apply seq_synced; eauto.
  - eexists. apply seq_synced; eauto.
Qed.
Lemma start_synced lo w u : lined lo (w_conn w) u -> synced lo (f_seq all_caches true w) u.
Proof.
  intros L. unfold all_caches, f_seq. cbn [fold_left].
  assert (H : forall k w, lined lo (w_conn w) u -> lined lo (w_conn (upd k true w)) u) by (intros; apply upd_good; auto).
  apply upd_synced. split; [auto 10|]. apply (upd_good lo CProf true); auto 10.
Qed.

(** ** the comfort temperature *)
Lemma upd_tempered lo k force w u : tempered lo w u -> tempered lo (upd k force w) u.
Proof. intros [L R]. destruct (upd_good lo k force w u L) as (L' & _ & _ & R' & _). split; auto. Qed.
Lemma seq_tempered lo cs force u : forall w, tempered lo w u -> tempered lo (f_seq cs force w) u.
Proof. unfold f_seq. induction cs as [|c r IH]; intros w S; cbn [fold_left]; auto. apply IH, upd_tempered; auto. Qed.
Lemma poll_tempered lo n i o u : forall w, tempered lo w u -> tempered lo (snd (f_poll n i o w)) u.
Proof.
  induction n as [|n IH]; intros w S; cbn [f_poll]; auto. cbv zeta.
  pose proof (upd_tempered lo CFans true w u S) as S1. destruct (_ && _); auto.
Qed.
Lemma set_tempered lo w u cn u' : tempered lo w u -> lined lo cn u' -> u_comfort u' = u_comfort u -> tempered lo (set_conn w cn) u'.
Proof. intros [_ R] L E. split; auto. unfold shows_comfort in *. rewrite E. exact R. Qed.
Lemma speed_tempered lo abs rel w u : tempered lo w u ->
  exists u', tempered lo (snd (f_speed abs rel w)) u' /\ u_comfort u' = u_comfort u.
Proof.
  intros S. assert (L : lined lo (w_conn w) u) by apply S.
  unfold f_speed. cbv zeta. destruct (modifySpeed _ abs rel) as [v [e|]] eqn:M; cbn [snd]; [eauto|].
  apply modify_range in M. assert (U8 : u8 v = v) by (apply Z.mod_small; lia). rewrite U8.
  destruct (negb _); cbn [snd]; [|eauto].
  destruct (setq_good lo _ _ _ (w_conn w) u (mkVent (u_out u) (u_in u) v (u_comfort u)) (speed_encode v ltac:(lia)) L (sv_speed lo u v ltac:(lia)) ltac:(simpl; lia))
    as (cn & -> & L').
  { destruct L as (_ & _ & _ & ? & ? & ? & ? & ? & ?). unfold vent_ok. cbn [u_out u_in u_mode u_comfort]. splits; auto; lia. }
  set (u' := mkVent _ _ _ _) in *. unfold f_updpoll. rewrite lookup_percent by lia.
  pose proof (set_tempered lo w u cn u' S L' eq_refl) as S1.
  pose proof (poll_tempered lo 10 (in_percent (sh_prof (w_sh (set_conn w cn))) v) (out_percent (sh_prof (w_sh (set_conn w cn))) v) u' _ S1) as Sp.
  destruct (f_poll 10 _ _ (set_conn w cn)) as [e w2]. cbn [fst snd] in *. exists u'. split; [|reflexivity].
  destruct e as [e|]; cbn [fst snd]; auto using upd_tempered.
Qed.
Lemma profile_tempered lo m t w u : lo <= 15 -> tempered lo w u ->
  exists u', tempered lo (snd (f_profile m t w)) u' /\ u_comfort u' = u_comfort u.
Proof.
  intros Lo S. assert (L : lined lo (w_conn w) u) by apply S. unfold f_profile.
  destruct ((u8 m <? 1) || (u8 m >? 4)) eqn:M; [eauto|]. destruct ((u8 t <? 15) || (u8 t >? 100)) eqn:T; [eauto|].
  assert (Pi := profile_in_percent (sh_prof (w_sh w)) (u8 m) ltac:(lia)). rewrite Pi.
  destruct (negb _); [|eauto].
  destruct (fprofile_good lo (u8 m - 1) (u8 t) (w_conn w) u L ltac:(lia) ltac:(lia) ltac:(lia)) as (u' & cn & -> & L' & W).
  cbn [fst snd]. exists u'. assert (Ec : u_comfort u' = u_comfort u) by apply W. split; auto.
  apply upd_tempered. eapply set_tempered; eauto.
Qed.
Lemma comfort_tempered lo t w u : tempered lo w u -> exists u', tempered lo (snd (f_comfort t w)) u' /\
  forall m o t', fst (f_comfort t w) = RespComfort m o t' -> 0 <= t <= 107 ->
    u_comfort u' / 2 - 20 = t /\ (m = true -> u_comfort u' = 2 * (t + 20)) /\ (m = false -> u' = u).
Proof.
  intros S. assert (L : lined lo (w_conn w) u) by apply S. destruct (comfort_good lo t w u L) as [[E Nm]|(T & Fs & cn & L' & ->)].
  - exists u. split; [destruct E as [-> | ->]; auto; exact S|].
    intros m o t' H T. destruct (Nm _ _ _ H) as [-> C]. assert (U8 : u8 t = t) by (apply Z.mod_small; lia). rewrite U8 in C.
    splits; auto; try discriminate. destruct S as [_ R]. unfold shows_comfort in R.
    unfold f32_to_u8 in C. rewrite (is_trunc _ _ R) in C. destruct L as (_ & _ & _ & _ & _ & _ & _ & _ & Bc). unfold byte_ok, u8 in *.
    assert (-20 <= u_comfort u / 2 - 20 <= 107) by lia. lia.
  - exists (warmed u (u8 t)). split.
    + destruct (upd_good lo CTemp true (set_conn w cn) _ L') as (L2 & _ & _ & _ & R2). split; auto.
    + intros m o t' H T0. assert (U8 : u8 t = t) by (apply Z.mod_small; lia). rewrite U8 in *. rewrite Fs in H. injection H as <- _ _.
      cbn [warmed u_comfort]. splits; auto; try discriminate. lia.
Qed.
Lemma op_tempered lo o w u : lo <= 15 -> tempered lo w u -> exists u', tempered lo (f_op o w) u'.
Proof.
  intros Lo S. destruct o as [r|t|]; cbn [f_op].
  - destruct r; cbn [f_rpc snd]; eauto.
    + destruct (comfort_tempered lo t w u S) as (u' & S' & _); eauto.
    + destruct (speed_tempered lo abs rel w u S) as (u' & S' & _); eauto.
    + destruct (profile_tempered lo mode tgt w u Lo S) as (u' & S' & _); eauto.
    + eexists. apply seq_tempered; eauto.
  - eexists. apply seq_tempered; eauto.
  - eexists. apply seq_tempered; eauto.
Qed.
Lemma start_tempered lo w u : lined lo (w_conn w) u -> tempered lo (f_seq all_caches true w) u.
Proof.
  intros L. unfold all_caches, f_seq. cbn [fold_left].
  assert (H : forall k w, lined lo (w_conn w) u -> lined lo (w_conn (upd k true w)) u) by (intros; apply upd_good; auto).
  do 3 apply upd_tempered. split; [auto 10|]. apply (upd_good lo CTemp true); auto 10.
Qed.
