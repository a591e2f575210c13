(** Lemmas behind PropertiesQuery.v (C12-C20, C46). *)
From Verif Require Import ProofBase GoStrings Proto SpecProto SpecFrame SpecConn SpecOps SpecLayout ProtoProofs Scanner Conn
  FrameProofs ReplyProofs ReadProofs Proc Lib QueryProofs FrameLemmas LayoutProofs TrimProofs Samples FrameExamples.

(** ** boot info *)
Lemma boot_spec l :
  (length l <> 13%nat -> BootInfo_Unmarshal l = Done (zeroBoot, Some ErrPktLen)) /\
  (length l = 13%nat -> exists t, BootInfo_Unmarshal l = Done (t, None) /\ boot_layout l t).
Proof.
  split; intros L.
  - unfold BootInfo_Unmarshal. destruct (Nat.eqb_spec (length l) 13); [contradiction|reflexivity].
  - do 13 (destruct l as [|? l]; [discriminate|]). destruct l; [|discriminate].
    eexists; split; [reflexivity|]. unfold boot_layout. splits; try reflexivity. apply trim_space_ok.
Qed.

(** ** getters *)
Lemma getter_ok {T} (op : proc unit (T * option err)) gr zero dec (ok : list Z -> T -> Prop) :
  (forall w, can_lock (w_held w) LPm = true ->
     run op w = (RDone (fst (getq gr zero dec (w_conn w))), set_conn w (snd (getq gr zero dec (w_conn w))))) ->
  total_dec dec -> (forall l v, dec l = Done (v, None) -> ok l v) ->
  getter_behaves op gr zero ok.
Proof.
  intros Run Td Ok w I. rewrite Run by auto using idle_pm. unfold getq.
  destruct (query_exchange (mkPacket gr [] true) (w_conn w)) as (l & Lg & X).
  destruct (query _ _) as [[q qe] c'] eqn:Q. cbn [fst snd p_cmd p_data p_expect] in *.
  destruct qe as [e|].
  { exists zero, (Some e), c', q, (Some e), l. splits; auto; congruence. }
  destruct (Td (p_data q)) as (v & e & D). rewrite D. destruct e as [e|].
  - exists zero, (Some e), c', q, None, l. splits; auto; try congruence.
  - exists v, None, c', q, None, l. splits; auto; try congruence.
Qed.

Lemma temps_decodes l v : Temps_Unmarshal l = Done (v, None) ->
  length l = 9%nat /\ (bytes_ok l -> temps_layout l v).
Proof.
  intros H. pose proof (temps_len l v H) as L. split; auto. intros B.
  destruct (temps_spec l B) as [_ S]. destruct (S L) as (t & E & Lt). congruence.
Qed.
Ltac decodes l v H len spec :=
  pose proof (len l v H) as L; split; auto; destruct (spec l) as [_ S]; destruct (S L) as (t & E & Lt); congruence.
Lemma boot_decodes l v : BootInfo_Unmarshal l = Done (v, None) -> length l = 13%nat /\ boot_layout l v.
Proof. intros H. decodes l v H boot_len boot_spec. Qed.
Lemma bypass_decodes l v : Bypass_Unmarshal l = Done (v, None) -> length l = 7%nat /\ bypass_layout l v.
Proof. intros H. decodes l v H bypass_len bypass_spec. Qed.
Lemma hours_decodes l v : Hours_Unmarshal l = Done (v, None) -> length l = 20%nat /\ hours_layout l v.
Proof. intros H. decodes l v H hours_len hours_spec. Qed.
Lemma prof_decodes l v : FanProfiles_Unmarshal l = Done (v, None) -> length l = 14%nat /\ profiles_layout l v.
Proof. intros H. decodes l v H prof_len profiles_spec. Qed.
Lemma errors_decodes l v : Errors_Unmarshal l = Done (v, None) -> length l = 17%nat /\ errors_layout l v.
Proof. intros H. decodes l v H errors_len errors_spec. Qed.
Lemma fans_decodes l v : Fans_Unmarshal l = Done (v, None) -> 
  length l = 6%nat /\ be_at l 2 2 <> 0 /\ be_at l 4 2 <> 0 /\ fans_layout l v.
Proof.
  intros H. pose proof (fans_len l v H) as L. destruct (fans_spec l) as (_ & Z & S).
  destruct (Z.eq_dec (be_at l 2 2) 0) as [E|N1]; [rewrite Z in H by auto; discriminate|].
  destruct (Z.eq_dec (be_at l 4 2) 0) as [E|N2]; [rewrite Z in H by auto; discriminate|].
  destruct (S L N1 N2) as (t & E & Lt). splits; auto. congruence.
Qed.

Lemma getters_ok :
  getter_behaves GetFans 11 zeroFans (fun l v => length l = 6%nat /\ be_at l 2 2 <> 0 /\ be_at l 4 2 <> 0 /\ fans_layout l v) /\
  getter_behaves GetBootloader 103 zeroBoot (fun l v => length l = 13%nat /\ boot_layout l v) /\
  getter_behaves GetFirmware 105 zeroBoot (fun l v => length l = 13%nat /\ boot_layout l v) /\
  getter_behaves GetFanProfiles 205 zeroProf (fun l v => length l = 14%nat /\ profiles_layout l v) /\
  getter_behaves GetTemperatures 209 zeroTemps (fun l v => length l = 9%nat /\ (bytes_ok l -> temps_layout l v)) /\
  getter_behaves GetErrors 217 zeroErrors (fun l v => length l = 17%nat /\ errors_layout l v) /\
  getter_behaves GetHours 221 zeroHours (fun l v => length l = 20%nat /\ hours_layout l v) /\
  getter_behaves GetBypass 223 zeroBypass (fun l v => length l = 7%nat /\ bypass_layout l v).
Proof.
  splits; eapply getter_ok;
  eauto using run_GetFans, run_GetBootloader, run_GetFirmware, run_GetFanProfiles, run_GetTemperatures,
    run_GetErrors, run_GetHours, run_GetBypass, fans_total, boot_total, prof_total, temps_total,
    errors_total, hours_total, bypass_total, fans_decodes, boot_decodes, prof_decodes, temps_decodes, errors_decodes,
    hours_decodes, bypass_decodes.
Qed.

(** ** sets *)
Lemma setq_exchange r c cmd data : EncodeSetRequest r = (mkPacket cmd data false, None) ->
  exists out l, c_log (snd (setq r c)) = c_log c ++ l /\ exchange cmd data false out (fst (setq r c)) l.
Proof.
  intros E. unfold setq. rewrite E.
  destruct (query_exchange (mkPacket cmd data false) c) as (l & Lg & X).
  destruct (query _ c) as [[q qe] c']. eexists; eexists; split; eauto.
Qed.

Lemma set_speed_ok {S} (w : world S) v : w_held w = [] ->
  (4 < v -> run (SetSpeed v) w = (RDone (Some ErrTooHigh), w)) /\
  (v <= 4 -> exists e c' out l, run (SetSpeed v) w = (RDone e, set_conn w c') /\
     c_log c' = c_log (w_conn w) ++ l /\ exchange 153 [v] false out e l).
Proof.
  intros I. unfold SetSpeed. split; intros V.
  - unfold setQuery, EncodeSetRequest. simpl. replace (v >? 4) with true by lia. reflexivity.
  - assert (E : EncodeSetRequest (SRSpeed v) = (mkPacket 153 [v] false, None)).
    { unfold EncodeSetRequest. simpl. replace (v >? 4) with false by lia. reflexivity. }
    rewrite run_setQuery by auto using idle_pm.
    destruct (setq_exchange _ (w_conn w) _ _ E) as (out & l & Lg & X).
    eexists; eexists; exists out, l. splits; eauto.
Qed.

Lemma set_comfort_ok {S} (w : world S) v : w_held w = [] -> 0 <= v <= 255 ->
  (107 < v -> run (SetComfort v) w = (RDone (Some ErrTooHigh), w)) /\
  (v <= 107 -> exists e c' out l, run (SetComfort v) w = (RDone e, set_conn w c') /\
     c_log c' = c_log (w_conn w) ++ l /\ exchange 211 [2 * (v + 20)] false out e l).
Proof.
  intros I B. unfold SetComfort. split; intros V.
  - unfold setQuery, EncodeSetRequest. cbn [requestType SetRequest_MarshalBinary].
    destruct (of_Z_exact v ltac:(lia)) as [_ T]. unfold temperature_MarshalBinary. rewrite T.
    replace (v >? 107) with true by lia. reflexivity.
  - assert (E : EncodeSetRequest (SRComfort (f32_of_Z v)) = (mkPacket 211 [2 * (v + 20)] false, None)).
    { unfold EncodeSetRequest. cbn [requestType SetRequest_MarshalBinary].
      rewrite temp_encode by lia. reflexivity. }
    rewrite run_setQuery by auto using idle_pm.
    destruct (setq_exchange _ (w_conn w) _ _ E) as (out & l & Lg & X).
    eexists; eexists; exists out, l. splits; eauto.
Qed.

Lemma profile_request_ok payload cfp mode speed : 0 <= mode <= 3 ->
  FanProfiles_Unmarshal payload = Done (cfp, None) ->
  EncodeSetRequest (SRProfiles (change_profile mode speed cfp)) =
    (mkPacket 207 (profile_request payload mode speed) false, None).
Proof.
  intros M H. apply prof_decodes in H as (L & Lay). unfold profiles_layout in Lay.
  destruct Lay as (H1 & H2 & H3 & H4 & H5 & H6 & H7 & H8 & _).
  assert (mode = 0 \/ mode = 1 \/ mode = 2 \/ mode = 3) as [-> |[-> |[-> | ->]]] by lia;
  unfold EncodeSetRequest, profile_request; cbn; rewrite ?H1, ?H2, ?H3, ?H4, ?H5, ?H6, ?H7, ?H8; reflexivity.
Qed.

Lemma set_profile_ok {S} (w : world S) mode speed : w_held w = [] -> 0 <= mode ->
  (3 < mode -> run (SetFanProfile mode speed) w = (RDone (Some ErrUnknownMode), w)) /\
  (mode <= 3 -> 100 < speed -> run (SetFanProfile mode speed) w = (RDone (Some ErrTooHigh), w)) /\
  (mode <= 3 -> speed <= 100 -> exists e c' q qe l, run (SetFanProfile mode speed) w = (RDone e, set_conn w c') /\
     exchange 205 [] true q qe l /\
     ((e <> None /\ c_log c' = c_log (w_conn w) ++ l) \/
      (qe = None /\ length (p_data q) = 14%nat /\ exists out l2, c_log c' = c_log (w_conn w) ++ l ++ l2 /\
         exchange 207 (profile_request (p_data q) mode speed) false out e l2))).
Proof.
  intros I M0. splits.
  - intros M. unfold SetFanProfile. replace (mode >? 3) with true by lia. reflexivity.
  - intros M V. unfold SetFanProfile. replace (mode >? 3) with false by lia.
    replace (speed >? 100) with true by lia. reflexivity.
  - intros M V. rewrite run_SetFanProfile by auto using idle_pm, idle_am. unfold fprofile.
    replace (mode >? 3) with false by lia. replace (speed >? 100) with false by lia. unfold getq.
    destruct (query_exchange (mkPacket 205 [] true) (w_conn w)) as (l & Lg & X).
    destruct (query _ _) as [[q qe] c1] eqn:Q. cbn [fst snd p_cmd p_data p_expect] in *.
    destruct qe as [e|].
    { exists (Some e), c1, q, (Some e), l. splits; auto. left. split; [discriminate|auto]. }
    destruct (prof_total (p_data q)) as (cfp & e & D). rewrite D. destruct e as [e|].
    { exists (Some e), c1, q, None, l. splits; auto. left. split; [discriminate|auto]. }
    pose proof (profile_request_ok _ _ mode speed ltac:(lia) D) as E.
    destruct (setq_exchange _ c1 _ _ E) as (out & l2 & Lg2 & X2).
    destruct (setq _ c1) as [e2 c2]. cbn [fst snd] in *.
    exists e2, c2, q, None, l. splits; auto. right. splits; auto.
    + apply prof_len in D. exact D.
    + exists out, l2. split; auto. rewrite Lg2, Lg, <- app_assoc. reflexivity.
Qed.

(** ** left-over readers *)
Definition waiting_reader : scanner := mkScanner 4096 0 [] None 0.

Lemma lost_reply c rep d r : c_pend c = [] -> c_orph c = [waiting_reader] ->
  react (c_dev c) (framed 209 []) = (d, [Data rep None], r) -> w_err r = None ->
  len rep <= 4096 -> splitFunc rep <> None ->
  exists c', query (mkPacket 209 [] true) c = ((zero_packet, Some ErrTimeout), c') /\
    c_pend c' = [] /\ c_orph c' = [waiting_reader] /\ c_dev c' = d.
Proof.
  intros P O R E L Sp. unfold query. replace (_ >? 255) with false by reflexivity.
  unfold conn_write at 1. rewrite frame_framed. cbn [p_cmd p_data p_expect]. rewrite R, E, P, O.
  cbn [app]. unfold ReadPacket, ScanTimeout. cbn [c_pend c_orph c_dev c_log].
  assert (T0 : scan_top new_scanner = TRead waiting_reader) by reflexivity.
  assert (T1 : scan_top waiting_reader = TRead waiting_reader) by reflexivity.
  assert (T2 : exists tok s, scan_top (scan_feed waiting_reader rep None) = TTok tok s).
  { destruct (splitFunc rep) as [[n tok]|] eqn:S; [|congruence].
    assert (G : good waiting_reader) by (unfold good, waiting_reader; simpl; splits; auto; lia).
    destruct (scan_feed_good waiting_reader rep G) as (G2 & D2 & _);
      [simpl; lia|unfold s_end, len; simpl; unfold len in L; lia|simpl; lia|].
    destruct (scan_top_tok (scan_feed waiting_reader rep None) n tok G2) as (s' & H & _); eauto.
    rewrite D2. exact S. }
  destruct T2 as (tok & s & T2). cbn [scan_wait]. rewrite T0, T2, T1. cbn [app].
  eexists. splits; reflexivity.
Qed.

Lemma query_silent c d r : c_pend c = [] -> c_orph c = [] ->
  react (c_dev c) (framed 209 []) = (d, [], r) -> w_err r = None ->
  exists c', query (mkPacket 209 [] true) c = ((zero_packet, Some ErrTimeout), c') /\
    c_pend c' = [] /\ c_orph c' = [waiting_reader] /\ c_dev c' = d.
Proof.
  intros P O R E. unfold query. replace (_ >? 255) with false by reflexivity.
  unfold conn_write at 1. rewrite frame_framed. cbn [p_cmd p_data p_expect]. rewrite R, E, P, O.
  eexists. splits; reflexivity.
Qed.

Lemma lost_replies rep n : len rep <= 4096 -> splitFunc rep <> None -> forall w : world unit,
  w_held w = [] -> c_pend (w_conn w) = [] -> c_orph (w_conn w) = [waiting_reader] ->
  prompt (framed 209 []) rep (c_dev (w_conn w)) ->
  repeat_run n GetTemperatures w = repeat (RDone (zeroTemps, Some ErrTimeout)) n.
Proof.
  intros L Sp. induction n as [|n IH]; intros w I P O Pr; [reflexivity|].
  cbn [repeat_run repeat]. rewrite run_GetTemperatures by auto using idle_pm. unfold getq.
  remember (c_dev (w_conn w)) as dv eqn:Dv. destruct Pr as [dv Pr]. subst dv. destruct (Pr (framed 209 [])) as (d' & r & R & E & Pr').
  destruct (list_eq_dec _ _ _) in R; [|congruence].
  destruct (lost_reply (w_conn w) rep d' r P O R E L Sp) as (c' & Q & P' & O' & D').
  rewrite Q. cbn [fst snd]. f_equal. apply IH; auto. cbn [set_conn w_conn]. rewrite D'. auto.
Qed.

(** A unit that misses one request and answers all others is never heard again. *)
Lemma never_heard_again (w : world unit) d r data n : bytes_ok data -> (length data <= 255)%nat ->
  w_held w = [] -> quiet (w_conn w) ->
  react (c_dev (w_conn w)) (framed 209 []) = (d, [], r) -> w_err r = None ->
  prompt (framed 209 []) (reply 210 data) d ->
  repeat_run (S n) GetTemperatures w = repeat (RDone (zeroTemps, Some ErrTimeout)) (S n).
Proof.
  intros B Ld I [P O] R E Pr. cbn [repeat_run repeat]. rewrite run_GetTemperatures by auto using idle_pm.
  unfold getq. destruct (query_silent (w_conn w) d r P O R E) as (c' & Q & P' & O' & D').
  rewrite Q. cbn [fst snd]. f_equal. apply lost_replies with (rep := reply 210 data); auto.
  - unfold reply, wire, len. rewrite !app_length. rewrite doubled_length. cbn [length].
    pose proof (count_occ_bound Z.eq_dec 7 data). lia.
  - unfold reply. intros H. discriminate.
  - cbn [set_conn w_conn]. rewrite D'. exact Pr.
Qed.

CoFixpoint answering (request rep : list Z) : device :=
  Dev (fun bs => (answering request rep,
                  if list_eq_dec Z.eq_dec bs request then [Data rep None] else [], mkWres (len bs) None)).
Lemma answering_prompt request rep : prompt request rep (answering request rep).
Proof.
  cofix H. constructor. intros bs. exists (answering request rep), (mkWres (len bs) None).
  split; [reflexivity|]. split; [reflexivity|]. exact H.
Qed.
Definition miss_once (request rep : list Z) : device :=
  Dev (fun bs => (answering request rep, [], mkWres (len bs) None)).

Lemma never_heard_refuted : exists (w : world unit) d r data,
  w_held w = [] /\ quiet (w_conn w) /\ bytes_ok data /\ length data = 9%nat /\ readable 210 data /\
  react (c_dev (w_conn w)) (framed 209 []) = (d, [], r) /\ w_err r = None /\
  prompt (framed 209 []) (reply 210 data) d /\
  forall n, repeat_run (S n) GetTemperatures w = repeat (RDone (zeroTemps, Some ErrTimeout)) (S n).
Proof.
  set (data := [80; 60; 70; 72; 66; 15; 40; 40; 40]).
  exists (world0 (miss_once (framed 209 []) (reply 210 data))), (answering (framed 209 []) (reply 210 data)),
    (mkWres 8 None), data.
  assert (B : bytes_ok data) by (unfold data; repeat constructor; discriminate).
  splits; auto; try reflexivity.
  - split; reflexivity.
  - apply clean_check. reflexivity.
  - apply answering_prompt.
  - intros n. eapply never_heard_again; eauto; try reflexivity.
    + simpl. lia.
    + split; reflexivity.
    + apply answering_prompt.
Qed.

(** A query on a connection with nothing left over gets its reply. *)
Lemma split_ctl k r : ctl k -> splitFunc (7 :: k :: r) = Some (2%nat, []).
Proof. intros C. change (7 :: k :: r) with ([] ++ 7 :: k :: r). rewrite split_first; auto. apply clean_check; reflexivity. Qed.
Lemma pure_rest_reply cmd data : readable cmd data -> pure_rest true (reply cmd data) = [].
Proof.
  intros R. unfold pure_rest, reply. cbn [app negb].
  rewrite split_ctl by (unfold ctl; auto). cbn [skipn].
  rewrite split_ctl by (unfold ctl; auto). cbn [skipn]. rewrite split_first; [|unfold ctl; auto|apply clean_snoc7, wire_clean; auto].
  apply skipn_all2. rewrite app_length. simpl. lia.
Qed.

Lemma query_delivered p c chunks data d r : quiet c -> p_expect p = true -> (length (p_data p) <= 255)%nat ->
  few_empty chunks -> len (concat chunks) <= 4096 ->
  react (c_dev c) (framed (p_cmd p) (p_data p)) = (d, pieces chunks, r) -> w_err r = None ->
  concat chunks = reply (u8 (p_cmd p + 1)) data -> readable (u8 (p_cmd p + 1)) data ->
  forall d2 evs2 r2, react d ack_seq = (d2, evs2, r2) ->
  exists chunks' l, query p c = ((mkPacket (u8 (p_cmd p + 1)) data false, ack_err r2),
    mkConn d2 (pieces chunks' ++ evs2) [] (c_log c ++ l)) /\
    (exists used, chunks = used ++ chunks') /\ concat chunks' = [] /\
    l = [Wr (framed (p_cmd p) (p_data p)) r; Rd true (mkPacket (u8 (p_cmd p + 1)) data false) None; Wr ack_seq r2].
Proof.
  intros [P O] X L F T Re Er E R d2 evs2 r2 Ra. unfold query.
  replace (_ >? 255) with false by lia. unfold conn_write at 1. rewrite frame_framed.
  rewrite Re, Er, P, X, O. cbn [app].
  match goal with |- context [ReadPacket ?x _] => set (c1 := x) end.
  destruct (read_pieces_rest chunks c1 true eq_refl eq_refl T (few_empty_ok _ F)) as [H1 H2].
  assert (Pr : pure_read true (concat chunks) = Done (mkPacket (u8 (p_cmd p + 1)) data false, None)).
  { rewrite E. rewrite <- (app_nil_r (reply _ _)). apply reply_readable; auto. }
  destruct (H2 _ Pr) as (used & chunks' & buf & U & S2 & Rest). rewrite Pr in H1.
  rewrite E, pure_rest_reply in Rest by auto. apply app_eq_nil in Rest as [_ Rest].
  rewrite (surjective_pairing (ReadPacket c1 true)), H1, S2. cbv zeta. cbn [p_cmd]. rewrite Z.eqb_refl. cbn [andb negb].
  unfold log_io, conn_write. cbn [c_dev c_pend c_orph c_log]. change [7; 243] with ack_seq. unfold c1. cbn [c_dev].
  rewrite Ra. exists chunks'. eexists. splits; eauto.
  cbn [c_log]. rewrite <- !app_assoc. reflexivity.
Qed.

Lemma query_quiet {S} (w : world S) req rd data chunks : w_held w = [] -> quiet (w_conn w) ->
  (length rd <= 255)%nat -> replies (w_conn w) (framed req rd) chunks ->
  concat chunks = reply ((req + 1) mod 256) data -> readable ((req + 1) mod 256) data ->
  exists e c' r r2, run (QueryPacket (mkPacket req rd true)) w =
    (RDone (mkPacket ((req + 1) mod 256) data false, e), set_conn w c') /\
    c_log c' = c_log (w_conn w) ++
      [Wr (framed req rd) r; Rd true (mkPacket ((req + 1) mod 256) data false) None; Wr ack_seq r2] /\
    (w_err r2 = None -> w_n r2 = 2 -> e = None).
Proof.
  intros I Qt L (F & T & d & r & Re & Er) E R. rewrite run_query by auto using idle_pm.
  destruct (react d ack_seq) as [[d2 evs2] r2] eqn:Ra.
  destruct (query_delivered (mkPacket req rd true) (w_conn w) chunks data d r Qt eq_refl L F T Re Er E R _ _ _ Ra)
    as (ch & l & -> & _ & _ & ->). cbn [fst snd].
  eexists; eexists; exists r, r2. split; [reflexivity|]. split; [reflexivity|].
  unfold ack_err. intros -> ->. reflexivity.
Qed.

(** ** a set on a calm line *)
Lemma set_acked (op : proc unit (option err)) (w w' : world unit) :
  ((exists v, op = SetSpeed v) \/ (exists v, op = SetComfort v) \/ (exists fp, op = SetFanProfiles fp)) ->
  w_held w = [] -> run op w = (RDone None, w') ->
  exists request d evs r, react (c_dev (w_conn w)) request = (d, evs, r) /\ w_err r = None /\
    (calm (c_pend (w_conn w) ++ evs) -> exists used rest got k extra,
       c_pend (w_conn w) ++ evs = used ++ rest /\ sublist got (data_of used) /\ ctl k /\
       concat got = 7 :: k :: extra).
Proof.
  intros K I H. assert (R : exists r, op = setQuery r).
  { destruct K as [[v ->]|[[v ->]|[v ->]]]; eexists; reflexivity. }
  destruct R as (r & ->). rewrite run_setQuery in H by auto using idle_pm. injection H as H _.
  destruct (setq r (w_conn w)) as [e c'] eqn:Q. simpl in H. subst e.
  destruct (set_success _ _ _ Q) as (cmd & data & d & evs & r0 & _ & Re & E & C).
  exists (framed cmd data), d, evs, r0. auto.
Qed.

Lemma no_ack_needed : exists w1 w2 w1' w2' : world unit,
  w_held w1 = [] /\ quiet (w_conn w1) /\ react (c_dev (w_conn w1)) (framed 153 [3]) = (script [], [Data [] (Some SEof)], mkWres 9 None) /\
  run (SetSpeed 3) w1 = (RDone None, w1') /\
  w_held w2 = [] /\ quiet (w_conn w2) /\ react (c_dev (w_conn w2)) (framed 153 [3]) = (script [], [Data [7; 15] None], mkWres 9 None) /\
  run (SetSpeed 3) w2 = (RDone None, w2').
Proof.
  exists (world0 (script [[Data [] (Some SEof)]])), (world0 (script [[Data [7; 15] None]])).
  eexists; eexists. splits; try (split; reflexivity); try reflexivity.
Qed.

(** ** fan speed *)
Lemma fans_rpm l f : bytes_ok l -> Fans_Unmarshal l = Done (f, None) ->
  (29 <= be_at l 2 2 -> InSpeed f = 1875000 / be_at l 2 2) /\
  (29 <= be_at l 4 2 -> OutSpeed f = 1875000 / be_at l 4 2).
Proof.
  intros B H. apply fans_decodes in H as (_ & _ & _ & _ & _ & Hi & Ho). rewrite Hi, Ho.
  split; intros G; apply Z.mod_small; (split; [apply Z.div_pos; lia|]);
    apply Z.div_lt_upper_bound; lia.
Qed.
Lemma fans_rpm_refuted raw : 1 <= raw <= 28 -> exists l f,
  bytes_ok l /\ be_at l 2 2 = raw /\ Fans_Unmarshal l = Done (f, None) /\ InSpeed f <> 1875000 / raw.
Proof.
  intros R. exists [0; 0; 0; raw; 1; 0].
  assert (B : bytes_ok [0; 0; 0; raw; 1; 0]) by (repeat apply Forall_cons; try apply Forall_nil; unfold byte_ok; lia).
  destruct (fans_spec [0; 0; 0; raw; 1; 0]) as (_ & _ & S).
  assert (E : be_at [0; 0; 0; raw; 1; 0] 2 2 = raw) by (unfold be_at; cbn [firstn skipn be_bytes]; lia).
  destruct (S eq_refl) as (f & D & L); [lia|unfold be_at; cbn [firstn skipn be_bytes]; lia|].
  exists f. splits; auto. destruct L as (_ & _ & -> & _). rewrite E.
  assert (65536 <= 1875000 / raw) by (apply Z.div_le_lower_bound; lia).
  pose proof (Z.mod_pos_bound (1875000 / raw) 65536). lia.
Qed.

Lemma boot_name l b : BootInfo_Unmarshal l = Done (b, None) -> trimmed (skipn 3 l) (DeviceName b).
Proof. intros H. apply boot_decodes in H as (_ & _ & _ & _ & H). exact H. Qed.
