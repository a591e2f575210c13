(** Lemmas behind the theorems of PropertiesFrame.v and PropertiesQuery.v (C07-C16, C20). *)
From Verif Require Import ProofBase Proto SpecProto SpecFrame SpecConn SpecOps ProtoProofs Scanner Conn
  FrameProofs ReplyProofs ReadProofs Proc Lib QueryProofs.

(** ** reading *)
Lemma read_reply c chunks cmd data extra : delivers c chunks -> concat chunks = reply cmd data ++ extra ->
  (readable cmd data -> fst (ReadPacket c true) = Done (mkPacket cmd data false, None)) /\
  (~ readable cmd data -> exists e, fst (ReadPacket c true) = Done (zero_packet, Some e)).
Proof.
  intros D E. rewrite (read_delivers _ _ _ D), E. split.
  - apply reply_readable.
  - apply reply_unreadable.
Qed.

Lemma read_chunking c1 c2 ch1 ch2 expect : delivers c1 ch1 -> delivers c2 ch2 ->
  concat ch1 = concat ch2 -> fst (ReadPacket c1 expect) = fst (ReadPacket c2 expect).
Proof. intros D1 D2 E. rewrite (read_delivers _ _ _ D1), (read_delivers _ _ _ D2), E. reflexivity. Qed.

Lemma verified_of_unmarshal body p : UnmarshalPacket body = Done (p, None) ->
  verified body (p_cmd p) (p_data p) /\ p_expect p = false.
Proof.
  intros H. destruct (Nat.lt_ge_cases (length body) 4) as [L|L].
  - rewrite unmarshal_short in H by auto. discriminate.
  - destruct (at_least_4 body L) as (z & c & n & raw & ck & ->). rewrite unmarshal_eq in H. cbv zeta in H.
    destruct (negb _) eqn:E1; [discriminate|]. destruct (negb _) eqn:E2 in H; [discriminate|].
    injection H as <-. cbn [p_cmd p_data p_expect]. split; auto. exists z, raw. split; [apply unescape_spec|].
    apply negb_false_iff, Z.eqb_eq in E1. apply negb_false_iff, Z.eqb_eq in E2.
    unfold cksum_byte. congruence.
Qed.

Lemma read_total c expect : exists p e c', ReadPacket c expect = (Done (p, e), c') /\
  (p <> zero_packet -> e = None /\ expect = true /\ exists used got body,
     c_pend c = used ++ c_pend c' /\ sublist got (data_of used) /\
     framed_body got body /\ verified body (p_cmd p) (p_data p)).
Proof.
  destruct (ReadPacket c expect) as [o c'] eqn:R.
  pose proof (read_packet_inv _ _ _ _ R) as (_ & p & e & used & got & -> & P & Sub & H).
  exists p, e, c'. split; auto. intros N. destruct H as [?|(-> & X & body & F & U)]; [contradiction|].
  splits; auto. exists used, got, body. splits; auto. apply verified_of_unmarshal; auto.
Qed.

(** ** one query *)
Lemma frame_framed p : frame p = framed (p_cmd p) (p_data p).
Proof. reflexivity. Qed.

Lemma query_exchange p c : exists l,
  c_log (snd (query p c)) = c_log c ++ l /\
  exchange (p_cmd p) (p_data p) (p_expect p) (fst (fst (query p c))) (snd (fst (query p c))) l.
Proof.
  unfold query. destruct (_ >? 255) eqn:L.
  { exists []. rewrite app_nil_r. split; auto. apply ex_too_long. lia. }
  assert (L' : (length (p_data p) <= 255)%nat) by lia. clear L.
  destruct (conn_write c (frame p)) as [r c1] eqn:W1.
  assert (L1 : c_log c1 = c_log c ++ [Wr (framed (p_cmd p) (p_data p)) r]).
  { unfold conn_write in W1. destruct (react _ _) as [[? ?] ?]. injection W1 as <- <-. reflexivity. }
  destruct (w_err r) as [e|] eqn:E1.
  { eexists; split; [exact L1|]. apply ex_write_failed; auto. }
  destruct (ReadPacket c1 (p_expect p)) as [o c2] eqn:R.
  pose proof (read_packet_inv _ _ _ _ R) as ((_ & Lg) & out & e & used & got & -> & _ & _ & H).
  cbv zeta. destruct e as [e|].
  { assert (out = zero_packet) as -> by (destruct H as [?|(? & _)]; [auto|discriminate]).
    eexists; split; [simpl; rewrite Lg, L1, <- app_assoc; reflexivity|].
    apply ex_read_failed; auto. }
  destruct (p_expect p && negb (p_cmd out =? u8 (p_cmd p + 1))) eqn:E2.
  { apply andb_true_iff in E2 as [X N]. apply negb_true_iff, Z.eqb_neq in N.
    eexists; split; [simpl; rewrite Lg, L1, <- app_assoc; reflexivity|].
    simpl. apply ex_other_reply; auto. }
  destruct (conn_write (log_io c2 _) [7; 243]) as [r2 c4] eqn:W2.
  assert (L2 : c_log c4 = c_log c2 ++ [Rd (p_expect p) out None; Wr ack_seq r2]).
  { unfold conn_write in W2. destruct (react _ _) as [[? ?] ?]. injection W2 as <- <-. simpl.
    rewrite <- app_assoc. reflexivity. }
  eexists; split; [simpl; rewrite L2, Lg, L1, <- app_assoc; reflexivity|].
  simpl. apply ex_acked; auto; unfold ack_err.
  - intros X. rewrite X in E2. simpl in E2. apply negb_false_iff, Z.eqb_eq in E2. exact E2.
  - intros [-> ->]. reflexivity.
  - intros [-> N]. destruct (Z.eqb_spec (w_n r2) 2); congruence.
  - intros N. destruct (w_err r2); congruence.
Qed.

Lemma idle_pm {S} (w : world S) : w_held w = [] -> can_lock (w_held w) LPm = true.
Proof. intros ->. reflexivity. Qed.
Lemma idle_am {S} (w : world S) : w_held w = [] -> can_lock (w_held w) LAm = true.
Proof. intros ->. reflexivity. Qed.

Lemma query_wire {S} (w : world S) cmd data expect : w_held w = [] ->
  exists out e c' l,
    run (QueryPacket (mkPacket cmd data expect)) w = (RDone (out, e), set_conn w c') /\
    c_log c' = c_log (w_conn w) ++ l /\ exchange cmd data expect out e l.
Proof.
  intros I. rewrite run_query by auto using idle_pm.
  destruct (query_exchange (mkPacket cmd data expect) (w_conn w)) as (l & Lg & X).
  destruct (query _ _) as [[out e] c']. exists out, e, c', l. auto.
Qed.

(** A data query that succeeds. *)
Lemma query_success {S} (w w' : world S) cmd data out : w_held w = [] -> (cmd + 1) mod 256 <> 0 ->
  run (QueryPacket (mkPacket cmd data true)) w = (RDone (out, None), w') ->
  p_cmd out = (cmd + 1) mod 256 /\
  exists d evs r used rest got body,
    react (c_dev (w_conn w)) (framed cmd data) = (d, evs, r) /\ w_err r = None /\
    c_pend (w_conn w) ++ evs = used ++ rest /\ sublist got (data_of used) /\
    framed_body got body /\ verified body (p_cmd out) (p_data out).
Proof.
  intros I N H. rewrite run_query in H by auto using idle_pm.
  destruct (query _ _) as [[out' e] c'] eqn:Q. injection H as <- -> <-.
  pose proof (query_cmd _ _ _ _ Q eq_refl) as C. split; [exact C|].
  unfold query in Q. destruct (_ >? 255); [discriminate|].
  unfold conn_write at 1 in Q. rewrite frame_framed in Q. cbn [p_cmd p_data] in Q.
  destruct (react _ (framed cmd data)) as [[d evs] r] eqn:R1.
  destruct (w_err r) eqn:E1; [discriminate|].
  match goal with H : context [ReadPacket ?x _] |- _ => set (c1 := x) in H end.
  destruct (ReadPacket c1 _) as [o c2] eqn:R.
  pose proof (read_packet_inv _ _ _ _ R) as (_ & p & e & used & got & -> & P & Sub & H).
  cbv zeta in Q. destruct e as [e|]; [discriminate|].
  destruct (_ && _) eqn:E2; [discriminate|]. destruct (conn_write _ _) in Q. injection Q as -> _ _.
  destruct H as [->|(_ & _ & body & F & U)]; [unfold u8 in C; simpl in C; congruence|].
  apply verified_of_unmarshal in U as [V _].
  exists d, evs, r, used, (c_pend c2), got, body. splits; auto.
Qed.

(** A set that succeeds on a calm line. *)
Lemma set_success r c c' : setq r c = (None, c') ->
  exists cmd data d evs r0, EncodeSetRequest r = (mkPacket cmd data false, None) /\
    react (c_dev c) (framed cmd data) = (d, evs, r0) /\ w_err r0 = None /\
    (calm (c_pend c ++ evs) -> exists used rest got k extra,
       c_pend c ++ evs = used ++ rest /\ sublist got (data_of used) /\ ctl k /\ concat got = 7 :: k :: extra).
Proof.
  unfold setq. destruct (EncodeSetRequest r) as [sr [e|]] eqn:E; [discriminate|].
  assert (X : sr = mkPacket (p_cmd sr) (p_data sr) false).
  { unfold EncodeSetRequest in E. destruct (_ =? _); [discriminate|].
    destruct (SetRequest_MarshalBinary r) as [b [?|]]; [discriminate|]. injection E as <-. reflexivity. }
  destruct (query sr c) as [[p e] c0] eqn:Q. intros H. injection H as -> _.
  unfold query in Q. destruct (_ >? 255); [discriminate|].
  unfold conn_write at 1 in Q. rewrite frame_framed in Q.
  destruct (react _ (framed _ _)) as [[d evs] r0] eqn:R1.
  destruct (w_err r0) eqn:E1; [discriminate|].
  exists (p_cmd sr), (p_data sr), d, evs, r0. splits; auto; [congruence|]. intros Ca.
  rewrite X in Q. cbn [p_expect] in Q.
  match goal with H : context [ReadPacket ?x _] |- _ => set (c1 := x) in H end.
  destruct (ReadPacket c1 _) as [o c2] eqn:R.
  pose proof (read_packet_inv _ _ _ _ R) as (_ & p' & e' & _ & _ & -> & _).
  cbv zeta in Q. destruct e' as [e'|]; [discriminate|].
  apply read_ack_inv in R as (used & got & k & extra & P & Sub & C & Cc); [|exact Ca].
  exists used, (c_pend c2), got, k, extra. auto.
Qed.

(** ** a reply with one wrong byte *)
Lemma nth_error_mid {A} (a : list A) x b : nth_error (a ++ x :: b) (length a) = Some x.
Proof. rewrite nth_error_app2, Nat.sub_diag; auto. Qed.
Lemma query_replies p c chunks : quiet c -> (length (p_data p) <= 255)%nat ->
  replies c (framed (p_cmd p) (p_data p)) chunks ->
  exists out e c', query p c = ((out, e), c') /\
  match pure_read (p_expect p) (concat chunks) with
  | Done (q, Some e') => out = q /\ e = Some e'
  | Done (q, None) => out = q /\ (p_expect p = true -> p_cmd q <> u8 (p_cmd p + 1) -> e <> None)
  | Panic => True
  end.
Proof.
  intros [P O] L (F & T & d & r & R & E). unfold query.
  replace (_ >? 255) with false by lia. unfold conn_write at 1. rewrite frame_framed, R, E, P. cbn [app].
  match goal with |- context [ReadPacket ?x _] => set (c1 := x) end.
  assert (D : delivers c1 chunks) by (unfold delivers, c1; simpl; auto).
  pose proof (read_delivers c1 chunks (p_expect p) D) as Rd.
  destruct (ReadPacket c1 (p_expect p)) as [o c2] eqn:R1.
  pose proof (read_packet_inv _ _ _ _ R1) as (_ & q & e & _ & _ & -> & _).
  cbn [fst] in Rd. rewrite <- Rd. cbv zeta. destruct e as [e|].
  { eexists; eexists; eexists; split; [reflexivity|]. auto. }
  destruct (_ && _) eqn:E2.
  { eexists; eexists; eexists; split; [reflexivity|]. split; auto. intros _ _ ?. discriminate. }
  destruct (conn_write _ _). eexists; eexists; eexists; split; [reflexivity|]. split; auto.
  intros X N. rewrite X in E2. simpl in E2. apply negb_false_iff, Z.eqb_eq in E2. contradiction.
Qed.

Lemma query_corrupt p c chunks cmd data a x y b :
  quiet c -> p_expect p = true -> (length (p_data p) <= 255)%nat -> u8 (p_cmd p + 1) <> 0 ->
  replies c (framed (p_cmd p) (p_data p)) chunks ->
  byte_ok cmd -> bytes_ok data -> (length data <= 255)%nat ->
  reply cmd data = a ++ x :: b -> concat chunks = a ++ y :: b -> byte_ok y -> y <> x ->
  forall out c', query p c = ((out, None), c') ->
  out = mkPacket cmd data false \/ (~ readable cmd data /\ length (p_data out) <> length data).
Proof.
  intros Qt X L N Rp Bc Bd Ld E1 E2 By YX out c' Q.
  destruct (query_replies p c chunks Qt L Rp) as (out' & e & c1 & Q' & H).
  rewrite Q in Q'. injection Q' as <- <- _. rewrite X in H.
  pose proof (reply_corrupt cmd data (length a) x y Bc Bd Ld) as RC.
  rewrite E1, nth_error_mid, subst_at_app, <- E2 in RC.
  destruct (RC eq_refl By YX) as [[Fa|[(e & Fa)|Fa]]|(U & q & Fa & Lq)]; rewrite Fa in H.
  - destruct H as [-> _]. auto.
  - destruct H; discriminate.
  - destruct H as [-> H]. exfalso. apply H; auto.
  - destruct H as [-> _]. auto.
Qed.

(** Decoders check the length. *)
Definition checks_len {T} (dec : list Z -> outcome (T * option err)) (n : nat) : Prop :=
  forall l v, dec l = Done (v, None) -> length l = n.
Ltac chk := intros l v; match goal with |- ?f l = _ -> _ => unfold f end;
  match goal with |- context [Nat.eqb ?a ?b] => destruct (Nat.eqb_spec a b); simpl; [auto|discriminate] end.
Lemma boot_len : checks_len BootInfo_Unmarshal 13. Proof. chk. Qed.
Lemma temps_len : checks_len Temps_Unmarshal 9. Proof. chk. Qed.
Lemma bypass_len : checks_len Bypass_Unmarshal 7. Proof. chk. Qed.
Lemma hours_len : checks_len Hours_Unmarshal 20. Proof. chk. Qed.
Lemma fans_len : checks_len Fans_Unmarshal 6. Proof. chk. Qed.
Lemma prof_len : checks_len FanProfiles_Unmarshal 14. Proof. chk. Qed.
Lemma errors_len : checks_len Errors_Unmarshal 17. Proof. chk. Qed.

Lemma getq_corrupt {T} gr (zero : T) dec n c chunks data a x y b :
  total_dec dec -> checks_len dec n -> byte_ok gr -> gr < 255 -> (n <= 255)%nat ->
  quiet c -> replies c (framed gr []) chunks -> bytes_ok data -> length data = n ->
  reply (gr + 1) data = a ++ x :: b -> concat chunks = a ++ y :: b -> byte_ok y -> y <> x ->
  forall v, fst (getq gr zero dec c) = (v, None) -> dec data = Done (v, None).
Proof.
  intros Td Ck Bg G Ln Qt Rp Bd Ld E1 E2 By YX v H. unfold byte_ok in Bg.
  unfold getq in H. destruct (query _ c) as [[out e] c'] eqn:Q. destruct e; [discriminate|].
  pose proof (query_corrupt (mkPacket gr [] true) c chunks (gr + 1) data a x y b Qt eq_refl) as QC.
  cbn [p_data p_cmd length] in QC.
  destruct (QC ltac:(lia) ltac:(unfold u8; lia) Rp ltac:(unfold byte_ok; lia) Bd ltac:(lia) E1 E2 By YX _ _ Q)
    as [->|[_ Lo]].
  - cbn [p_data] in H. destruct (Td data) as (v' & e & D). rewrite D in H |- *. destruct e; simpl in H; congruence.
  - destruct (dec (p_data out)) as [[v' [e|]]|] eqn:D; try (simpl in H; congruence).
    + apply Ck in D. congruence.
    + destruct (Td (p_data out)) as (? & ? & D'). congruence.
Qed.

Lemma read_reply_readable c chunks cmd data : delivers c chunks -> concat chunks = reply cmd data ->
  readable cmd data -> fst (ReadPacket c true) = Done (mkPacket cmd data false, None).
Proof. intros D E R. apply (read_reply c chunks cmd data []); auto. rewrite app_nil_r; auto. Qed.

Lemma query_corrupt_readable (w w' : world unit) req rd cmd data chunks a x y b out :
  w_held w = [] -> quiet (w_conn w) -> (length rd <= 255)%nat -> (req + 1) mod 256 <> 0 ->
  byte_ok cmd -> bytes_ok data -> (length data <= 255)%nat -> readable cmd data ->
  replies (w_conn w) (framed req rd) chunks ->
  reply cmd data = a ++ x :: b -> concat chunks = a ++ y :: b -> byte_ok y -> y <> x ->
  run (QueryPacket (mkPacket req rd true)) w = (RDone (out, None), w') ->
  out = mkPacket cmd data false.
Proof.
  intros I Qt L N Bc Bd Ld R Rp E1 E2 By YX H. rewrite run_query in H by auto using idle_pm.
  destruct (query _ _) as [[out' e] c'] eqn:Q. injection H as -> -> _.
  destruct (query_corrupt (mkPacket req rd true) (w_conn w) chunks cmd data a x y b
    Qt eq_refl L N Rp Bc Bd Ld E1 E2 By YX _ _ Q) as [?|[? _]]; auto. contradiction.
Qed.

Lemma getter_corrupt {T} (op : proc unit (T * option err)) gr zero dec n :
  (forall w, can_lock (w_held w) LPm = true ->
     run op w = (RDone (fst (getq gr zero dec (w_conn w))), set_conn w (snd (getq gr zero dec (w_conn w))))) ->
  total_dec dec -> checks_len dec n -> byte_ok gr -> gr < 255 -> (n <= 255)%nat -> never_misled op gr n dec.
Proof.
  intros Run Td Ck Bg G Ln w w' chunks data a x y b v I Qt Rp Bd Ld E1 E2 By YX H.
  rewrite Run in H by auto using idle_pm. injection H as H _.
  apply (getq_corrupt gr zero dec n (w_conn w) chunks data a x y b); auto.
Qed.

Lemma getters_corrupt :
  never_misled GetFans 11 6 Fans_Unmarshal /\ never_misled GetBootloader 103 13 BootInfo_Unmarshal /\
  never_misled GetFirmware 105 13 BootInfo_Unmarshal /\ never_misled GetFanProfiles 205 14 FanProfiles_Unmarshal /\
  never_misled GetTemperatures 209 9 Temps_Unmarshal /\ never_misled GetErrors 217 17 Errors_Unmarshal /\
  never_misled GetHours 221 20 Hours_Unmarshal /\ never_misled GetBypass 223 7 Bypass_Unmarshal.
Proof.
  splits; eapply getter_corrupt; try (unfold byte_ok; lia); try lia;
  eauto using run_GetFans, run_GetBootloader, run_GetFirmware, run_GetFanProfiles, run_GetTemperatures,
    run_GetErrors, run_GetHours, run_GetBypass, fans_total, boot_total, prof_total, temps_total,
    errors_total, hours_total, bypass_total, fans_len, boot_len, prof_len, temps_len, errors_len,
    hours_len, bypass_len.
Qed.
