(** Properties C07-C11: framing and reading. *)
From Verif Require Import GoBase Proto SpecProto SpecFrame SpecConn SpecOps Scanner Conn Proc Lib Samples
  FrameLemmas FrameExamples QueryProofs.

(** C07: reading a reply the unit framed, followed by anything. *)
Theorem C07_reply_exact_or_rejected : forall c chunks cmd data extra,
  delivers c chunks -> concat chunks = reply cmd data ++ extra ->
  (readable cmd data -> fst (ReadPacket c true) = Done (mkPacket cmd data false, None)) /\
  (~ readable cmd data -> exists e, fst (ReadPacket c true) = Done (zero_packet, Some e)).
Proof. exact read_reply. Qed.
Print Assumptions C07_reply_exact_or_rejected.
Example C07_ex : let ch := [[7]; [243; 7; 240; 0]; [210; 2; 7]; []; [7; 9; 145]; [7; 15]] in
  delivers (waiting ch) ch /\ concat ch = reply 210 [7; 9] ++ [] /\ readable 210 [7; 9].
Proof.
  cbv zeta. split; [|split; [reflexivity|apply clean_check; reflexivity]].
  split; [reflexivity|]. split; [reflexivity|]. split; [|discriminate].
  intros a b E. apply (f_equal (@length _)) in E. rewrite !app_length, repeat_length in E. simpl in E. lia.
Qed.

(** C08 is false for replies with 0x07 before 0x0F, 0xF0, 0xF3; it holds for all others. *)
Theorem C08_readable_partial : forall c chunks cmd data,
  delivers c chunks -> concat chunks = reply cmd data -> readable cmd data ->
  fst (ReadPacket c true) = Done (mkPacket cmd data false, None).
Proof. exact read_reply_readable. Qed.
Print Assumptions C08_readable_partial.
(** For every command and every payload length from 2 there is a payload that is never read. *)
Theorem C08_unreadable_refuted : forall cmd n, (2 <= n)%nat -> exists data, length data = n /\ bytes_ok data /\
  forall c chunks, delivers c chunks -> concat chunks = reply cmd data ->
    exists e, fst (ReadPacket c true) = Done (zero_packet, Some e).
Proof. exact unreadable_refuted. Qed.
Print Assumptions C08_unreadable_refuted.
Example C08_ex : fst (ReadPacket (waiting [reply 210 [7; 15; 0; 0; 0; 0; 0; 0; 0]]) true)
  = Done (zero_packet, Some ErrPayloadSize).
Proof. vm_compute. reflexivity. Qed.

Theorem C09_chunking_irrelevant : forall c1 c2 ch1 ch2 expect,
  delivers c1 ch1 -> delivers c2 ch2 -> concat ch1 = concat ch2 ->
  fst (ReadPacket c1 expect) = fst (ReadPacket c2 expect).
Proof. exact read_chunking. Qed.
Print Assumptions C09_chunking_irrelevant.
Example C09_ex : let a := [[7; 243; 7; 240; 0; 12; 1; 7; 7; 193; 7; 15]] in
  let b := [[7]; [243]; []; [7; 240; 0; 12; 1; 7]; [7; 193; 7]; [15]] in
  concat a = concat b /\
  fst (ReadPacket (waiting a) true) = Done (mkPacket 12 [7] false, None) /\
  fst (ReadPacket (waiting b) true) = Done (mkPacket 12 [7] false, None).
Proof. vm_compute. auto. Qed.

(** C10: [ReadPacket] is total in the model; it never panics, and what it returns
    besides the zero packet was verified and came from this connection. *)
Theorem C10_read_total : forall c expect, exists p e c', ReadPacket c expect = (Done (p, e), c') /\
  (p <> zero_packet -> e = None /\ expect = true /\ exists used got body,
     c_pend c = used ++ c_pend c' /\ sublist got (data_of used) /\
     framed_body got body /\ verified body (p_cmd p) (p_data p)).
Proof. exact read_total. Qed.
Print Assumptions C10_read_total.
Example C10_ex :
  fst (ReadPacket (mkConn (script []) [Data [7; 243; 7] (Some SEof)] [] []) true) = Done (zero_packet, None) /\
  fst (ReadPacket (mkConn (script []) [Data [1; 7; 243] None] [] []) true) = Done (zero_packet, Some ErrScanInput) /\
  fst (ReadPacket (mkConn (script []) [Expire] [] []) true) = Done (zero_packet, Some ErrTimeout).
Proof. vm_compute. auto. Qed.

(** C11: exactly one byte of the reply is replaced. *)
Theorem C11_query_partial : forall (w w' : world unit) req rd cmd data chunks a x y b out,
  w_held w = [] -> quiet (w_conn w) -> (length rd <= 255)%nat -> (req + 1) mod 256 <> 0 ->
  byte_ok cmd -> bytes_ok data -> (length data <= 255)%nat -> readable cmd data ->
  replies (w_conn w) (framed req rd) chunks ->
  reply cmd data = a ++ x :: b -> concat chunks = a ++ y :: b -> byte_ok y -> y <> x ->
  run (QueryPacket (mkPacket req rd true)) w = (RDone (out, None), w') ->
  out = mkPacket cmd data false.
Proof. exact query_corrupt_readable. Qed.
Print Assumptions C11_query_partial.
(** Missing in it: payloads that are not [readable]; for them the statement is false. *)
Theorem C11_query_refuted : exists data chunks a x y b out w',
  bytes_ok data /\ byte_ok y /\ y <> x /\
  reply 210 data = a ++ x :: b /\ concat chunks = a ++ y :: b /\
  let w := world0 (script [pieces chunks]) in
  quiet (w_conn w) /\ replies (w_conn w) (framed 209 []) chunks /\
  run (QueryPacket (mkPacket 209 [] true)) w = (RDone (out, None), w') /\
  out <> mkPacket 210 data false.
Proof. exact corrupt_refuted. Qed.
Print Assumptions C11_query_refuted.
(** The getters only accept the fixed length of their reply and are never misled. *)
Theorem C11_getters :
  never_misled GetFans 11 6 Fans_Unmarshal /\ never_misled GetBootloader 103 13 BootInfo_Unmarshal /\
  never_misled GetFirmware 105 13 BootInfo_Unmarshal /\ never_misled GetFanProfiles 205 14 FanProfiles_Unmarshal /\
  never_misled GetTemperatures 209 9 Temps_Unmarshal /\ never_misled GetErrors 217 17 Errors_Unmarshal /\
  never_misled GetHours 221 20 Hours_Unmarshal /\ never_misled GetBypass 223 7 Bypass_Unmarshal.
Proof. exact getters_corrupt. Qed.
Print Assumptions C11_getters.
(** The first frame byte may be wrong without harm: here the query succeeds all the same. *)
Example C11_ex : let ch := [[7; 243; 7; 240; 9; 224; 7; 0; 0; 1; 2; 3; 0; 1; 155; 7; 15]] in
  let w := world0 (script [pieces ch]) in
  quiet (w_conn w) /\ replies (w_conn w) (framed 223 []) ch /\
  reply 224 [0; 0; 1; 2; 3; 0; 1] = [7; 243; 7; 240] ++ 0 :: [224; 7; 0; 0; 1; 2; 3; 0; 1; 155; 7; 15] /\
  concat ch = [7; 243; 7; 240] ++ 9 :: [224; 7; 0; 0; 1; 2; 3; 0; 1; 155; 7; 15] /\
  fst (run GetBypass w) = RDone (mkBypass 1 2 3 true, None).
Proof.
  cbv zeta. split; [split; reflexivity|]. split; [|vm_compute; auto].
  split; [chunks_ok|]. split; [discriminate|]. eexists; eexists; split; reflexivity.
Qed.
