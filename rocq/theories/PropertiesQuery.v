(** Properties C12-C16 and C20: queries, sets and getters of libcomfo. *)
From Verif Require Import GoBase Proto SpecProto SpecFrame SpecConn SpecOps SpecLayout Scanner Conn Proc Lib
  Samples FrameLemmas FrameExamples OpLemmas.

(** C12: see [exchange] for the possible sequences of Write and Read calls. *)
Theorem C12_query_on_the_wire : forall (w : world unit) cmd data expect, w_held w = [] ->
  exists out e c' l,
    run (QueryPacket (mkPacket cmd data expect)) w = (RDone (out, e), set_conn w c') /\
    c_log c' = c_log (w_conn w) ++ l /\ exchange cmd data expect out e l.
Proof. exact query_wire. Qed.
Print Assumptions C12_query_on_the_wire.
Example C12_ex : let w := world0 (script [[Data (reply 12 [50; 45; 7; 208; 7; 208]) None]; []]) in
  c_log (w_conn (snd (run (QueryPacket (mkPacket 11 [] true)) w))) =
  [Wr (framed 11 []) (mkWres 8 None); Rd true (mkPacket 12 [50; 45; 7; 208; 7; 208] false) None;
   Wr [7; 243] (mkWres 2 None)].
Proof. vm_compute. reflexivity. Qed.

Theorem C13_success_has_matching_reply : forall (w w' : world unit) cmd data out,
  w_held w = [] -> (cmd + 1) mod 256 <> 0 ->
  run (QueryPacket (mkPacket cmd data true)) w = (RDone (out, None), w') ->
  p_cmd out = (cmd + 1) mod 256 /\
  exists d evs r used rest got body,
    react (c_dev (w_conn w)) (framed cmd data) = (d, evs, r) /\ w_err r = None /\
    c_pend (w_conn w) ++ evs = used ++ rest /\ sublist got (data_of used) /\
    framed_body got body /\ verified body (p_cmd out) (p_data out).
Proof. exact query_success. Qed.
Print Assumptions C13_success_has_matching_reply.
Example C13_ex : let w := world0 (script [[Data [7; 243; 7; 240; 0; 210; 1] None; Data [9; 137; 7; 15] None]; []]) in
  (209 + 1) mod 256 <> 0 /\
  fst (run (QueryPacket (mkPacket 209 [] true)) w) = RDone (mkPacket 210 [9] false, None).
Proof. split; [discriminate|vm_compute; reflexivity]. Qed.

(** C14 is false: see [C14_no_ack_refuted].  It holds in this weaker form: without read
    errors, floods and endless empty reads, some control sequence came first. *)
Theorem C14_set_saw_control_sequence_partial : forall (op : proc unit (option err)) (w w' : world unit),
  ((exists v, op = SetSpeed v) \/ (exists v, op = SetComfort v) \/ (exists fp, op = SetFanProfiles fp)) ->
  w_held w = [] -> run op w = (RDone None, w') ->
  exists request d evs r, react (c_dev (w_conn w)) request = (d, evs, r) /\ w_err r = None /\
    (calm (c_pend (w_conn w) ++ evs) -> exists used rest got k extra,
       c_pend (w_conn w) ++ evs = used ++ rest /\ sublist got (data_of used) /\ ctl k /\
       concat got = 7 :: k :: extra).
Proof. exact set_acked. Qed.
Print Assumptions C14_set_saw_control_sequence_partial.
Example C14_ex : let w := world0 (script [[Data [7; 243] None]]) in
  fst (run (SetSpeed 3) w) = RDone None /\ calm [Data [7; 243] None].
Proof.
  split; [vm_compute; reflexivity|]. split; [|split; [discriminate|apply Nat.leb_le; reflexivity]].
  intros bs e [H|[]]. discriminate.
Qed.
(** The unit only reports end of file, or sends a frame end: the set succeeds without ACK. *)
Theorem C14_no_ack_refuted : exists w1 w2 w1' w2' : world unit,
  w_held w1 = [] /\ quiet (w_conn w1) /\
  react (c_dev (w_conn w1)) (framed 153 [3]) = (script [], [Data [] (Some SEof)], mkWres 9 None) /\
  run (SetSpeed 3) w1 = (RDone None, w1') /\
  w_held w2 = [] /\ quiet (w_conn w2) /\
  react (c_dev (w_conn w2)) (framed 153 [3]) = (script [], [Data [7; 15] None], mkWres 9 None) /\
  run (SetSpeed 3) w2 = (RDone None, w2').
Proof. exact no_ack_needed. Qed.
Print Assumptions C14_no_ack_refuted.

(** C15 holds only while no earlier query has left a reader behind. *)
Theorem C15_own_reply_partial : forall (w : world unit) req rd data chunks, w_held w = [] -> quiet (w_conn w) ->
  (length rd <= 255)%nat -> replies (w_conn w) (framed req rd) chunks ->
  concat chunks = reply ((req + 1) mod 256) data -> readable ((req + 1) mod 256) data ->
  exists e c' r r2, run (QueryPacket (mkPacket req rd true)) w =
    (RDone (mkPacket ((req + 1) mod 256) data false, e), set_conn w c') /\
    c_log c' = c_log (w_conn w) ++
      [Wr (framed req rd) r; Rd true (mkPacket ((req + 1) mod 256) data false) None; Wr ack_seq r2] /\
    (w_err r2 = None -> w_n r2 = 2 -> e = None).
Proof. exact query_quiet. Qed.
Print Assumptions C15_own_reply_partial.
(** After one lost reply, a unit that answers every further request at once and correctly
    is never heard again: every later query times out. *)
Theorem C15_never_heard_again : forall (w : world unit) d r data n,
  bytes_ok data -> (length data <= 255)%nat -> w_held w = [] -> quiet (w_conn w) ->
  react (c_dev (w_conn w)) (framed 209 []) = (d, [], r) -> w_err r = None ->
  prompt (framed 209 []) (reply 210 data) d ->
  repeat_run (S n) GetTemperatures w = repeat (RDone (zeroTemps, Some ErrTimeout)) (S n).
Proof. exact never_heard_again. Qed.
Print Assumptions C15_never_heard_again.
Theorem C15_after_timeout_refuted : exists (w : world unit) d r data,
  w_held w = [] /\ quiet (w_conn w) /\ bytes_ok data /\ length data = 9%nat /\ readable 210 data /\
  react (c_dev (w_conn w)) (framed 209 []) = (d, [], r) /\ w_err r = None /\
  prompt (framed 209 []) (reply 210 data) d /\
  forall n, repeat_run (S n) GetTemperatures w = repeat (RDone (zeroTemps, Some ErrTimeout)) (S n).
Proof. exact never_heard_refuted. Qed.
Print Assumptions C15_after_timeout_refuted.
Example C15_ex : let w := world0 (answering (framed 209 []) (reply 210 [80; 60; 70; 72; 66; 15; 40; 40; 40])) in
  quiet (w_conn w) /\
  replies (w_conn w) (framed 209 []) [reply 210 [80; 60; 70; 72; 66; 15; 40; 40; 40]] /\
  readable 210 [80; 60; 70; 72; 66; 15; 40; 40; 40].
Proof.
  split; [split; reflexivity|]. split; [|apply clean_check; reflexivity].
  split; [chunks_ok|]. split; [discriminate|]. eexists; eexists; split; reflexivity.
Qed.

(** C16 *)
Theorem C16_speed : forall (w : world unit) v, w_held w = [] ->
  (4 < v -> run (SetSpeed v) w = (RDone (Some ErrTooHigh), w)) /\
  (v <= 4 -> exists e c' out l, run (SetSpeed v) w = (RDone e, set_conn w c') /\
     c_log c' = c_log (w_conn w) ++ l /\ exchange 153 [v] false out e l).
Proof. exact set_speed_ok. Qed.
Print Assumptions C16_speed.
Theorem C16_comfort : forall (w : world unit) v, w_held w = [] -> 0 <= v <= 255 ->
  (107 < v -> run (SetComfort v) w = (RDone (Some ErrTooHigh), w)) /\
  (v <= 107 -> exists e c' out l, run (SetComfort v) w = (RDone e, set_conn w c') /\
     c_log c' = c_log (w_conn w) ++ l /\ exchange 211 [2 * (v + 20)] false out e l).
Proof. exact set_comfort_ok. Qed.
Print Assumptions C16_comfort.
Theorem C16_profile : forall (w : world unit) mode speed, w_held w = [] -> 0 <= mode ->
  (3 < mode -> run (SetFanProfile mode speed) w = (RDone (Some ErrUnknownMode), w)) /\
  (mode <= 3 -> 100 < speed -> run (SetFanProfile mode speed) w = (RDone (Some ErrTooHigh), w)) /\
  (mode <= 3 -> speed <= 100 -> exists e c' q qe l, run (SetFanProfile mode speed) w = (RDone e, set_conn w c') /\
     exchange 205 [] true q qe l /\
     ((e <> None /\ c_log c' = c_log (w_conn w) ++ l) \/
      (qe = None /\ length (p_data q) = 14%nat /\ exists out l2, c_log c' = c_log (w_conn w) ++ l ++ l2 /\
         exchange 207 (profile_request (p_data q) mode speed) false out e l2))).
Proof. exact set_profile_ok. Qed.
Print Assumptions C16_profile.
Example C16_ex : let p := [15; 35; 50; 15; 35; 50; 35; 35; 2; 1; 70; 70; 0; 0] in
  let w := world0 (script [[Data (reply 206 p) None]; []; [Data [7; 243] None]; []]) in
  fst (run (SetFanProfile 2 60) w) = RDone None /\
  nth_error (c_log (w_conn (snd (run (SetFanProfile 2 60) w)))) 3 =
    Some (Wr (framed 207 [15; 35; 60; 15; 35; 60; 70; 70]) (mkWres 16 None)).
Proof. vm_compute. auto. Qed.

(** C20 *)
Theorem C20_getters :
  getter_behaves GetFans 11 zeroFans (fun l v => length l = 6%nat /\ be_at l 2 2 <> 0 /\ be_at l 4 2 <> 0 /\ fans_layout l v) /\
  getter_behaves GetBootloader 103 zeroBoot (fun l v => length l = 13%nat /\ boot_layout l v) /\
  getter_behaves GetFirmware 105 zeroBoot (fun l v => length l = 13%nat /\ boot_layout l v) /\
  getter_behaves GetFanProfiles 205 zeroProf (fun l v => length l = 14%nat /\ profiles_layout l v) /\
  getter_behaves GetTemperatures 209 zeroTemps (fun l v => length l = 9%nat /\ (bytes_ok l -> temps_layout l v)) /\
  getter_behaves GetErrors 217 zeroErrors (fun l v => length l = 17%nat /\ errors_layout l v) /\
  getter_behaves GetHours 221 zeroHours (fun l v => length l = 20%nat /\ hours_layout l v) /\
  getter_behaves GetBypass 223 zeroBypass (fun l v => length l = 7%nat /\ bypass_layout l v).
Proof. exact getters_ok. Qed.
Print Assumptions C20_getters.
Example C20_ex : 
  fst (run GetFans (world0 (script [[Data (reply 12 [50; 45; 8; 0; 9; 0]) None]]))) = RDone (mkFans 50 45 915 813, None) /\
  fst (run GetFans (world0 (script [[Data (reply 12 [50; 45; 0; 0; 9; 0]) None]]))) = RDone (zeroFans, Some ErrZeroValue).
Proof. vm_compute. auto. Qed.
