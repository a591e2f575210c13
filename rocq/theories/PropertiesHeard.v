(** C129: what a query makes of anything it hears. *)
From Verif Require Import GoBase Proto SpecProto SpecFrame SpecConn Scanner Conn Proc Lib Samples HeardProofs SpecHeard.

(** ReadPacket, where no other reader is waiting. *)
Theorem C129_read c expect l x : c_orph c = [] -> hears (c_pend c) l x -> modest (c_pend c) -> (expect = true -> ~ In Expire (c_pend c)) ->
  exists p e c', ReadPacket c expect = (Done (p, e), c') /\ judged expect l x p e.
Proof. exact (read_heard c expect l x). Qed.
Print Assumptions C129_read.
(** A query. *)
Theorem C129_query cmd data expect (w : world unit) d evs r l x : w_held w = [] -> quiet (w_conn w) -> (length data <= 255)%nat ->
  react (c_dev (w_conn w)) (framed cmd data) = (d, evs, r) -> w_err r = None -> hears evs l x -> modest evs -> (expect = true -> ~ In Expire evs) ->
  exists q qe e c', run (QueryPacket (mkPacket cmd data expect)) w = (RDone (q, e), set_conn w c') /\ judged expect l x q qe /\
    (qe <> None -> e = qe) /\
    (qe = None -> expect = true -> p_cmd q <> (cmd + 1) mod 256 -> e = Some ErrInvalidResponse) /\
    (qe = None -> (expect = true -> p_cmd q = (cmd + 1) mod 256) -> (e = None <-> takes_ack d)).
Proof. exact (query_heard_run cmd data expect w d evs r l x). Qed.
Print Assumptions C129_query.
(** A data query succeeds exactly if two control sequences, a packet with the right command, and another control sequence are heard. *)
Theorem C129_data cmd rd (w : world unit) d evs r l x : w_held w = [] -> quiet (w_conn w) -> (length rd <= 255)%nat -> (cmd + 1) mod 256 <> 0 ->
  react (c_dev (w_conn w)) (framed cmd rd) = (d, evs, r) -> w_err r = None -> hears evs l x -> modest evs -> ~ In Expire evs -> takes_ack d ->
  exists q e c', run (QueryPacket (mkPacket cmd rd true)) w = (RDone (q, e), set_conn w c') /\
    forall data, (e = None /\ q = mkPacket ((cmd + 1) mod 256) data false) <-> exists l' t, marks 2 l l' /\ before_mark l' t /\ verified t ((cmd + 1) mod 256) data.
Proof. exact (data_heard cmd rd w d evs r l x). Qed.
Print Assumptions C129_data.
(** Something is set successfully exactly if a control sequence comes first, or if none comes before Read fails. *)
Theorem C129_set op cmd data (w : world unit) d evs r l x : sets_with op cmd data -> w_held w = [] -> quiet (w_conn w) ->
  react (c_dev (w_conn w)) (framed cmd data) = (d, evs, r) -> w_err r = None -> hears evs l x -> modest evs -> takes_ack d ->
  exists e c', run op w = (RDone e, set_conn w c') /\
    (e = None <-> (exists k rest, ctl k /\ l = 7 :: k :: rest) \/ (x = Break /\ clean l)).
Proof. exact (set_heard op cmd data w d evs r l x). Qed.
Print Assumptions C129_set.
(** Noise and then the end of the stream: the speed counts as set.  Noise before the acknowledgement: it does not. *)
Example C129_ex :
  let w1 := world0 (script [[Data [1; 7] None; Data [2; 3] (Some SEof)]; []]) in
  let w2 := world0 (script [[Data [1; 7] None; Data [243] None]; []]) in
  quiet (w_conn w1) /\ quiet (w_conn w2) /\ sets_with (SetSpeed 3) 153 [3] /\
  hears [Data [1; 7] None; Data [2; 3] (Some SEof)] [1; 7; 2; 3] Break /\ hears [Data [1; 7] None; Data [243] None] [1; 7; 243] Silence /\
  modest [Data [1; 7] None; Data [243] None] /\ takes_ack (script [[]]) /\
  fst (run (SetSpeed 3) w1) = RDone None /\ fst (run (SetSpeed 3) w2) = RDone (Some ErrScanInput).
Proof.
  cbv zeta. split; [split; reflexivity|]. split; [split; reflexivity|]. split; [constructor; discriminate|].
  split; [apply (he_data [1; 7] _ [2; 3]), he_break|]. split; [apply (he_data [1; 7] _ [243]), (he_data [243] _ []), he_none|].
  split; [split; [discriminate|apply Nat.leb_le; reflexivity]|]. split; [split; reflexivity|]. split; vm_compute; reflexivity.
Qed.
(** A reply in three pieces, with noise behind it. *)
Example C129_reply : let evs := [Data [7; 243; 7] None; Data [240; 9; 210; 1; 5; 133] None; Turn; Data [7; 15; 99] (Some SEof)] in
  hears evs [7; 243; 7; 240; 9; 210; 1; 5; 133; 7; 15; 99] Break /\ ~ In Expire evs /\
  fst (run (QueryPacket (mkPacket 209 [] true)) (world0 (script [evs; []]))) = RDone (mkPacket 210 [5] false, None).
Proof.
  cbv zeta. split; [apply (he_data [7; 243; 7]), (he_data [240; 9; 210; 1; 5; 133]), he_turn, he_break|]. split; [cbn; intuition discriminate|]. vm_compute. reflexivity.
Qed.
