(** Properties C52, C53: readers left behind by queries that timed out. *)
From Verif Require Import GoBase Proto SpecProto SpecFrame SpecConn Scanner Conn Proc Lib Samples Leftover.

(** C52: readers left behind and the current query take the arriving pieces in turn, for as long as none
    of them finds a control sequence; the query then times out and its reader is left behind as well,
    with the bytes it got. *)
Theorem C52_in_turn : forall c expect chunks rest,
  c_pend c = pieces chunks ++ rest -> (rest = [] \/ exists r, rest = Expire :: r) ->
  Forall (fun bs => bs <> []) chunks -> Forall (blocked (len (concat chunks))) (c_orph c) -> len (concat chunks) <= 4096 ->
  let after := deal (map s_data (c_orph c) ++ [[]]) chunks in
  Forall clean after ->
  exists c', ReadPacket c expect = (Done (zero_packet, Some ErrTimeout), c') /\
    c_pend c' = tl rest /\ c_dev c' = c_dev c /\ map s_data (c_orph c') = after.
Proof. exact in_turn. Qed.
Print Assumptions C52_in_turn.
(** Two readers left behind, one holding a byte; five pieces. *)
Example C52_ex :
  let c := mkConn (script []) (pieces [[1]; [2]; [3]; [4]; [5]] ++ [Expire; Data [6] None])
             [mkScanner 4096 0 [] None 0; mkScanner 4096 0 [9] None 0] [] in
  Forall (blocked 5) (c_orph c) /\
  deal (map s_data (c_orph c) ++ [[]]) [[1]; [2]; [3]; [4]; [5]] = [[3]; [1; 4]; [9; 2; 5]] /\
  map s_data (c_orph (snd (ReadPacket c true))) = [[3]; [1; 4]; [9; 2; 5]] /\
  c_pend (snd (ReadPacket c true)) = [Data [6] None].
Proof.
  vm_compute. split; [|auto].
  constructor; [|constructor; [|constructor]]; repeat split; discriminate.
Qed.

(** In whatever order they are served. *)
Theorem C52_any_order : forall c expect evs rest,
  c_pend c = evs ++ rest -> (rest = [] \/ exists r, rest = Expire :: r) ->
  Forall arrives evs -> Forall (blocked (len (concat (data_of evs)))) (c_orph c) -> len (concat (data_of evs)) <= 4096 ->
  let after := dealt (map s_data (c_orph c) ++ [[]]) evs in
  Forall clean after ->
  exists c', ReadPacket c expect = (Done (zero_packet, Some ErrTimeout), c') /\
    c_pend c' = tl rest /\ c_dev c' = c_dev c /\ map s_data (c_orph c') = after.
Proof. exact dealt_timeout. Qed.
Print Assumptions C52_any_order.
(** The second of two readers left behind gets everything. *)
Example C52_any_order_ex :
  let evs := [Turn; Data [1] None; Turn; Turn; Data [2] None] in
  let c := mkConn (script []) (evs ++ [Expire]) [mkScanner 4096 0 [] None 0; mkScanner 4096 0 [9] None 0] [] in
  Forall arrives evs /\ Forall (blocked 2) (c_orph c) /\ map s_data (c_orph (snd (ReadPacket c true))) = [[]; []; [9; 1; 2]].
Proof.
  vm_compute. split; [|split; [|auto]].
  - repeat constructor; discriminate.
  - constructor; [|constructor; [|constructor]]; repeat split; discriminate.
Qed.

(** C53: only a timeout leaves a reader behind, and only one.  For every program using the connection. *)
Theorem C53_leftovers_bounded : forall (S A : Type) (p : proc S A) w,
  exists l, c_log (w_conn (snd (run p w))) = c_log (w_conn w) ++ l /\
    (length (c_orph (w_conn (snd (run p w)))) <= length (c_orph (w_conn w)) + timeouts l)%nat.
Proof. intros S A. exact run_orph. Qed.
Print Assumptions C53_leftovers_bounded.
(** The bound is reached: three queries on a silent line. *)
Example C53_ex : let w := snd (run (do _ <- GetFans; do _ <- GetTemperatures; SetSpeed 1) (world0 (script []))) in
  length (c_orph (w_conn w)) = 3%nat /\ timeouts (c_log (w_conn w)) = 3%nat.
Proof. vm_compute. auto. Qed.
