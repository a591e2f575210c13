(** Vocabulary for statements about the connection. *)
From Verif Require Import GoBase Proto SpecProto SpecFrame Scanner Conn.

(** [got] is obtained from [l] by leaving out elements. *)
Inductive sublist {A} : list A -> list A -> Prop :=
| sub_nil : sublist [] []
| sub_skip x a b : sublist a b -> sublist a (x :: b)
| sub_keep x a b : sublist a b -> sublist (x :: a) (x :: b).

(** The pieces of data among read-side events. *)
Fixpoint data_of (evs : list ev) : list (list Z) :=
  match evs with
  | [] => []
  | Data bs _ :: r => bs :: data_of r
  | _ :: r => data_of r
  end.

(** No Read call fails. *)
Definition no_read_error (evs : list ev) : Prop :=
  forall bs e, In (Data bs (Some e)) evs -> False.
(** Number of Read calls that return nothing. *)
Definition empty_reads (evs : list ev) : nat :=
  length (filter (fun e => match e with Data [] None => true | _ => false end) evs).
(** An ordinary line: no read error, few bytes outstanding, few empty reads. *)
Definition calm (evs : list ev) : Prop :=
  no_read_error evs /\ len (concat (data_of evs)) <= 4096 /\ (empty_reads evs <= 100)%nat.

(** Bytes arriving in the given pieces, without read errors. *)
Definition pieces (chunks : list (list Z)) : list ev := map (fun bs => Data bs None) chunks.
(** Never more than 100 Read calls in a row return nothing. *)
Definition few_empty (chunks : list (list Z)) : Prop :=
  forall a b, chunks <> a ++ repeat [] 101 ++ b.
(** A line on which no earlier reader is left over and the given pieces are all that arrives. *)
Definition delivers (c : conn) (chunks : list (list Z)) : Prop :=
  c_pend c = pieces chunks /\ c_orph c = [] /\ few_empty chunks /\ len (concat chunks) <= 4096.

(** A request or reply packet between frame start and frame end. *)
Definition framed (cmd : Z) (data : list Z) : list Z := [7; 240] ++ wire cmd data ++ [7; 15].
(** The acknowledgement sequence. *)
Definition ack_seq : list Z := [7; 243].

(** Nothing is left over on the connection from earlier queries: no unread data, no
    reader still waiting. *)
Definition quiet (c : conn) : Prop := c_pend c = [] /\ c_orph c = [].
(** Written with [request], the unit answers with the given pieces. *)
Definition replies (c : conn) (request : list Z) (chunks : list (list Z)) : Prop :=
  few_empty chunks /\ len (concat chunks) <= 4096 /\
  exists d r, react (c_dev c) request = (d, pieces chunks, r) /\ w_err r = None.

(** The data handed to a reader hold a control sequence, another one directly behind it,
    then [body], then a control sequence, none of them earlier than that. *)
Definition framed_body (got : list (list Z)) (body : list Z) : Prop :=
  exists k1 k2 k3 extra, ctl k1 /\ ctl k2 /\ ctl k3 /\ clean (body ++ [7]) /\
    concat got = 7 :: k1 :: 7 :: k2 :: body ++ 7 :: k3 :: extra.

(** [body] carries [cmd] and [data] with matching length and checksum. *)
Definition verified (body : list Z) (cmd : Z) (data : list Z) : Prop :=
  exists z raw, unescaped raw data /\
    body = z :: cmd :: Z.of_nat (length data) :: raw ++ [cksum_byte cmd data].

(** What one query does on the connection (log entries in order), its resulting packet
    and error.  [cmd], [data], [expect] describe the request. *)
Inductive exchange (cmd : Z) (data : list Z) (expect : bool) : packet -> option err -> list io -> Prop :=
| ex_too_long : (255 < length data)%nat ->
    exchange cmd data expect zero_packet (Some ErrTooLong) []
| ex_write_failed r e : (length data <= 255)%nat -> w_err r = Some e ->
    exchange cmd data expect zero_packet (Some e) [Wr (framed cmd data) r]
| ex_read_failed r e : (length data <= 255)%nat -> w_err r = None ->
    exchange cmd data expect zero_packet (Some e)
             [Wr (framed cmd data) r; Rd expect zero_packet (Some e)]
| ex_other_reply r p : (length data <= 255)%nat -> w_err r = None -> expect = true ->
    p_cmd p <> (cmd + 1) mod 256 ->
    exchange cmd data expect p (Some ErrInvalidResponse) [Wr (framed cmd data) r; Rd expect p None]
| ex_acked r p r2 e : (length data <= 255)%nat -> w_err r = None ->
    (expect = true -> p_cmd p = (cmd + 1) mod 256) ->
    (w_err r2 = None /\ w_n r2 = 2 -> e = None) ->
    (w_err r2 = None /\ w_n r2 <> 2 -> e = Some ErrAck) ->
    (w_err r2 <> None -> e = w_err r2) ->
    exchange cmd data expect p e [Wr (framed cmd data) r; Rd expect p None; Wr ack_seq r2].

(** Pieces handed out one by one to the reader at the head of a queue, who keeps what it had and
    queues up again. *)
Fixpoint deal (queue : list (list Z)) (chunks : list (list Z)) : list (list Z) :=
  match chunks with
  | [] => queue
  | bs :: r => match queue with x :: q => deal (q ++ [x ++ bs]) r | [] => [] end
  end.
(** The same when the one at the head may have to step back. *)
Fixpoint dealt (queue : list (list Z)) (evs : list ev) : list (list Z) :=
  match evs with
  | Data bs _ :: r => match queue with x :: q => dealt (q ++ [x ++ bs]) r | [] => [] end
  | Turn :: r => match queue with x :: q => dealt (q ++ [x]) r | [] => [] end
  | _ => queue
  end.
(** Bytes arrive, without errors, for one reader or another. *)
Definition arrives (x : ev) : Prop := match x with Data bs e => bs <> [] /\ e = None | Expire => False | Turn => True end.
(** A left-over reader blocked in Read, as a timed-out query leaves it: no error, room in its
    buffer for [room] more bytes. *)
Definition blocked (room : Z) (s : scanner) : Prop :=
  s_err s = None /\ 0 <= s_start s /\ 4096 <= s_buflen s /\ s_start s + len (s_data s) + room <= 4096.
(** Timeouts of ReadPacket in a log. *)
Definition timeouts (l : list io) : nat :=
  length (filter (fun x => match x with Rd _ _ (Some ErrTimeout) => true | _ => false end) l).
