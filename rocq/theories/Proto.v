(** Model of libcomfo/proto.go. *)
From Verif Require Import GoBase.

(** libcomfo/proto.go:6-9 *)
Definition esc : byte := 7.
Definition ack : byte := 243.     (* 0xF3 *)
Definition start : byte := 240.   (* 0xF0 *)
Definition end_ : byte := 15.     (* 0x0F *)

(** libcomfo/proto.go:11-13 *)
Definition pktStart : list byte := [esc; start].
Definition pktEnd : list byte := [esc; end_].
Definition pktAck : list byte := [esc; ack].

(** libcomfo/proto.go:15-20 *)
Definition cmdOffset : nat := 0.
Definition lenOffset : nat := cmdOffset + 2.
Definition dataOffset : nat := lenOffset + 1.

(** libcomfo/proto.go:26-35.  A nil and an empty [Data] slice are identified. *)
Record packet := mkPacket { p_cmd : Z; p_data : list byte; p_expect : bool }.

(** The zero value of [Packet]. *)
Definition zero_packet : packet := mkPacket 0 [] false.

(** libcomfo/proto.go:108-122 *)
Fixpoint escapeData (l : list byte) : list byte :=
  match l with
  | [] => []
  | v :: r => (if v =? 7 then [7] else []) ++ v :: escapeData r
  end.

(** libcomfo/proto.go:125-147.  The index loop with one-byte lookahead as
    recursion on the rest of the slice: a 7 followed by a 7 yields one 7 and
    skips both; a 7 not followed by a 7 yields nothing. *)
Fixpoint unescapeData (l : list byte) : list byte :=
  match l with
  | [] => []
  | b :: r =>
      if b =? 7 then
        match r with
        | b2 :: r2 => if b2 =? 7 then 7 :: unescapeData r2 else unescapeData r
        | [] => unescapeData r
        end
      else b :: unescapeData r
  end.

(** libcomfo/proto.go:151-169.  [tempSum] is a uint64: every addition wraps at 2^64. *)
Definition calculateChecksum (cmd dataLen : Z) (data : list byte) : Z :=
  let t0 := u64 (0 + cmd) in
  let t1 := u64 (t0 + dataLen) in
  let t2 := fold_left (fun s v => u64 (s + v)) data t1 in
  let t3 := u64 (t2 + 173) in
  u8 t3.

(** libcomfo/proto.go:172-175 *)
Definition verifyChecksum (i cmd dataLen : Z) (data : list byte) : bool :=
  i =? calculateChecksum cmd dataLen data.

(** libcomfo/proto.go:43-69 *)
Definition MarshalPacket (p : packet) : outcome (list byte * option err) :=
  let dataLen := length (p_data p) in
  if Z.of_nat dataLen >? 255 then Done ([], Some ErrTooLong)
  else
    let data := escapeData (p_data p) in
    let dataLenWire := length data in
    let out := repeat 0 (dataLenWire + 4) in
    let outLen := (dataLenWire + 4)%nat in
    let! out := copy_at out cmdOffset lenOffset [0; p_cmd p] in
    let! out := set_at out lenOffset (u8 (Z.of_nat dataLen)) in
    let! out := copy_at out dataOffset (dataOffset + dataLenWire) data in
    let! out := set_at out (outLen - 1)
                  (calculateChecksum (p_cmd p) (u8 (Z.of_nat dataLen)) (p_data p)) in
    Done (out, None).

(** libcomfo/proto.go:72-105 *)
Definition UnmarshalPacket (l : list byte) : outcome (packet * option err) :=
  if (Nat.ltb (length l) 4) then Done (zero_packet, Some ErrPktLen)
  else
    let! cmd := idx l (cmdOffset + 1) in
    let! dataLen := idx l lenOffset in
    let! cksum := idx l (length l - 1) in
    let! raw := slice l dataOffset (length l - 1) in
    let data := unescapeData raw in
    if negb (dataLen =? Z.of_nat (length data)) then Done (zero_packet, Some ErrPayloadSize)
    else if negb (verifyChecksum cksum cmd dataLen data)
         then Done (zero_packet, Some ErrVerifyChecksum)
         else Done (mkPacket cmd data false, None).
