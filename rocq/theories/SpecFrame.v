(** Framing on the serial line, stated without reference to the code. *)
From Verif Require Import GoBase SpecProto.

(** Bytes that follow 0x07 in a control sequence: ACK F3, start F0, end 0F. *)
Definition ctl (c : Z) : Prop := c = 243 \/ c = 240 \/ c = 15.

(** No control sequence anywhere in the string. *)
Definition clean (l : list Z) : Prop := forall a c b, l = a ++ 7 :: c :: b -> ~ ctl c.

(** What the unit sends in reply to a data request: ACK, frame start, packet, frame end. *)
Definition reply (cmd : Z) (data : list Z) : list Z :=
  [7; 243] ++ [7; 240] ++ wire cmd data ++ [7; 15].

(** The bytes of a packet in which no escaping is done: command, length, payload, checksum.
    [readable]: none of them is 0x07 followed by one of 0F, F0, F3. *)
Definition fields (cmd : Z) (data : list Z) : list Z :=
  cmd :: Z.of_nat (length data) :: data ++ [cksum_byte cmd data].
Definition readable (cmd : Z) (data : list Z) : Prop := clean (fields cmd data).
