(** The packet format, stated without reference to the code. *)
From Verif Require Import GoBase.

(** Sum of bytes. *)
Definition sum (l : list Z) : Z := fold_right Z.add 0 l.

(** Each 0x07 doubled, everything else unchanged. *)
Definition double7 (b : Z) : list Z := if b =? 7 then [7; 7] else [b].
Definition doubled (l : list Z) : list Z := flat_map double7 l.

(** Checksum byte of the protocol. *)
Definition cksum_byte (cmd : Z) (data : list Z) : Z :=
  (cmd + Z.of_nat (length data) + sum data + 173) mod 256.

(** A packet on the wire (without frame delimiters). *)
Definition wire (cmd : Z) (data : list Z) : list Z :=
  [0; cmd; Z.of_nat (length data)] ++ doubled data ++ [cksum_byte cmd data].

(** What the reader makes of a raw payload: a maximal run of k bytes 0x07 stands for
    k/2 bytes 0x07; all other bytes for themselves. *)
Inductive unescaped : list Z -> list Z -> Prop :=
| unesc_end k : unescaped (repeat 7 k) (repeat 7 (k / 2))
| unesc_run k b r d : b <> 7 -> unescaped r d ->
    unescaped (repeat 7 k ++ b :: r) (repeat 7 (k / 2) ++ b :: d).

(** 0x07 bytes come only in adjacent pairs: the string is a concatenation of
    non-7 bytes and pairs 07 07. *)
Inductive pairs7 : list Z -> Prop :=
| p7_nil : pairs7 []
| p7_other b r : b <> 7 -> pairs7 r -> pairs7 (b :: r)
| p7_pair r : pairs7 r -> pairs7 (7 :: 7 :: r).

(** [x] and [y] differ in exactly one position. *)
Inductive differ1 : list Z -> list Z -> Prop :=
| d1_here a b l : a <> b -> differ1 (a :: l) (b :: l)
| d1_there a l m : differ1 l m -> differ1 (a :: l) (a :: m).
