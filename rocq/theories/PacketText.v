(** libcomfo/proto.go:37-40 Packet.String, with the verbs %x and %v of fmt as far as they are used. *)
From Coq Require Import String.
From Verif Require Import GoBase Proto Wire Twirp JsonWrite.

(** %x of a uint8: no leading zero. *)
Definition hexText (n : Z) : list byte := if n <? 16 then [hexlow n] else [hexlow (n / 16); hexlow (n mod 16)].
(** %v of a slice of bytes, without the brackets. *)
Fixpoint bytesText (l : list byte) : list byte :=
  match l with [] => [] | [b] => itoa b | b :: l => itoa b ++ 32 :: bytesText l end.
Definition packetText (p : packet) : list byte :=
  str "<Packet {Command: " ++ hexText (p_cmd p) ++ str ", Data: [" ++ bytesText (p_data p) ++ str "], Expect: " ++
  (if p_expect p then str "true" else str "false") ++ str "}>".
