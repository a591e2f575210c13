(** Vocabulary for statements about slices. *)
From Verif Require Import GoBase SpecProto SpecFrame SpecConn Slices.

(** [s] is a slice of the heap, with this content. *)
Definition slice_of (h : list (list Z)) (s : slc) (bs : list Z) : Prop :=
  exists c, nth_error h (s_arr s) = Some c /\ (s_len s <= s_cap s)%nat /\ (s_off s + s_cap s <= length c)%nat /\
    bs = firstn (s_len s) (skipn (s_off s) c).
(** Nothing that was there has changed. *)
Definition preserved (h h' : list (list Z)) : Prop := firstn (length h) h' = h.
(** The package variables: start, end and ACK sequence. *)
Definition constants (h : list (list Z)) : Prop := firstn 3 h = [[7; 240]; [7; 15]; [7; 243]].

(** Things a goroutine may send: a packet whose payload is a slice, an ACK. *)
Inductive sending := SendPacket (cmd : Z) (data : slc) | SendAck.
Definition send (x : sending) : hp unit :=
  match x with SendPacket cmd data => hWritePacket cmd data | SendAck => hWriteAck end.
Fixpoint sends_all (l : list sending) : hp unit :=
  match l with
  | [] => HRet tt
  | x :: r => her _ <- send x; sends_all r
  end.
(** What is sent: a payload of more than 255 bytes is refused. *)
Inductive sent (h : list (list Z)) : sending -> list (list Z) -> Prop :=
| sent_packet cmd data bs : slice_of h data bs -> (length bs <= 255)%nat ->
    sent h (SendPacket cmd data) [framed cmd bs]
| sent_nothing cmd data bs : slice_of h data bs -> (255 < length bs)%nat -> sent h (SendPacket cmd data) []
| sent_ack : sent h SendAck [[7; 243]].
Inductive sent_all (h : list (list Z)) : list sending -> list (list Z) -> Prop :=
| sent_all_nil : sent_all h [] []
| sent_all_cons x xs o os : sent h x o -> sent_all h xs os -> sent_all h (x :: xs) (o ++ os).

Definition finished (t : hthread) : Prop := exists a, h_p t = HRet a.
Definition hspawn (h : list (list Z)) (xss : list (list sending)) : hstate :=
  mkHst h (map (fun xs => mkHth (sends_all xs) []) xss).

(** Two goroutines taking turns [n] times; new arrays get room for 64 bytes. *)
Fixpoint turns (n : nat) : list (nat * nat) :=
  match n with O => [] | S m => (0, 64)%nat :: (1, 64)%nat :: turns m end.
