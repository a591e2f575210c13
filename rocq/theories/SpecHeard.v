(** Vocabulary for statements about what a query makes of anything it hears. *)
From Verif Require Import GoBase Proto SpecProto SpecFrame SpecConn Scanner Conn Proc Lib.

(** How the bytes end that a query can hear: nothing more comes in time, or Read fails. *)
Inductive ending := Silence | Break.
(** The bytes until then. *)
Inductive hears : list ev -> list Z -> ending -> Prop :=
| he_none : hears [] [] Silence
| he_expire r : hears (Expire :: r) [] Silence
| he_turn r l x : hears r l x -> hears (Turn :: r) l x
| he_break bs e r : hears (Data bs (Some e) :: r) bs Break
| he_data bs r l x : hears r l x -> hears (Data bs None :: r) (bs ++ l) x.
(** Few bytes and few empty reads. *)
Definition modest (evs : list ev) : Prop := len (concat (data_of evs)) <= 4096 /\ (empty_reads evs <= 100)%nat.

(** [n] control sequences, then [rest]. *)
Inductive marks : nat -> list Z -> list Z -> Prop :=
| ma_none l : marks 0 l l
| ma_more n k l rest : ctl k -> marks n l rest -> marks (S n) (7 :: k :: l) rest.
(** [t], then the first control sequence. *)
Definition before_mark (l t : list Z) : Prop := exists k r, l = t ++ 7 :: k :: r /\ ctl k /\ clean (t ++ [7]).
(** What stands between frame start and frame end. *)
Inductive content : list Z -> packet -> option err -> Prop :=
| co_none : content [] zero_packet None
| co_short t : (1 <= length t < 4)%nat -> content t zero_packet (Some ErrTooShort)
| co_packet t cmd data : verified t cmd data -> content t (mkPacket cmd data false) None
| co_bad t e : (4 <= length t)%nat -> (forall cmd data, ~ verified t cmd data) -> content t zero_packet (Some e).
(** What reading yields.  Without data a single control sequence is enough; with data two are expected, then a third behind the packet. *)
Inductive judged : bool -> list Z -> ending -> packet -> option err -> Prop :=
| ju_stray (expect : bool) n l l' t x : marks n l l' -> (n < if expect then 2 else 1)%nat -> before_mark l' t -> t <> [] ->
    judged expect l x zero_packet (Some ErrScanInput)
| ju_silence (expect : bool) n l l' : marks n l l' -> (n < if expect then 3 else 1)%nat -> clean l' ->
    judged expect l Silence zero_packet (Some ErrTimeout)
| ju_break (expect : bool) n l l' : marks n l l' -> (n < if expect then 3 else 1)%nat -> clean l' ->
    judged expect l Break zero_packet None
| ju_ack l l' x : marks 1 l l' -> judged false l x zero_packet None
| ju_data l l' t x p e : marks 2 l l' -> before_mark l' t -> content t p e -> judged true l x p e.
(** The acknowledgement of the query is written without trouble. *)
Definition takes_ack (d : device) : Prop := let '(_, _, r) := react d ack_seq in w_err r = None /\ w_n r = 2.
(** The operations that set something, with what they send. *)
Inductive sets_with : proc unit (option err) -> Z -> list Z -> Prop :=
| sw_speed v : v <= 4 -> sets_with (SetSpeed v) 153 [v]
| sw_comfort t : 0 <= t <= 107 -> sets_with (SetComfort t) 211 [2 * (t + 20)]
| sw_profiles q : sets_with (SetFanProfiles q) 207 [OutAway q; OutLow q; OutMid q; InAway q; InLow q; InMid q; OutHigh q; InHigh q].
