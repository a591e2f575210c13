(** What is left out of a JSON reply on request. *)
From Coq Require Import String SpecFloat.
From Verif Require Import GoBase Lib Server SpecLayout SpecWire Twirp SpecJson SpecJsonReply.

(** Zero, false and the empty text; a zero with a sign is not left out. *)
Definition says_nothing (x : shown) : bool :=
  match x with
  | SUint z => z =? 0
  | SBool b => negb b
  | SText s => match s with [] => true | _ => false end
  | SFloat f => match f with S754_zero s => negb s | _ => false end
  end.
(** The object [l] has these members of the reply, in this order, and no others. *)
Definition json_reply_with (skip : bool) (t : list byte) (r : resp) (l : list (list byte * jval)) : Prop :=
  Forall2 (fun m x => reads_str (fst x) (str (fst m)) /\ shows (snd m) (snd x))
    (filter (fun m => negb (skip && says_nothing (snd m))) (reply_members t r)) l.
