(** What the text of a packet says. *)
From Coq Require Import String.
From Verif Require Import GoBase Proto Wire Twirp SpecJson SpecErrorText.

(** Numbers with spaces between them. *)
Inductive decimals : list byte -> list byte -> Prop :=
| ds_none : decimals [] []
| ds_one t v : decimal t v -> decimals t [v]
| ds_more t v r l : decimal t v -> decimals r l -> l <> [] -> decimals (t ++ 32 :: r) (v :: l).
Definition shows (t : list byte) (p : packet) : Prop :=
  exists x l e, t = str "<Packet {Command: " ++ x ++ str ", Data: [" ++ l ++ str "], Expect: " ++ e ++ str "}>" /\
    x <> [] /\ hex_digits x (p_cmd p) /\ decimals l (p_data p) /\ ((e = str "true" /\ p_expect p = true) \/ (e = str "false" /\ p_expect p = false)).
