(** The order in which the metadata of an error is written. *)
From Coq Require Import String.
From Verif Require Import GoBase Server SpecWire Twirp SpecTwirp GoClient SpecGo SpecJson SpecJsonError.

(** Strings in the order of their bytes. *)
Inductive earlier : list byte -> list byte -> Prop :=
| er_end y t : earlier [] (y :: t)
| er_byte x y s t : x < y -> earlier (x :: s) (y :: t)
| er_more x s t : earlier s t -> earlier (x :: s) (x :: t).
(** As [error_object], with the metadata in this order. *)
Definition ordered_object (c m : list byte) (d : list (list byte * list byte)) (l : list (list byte * jval)) : Prop :=
  exists n1 r1 n2 r2 rest, l = (n1, JStr r1) :: (n2, JStr r2) :: rest /\
    reads_str n1 (str "code") /\ reads_str r1 c /\ reads_str n2 (str "msg") /\ reads_str r2 m /\
    ((d = [] /\ rest = []) \/
     (d <> [] /\ exists n3 ps, rest = [(n3, JObj ps)] /\ reads_str n3 (str "meta") /\ Forall2 pair_member d ps)).
