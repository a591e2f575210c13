(** Base URLs with which a Go client can send nothing. *)
From Coq Require Import String.
From Verif Require Import GoBase GoStrings Twirp SpecTwirp SpecGo.

(** The name of a scheme. *)
Definition scheme_name (b : list byte) : Prop :=
  exists c r, b = c :: r /\ letter c /\ Forall (fun c => letter c \/ digit c \/ c = 43 \/ c = 45 \/ c = 46) r.
Inductive nowhere : list byte -> Prop :=
| nw_control base c : In c base -> c < 32 \/ c = 127 -> Forall (fun c => c < 32 \/ c = 127 \/ path_char c) base -> nowhere base
| nw_colon r : Forall path_char r -> nowhere (58 :: r)
| nw_scheme b r : scheme_name b -> ~ Forall2 same_letter b (str "http") -> ~ Forall2 same_letter b (str "https") -> Forall path_char r ->
    nowhere (b ++ 58 :: r)
| nw_port s b n p c : web_scheme s b -> hostname n -> Forall path_char p -> ~ In 47 p -> ~ In 58 p -> In c p -> ~ digit c ->
    nowhere (b ++ str "://" ++ n ++ 58 :: p).
