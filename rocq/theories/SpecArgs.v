(** For the statements about arguments out of range. *)
From Verif Require Import GoBase Server.

(** The same answer, but naming [t] as the percentage asked for. *)
Definition told_target (t : Z) (r : resp) : resp :=
  match r with RespProfile b o _ => RespProfile b o t | r => r end.
