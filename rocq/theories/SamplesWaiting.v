(** Executions in which the server waits as long as it can. *)
From Verif Require Import GoBase Proto Scanner Conn Proc Lib Server Machine Samples SamplesServer.

(** A unit whose fans reach the new speed only at the tenth poll. *)
Definition slow_unit : conn :=
  fresh (script (startup ++ acked ++ concat (repeat (answer 12 fans_payload) 9) ++ answer 12 [50; 50; 8; 0; 9; 0] ++ answer 206 (prof_payload 3))).
Definition slow_speed : list item := repeat RunWk 94 ++ repeat (Run 0) 193.
(** A unit that does not answer. *)
Definition dead_unit : conn := fresh (script []).
Definition dead_start : list item := repeat RunWk 49.
Definition dead_flush : list item := repeat RunWk 48 ++ [Succ 0; RunWk].
