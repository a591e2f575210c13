(** Concrete servers used in examples and counterexamples. *)
From Verif Require Import GoBase Proto Scanner Conn Proc Lib Server SpecProto SpecFrame Samples.

(** Answer to one query: the reply after the request, nothing after the ACK. *)
Definition answer (cmd : Z) (data : list Z) : list (list ev) := [[Data (reply cmd data) None]; []].
(** Answer to one set request: an ACK, then nothing. *)
Definition acked : list (list ev) := [[Data [7; 243] None]; []].
(** A server at time 0 with the given device and cache contents. *)
Definition server (d : device) (s : shared) : world shared := mkWorld (fresh d) s [] 0 [].
Definition temps_payload : list Z := [82; 60; 70; 72; 66; 15; 40; 40; 40].
Definition fans_payload : list Z := [35; 35; 8; 0; 9; 0].
Definition prof_payload (mode : Z) : list Z := [15; 35; 50; 15; 35; 50; 35; 35; mode; 1; 70; 70; 0; 0].
Definition boot_payload : list Z := [3; 60; 32; 67; 65; 51; 53; 48; 32; 108; 117; 120; 101].
Definition bypass_payload : list Z := [0; 0; 10; 20; 3; 0; 1].
Definition err_payload : list Z := [0; 0; 0; 0; 0; 0; 0; 0; 1; 0; 0; 0; 0; 0; 0; 0; 0].
(** A unit answering the six start-up queries. *)
Definition startup : list (list ev) :=
  answer 104 boot_payload ++ answer 224 bypass_payload ++ answer 210 temps_payload ++
  answer 12 fans_payload ++ answer 206 (prof_payload 2) ++ answer 218 err_payload.
(** A server that has started; afterwards the unit behaves as given. *)
Definition started (rest : list (list ev)) : world shared :=
  snd (run StartCaches (server (script (startup ++ rest)) init_shared)).
