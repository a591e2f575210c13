(** Units that go away. *)
From Verif Require Import GoBase Proto Scanner Conn Proc Lib Server Machine Samples SamplesServer.

(** The unit closes the connection: writes are accepted, reads say that the stream has ended. *)
CoFixpoint closed : device := Dev (fun bs => (closed, [Data [] (Some SEof)], mkWres (len bs) None)).
(** The cable is pulled: writes are accepted, nothing comes back. *)
CoFixpoint unplugged : device := Dev (fun bs => (unplugged, [], mkWres (len bs) None)).
(** The connection is reset: everything fails. *)
CoFixpoint reset : device := Dev (fun bs => (reset, [Data [] (Some (SRead 1))], mkWres 0 (Some (ErrIO 1)))).
(** Something happens first. *)
Fixpoint before (l : list (list ev)) (d : device) : device :=
  match l with [] => d | x :: l => Dev (fun bs => (before l d, x, mkWres (len bs) None)) end.
(** A server that has started with a unit that then goes away. *)
Definition after_start (rs : list rpc) (d : device) : option (machine resp) := exec (repeat RunWk 94) (serve rs (fresh (before startup d)) 0).
Definition four : list rpc := [SetComfortTempR 23; GetTempsRPC; SetFanProfileR 2 60; SetFanSpeedR 1 false].
