(** The server and a simulated unit, for the statements about the unit under concurrency. *)
From Verif Require Import GoBase Proto Scanner Conn Proc Lib Server SpecProto SpecFrame SpecUnit Machine SpecMachine SpecFresh Samples SamplesServer SamplesUnit SamplesMachine.

Definition unit_reqs : list rpc :=
  [SetComfortTempR 22; SetFanProfileR 1 20; SetFanSpeedR 3 false; GetTempsRPC; GetFanProfilesRPC; SetComfortTempR 110; FlushCacheR 2; GetTempsRPC].
Definition unit_line : conn := w_conn (simulated [50; 40; 8; 0; 9; 0]).
Definition unit_start : machine resp := serve unit_reqs unit_line 0.
(** Start-up. *)
Definition unit_before : list item := repeat RunWk 94.
(** The three setters; the first two overlap. *)
Definition unit_during : list item :=
  repeat (Run 0) 5 ++ repeat (Run 1) 3 ++ repeat (Run 0) 21 ++ repeat (Run 1) 34 ++ repeat (Run 2) 49.
(** The first two getters, and a setter with a number the library refuses. *)
Definition unit_after : list item := repeat (Run 3) 10 ++ repeat (Run 4) 14 ++ repeat (Run 5) 3.
(** A flush of the temperatures and another getter. *)
Definition unit_flush : list item := [Flush 6] ++ repeat RunWk 18 ++ [Succ 6; RunWk].
Definition unit_again : list item := repeat (Run 7) 10.
