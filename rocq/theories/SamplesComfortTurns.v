(** Requests for comfort temperatures that meet, for the statements about them. *)
From Verif Require Import GoBase Proto Scanner Conn Proc Lib Server SpecProto SpecFrame SpecUnit Machine SpecMachine SpecFresh Samples SamplesServer SamplesUnit SamplesMachine SamplesSpeed.

Definition warm_reqs : list rpc := [SetComfortTempR 22; SetComfortTempR 22; SetComfortTempR 21; SetComfortTempR 25; SetComfortTempR 300; SetComfortTempR 120; SetFanSpeedR 0 true].
(** The worker reads the temperatures; the first request sets the unit; the second and third look in the cache; the worker stores what it has read;
    the first request goes on; the fourth is about to set the unit. *)
Definition warm_reads : list item := [Pass 400000000000; Tick TickFast] ++ repeat RunWk 8 ++ repeat (Run 0) 7.
Definition warm_during : list item := warm_reads ++ [Run 1; Run 2] ++ repeat RunWk 25 ++ repeat (Run 0) 19 ++ repeat (Run 3) 3.
Definition warm_after : list item := repeat (Run 3) 23 ++ repeat (Run 1) 25 ++ [Run 4] ++ repeat (Run 5) 3.
