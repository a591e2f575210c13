(** Requests for the same, for the statements about them. *)
From Verif Require Import GoBase Proto Scanner Conn Proc Lib Server SpecProto SpecFrame SpecUnit Machine SpecMachine SpecFresh Samples SamplesServer SamplesUnit SamplesMachine SamplesSpeed.

Definition twice_reqs : list rpc := [SetFanProfileR 2 30; SetFanProfileR 2 286; SetFanSpeedR 3 false; SetFanSpeedR 259 false; SetComfortTempR 22; SetComfortTempR 22].
(** The second begins after the first has its turn, and so on; both requests for a temperature look before one of them sets it. *)
Definition twice_run : list item :=
  repeat (Run 1) 4 ++ [Pass 400000000000; Tick TickSlow] ++ repeat RunWk 3 ++ [Run 4; Run 5] ++ repeat (Run 1) 10 ++ repeat RunWk 34 ++ repeat (Run 1) 23 ++
  repeat (Run 0) 3 ++ repeat (Run 3) 49 ++ repeat (Run 2) 3 ++ repeat (Run 4) 25 ++ repeat (Run 5) 25.
