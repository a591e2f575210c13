(** Requests for profiles that meet, for the statements about them. *)
From Verif Require Import GoBase Proto Scanner Conn Proc Lib Server SpecProto SpecFrame SpecUnit Machine SpecMachine SpecFresh Samples SamplesServer SamplesUnit SamplesMachine SamplesSpeed.

Definition turn_reqs : list rpc := [SetFanProfileR 2 30; SetFanProfileR 2 50; SetFanProfileR 1 20; SetFanProfileR 2 306; SetFanSpeedR 0 true].
(** The second request begins, then the worker reads the profiles and stores them in between. *)
Definition turn_during : list item :=
  [Run 1; Pass 400000000000; Tick TickSlow] ++ repeat RunWk 8 ++ repeat (Run 1) 5 ++ repeat RunWk 3 ++ repeat (Run 1) 8 ++ repeat RunWk 26 ++ repeat (Run 1) 23 ++
  repeat (Run 0) 37 ++ repeat (Run 2) 37 ++ repeat (Run 3) 20.
Definition turn_after : list item := repeat (Run 3) 17 ++ repeat (Run 4) 49.
