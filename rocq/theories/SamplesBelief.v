(** A unit whose fans do not show its speed, and requests for speeds, for the statements about them. *)
From Verif Require Import GoBase Proto Scanner Conn Proc Lib Server SpecProto SpecFrame SpecUnit Machine SpecMachine SpecFresh Samples SamplesServer SamplesUnit SamplesMachine SamplesSpeed.

Definition belief_reqs : list rpc := [SetFanSpeedR 0 true; SetFanSpeedR 2 false; FlushCacheR 3; SetFanSpeedR 0 true; SetFanSpeedR 1 false].
(** Between the first two and the others the profile cache is flushed; the last one is not done. *)
Definition belief_run : list item :=
  repeat (Run 0) 171 ++ repeat (Run 1) 3 ++ [Flush 2] ++ repeat RunWk 22 ++ [Succ 2; RunWk] ++ repeat (Run 3) 171 ++ repeat (Run 4) 8.
