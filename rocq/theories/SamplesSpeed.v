(** Requests for speeds that meet, for the statements about them. *)
From Verif Require Import GoBase Proto Scanner Conn Proc Lib Server SpecProto SpecFrame SpecUnit Machine SpecMachine SpecFresh Samples SamplesServer SamplesUnit SamplesMachine.

(** A unit at speed 2 whose fans turn the same at every speed. *)
Definition even_vent : vent := mkVent [40; 40; 40; 40] [40; 40; 40; 40] 2 82.
Definition even_fans : list Z := [40; 40; 8; 0; 9; 0].
Definition even_line : conn := w_conn (server (simulator 15 even_fans even_vent) init_shared).
Definition even_reqs : list rpc := [SetFanSpeedR 0 true; SetFanProfileR 2 30; SetFanSpeedR 0 true; SetFanSpeedR 0 true; GetFanProfilesRPC; SetFanSpeedR 0 false].
Definition even_start : machine resp := serve even_reqs even_line 0.
Definition even_before : list item := repeat RunWk 94.
(** The worker has read the profiles and not stored them when the first request changes the speed. *)
Definition even_during : list item :=
  [Run 0; Pass 400000000000; Tick TickSlow] ++ repeat RunWk 8 ++ repeat (Run 0) 6 ++ repeat RunWk 3.
(** A unit whose fans do not show its speed. *)
Definition stuck_line : conn := w_conn (simulated [60; 60; 8; 0; 9; 0]).
Definition stuck_reqs : list rpc := [SetFanSpeedR 0 true; SetFanSpeedR 0 true].
Definition even_after : list item :=
  repeat RunWk 26 ++ repeat (Run 0) 42 ++ repeat (Run 1) 37 ++ repeat (Run 2) 49 ++ repeat (Run 3) 3 ++ repeat (Run 4) 14 ++ repeat (Run 5) 49.
Definition stuck_during : list item := repeat (Run 0) 171 ++ repeat (Run 1) 171.
(** Only steps up; only steps down, beginning with the second. *)
Definition even_ups : list item := even_during ++ repeat RunWk 26 ++ repeat (Run 0) 42 ++ repeat (Run 1) 37 ++ repeat (Run 2) 49 ++ repeat (Run 3) 3.
Definition down_reqs : list rpc := [SetFanSpeedR 0 false; SetFanSpeedR 0 false; SetFanSpeedR 0 false].
Definition even_downs : list item := repeat (Run 1) 49 ++ repeat (Run 0) 3 ++ repeat (Run 2) 3.
