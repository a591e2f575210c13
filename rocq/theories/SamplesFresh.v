(** Concrete executions for the statements about recency and about exchanges. *)
From Verif Require Import GoBase Proto Scanner Conn Proc Lib Server SpecProto SpecFrame SpecUnit Machine SpecMachine SpecFresh Samples SamplesServer SamplesUnit SamplesMachine.

(** SetFanProfile has asked for the profiles; the caches have not been filled yet. *)
Definition early_start : machine resp :=
  serve [SetFanProfileR 1 20; GetFanProfilesRPC] (fresh (script (answer 206 (prof_payload 2)))) 0.
Definition early_before : list item := repeat (Run 0) 7.
Definition early_after : list item := repeat (Run 1) 14.
(** SetComfortTemp, a flush of the temperatures meanwhile, then a getter. *)
Definition warm_start : machine resp :=
  serve [SetComfortTempR 22; FlushCacheR 2; GetTempsRPC]
    (fresh (script (startup ++ acked ++ answer 210 [80; 50; 60; 70; 45; 15; 40; 40; 40] ++ answer 210 [84; 50; 60; 70; 45; 15; 40; 40; 40]))) 0.
Definition warm_before : list item := repeat RunWk 94.
Definition warm_during : list item :=
  repeat (Run 0) 7 ++ [Flush 1] ++ repeat RunWk 18 ++ [Succ 1; RunWk] ++ repeat (Run 0) 19.
Definition warm_after : list item := repeat (Run 2) 10.
(** SetFanProfile, then a getter. *)
Definition prof_start : machine resp :=
  serve [SetFanProfileR 1 20; GetFanProfilesRPC]
    (fresh (script (startup ++ answer 206 (prof_payload 2) ++ acked ++ answer 206 [20; 35; 50; 20; 35; 50; 35; 35; 2; 1; 70; 70; 0; 0]))) 0.
Definition prof_during : list item := repeat (Run 0) 37.
Definition prof_after : list item := repeat (Run 1) 14.
