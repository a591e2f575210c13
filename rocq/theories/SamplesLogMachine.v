(** Refreshes that fail while several goroutines run, for the statements about what they log. *)
From Verif Require Import GoBase Proto Scanner Conn Proc Lib Server SpecProto SpecFrame Machine SpecMachine Log LogMachine Samples SamplesServer SamplesMachine.

(** The unit answers with too few errors, later with too few profiles, and then no more. *)
Definition failing_line : conn := fresh (script (answer 104 boot_payload ++ answer 224 bypass_payload ++ answer 210 temps_payload ++
  answer 12 fans_payload ++ answer 206 (prof_payload 2) ++ answer 218 [1; 2] ++ acked ++ answer 206 [1; 2])).
Definition failing_reqs : list rpc := [SetComfortTempR 25; FlushCacheR 3; GetFansRPC].
(** The worker flushes the profiles between what the first request says to the unit. *)
Definition failing_run : list item :=
  repeat RunWk 92 ++ [Flush 1; RunWk] ++ repeat (Run 0) 7 ++ repeat RunWk 8 ++ [Succ 1] ++ repeat (Run 0) 9 ++ repeat (Run 2) 6 ++ [RunWk].
Definition records_of (m : lmachine) : list (option (resp * list event)) :=
  map (fun t => match t_p t with Ret x => Some x | _ => None end) (l_ts m).
