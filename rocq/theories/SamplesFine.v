(** Executions in small steps for examples. *)
From Verif Require Import GoBase Proto Scanner Conn Proc Lib Server SpecProto SpecFrame SpecUnit Machine SpecMachine Fine SpecFine Samples SamplesServer SamplesUnit SamplesMachine.

(** Where the goroutines are: within which call of ScanTimeout, or (3, 4) within Write. *)
Definition place {A} (t : fthread A) : option nat :=
  match f_p t with FAt _ => None | FRead r _ => Some (r_stage r) | FWrite _ _ => Some 3%nat | FWrote _ _ _ => Some 4%nat end.
Definition places {A} (m : fmachine A) : list (option nat) * option (option nat) := (map place (fm_ts m), option_map place (fm_wk m)).
Definition fresults {A} (m : fmachine A) : list (option A) :=
  map (fun t => match f_p t with FAt (Ret r) => Some r | _ => None end) (fm_ts m).
(** The fan speeds are read, and a profile is to be set, while the worker is within a ReadPacket of its startup. *)
Definition inside_start : fmachine resp := fserve [GetFansRPC; SetFanProfileR 3 50] (fresh (script startup)) 0.
Definition inside_schedule : list item := repeat RunWk 117 ++ repeat (Run 0) 3 ++ [Run 1] ++ repeat (Run 0) 3 ++ repeat (Run 1) 2.
(** The same with ReadPacket and Write as single steps. *)
Definition inside_coarse : machine resp := serve [GetFansRPC; SetFanProfileR 3 50] (fresh (script startup)) 0.
