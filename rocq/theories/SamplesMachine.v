(** Concrete interleaved executions for examples and counterexamples. *)
From Verif Require Import GoBase Proto Scanner Conn Proc Lib Server SpecProto SpecFrame SpecUnit Machine SpecMachine Samples SamplesServer SamplesUnit.

(** Steps of goroutine [x] until it can take no more, at most [n]. *)
Fixpoint steps {A} (n : nat) (x : item) (m : machine A) : nat * machine A :=
  match n with
  | O => (O, m)
  | S k => match exec1 m x with
           | Some m' => let (j, m2) := steps k x m' in (S j, m2)
           | None => (O, m)
           end
  end.

(** SetFanSpeed(3) while somebody flushes the fan cache: between reading the two percentages the
    worker replaces (50, 10) by (10, 50). *)
Definition split_poll : machine resp :=
  serve [SetFanSpeedR 3 false; FlushCacheR 1]
    (fresh (script (startup ++ acked ++ answer 12 [50; 10; 8; 0; 9; 0] ++ answer 12 [10; 50; 8; 0; 9; 0] ++
                    answer 206 (prof_payload 3)))) 0.
Definition split_schedule : list item :=
  repeat RunWk 94 ++ repeat (Run 0) 25 ++ [Flush 1] ++ repeat RunWk 14 ++ [Succ 1; RunWk] ++ repeat (Run 0) 24.

(** SetFanProfile(1, 42) reads the profiles, SetFanProfiles writes all of them, SetFanProfile writes
    back what it had read. *)
Definition all30 : FanProfiles := mkProf 30 30 30 30 false 30 30 30 30 0 0 0.
Definition lost_calls : list (sproc (option err)) := [SetFanProfile 1 42; SetFanProfiles all30].
Definition lost_conn : conn := fresh (simulator 0 fans_payload vent2).
Definition lost_start : machine (option err) := spawn lost_calls (mkMem lost_conn init_shared 0).
Definition lost_schedule : list item := repeat (Run 0) 6 ++ repeat (Run 1) 5 ++ repeat (Run 0) 6.

(** SetComfortTemp looks at the cached comfort temperature while the worker is storing a new one. *)
Definition race_start : machine resp :=
  serve [SetComfortTempR 21; FlushCacheR 2] (fresh (script (startup ++ answer 210 temps_payload))) 0.
Definition race_schedule : list item := repeat RunWk 94 ++ [Flush 1] ++ repeat RunWk 8.

(** What the goroutines have returned so far. *)
Definition results {A} (m : machine A) : list (option A) :=
  map (fun t => match t_p t with Ret r => Some r | _ => None end) (m_ts m).
(** Two FlushCache callers, a getter. *)
Definition two_flushes : machine resp :=
  serve [FlushCacheR 1; FlushCacheR 77; GetFansRPC] (fresh (script (startup ++ answer 12 [44; 55; 8; 0; 9; 0]))) 0.
Definition flush_before : list item := repeat RunWk 94 ++ [Flush 0].
Definition flush_during : list item := repeat RunWk 10 ++ [Pass 3] ++ repeat RunWk 4.
Definition flush_after : list item := [RunWk; Flush 1; Succ 1; RunWk] ++ repeat (Run 2) 6.
(** Two callers of the library. *)
Definition two_calls : machine call_res :=
  spawn (map calling [KFans; KTemps]) (mkMem (fresh (script (answer 12 fans_payload ++ answer 210 temps_payload))) init_shared 0).
Definition two_schedule : list item := [Run 0; Run 0; Pass 1; Run 0; Run 0; Run 0; Run 1; Run 1; Run 1; Run 1; Run 1].
(** Two changes of the same profile and one of another. *)
Definition three_changes : machine (option err) :=
  spawn (map (fun x => SetFanProfile (fst x) (snd x)) [(1, 42); (3, 90); (1, 43)]) (mkMem lost_conn init_shared 0).
Definition three_schedule : list item :=
  repeat (Run 2) 5 ++ repeat (Run 2) 7 ++ repeat (Run 0) 12 ++ repeat (Run 1) 12.
