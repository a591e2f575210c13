(** C127: of requests for the same only the first that gets its turn changes something. *)
From Verif Require Import GoBase Conn Proc Lib Server SpecServer SpecUnit Machine SpecMachine SpecFresh SpecTrack SamplesMachine SamplesSpeed SamplesTwice TwiceProofs BeliefProofs SpecSpeed SpecProfileTurns.

(** In full: of several requests for the same percentage of a profile, the same speed or the same comfort temperature, with no others for this profile,
    for a speed or for a temperature, at most one is told that it changed something.  Proved for profiles and speeds; false for
    comfort temperatures.
    For profiles, and for speeds if no poll fails, the one that is told of a change is the first to begin. *)
Theorem C127_profile_partial j lo rs c clk u xs m0 u0 ys m u' s : (j < 4)%nat -> lo <= 15 -> lined lo c u ->
  exec xs (serve rs c clk) = Some m0 -> Forall just_worker xs -> m_wk m0 = None -> unit_in lo m0 u0 ->
  exec ys m0 = Some m -> unit_in lo m u' ->
  (forall i, In i (sets_in_turn rs j ys) -> exists p t, nth_error rs i = Some (SetFanProfileR p t) /\ t mod 256 = s) ->
  forall i o t, In i (sets_in_turn rs j ys) -> answered m i (RespProfile true o t) -> hd_error (sets_in_turn rs j ys) = Some i.
Proof. exact (profiles_twice j lo rs c clk u xs m0 u0 ys m u' s). Qed.
Print Assumptions C127_profile_partial.
Theorem C127_speed_partial lo rs c clk u xs m0 u0 ys m u' s : lo <= 15 -> lined lo c u ->
  exec xs (serve rs c clk) = Some m0 -> Forall just_worker xs -> m_wk m0 = None -> unit_in lo m0 u0 ->
  exec ys m0 = Some m -> unit_in lo m u' ->
  (forall i, In i (in_turn rs ys) -> exists a, answered m i a /\ a <> RespErr (Internal ErrSetPollFailed)) ->
  (forall i, In i (in_turn rs ys) -> exists a, nth_error rs i = Some (SetFanSpeedR a false) /\ a <> 0 /\ a mod 256 = s) ->
  forall i o t, In i (in_turn rs ys) -> answered m i (RespSpeed true o t) -> hd_error (in_turn rs ys) = Some i.
Proof. exact (speeds_twice lo rs c clk u xs m0 u0 ys m u' s). Qed.
Print Assumptions C127_speed_partial.
(** Also if polls fail. *)
Theorem C127_speed_once_partial lo rs c clk u xs m0 u0 ys m u' s : lo <= 15 -> lined lo c u ->
  exec xs (serve rs c clk) = Some m0 -> Forall just_worker xs -> m_wk m0 = None -> unit_in lo m0 u0 ->
  exec ys m0 = Some m -> unit_in lo m u' ->
  (forall i, In i (in_turn rs ys) -> exists a, nth_error rs i = Some (SetFanSpeedR a false) /\ a <> 0 /\ a mod 256 = s) ->
  forall i j o t o' t', In i (in_turn rs ys) -> In j (in_turn rs ys) -> answered m i (RespSpeed true o t) -> answered m j (RespSpeed true o' t') -> i = j.
Proof. exact (speeds_once lo rs c clk u xs m0 u0 ys m u' s). Qed.
Print Assumptions C127_speed_once_partial.
Example C127_ex : exists m0 u0 m u', lined 15 even_line even_vent /\ exec even_before (serve twice_reqs even_line 0) = Some m0 /\ Forall just_worker even_before /\ m_wk m0 = None /\
  unit_in 15 m0 u0 /\ exec twice_run m0 = Some m /\ unit_in 15 m u' /\
  (forall i, In i (in_turn twice_reqs twice_run) -> exists a, answered m i a /\ a <> RespErr (Internal ErrSetPollFailed)) /\ u_mode u0 = 2 /\ u_mode u' = 3.
Proof. exact twice_case. Qed.
Example C127_told : sets_in_turn twice_reqs 1 twice_run = [1; 0]%nat /\ in_turn twice_reqs twice_run = [3; 2]%nat /\
  option_map results (exec (even_before ++ twice_run) (serve twice_reqs even_line 0)) =
  Some [Some (RespProfile false 30 30); Some (RespProfile true 40 286); Some (RespSpeed false 3 3); Some (RespSpeed true 2 3);
        Some (RespComfort true 21 22); Some (RespComfort true 21 22)].
Proof. vm_compute. auto. Qed.

(** Two requests for 22 degrees, and both are told that they changed it. *)
Theorem C127_comfort_refuted : exists c u xs m0 u0 ys m u', lined 15 c u /\ exec xs (serve twice_reqs c 0) = Some m0 /\ Forall just_worker xs /\ m_wk m0 = None /\
  unit_in 15 m0 u0 /\ exec ys m0 = Some m /\ unit_in 15 m u' /\
  nth_error twice_reqs 4 = Some (SetComfortTempR 22) /\ nth_error twice_reqs 5 = Some (SetComfortTempR 22) /\
  answered m 4 (RespComfort true 21 22) /\ answered m 5 (RespComfort true 21 22).
Proof. exact comfort_twice. Qed.
Print Assumptions C127_comfort_refuted.
