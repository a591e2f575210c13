(** C122, C123: requests for a speed that meet are taken one after the other. *)
From Verif Require Import GoBase Conn Proc Lib Server SpecServer SpecUnit Machine SpecMachine SpecFresh SpecTrack SamplesMachine SamplesSpeed SpeedProofs SpecSpeed.

(** The unit ends at the speed to which the requests lead one after the other, and each is told what it did. *)
Theorem C122_one_by_one lo rs c clk u xs m0 u0 ys m u' : lo <= 15 -> lined lo c u ->
  exec xs (serve rs c clk) = Some m0 -> Forall just_worker xs -> m_wk m0 = None -> unit_in lo m0 u0 ->
  exec ys m0 = Some m -> unit_in lo m u' ->
  (forall i, In i (in_turn rs ys) -> exists a, answered m i a /\ a <> RespErr (Internal ErrSetPollFailed)) ->
  steps rs m (u_mode u0) (in_turn rs ys) (u_mode u').
Proof. exact (speeds_in_turn lo rs c clk u xs m0 u0 ys m u'). Qed.
Print Assumptions C122_one_by_one.
Example C122_one_by_one_ex : exists m0 u0 m u', lined 15 even_line even_vent /\ exec even_before (serve even_reqs even_line 0) = Some m0 /\ Forall just_worker even_before /\ m_wk m0 = None /\
  unit_in 15 m0 u0 /\ exec (even_during ++ even_after) m0 = Some m /\ unit_in 15 m u' /\
  (forall i, In i (in_turn even_reqs (even_during ++ even_after)) -> exists a, answered m i a /\ a <> RespErr (Internal ErrSetPollFailed)) /\ u_mode u0 = 2 /\ u_mode u' = 3.
Proof. exact even_case. Qed.
Example C122_one_by_one_told : option_map results (exec (even_before ++ even_ups) even_start) =
  Some [Some (RespSpeed true 2 3); Some (RespProfile true 40 30); Some (RespSpeed true 3 4); Some (RespErr (InvalidArgument (ArgFanSpeed 5))); None; None].
Proof. vm_compute. reflexivity. Qed.

(** These are all requests for a speed that have begun, each once. *)
Theorem C122_all rs xs : NoDup (in_turn rs xs) /\ forall i, In i (in_turn rs xs) <-> is_speed rs i = true /\ In (Run i) xs.
Proof. exact (in_turn_all rs xs). Qed.
Print Assumptions C122_all.
Example C122_all_ex : in_turn even_reqs (even_during ++ even_after) = [0; 2; 3; 5]%nat /\ in_turn down_reqs even_downs = [1; 0; 2]%nat.
Proof. vm_compute. auto. Qed.

(** C123 in full: if the requests for a speed that have begun all ask for one more, and all are answered, the unit is at
    [Z.min 4 (u_mode u0 + Z.of_nat (length (in_turn rs ys)))]; likewise for one less. Partial: no answer may be that polling failed.
    Without that it is false, see [C123_up_refuted].
    Steps up add up, to 4 at most. *)
Theorem C123_up_partial lo rs c clk u xs m0 u0 ys m u' : lo <= 15 -> lined lo c u ->
  exec xs (serve rs c clk) = Some m0 -> Forall just_worker xs -> m_wk m0 = None -> unit_in lo m0 u0 ->
  exec ys m0 = Some m -> unit_in lo m u' ->
  (forall i, In i (in_turn rs ys) -> exists a, answered m i a /\ a <> RespErr (Internal ErrSetPollFailed)) ->
  (forall i, In i (in_turn rs ys) -> nth_error rs i = Some (SetFanSpeedR 0 true)) ->
  u_mode u' = Z.min 4 (u_mode u0 + Z.of_nat (length (in_turn rs ys))).
Proof. exact (speeds_up lo rs c clk u xs m0 u0 ys m u'). Qed.
Print Assumptions C123_up_partial.
Example C123_up_partial_ex : (exists m0 u0 m u', lined 15 even_line even_vent /\ exec even_before (serve even_reqs even_line 0) = Some m0 /\ Forall just_worker even_before /\ m_wk m0 = None /\
  unit_in 15 m0 u0 /\ exec even_ups m0 = Some m /\ unit_in 15 m u' /\
  (forall i, In i (in_turn even_reqs even_ups) -> exists a, answered m i a /\ a <> RespErr (Internal ErrSetPollFailed)) /\ u_mode u0 = 2 /\ u_mode u' = 4) /\
  map (nth_error even_reqs) (in_turn even_reqs even_ups) = repeat (Some (SetFanSpeedR 0 true)) 3.
Proof. split; [exact even_up_case|vm_compute; reflexivity]. Qed.

(** Steps down add up, to 1 at least. *)
Theorem C123_down_partial lo rs c clk u xs m0 u0 ys m u' : lo <= 15 -> lined lo c u ->
  exec xs (serve rs c clk) = Some m0 -> Forall just_worker xs -> m_wk m0 = None -> unit_in lo m0 u0 ->
  exec ys m0 = Some m -> unit_in lo m u' ->
  (forall i, In i (in_turn rs ys) -> exists a, answered m i a /\ a <> RespErr (Internal ErrSetPollFailed)) ->
  (forall i, In i (in_turn rs ys) -> nth_error rs i = Some (SetFanSpeedR 0 false)) -> u_mode u0 <> 0 ->
  u_mode u' = Z.max 1 (u_mode u0 - Z.of_nat (length (in_turn rs ys))).
Proof. exact (speeds_down lo rs c clk u xs m0 u0 ys m u'). Qed.
Print Assumptions C123_down_partial.
Example C123_down_partial_ex : (exists m0 u0 m u', lined 15 even_line even_vent /\ exec even_before (serve down_reqs even_line 0) = Some m0 /\ Forall just_worker even_before /\ m_wk m0 = None /\
  unit_in 15 m0 u0 /\ exec even_downs m0 = Some m /\ unit_in 15 m u' /\
  (forall i, In i (in_turn down_reqs even_downs) -> exists a, answered m i a /\ a <> RespErr (Internal ErrSetPollFailed)) /\ u_mode u0 = 2 /\ u_mode u' = 1) /\
  map (nth_error down_reqs) (in_turn down_reqs even_downs) = repeat (Some (SetFanSpeedR 0 false)) 3.
Proof. split; [exact even_down_case|vm_compute; reflexivity]. Qed.

(** Without the condition that no poll fails, steps get lost: two requests for one more, and the unit is at 3 instead of 4. *)
Theorem C123_up_refuted : exists c u xs m0 u0 ys m u', lined 15 c u /\
  exec xs (serve [SetFanSpeedR 0 true; SetFanSpeedR 0 true] c 0) = Some m0 /\ Forall just_worker xs /\ m_wk m0 = None /\
  unit_in 15 m0 u0 /\ exec ys m0 = Some m /\ unit_in 15 m u' /\ in_turn [SetFanSpeedR 0 true; SetFanSpeedR 0 true] ys = [0; 1]%nat /\
  answered m 0 (RespErr (Internal ErrSetPollFailed)) /\ answered m 1 (RespErr (Internal ErrSetPollFailed)) /\ u_mode u0 = 2 /\ u_mode u' = 3.
Proof. exact speeds_lost. Qed.
Print Assumptions C123_up_refuted.
