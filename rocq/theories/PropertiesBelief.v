(** C128: requests for a speed that meet, when polls may fail. *)
From Verif Require Import GoBase Conn Proc Lib Server SpecServer SpecUnit Machine SpecMachine SpecFresh SpecTrack SamplesMachine SamplesUnit SamplesSpeed SamplesBelief BeliefProofs SpecSpeed SpecBelief.

(** The requests for a speed are taken one after another in the order in which they began, all but at most the last of them are answered, and each is handled by what
    the profile cache shows then. *)
Theorem C128_turns lo rs c clk u xs m0 u0 ys m u' : lo <= 15 -> lined lo c u ->
  exec xs (serve rs c clk) = Some m0 -> Forall just_worker xs -> m_wk m0 = None -> unit_in lo m0 u0 ->
  exec ys m0 = Some m -> unit_in lo m u' ->
  exists dn rest b z, in_turn rs ys = dn ++ rest /\ taken_all rs m (u_mode u0) dn b z /\
    (rest = [] /\ CurrentMode (sh_prof (g_sh (m_g m))) = b /\ u_mode u' = z \/ exists i, rest = [i] /\ forall a, ~ answered m i a).
Proof. exact (speeds_believed lo rs c clk u xs m0 u0 ys m u'). Qed.
Print Assumptions C128_turns.
(** If the last of them is told of a change, or that polling failed, the unit runs at the speed it asked for. *)
Theorem C128_last lo rs c clk u xs m0 u0 ys m u' l i q a : lo <= 15 -> lined lo c u ->
  exec xs (serve rs c clk) = Some m0 -> Forall just_worker xs -> m_wk m0 = None -> unit_in lo m0 u0 ->
  exec ys m0 = Some m -> unit_in lo m u' ->
  in_turn rs ys = l ++ [i] -> nth_error rs i = Some q -> answered m i a ->
  (forall o t, a = RespSpeed true o t -> u_mode u' = t) /\ (a = RespErr (Internal ErrSetPollFailed) -> exists b, wanted b q (u_mode u')).
Proof. exact (speeds_last lo rs c clk u xs m0 u0 ys m u' l i q a). Qed.
Print Assumptions C128_last.
Example C128_ex : exists m0 u0 m u', lined 15 stuck_line vent2 /\ exec even_before (serve belief_reqs stuck_line 0) = Some m0 /\ Forall just_worker even_before /\ m_wk m0 = None /\
  unit_in 15 m0 u0 /\ exec belief_run m0 = Some m /\ unit_in 15 m u' /\ u_mode u0 = 2 /\ u_mode u' = 1.
Proof. exact belief_case. Qed.
(** The step from 2 to 3 is made but not polled; the request for speed 2 is told that there is nothing to change, as the cache still shows 2; after the flush the next step
    goes from 3 to 4.  The last request is writing. *)
Example C128_told : in_turn belief_reqs belief_run = [0; 1; 3; 4]%nat /\
  option_map results (exec (even_before ++ belief_run) (serve belief_reqs stuck_line 0)) =
  Some [Some (RespErr (Internal ErrSetPollFailed)); Some (RespSpeed false 2 2); Some (RespFlush true); Some (RespErr (Internal ErrSetPollFailed)); None] /\
  option_map (fun m => CurrentMode (sh_prof (g_sh (m_g m)))) (exec (even_before ++ belief_run) (serve belief_reqs stuck_line 0)) = Some 3.
Proof. vm_compute. auto. Qed.
