(** C125: requests that set the comfort temperature and meet each other. *)
From Verif Require Import GoBase Conn Proc Lib Server SpecServer SpecUnit Machine SpecMachine SpecFresh SpecTrack SamplesMachine SamplesSpeed SamplesComfortTurns ComfortTurnProofs SpecSpeed SpecComfortTurns.

(** The requests that are told of a change set the unit in some order, each once, and the last decides; everybody is told a temperature that the unit has had,
    and those of a change one from before theirs.  As time goes on the order is only extended.
    Missing for the full claim: that each is told the temperature it replaces (below). *)
Theorem C125_in_order_partial lo rs c clk u xs m0 u0 ys m u' : lo <= 15 -> lined lo c u ->
  exec xs (serve rs c clk) = Some m0 -> Forall just_worker xs -> m_wk m0 = None -> unit_in lo m0 u0 -> 40 <= u_comfort u0 ->
  exec ys m0 = Some m -> unit_in lo m u' ->
  exists dn rest, ordered rs m (warmth u0) dn rest u' /\
    forall zs m2 u2, exec zs m = Some m2 -> unit_in lo m2 u2 -> exists more rest2, ordered rs m2 (warmth u0) (dn ++ more) rest2 u2.
Proof. exact (comfort_order lo rs c clk u xs m0 u0 ys m u'). Qed.
Print Assumptions C125_in_order_partial.
Example C125_in_order_ex : exists m0 u0 m u' m2 u2, lined 15 even_line even_vent /\ exec even_before (serve warm_reqs even_line 0) = Some m0 /\ Forall just_worker even_before /\ m_wk m0 = None /\
  unit_in 15 m0 u0 /\ u_comfort u0 = 82 /\ exec warm_during m0 = Some m /\ unit_in 15 m u' /\ u_comfort u' = 84 /\ exec warm_after m = Some m2 /\ unit_in 15 m2 u2 /\ u_comfort u2 = 84.
Proof. exact warm_ex. Qed.
Example C125_in_order_told :
  option_map results (exec (even_before ++ warm_during) (serve warm_reqs even_line 0)) =
  Some [Some (RespComfort true 21 22); None; Some (RespComfort false 21 21); None; None; None; None] /\
  option_map results (exec (even_before ++ warm_during ++ warm_after) (serve warm_reqs even_line 0)) =
  Some [Some (RespComfort true 21 22); Some (RespComfort true 21 22); Some (RespComfort false 21 21); Some (RespComfort true 22 25);
        Some (RespErr (InvalidArgument ArgComfortTemp)); Some (RespErr (Internal (LibErr ErrTooHigh))); None].
Proof. vm_compute. auto. Qed.

(** A request may be told of a change from a temperature that others have replaced meanwhile: it looks before it waits for its turn. *)
Theorem C125_replaced_refuted : exists c u m0 u0 xs ys m u', lined 15 c u /\ exec xs (serve warm_reqs c 0) = Some m0 /\ Forall just_worker xs /\ m_wk m0 = None /\
  unit_in 15 m0 u0 /\ warmth u0 = 21 /\ exec ys m0 = Some m /\ unit_in 15 m u' /\
  forall dn rest, ordered warm_reqs m (warmth u0) dn rest u' -> exists l i r o t, dn = l ++ i :: r /\ answered m i (RespComfort true o t) /\ o <> latest warm_reqs (warmth u0) l.
Proof. exact comfort_not_found. Qed.
Print Assumptions C125_replaced_refuted.

(** A request for 21 degrees that begins and ends while the unit is set to 22 may be told that there is nothing to change. *)
Theorem C125_unchanged_refuted : exists c u m0 xs ys m u' m2 u2, lined 15 c u /\ exec xs (serve warm_reqs c 0) = Some m0 /\ Forall just_worker xs /\ m_wk m0 = None /\
  exec ys m0 = Some m /\ ~ In (Run 2) ys /\ unit_in 15 m u' /\ nth_error warm_reqs 2 = Some (SetComfortTempR 21) /\ warmth u' = 22 /\
  exec [Run 2] m = Some m2 /\ unit_in 15 m2 u2 /\ warmth u2 = 22 /\ answered m2 2 (RespComfort false 21 21).
Proof. exact comfort_stale. Qed.
Print Assumptions C125_unchanged_refuted.
