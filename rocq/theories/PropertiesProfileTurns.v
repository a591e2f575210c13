(** C124: requests for a fan profile that meet are taken one after the other. *)
From Verif Require Import GoBase Conn Proc Lib Server SpecServer SpecUnit Machine SpecMachine SpecFresh SpecTrack SamplesMachine SamplesSpeed SamplesProfileTurns ProfileTurnProofs SpecSpeed SpecProfileTurns.

(** At any moment all but one of the requests for profile [j] that have begun are answered; each was told the percentage of the unit
    at which it found it, and led to the next one's; and the unit is where the last one led. *)
Theorem C124_one_by_one j : (j < 4)%nat -> forall lo rs c clk u xs m0 u0 ys m u', lo <= 15 -> lined lo c u ->
  exec xs (serve rs c clk) = Some m0 -> Forall just_worker xs -> m_wk m0 = None -> unit_in lo m0 u0 ->
  exec ys m0 = Some m -> unit_in lo m u' ->
  exists dn rest z, sets_in_turn rs j ys = dn ++ rest /\ set_steps rs m (nth j (u_in u0) 0) dn z /\
    (rest = [] /\ nth j (u_in u') 0 = z \/ exists i, rest = [i] /\ forall a, ~ answered m i a).
Proof. exact (profiles_turn j). Qed.
Print Assumptions C124_one_by_one.
Example C124_one_by_one_ex : (1 < 4)%nat /\ exists m0 u0 m u', lined 15 even_line even_vent /\ exec even_before (serve turn_reqs even_line 0) = Some m0 /\ Forall just_worker even_before /\ m_wk m0 = None /\
  unit_in 15 m0 u0 /\ exec turn_during m0 = Some m /\ unit_in 15 m u'.
Proof. split; [repeat constructor|exact turn_ex1]. Qed.
Example C124_one_by_one_told : sets_in_turn turn_reqs 1 turn_during = [1; 0; 3]%nat /\
  option_map results (exec (even_before ++ turn_during) (serve turn_reqs even_line 0)) =
  Some [Some (RespProfile true 50 30); Some (RespProfile true 40 50); Some (RespProfile true 40 20); None; None].
Proof. vm_compute. auto. Qed.

(** When all are answered, the last one has decided; without any, nothing has changed, whatever is asked for other profiles. *)
Theorem C124_last j lo rs c clk u xs m0 u0 ys m u' : (j < 4)%nat -> lo <= 15 -> lined lo c u ->
  exec xs (serve rs c clk) = Some m0 -> Forall just_worker xs -> m_wk m0 = None -> unit_in lo m0 u0 ->
  exec ys m0 = Some m -> unit_in lo m u' ->
  (forall i, In i (sets_in_turn rs j ys) -> exists a, answered m i a) ->
  match rev (sets_in_turn rs j ys) with
  | i :: _ => exists p t, nth_error rs i = Some (SetFanProfileR p t) /\ nth j (u_in u') 0 = t mod 256
  | [] => nth j (u_in u') 0 = nth j (u_in u0) 0
  end.
Proof. exact (profiles_last j lo rs c clk u xs m0 u0 ys m u'). Qed.
Print Assumptions C124_last.
Example C124_last_ex : exists m0 u0 m u', lined 15 even_line even_vent /\ exec even_before (serve turn_reqs even_line 0) = Some m0 /\ Forall just_worker even_before /\ m_wk m0 = None /\
  unit_in 15 m0 u0 /\ exec (turn_during ++ turn_after) m0 = Some m /\ unit_in 15 m u' /\ (forall i, In i (sets_in_turn turn_reqs 1 (turn_during ++ turn_after)) -> exists a, answered m i a).
Proof. exact turn_ex2. Qed.

(** These are all requests for the profile that have begun, each once. *)
Theorem C124_all rs j xs : NoDup (sets_in_turn rs j xs) /\ forall i, In i (sets_in_turn rs j xs) <-> is_set rs j i = true /\ In (Run i) xs.
Proof. exact (sets_all rs j xs). Qed.
Print Assumptions C124_all.
Example C124_all_ex : map (fun j => sets_in_turn turn_reqs j (turn_during ++ turn_after)) [0; 1; 2]%nat = [[2]; [1; 0; 3]; []]%nat.
Proof. vm_compute. reflexivity. Qed.
