(** Properties C44 and C59-C63: the Python client, and the client together with the server. *)
From Coq Require Import String.
From Verif Require LayoutProofs.
From Verif Require Import GoBase Proto SpecProto SpecFrame SpecConn SpecLayout SpecUnit Scanner Conn Proc Lib Server SpecServer
  Samples SamplesServer SamplesUnit UnitClaims Client SpecClient ClientProofs.

(** C44: which arguments are refused, and what is sent for the others. *)
Theorem C44_ranges : forall n p v t,
  (1 <= n <= 4 -> sends (set_fan_speed n) (SetFanSpeedR n false)) /\
  (~ 1 <= n <= 4 -> set_fan_speed n = Raises InvalidFanSpeed) /\
  (1 <= p <= 4 -> 15 <= v <= 100 -> sends (configure_fan_profile p v) (SetFanProfileR p v)) /\
  (~ 1 <= p <= 4 -> configure_fan_profile p v = Raises InvalidFanSpeed) /\
  (1 <= p <= 4 -> ~ 15 <= v <= 100 -> configure_fan_profile p v = Raises InvalidDutyPercent) /\
  (0 <= t <= 255 -> sends (set_comfort_temperature (Some t)) (SetComfortTempR t)) /\
  (~ 0 <= t <= 255 -> set_comfort_temperature (Some t) = Raises InvalidTemperature) /\
  set_comfort_temperature None = Raises InvalidTemperature.
Proof. exact ranges. Qed.
Print Assumptions C44_ranges.
Example C44_ranges_ex : set_fan_speed 5 = Raises InvalidFanSpeed /\ configure_fan_profile 4 14 = Raises InvalidDutyPercent /\
  set_comfort_temperature (Some 256) = Raises InvalidTemperature /\ sends (configure_fan_profile 4 100) (SetFanProfileR 4 100).
Proof. repeat split. eexists. reflexivity. Qed.

(** The server has no objection to the arguments of a request that is sent, reads them as they were meant,
    and the caller gets what the server says. *)
Theorem C44_accepted : forall c q w, idle w -> sends (called c) q ->
  exists r x w', run (handle q) w = (RDone r, w') /\ ask (called c) w = (Some x, w') /\ idle w' /\
    ~ argument_error r /\ (forall t, target r = Some t -> t = wanted c) /\ passed_on (reply_of w w' r) x.
Proof. exact accepted_calls. Qed.
Print Assumptions C44_accepted.
Example C44_accepted_ex : let w := started (acked ++ answer 12 [50; 50; 8; 0; 9; 0] ++ answer 206 (prof_payload 3)) in
  idle w /\ sends (called (Speed 3)) (SetFanSpeedR 3 false) /\ fst (ask (called (Speed 3)) w) = Some (PyRet true) /\
  fst (ask (called (Speed 2)) w) = Some (PyRet false) /\
  fst (ask (called (Speed 3)) (started [])) = Some (PyRaise (TwirpServer (Internal (LibErr ErrTimeout)))).
Proof. cbv zeta. split; [vm_compute; reflexivity|]. split; [eexists; reflexivity|]. vm_compute. auto. Qed.

(** One step up or down: [mode] is the mode in the cache. *)
Theorem C44_steps : forall up w, idle w -> 0 <= CurrentMode (sh_prof (w_sh w)) < 256 ->
  let mode := CurrentMode (sh_prof (w_sh w)) in
  exists r x w', run (handle (SetFanSpeedR 0 up)) w = (RDone r, w') /\ ask (step up) w = (Some x, w') /\ idle w' /\
    (x = PyRet false <-> ~ 1 <= next up mode <= 4) /\ (x = PyRet false <-> argument_error r) /\ (x = PyRet false -> w' = w) /\
    (x = PyRet true <-> reply_of w w' r = Reply (RespSpeed true mode (next up mode))) /\
    (forall e, x = PyRaise e -> e = Transport /\ reply_of w w' r = Lost \/
       exists ie, e = TwirpServer (Internal ie) /\ reply_of w w' r = Reply (RespErr (Internal ie))).
Proof. exact steps. Qed.
Print Assumptions C44_steps.
Example C44_steps_ex : let w := started (acked ++ answer 12 [50; 50; 8; 0; 9; 0] ++ answer 206 (prof_payload 3)) in
  CurrentMode (sh_prof (w_sh w)) = 2 /\ fst (ask (step true) w) = Some (PyRet true) /\
  fst (ask (step true) (snd (ask (step true) w))) = Some (PyRaise (TwirpServer (Internal (LibErr ErrTimeout)))) /\
  fst (ask (step true) (server (script []) (mkShared (mkBoot 0 0 0 []) 0 (mkBypass 0 0 0 false) 0 (mkTemps f0 f0 f0 f0 f0 f0 f0 f0) 0
    (mkFans 0 0 0 0) 0 (mkProf 15 35 50 70 true 15 35 50 70 70 70 4) 0 (mkErrors false) 0))) = Some (PyRet false).
Proof. vm_compute. auto. Qed.

(** C59.  Partial: an async_ method does what the plain method does if the object was made without a loop
    inside a running one. *)
Theorem C59_async_partial : forall A (m : method A) l, async (init_loop None (Some l)) m = m.
Proof. exact @async_running. Qed.
Print Assumptions C59_async_partial.
Example C59_ex : async (init_loop None (Some 0%nat)) (set_fan_speed 2) = set_fan_speed 2.
Proof. reflexivity. Qed.
(** In all other cases no async_ method works, in particular if a loop is given to the constructor. *)
Theorem C59_async_fails : forall A (m : method A) loop running, loop <> None \/ running = None ->
  async (init_loop loop running) m = Raises NoAttribute.
Proof. exact @async_fails. Qed.
Print Assumptions C59_async_fails.
Theorem C59_async_refuted : exists loop : nat, forall running A (m : method A),
  async (init_loop (Some loop) running) m = Raises NoAttribute.
Proof. exact async_loop_given. Qed.
Print Assumptions C59_async_refuted.
Example C59_async_here : async (init_loop (Some 3%nat) (Some 3%nat)) get_fans = Raises NoAttribute /\ async (init_loop None None) get_fans = Raises NoAttribute /\
  async (init_loop None (Some 3%nat)) get_fans <> Raises NoAttribute.
Proof. vm_compute. repeat split; discriminate. Qed.

(** C60: the objects returned by the get methods have the fields of the server's record. *)
Theorem C60_getters : forall w c, idle w -> typed (cached (w_sh w) c) ->
  exists o, ask (getter c) w = (Some (PyRet o), w) /\ shows (cached (w_sh w) c) o.
Proof. exact getters_show. Qed.
Print Assumptions C60_getters.
Example C60_ex : typed (cached (w_sh (started [])) CFans) /\
  match fst (ask (getter CFans) (started [])) with
  | Some (PyRet o) => attr o "InPercent"%string = Some (PInt 35) /\ attr o "OutSpeed"%string = Some (PInt 813)
  | _ => False
  end.
Proof. vm_compute. repeat split; auto; discriminate. Qed.

(** C61: if a set method returns True, the unit has done it. *)
Theorem C61_speed : forall lo b w u n w2, idle w -> unit_at lo b u (c_dev (w_conn w)) -> vent_ok lo u -> (b = true \/ quiet (w_conn w)) ->
  ask (set_fan_speed n) w = (Some (PyRet true), w2) ->
  exists u2, unit_at lo b u2 (c_dev (w_conn w2)) /\ u_mode u2 = n /\ u_in u2 = u_in u /\ u_out u2 = u_out u /\ u_comfort u2 = u_comfort u.
Proof. exact speed_call_unit. Qed.
Print Assumptions C61_speed.
Theorem C61_step : forall lo b w u up w2, idle w -> unit_at lo b u (c_dev (w_conn w)) -> vent_ok lo u -> (b = true \/ quiet (w_conn w)) ->
  0 <= CurrentMode (sh_prof (w_sh w)) < 256 -> ask (step up) w = (Some (PyRet true), w2) ->
  exists u2, unit_at lo b u2 (c_dev (w_conn w2)) /\ u_mode u2 = next up (CurrentMode (sh_prof (w_sh w))) /\
    u_in u2 = u_in u /\ u_out u2 = u_out u /\ u_comfort u2 = u_comfort u.
Proof. exact step_call_unit. Qed.
Print Assumptions C61_step.
Theorem C61_comfort : forall lo b w u t w2, idle w -> unit_at lo b u (c_dev (w_conn w)) -> vent_ok lo u -> (b = true \/ quiet (w_conn w)) ->
  ask (set_comfort_temperature (Some t)) w = (Some (PyRet true), w2) ->
  exists u2, unit_at lo b u2 (c_dev (w_conn w2)) /\ u_comfort u2 = 2 * (t + 20) /\ u_mode u2 = u_mode u /\ u_in u2 = u_in u /\ u_out u2 = u_out u.
Proof. exact comfort_call_unit. Qed.
Print Assumptions C61_comfort.
Theorem C61_profile : forall lo b w u p v w2, idle w -> quiet (w_conn w) -> unit_at lo b u (c_dev (w_conn w)) -> vent_ok lo u -> lo <= v ->
  ask (configure_fan_profile p v) w = (Some (PyRet true), w2) ->
  exists u2, unit_at lo b u2 (c_dev (w_conn w2)) /\ with_profile (Z.to_nat (p - 1)) v u u2.
Proof. exact profile_call_unit. Qed.
Print Assumptions C61_profile.
Example C61_ex : let w := snd (run StartCaches (simulated [60; 60; 8; 0; 9; 0])) in
  idle w /\ synced 15 w vent2 /\ fst (ask (configure_fan_profile 4 60) w) = Some (PyRet true) /\
  fst (ask (set_fan_speed 4) (snd (ask (configure_fan_profile 4 60) w))) = Some (PyRet true) /\
  fst (ask (step false) (snd (run StartCaches (simulated [15; 15; 8; 0; 9; 0])))) = Some (PyRet true) /\
  fst (ask (set_comfort_temperature (Some 23)) w) = Some (PyRet true).
Proof. cbv zeta. split; [vm_compute; reflexivity|]. split; [exact synced_60|]. vm_compute. auto. Qed.

(** C62.  ping only asks the server, which answers from its cache. *)
Theorem C62_ping_partial : forall w, idle w -> ask ping w = (Some (PyRet true), w).
Proof. exact ping_true. Qed.
Print Assumptions C62_ping_partial.
Example C62_ex : idle (started []) /\ fst (ask ping (started [])) = Some (PyRet true).
Proof. vm_compute. auto. Qed.
(** It succeeds on a server that never got an answer from its unit. *)
Theorem C62_ping_refuted : exists w, w_sh w = init_shared /\ w_conn w = fresh (script []) /\
  ask ping (snd (run StartCaches w)) = (Some (PyRet true), snd (run StartCaches w)) /\
  w_sh (snd (run StartCaches w)) = init_shared.
Proof. exact ping_no_unit. Qed.
Print Assumptions C62_ping_refuted.

(** C63.  Partial: a comfort temperature up to 107. *)
Theorem C63_comfort_partial : forall w t k, idle w -> f32_is (Comfort (sh_temp (w_sh w))) k -> 0 <= k <= 107 ->
  (108 <= t <= 255 -> exists w', ask (set_comfort_temperature (Some t)) w = (Some (PyRaise (TwirpServer (Internal (LibErr ErrTooHigh)))), w') /\
     added w w' []) /\
  (0 <= t <= 107 -> t <> k -> forall w', ask (set_comfort_temperature (Some t)) w = (Some (PyRet true), w') ->
     exists out l1 l2, added w w' (l1 ++ l2) /\ exchange 211 [2 * (t + 20)] false out None l1 /\ one_query CTemp l2).
Proof. exact comfort_too_high. Qed.
Print Assumptions C63_comfort_partial.
Example C63_ex : let w := started (acked ++ answer 210 temps_payload) in
  f32_is (Comfort (sh_temp (w_sh w))) 21 /\ fst (ask (set_comfort_temperature (Some 107)) w) = Some (PyRet true).
Proof. cbv zeta. split; [apply LayoutProofs.f32_isb_ok|]; vm_compute; reflexivity. Qed.
(** 150 is in the documented range and is refused by the server as an internal error. *)
Theorem C63_comfort_refuted : exists w, idle w /\ f32_is (Comfort (sh_temp (w_sh w))) 21 /\
  fst (ask (set_comfort_temperature (Some 150)) w) = Some (PyRaise (TwirpServer (Internal (LibErr ErrTooHigh)))).
Proof. exact comfort_150. Qed.
Print Assumptions C63_comfort_refuted.
