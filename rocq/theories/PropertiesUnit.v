(** Properties C21, C22, C30, C31: the code together with a unit that follows the protocol
    (SpecUnit.v). *)
From Verif Require Import GoBase Proto SpecProto SpecFrame SpecConn SpecLayout SpecUnit Scanner Conn Proc Lib Server SpecServer
  Samples SamplesServer SamplesUnit UnitClaims.

(** C21: for a line that may lose requests and answers ([b = false]) or not, and answers in any pieces.
    Whatever happens no other profile changes; success means that this one did. *)
Theorem C21_profile_set : forall lo b (w : world unit) u m v,
  w_held w = [] -> quiet (w_conn w) -> unit_at lo b u (c_dev (w_conn w)) -> vent_ok lo u ->
  0 <= m <= 3 -> 0 <= v <= 100 -> lo <= v ->
  exists e w' u', run (SetFanProfile m v) w = (RDone e, w') /\ w_held w' = [] /\
    unit_at lo b u' (c_dev (w_conn w')) /\ (u' = u \/ with_profile (Z.to_nat m) v u u') /\
    (e = None -> with_profile (Z.to_nat m) v u u' /\ quiet (w_conn w') /\
       exists fp e2 w2, run GetFanProfiles w' = (RDone (fp, e2), w2) /\ (e2 = None -> reports u' fp) /\
         (b = true -> legible (c_dev (w_conn w')) -> e2 = None)) /\
    (b = true -> legible (c_dev (w_conn w)) -> e = None).
Proof. exact profile_on_unit. Qed.
Print Assumptions C21_profile_set.
Example C21_ex : let w := world0 (simulator 0 fans_payload vent2) in
  (quiet (w_conn w) /\ unit_at 0 true vent2 (c_dev (w_conn w)) /\ vent_ok 0 vent2) /\
  fst (run (SetFanProfile 1 42) w) = RDone None /\
  fst (run (do e <- SetFanProfile 1 42; GetFanProfiles) w) =
    RDone (mkProf 15 42 40 70 true 15 42 50 70 35 35 2, None).
Proof. cbv zeta. split; [exact vent2_unit|]. vm_compute. auto. Qed.

(** C22: the numbering of the profiles.  In the table ... *)
Theorem C22_table : forall p m m' t, 1 <= m <= 4 -> 1 <= m' <= 4 ->
  Lookup (change_profile (m - 1) t p) m' = if m' =? m then (t, t, None) else Lookup p m'.
Proof. exact lookup_changed. Qed.
Print Assumptions C22_table.
(** ... and in the server: what the RPC changed for m is what Lookup(m) returns, the speed which
    SetFanSpeed(Abs = m) selects on the unit, and the percentages it waits for. *)
Theorem C22_numbering : forall lo w m t u, lo <= 15 -> idle w -> synced lo w u -> 1 <= m <= 4 -> 15 <= t <= 100 ->
  exists r w', run (handle (SetFanProfileR m t)) w = (RDone r, w') /\
  forall o, r = RespProfile true o t ->
    (exists u', synced lo w' u' /\ with_profile (Z.to_nat (m - 1)) t u u') /\
    (forall m', 1 <= m' <= 4 ->
       Lookup (sh_prof (w_sh w')) m' = if m' =? m then (t, t, None) else Lookup (sh_prof (w_sh w)) m') /\
    (forall w2 md o2 t2, run (handle (SetFanSpeedR m false)) w' = (RDone (RespSpeed md o2 t2), w2) ->
       exists u2, synced lo w2 u2 /\ u_mode u2 = m /\ (md = true -> fans_at t t w2)).
Proof. exact numbering. Qed.
Print Assumptions C22_numbering.
Example C22_ex : let w := snd (run StartCaches (simulated [60; 60; 8; 0; 9; 0])) in
  idle w /\ synced 15 w vent2 /\
  fst (run (handle (SetFanProfileR 4 60)) w) = RDone (RespProfile true 70 60) /\
  fst (run (handle (SetFanSpeedR 4 false)) (snd (run (handle (SetFanProfileR 4 60)) w))) = RDone (RespSpeed true 2 4).
Proof. cbv zeta. split; [vm_compute; reflexivity|]. split; [exact synced_60|]. vm_compute. auto. Qed.

(** C30.  Partial: the server has been started on a quiet line to a reliable unit that only sends readable
    packets, and no SetFanSpeed so far reported a failed poll ([undisturbed]); Abs up to 255 (C28). *)
Theorem C30_speed_partial : forall lo w u n md o t w0 w1 w2, lo <= 15 -> idle w -> lined lo (w_conn w) u ->
  run StartCaches w = (RDone tt, w0) -> undisturbed w0 w1 -> 1 <= n <= 255 ->
  run (handle (SetFanSpeedR n false)) w1 = (RDone (RespSpeed md o t), w2) ->
  exists u2, lined lo (w_conn w2) u2 /\ u_mode u2 = n.
Proof. exact speed_on_unit. Qed.
Print Assumptions C30_speed_partial.
Example C30_ex : let w := simulated [50; 40; 8; 0; 9; 0] in
  let w0 := snd (run StartCaches w) in
  let w1 := snd (run (perform (ORpc (SetFanSpeedR 3 false))) w0) in
  lined 15 (w_conn w) vent2 /\ undisturbed w0 w1 /\
  fst (run (handle (SetFanSpeedR 3 false)) w0) = RDone (RespSpeed true 2 3) /\
  fst (run (handle (SetFanSpeedR 3 false)) w1) = RDone (RespSpeed false 3 3).
Proof. exact speed_example. Qed.
(** Partial: any cache contents, any history; but the reply must say that the speed was changed.
    ([b = true]: no request or answer is ever lost; stray bytes may be waiting.) *)
Theorem C30_modified_partial : forall lo b w u n o t w2, idle w -> unit_at lo b u (c_dev (w_conn w)) -> vent_ok lo u ->
  (b = true \/ quiet (w_conn w)) -> 1 <= n <= 255 ->
  run (handle (SetFanSpeedR n false)) w = (RDone (RespSpeed true o t), w2) ->
  exists u2, unit_at lo b u2 (c_dev (w_conn w2)) /\ u_mode u2 = n /\ u_in u2 = u_in u /\ u_out u2 = u_out u /\ u_comfort u2 = u_comfort u.
Proof. exact speed_modified. Qed.
Print Assumptions C30_modified_partial.
Example C30_modified_ex :
  fst (run (handle (SetFanSpeedR 3 false)) (snd (run StartCaches (simulated [50; 40; 8; 0; 9; 0])))) = RDone (RespSpeed true 2 3).
Proof. vm_compute. reflexivity. Qed.
(** In full it is false: after SetFanSpeed(3) failed to see the fans follow, SetFanSpeed(2) succeeds
    without doing anything, and the unit stays at 3. *)
Theorem C30_speed_refuted : exists w u w0 w1 w2 u2,
  idle w /\ lined 15 (w_conn w) u /\ run StartCaches w = (RDone tt, w0) /\
  run (handle (SetFanSpeedR 3 false)) w0 = (RDone (RespErr (Internal ErrSetPollFailed)), w1) /\
  run (handle (SetFanSpeedR 2 false)) w1 = (RDone (RespSpeed false 2 2), w2) /\
  unit_at 15 true u2 (c_dev (w_conn w2)) /\ u_mode u2 = 3.
Proof. exact speed_refuted. Qed.
Print Assumptions C30_speed_refuted.

(** C31.  Partial: the reply must say that the profile was changed.  Any cache contents; the line may
    lose requests and answers. *)
Theorem C31_profile_partial : forall lo b w u m t o w2,
  idle w -> quiet (w_conn w) -> unit_at lo b u (c_dev (w_conn w)) -> vent_ok lo u ->
  1 <= m <= 4 -> 15 <= t <= 100 -> lo <= t ->
  run (handle (SetFanProfileR m t)) w = (RDone (RespProfile true o t), w2) ->
  exists u2, unit_at lo b u2 (c_dev (w_conn w2)) /\ with_profile (Z.to_nat (m - 1)) t u u2.
Proof. exact profile_modified. Qed.
Print Assumptions C31_profile_partial.
Example C31_ex :
  fst (run (handle (SetFanProfileR 3 60)) (snd (run StartCaches (simulated fans_payload)))) = RDone (RespProfile true 50 60).
Proof. vm_compute. reflexivity. Qed.
(** Partial: if nothing was changed, the in percentage is right (histories as for C30). *)
Theorem C31_in_percent_partial : forall lo w u m t md o w0 w1 w2, lo <= 15 -> idle w -> lined lo (w_conn w) u ->
  run StartCaches w = (RDone tt, w0) -> undisturbed w0 w1 -> 1 <= m <= 4 -> 15 <= t <= 100 ->
  run (handle (SetFanProfileR m t)) w1 = (RDone (RespProfile md o t), w2) ->
  exists u2, lined lo (w_conn w2) u2 /\ nth (Z.to_nat (m - 1)) (u_in u2) 0 = t /\
    (md = true -> nth (Z.to_nat (m - 1)) (u_out u2) 0 = t).
Proof. exact profile_history. Qed.
Print Assumptions C31_in_percent_partial.
Example C31_in_percent_ex : lined 15 (w_conn (simulated fans_payload)) vent2 /\
  fst (run (handle (SetFanProfileR 3 50)) (snd (run StartCaches (simulated fans_payload)))) = RDone (RespProfile false 50 50).
Proof. split; [exact simulated_fans|vm_compute; reflexivity]. Qed.
(** In full it is false: a unit whose mid profile is 50 in, 40 out. *)
Theorem C31_profile_refuted : exists w u w0 w1 u1,
  idle w /\ lined 15 (w_conn w) u /\ run StartCaches w = (RDone tt, w0) /\
  run (handle (SetFanProfileR 3 50)) w0 = (RDone (RespProfile false 50 50), w1) /\
  unit_at 15 true u1 (c_dev (w_conn w1)) /\ nth 2 (u_in u1) 0 = 50 /\ nth 2 (u_out u1) 0 = 40.
Proof. exact profile_refuted. Qed.
Print Assumptions C31_profile_refuted.

(** C54: as long as no SetFanSpeed has reported a failed poll, GetFanProfiles shows the state of the unit. *)
Theorem C54_cache_follows_unit : forall lo w u w0 w1, lo <= 15 -> idle w -> lined lo (w_conn w) u ->
  run StartCaches w = (RDone tt, w0) -> undisturbed w0 w1 ->
  exists u1 m, lined lo (w_conn w1) u1 /\ run (handle GetFanProfilesRPC) w1 = (RDone (RespProf m), w1) /\
    [pbOutAway m; pbOutLow m; pbOutMid m; pbOutHigh m] = u_out u1 /\
    [pbInAway m; pbInLow m; pbInMid m; pbInHigh m] = u_in u1 /\ pbCurrentMode m = u_mode u1.
Proof. exact cache_follows. Qed.
Print Assumptions C54_cache_follows_unit.
(** After a change of speed and of a profile ([undisturbed]: see C30_ex). *)
Example C54_ex :
  let w0 := snd (run StartCaches (simulated [50; 40; 8; 0; 9; 0])) in
  let w1 := snd (run (do _ <- handle (SetFanSpeedR 3 false); handle (SetFanProfileR 1 22)) w0) in
  fst (run (handle GetFanProfilesRPC) w1) = RDone (RespProf (mkPbProf 22 35 40 70 true 22 35 50 70 35 35 3)).
Proof. vm_compute. reflexivity. Qed.

(** C71.  Partial: the reply must say that the temperature was changed.  Any cache contents; the line may
    lose requests and answers. *)
Theorem C71_modified_partial : forall lo b w u t o t' w2,
  idle w -> unit_at lo b u (c_dev (w_conn w)) -> vent_ok lo u -> (b = true \/ quiet (w_conn w)) -> 0 <= t ->
  run (handle (SetComfortTempR t)) w = (RDone (RespComfort true o t'), w2) ->
  exists u2, unit_at lo b u2 (c_dev (w_conn w2)) /\ u_comfort u2 = 2 * (t + 20) /\
    u_mode u2 = u_mode u /\ u_in u2 = u_in u /\ u_out u2 = u_out u.
Proof. exact comfort_modified. Qed.
Print Assumptions C71_modified_partial.
Example C71_modified_ex : let w := snd (run StartCaches (simulated fans_payload)) in
  let w2 := snd (run (handle (SetComfortTempR 23)) w) in
  fst (run (handle (SetComfortTempR 23)) w) = RDone (RespComfort true 21 23) /\
  match fst (run GetTemperatures w2) with RDone (t, None) => Comfort t = f32_of_Z 23 | _ => False end.
Proof. vm_compute. auto. Qed.
(** Partial: on a quiet reliable line to a unit that sends readable packets, after any operations, the call
    succeeds and the unit's temperature is the target, or the target and a half. *)
Theorem C71_history_partial : forall lo w u t w0 ops h w1, lo <= 15 -> idle w -> lined lo (w_conn w) u ->
  run StartCaches w = (RDone tt, w0) -> history ops w0 = (h, w1) -> 0 <= t <= 107 ->
  exists md o w2 u2, run (handle (SetComfortTempR t)) w1 = (RDone (RespComfort md o t), w2) /\ lined lo (w_conn w2) u2 /\
    u_comfort u2 / 2 - 20 = t /\ (md = true -> u_comfort u2 = 2 * (t + 20)) /\ (md = false -> w2 = w1).
Proof. exact comfort_history. Qed.
Print Assumptions C71_history_partial.
Example C71_history_ex : lined 15 (w_conn (simulated fans_payload)) vent2 /\
  let w0 := snd (run StartCaches (simulated fans_payload)) in
  let w1 := snd (history [ORpc (SetComfortTempR 19); OTick TickFast; ORpc (SetFanSpeedR 3 false)] w0) in
  fst (run (handle (SetComfortTempR 21)) w1) = RDone (RespComfort true 19 21).
Proof. split; [exact simulated_fans|vm_compute; reflexivity]. Qed.
(** In full it is false: a unit at 21.5 degrees, and a unit at -5 degrees. *)
Theorem C71_half_degree_refuted : exists w u w0 w1 u1, idle w /\ lined 15 (w_conn w) u /\ run StartCaches w = (RDone tt, w0) /\
  run (handle (SetComfortTempR 21)) w0 = (RDone (RespComfort false 21 21), w1) /\
  unit_at 15 true u1 (c_dev (w_conn w1)) /\ u_comfort u1 = 83.
Proof. exact half_degree. Qed.
Print Assumptions C71_half_degree_refuted.
Theorem C71_below_zero_refuted : exists w u w0 w1 u1, idle w /\ lined 15 (w_conn w) u /\ run StartCaches w = (RDone tt, w0) /\
  run (handle (SetComfortTempR 251)) w0 = (RDone (RespComfort false 4294967291 251), w1) /\
  unit_at 15 true u1 (c_dev (w_conn w1)) /\ u_comfort u1 = 30.
Proof. exact below_zero. Qed.
Print Assumptions C71_below_zero_refuted.

(** C72: on such a line GetTemps always shows the unit's comfort temperature, half degrees cut off. *)
Theorem C72_temps_follow_unit : forall lo w u w0 ops h w1, lo <= 15 -> idle w -> lined lo (w_conn w) u ->
  run StartCaches w = (RDone tt, w0) -> history ops w0 = (h, w1) ->
  exists u1 m, lined lo (w_conn w1) u1 /\ run (handle GetTempsRPC) w1 = (RDone (RespTemps m), w1) /\
    f32_is (pbComfort m) (u_comfort u1 / 2 - 20).
Proof. exact temps_follow. Qed.
Print Assumptions C72_temps_follow_unit.
Example C72_ex : lined 15 (w_conn (simulated fans_payload)) vent2 /\
  let w0 := snd (run StartCaches (simulated fans_payload)) in
  let w1 := snd (history [ORpc (SetComfortTempR 19); ORpc (SetFanSpeedR 3 false)] w0) in
  match fst (run (handle GetTempsRPC) w1) with RDone (RespTemps m) => pbComfort m = f32_of_Z 19 | _ => False end.
Proof. split; [exact simulated_fans|vm_compute; reflexivity]. Qed.
