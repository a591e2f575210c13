(** Properties C23-C29, C32-C35, C43, C45, C47, C49-C51: the RPC server, one operation at a time.
    (Interleavings: PropertiesMachine.v.) *)
From Verif Require LayoutProofs.
From Verif Require Import GoBase Proto SpecProto SpecFrame SpecConn SpecOps SpecLayout SpecServer Scanner Conn Proc Lib Server
  Samples SamplesServer ServerLemmas ServerOps ServerTimes ServerClaims.

(** C23: whatever operations came before, the cache holds what the last successful fetch
    brought, and its getter returns that, leaving the world alone. *)
Theorem C23_getters_serve_last : forall w ops h w' c,
  idle w -> w_sh w = init_shared -> history ops w = (h, w') ->
  let payloads := flat_map (op_fetches c) h in
  Forall bytes_ok payloads ->
  holds_last c (w_sh w') payloads /\
  run (handle (getter_rpc c)) w' = (RDone (message (cached (w_sh w') c)), w').
Proof. exact getters_serve_last. Qed.
Print Assumptions C23_getters_serve_last.
(** Start-up, a fan refresh that brings new data, one that fails, a rejected set. *)
Example C23_ex :
  let w := server (script (startup ++ answer 12 [20; 25; 8; 0; 9; 0] ++ answer 12 [1; 2; 3])) init_shared in
  let ops := [OStart; ORpc (FlushCacheR 1); ORpc (FlushCacheR 1); ORpc (SetFanSpeedR 7 false)] in
  w_sh w = init_shared /\
  flat_map (op_fetches CFans) (fst (history ops w)) = [fans_payload; [20; 25; 8; 0; 9; 0]] /\
  fst (run (handle GetFansRPC) (snd (history ops w))) = RDone (RespFans (mkPbFans 20 25 915 813)).
Proof. vm_compute. auto. Qed.

(** C24 *)
Theorem C24_failed_refresh : forall w c force, idle w ->
  exists w' l, run (Update c force) w = (RDone tt, w') /\ idle w' /\ added w w' l /\
  (fetched c l = [] -> w_sh w' = w_sh w) /\
  (forall p r, fetched c l = p :: r -> r = [] /\ stamp (w_sh w') c = w_clk w' /\
     (bytes_ok p -> layout_of c p (cached (w_sh w') c)) /\
     forall c', c' <> c -> cached (w_sh w') c' = cached (w_sh w) c' /\ stamp (w_sh w') c' = stamp (w_sh w) c').
Proof. exact refresh_failure. Qed.
Print Assumptions C24_failed_refresh.
Example C24_ex : let w := started (answer 12 [1; 2; 3]) in
  w_sh (snd (run (Update CFans true) w)) = w_sh w /\ InPercent (sh_fans (w_sh w)) = 35.
Proof. vm_compute. auto. Qed.

(** C25: the age is taken at the time [w_clk w'] at which the refresh looks at the clock. *)
Theorem C25_refresh_decision : forall w c force, idle w ->
  exists w' l, run (Update c force) w = (RDone tt, w') /\ added w w' l /\
  (force = true \/ 4500000000 < w_clk w' - stamp (w_sh w) c -> one_query c l) /\
  (force = false -> w_clk w' - stamp (w_sh w) c <= 4500000000 -> l = []).
Proof. exact refresh_decision. Qed.
Print Assumptions C25_refresh_decision.
Example C25_ex :
  let n k := length (c_log (w_conn (snd (run (Update CFans false) (add_clock (started []) k))))) in
  n 4500000000 = 18%nat /\ n 4500000001 = 20%nat.
Proof. vm_compute. auto. Qed.

(** C26: for a cached comfort temperature that is not negative. *)
Theorem C26_comfort_partial : forall w t k,
  idle w -> 0 <= t -> f32_is (Comfort (sh_temp (w_sh w))) k -> 0 <= k <= 107 ->
  exists r w' l, run (handle (SetComfortTempR t)) w = (RDone r, w') /\ idle w' /\ added w w' l /\
  (255 < t -> r = RespErr (InvalidArgument ArgComfortTemp) /\ w' = w) /\
  (108 <= t <= 255 -> r = RespErr (Internal (LibErr ErrTooHigh)) /\ l = [] /\ w_sh w' = w_sh w) /\
  (t = k -> r = RespComfort false k t /\ w' = w) /\
  (t <= 107 -> t <> k ->
     (exists out e, exchange 211 [2 * (t + 20)] false out (Some e) l /\
        r = RespErr (Internal (LibErr e)) /\ w_sh w' = w_sh w) \/
     (exists out l1 l2, l = l1 ++ l2 /\ exchange 211 [2 * (t + 20)] false out None l1 /\
        one_query CTemp l2 /\ r = RespComfort true k t)).
Proof. exact comfort_spec. Qed.
Print Assumptions C26_comfort_partial.
Example C26_ex : let w := started (acked ++ answer 210 temps_payload) in
  f32_is (Comfort (sh_temp (w_sh w))) 21 /\
  fst (run (handle (SetComfortTempR 22)) w) = RDone (RespComfort true 21 22).
Proof. cbv zeta. split; [apply LayoutProofs.f32_isb_ok|]; vm_compute; reflexivity. Qed.
(** With -5 degrees in the cache the reply says that the original temperature was 4294967291. *)
Theorem C26_negative_refuted : exists w, idle w /\ f32_is (Comfort (sh_temp (w_sh w))) (-5) /\
  fst (run (handle (SetComfortTempR 21)) w) = RDone (RespComfort true 4294967291 21).
Proof. exact comfort_refuted. Qed.
Print Assumptions C26_negative_refuted.

(** C27: see [speed_outcome]; [o] is the mode in the cache. *)
Theorem C27_speed_requests : forall w abs rel o,
  idle w -> 0 <= abs -> CurrentMode (sh_prof (w_sh w)) = o -> 0 <= o < 256 ->
  exists r w' l, run (handle (SetFanSpeedR abs rel)) w = (RDone r, w') /\ added w w' l /\
    speed_outcome o (speed_target o abs rel) w r w' l.
Proof. exact speed_claim. Qed.
Print Assumptions C27_speed_requests.
Example C27_ex :
  let w := started (acked ++ answer 12 [50; 50; 8; 0; 9; 0] ++ answer 206 (prof_payload 3)) in
  CurrentMode (sh_prof (w_sh w)) = 2 /\ speed_target 2 0 true = Some 3 /\
  fst (run (handle (SetFanSpeedR 0 true)) w) = RDone (RespSpeed true 2 3) /\
  nth_error (c_log (w_conn (snd (run (handle (SetFanSpeedR 0 true)) w)))) 18 =
    Some (Wr (framed 153 [3]) (mkWres 9 None)) /\
  fst (run (handle (SetFanSpeedR 3 true)) w) = RDone (RespErr (InvalidArgument ArgAbsRel)) /\
  speed_target 4 0 true = Some 5 /\ speed_target 1 0 false = Some 0.
Proof. vm_compute. repeat split; reflexivity. Qed.

(** C28: Abs up to 255. *)
Theorem C28_abs_partial : forall w n o,
  idle w -> 1 <= n <= 255 -> CurrentMode (sh_prof (w_sh w)) = o -> 0 <= o < 256 ->
  exists r w' l, run (handle (SetFanSpeedR n false)) w = (RDone r, w') /\ added w w' l /\
    speed_outcome o (Some n) w r w' l /\
    (4 < n -> r = RespErr (InvalidArgument (ArgFanSpeed n)) /\ w' = w).
Proof. exact speed_abs. Qed.
Print Assumptions C28_abs_partial.
Example C28_ex : let w := started (acked ++ answer 12 [50; 50; 8; 0; 9; 0] ++ answer 206 (prof_payload 3)) in
  CurrentMode (sh_prof (w_sh w)) = 2 /\
  fst (run (handle (SetFanSpeedR 3 false)) w) = RDone (RespSpeed true 2 3) /\
  fst (run (handle (SetFanSpeedR 5 false)) w) = RDone (RespErr (InvalidArgument (ArgFanSpeed 5))).
Proof. vm_compute. auto. Qed.
(** Abs = 257 is taken as 1. *)
Theorem C28_abs_refuted : exists w, idle w /\ CurrentMode (sh_prof (w_sh w)) = 2 /\
  fst (run (handle (SetFanSpeedR 257 false)) w) = RDone (RespSpeed true 2 1) /\
  exists a r b, c_log (w_conn (snd (run (handle (SetFanSpeedR 257 false)) w))) = a ++ Wr (framed 153 [1]) r :: b.
Proof. exact speed_257. Qed.
Print Assumptions C28_abs_refuted.

(** C29: arguments up to 255; see [profile_outcome] for accepted arguments. *)
Theorem C29_profile_range_partial : forall w m t, idle w -> 0 <= m -> 0 <= t -> m <= 255 -> t <= 255 ->
  exists r w' l, run (handle (SetFanProfileR m t)) w = (RDone r, w') /\ idle w' /\ added w w' l /\
  (~ (1 <= m <= 4) -> r = RespErr (InvalidArgument ArgMode) /\ w' = w) /\
  (1 <= m <= 4 -> ~ (15 <= t <= 100) -> r = RespErr (InvalidArgument ArgTargetSpeed) /\ w' = w) /\
  (1 <= m <= 4 -> 15 <= t <= 100 ->
     let o := in_percent (sh_prof (w_sh w)) m in
     byte_ok o -> profile_outcome o m t w r w' l).
Proof. exact profile_spec. Qed.
Print Assumptions C29_profile_range_partial.
Example C29_ex : let w := started (answer 206 (prof_payload 2) ++ acked ++ answer 206 (prof_payload 2)) in
  fst (run (handle (SetFanProfileR 5 50)) w) = RDone (RespErr (InvalidArgument ArgMode)) /\
  fst (run (handle (SetFanProfileR 4 14)) w) = RDone (RespErr (InvalidArgument ArgTargetSpeed)) /\
  fst (run (handle (SetFanProfileR 4 80)) w) = RDone (RespProfile true 70 80).
Proof. vm_compute. auto. Qed.
(** Mode 257 is taken as 1, TargetSpeed 271 as 15, 300 as 44. *)
Theorem C29_profile_range_refuted : exists w, idle w /\
  fst (run (handle (SetFanProfileR 257 271)) w) = RDone (RespProfile false 15 271) /\
  fst (run (handle (SetFanProfileR 2 300)) w) = RDone (RespProfile true 35 300).
Proof. exact profile_271. Qed.
Print Assumptions C29_profile_range_refuted.

(** C32: [nth_poll w k] is the world after k+1 forced fan refreshes half a second apart. *)
Theorem C32_polling : forall w n v, idle w -> 1 <= v <= 4 ->
  exists r w' l, run (UpdatePoll n v) w = (RDone r, w') /\ idle w' /\ added w w' l /\
  let hit := at_profile (sh_prof (w_sh w)) v in
  ((exists k, (k < n)%nat /\ r = None /\ w' = nth_poll w k /\ hit w' /\
      (forall j, (j < k)%nat -> ~ hit (nth_poll w j)) /\ queries (repeat CFans (S k)) l) \/
   (r = Some ErrSetPollFailed /\ (forall j, (j < n)%nat -> ~ hit (nth_poll w j)) /\
      queries (repeat CFans n) l /\ w_clk w + Z.of_nat n * half_second <= w_clk w')).
Proof. exact update_poll_claim. Qed.
Print Assumptions C32_polling.
Example C32_ex : let w := started (answer 12 fans_payload ++ answer 12 [50; 35; 8; 0; 9; 0] ++ answer 12 [50; 50; 8; 0; 9; 0]) in
  fst (run (UpdatePoll 10 3) w) = RDone None /\ w_clk (snd (run (UpdatePoll 10 3) w)) = 1000000000 /\
  fst (run (UpdatePoll 2 3) w) = RDone (Some ErrSetPollFailed).
Proof. vm_compute. auto. Qed.

(** C33 *)
Theorem C33_no_lock_leaked : forall o w, idle w -> exists w', run (perform o) w = (RDone tt, w') /\ idle w'.
Proof. exact no_leak. Qed.
Print Assumptions C33_no_lock_leaked.
Example C33_ex : w_held (snd (run (perform (ORpc (SetFanSpeedR 3 false))) (started []))) = [].
Proof. vm_compute. auto. Qed.

(** C34 *)
Theorem C34_flush : forall w c, idle w ->
  exists b w' l, run (FlushCaches_body c) w = (RDone b, w') /\ added w w' l /\
  (b = true <-> In c [0; 1; 2; 3; 4; 10]) /\ queries (flushes c) l.
Proof. exact flush_claim. Qed.
Print Assumptions C34_flush.
Example C34_ex :
  let n c := (fst (run (FlushCaches_body c) (started startup)), length (c_log (w_conn (snd (run (FlushCaches_body c) (started startup)))))) in
  n 4 = (RDone true, 20%nat) /\ n 5 = (RDone false, 18%nat) /\ n 10 = (RDone true, 36%nat).
Proof. vm_compute. auto. Qed.

(** C35: a cache for which a reply was accepted is fresh, any other is unchanged. *)
Theorem C35_flush_partial : forall w c, idle w ->
  exists b w' l, run (FlushCaches_body c) w = (RDone b, w') /\ added w w' l /\
  forall k, In k (flushes c) ->
    (fetched k l = [] -> cached (w_sh w') k = cached (w_sh w) k /\ stamp (w_sh w') k = stamp (w_sh w) k) /\
    (forall p r, fetched k l = p :: r -> r = [] /\ w_clk w <= stamp (w_sh w') k /\
       (bytes_ok p -> layout_of k p (cached (w_sh w') k))).
Proof. exact flush_fresh. Qed.
Print Assumptions C35_flush_partial.
Example C35_ex : let w := add_clock (started (answer 210 temps_payload)) 77 in
  stamp (w_sh w) CTemp = 0 /\ stamp (w_sh (snd (run (FlushCaches_body 2) w))) CTemp = 77.
Proof. vm_compute. auto. Qed.
(** The unit does not answer; FlushCache reports success, the cache holds data a minute old. *)
Theorem C35_flush_refuted : exists w w', idle w /\ run (FlushCaches_body 2) w = (RDone true, w') /\
  stamp (w_sh w') CTemp < w_clk w /\ cached (w_sh w') CTemp = cached (w_sh w) CTemp.
Proof. exact flush_lies. Qed.
Print Assumptions C35_flush_refuted.

(** C43: a tick fired at [fired] is served starting in world [w0]; any operations follow; at
    any time before the next tick has waited [D], the data is at most period + 4.5 s + [D] old. *)
Theorem C43_staleness : forall w0 t c w1 l ops h w2 fired D,
  idle w0 -> refreshed_by t c -> run (on_tick t) w0 = (RDone tt, w1) -> added w0 w1 l -> queries_ok c l ->
  history ops w1 = (h, w2) ->
  fired <= w_clk w0 -> w_clk w2 <= fired + period t + D ->
  w_clk w2 - stamp (w_sh w2) c <= period t + 4500000000 + D.
Proof. exact fresh_after_tick. Qed.
Print Assumptions C43_staleness.
(** The bound is met: fetched at 0, not refreshed at 4.5 s, asked for 5 + 2 seconds later. *)
Example C43_ex : let w0 := add_clock (started []) 4500000000 in let w1 := snd (run (on_tick TickFast) w0) in
  let w2 := add_clock w1 7000000000 in
  c_log (w_conn w1) = c_log (w_conn w0) /\ w_clk w2 - stamp (w_sh w2) CTemp = period TickFast + 4500000000 + 2000000000.
Proof. vm_compute. auto. Qed.

(** C45: the handler does return the error ... *)
Theorem C45_poll_failure_partial : forall w w1 v,
  idle w -> 1 <= v <= 4 -> v <> CurrentMode (sh_prof (w_sh w)) ->
  run (SetSpeed v) w = (RDone None, w1) ->
  (forall j, (j < 10)%nat -> ~ at_profile (sh_prof (w_sh w)) v (nth_poll w1 j)) ->
  exists w', run (handle (SetFanSpeedR v false)) w = (RDone (RespErr (Internal ErrSetPollFailed)), w').
Proof. exact poll_failure_internal. Qed.
Print Assumptions C45_poll_failure_partial.
Example C45_ex : let w := started (acked ++ concat (repeat (answer 12 fans_payload) 10)) in
  fst (run (SetSpeed 3) w) = RDone None /\
  fst (run (handle (SetFanSpeedR 3 false)) w) = RDone (RespErr (Internal ErrSetPollFailed)).
Proof. vm_compute. auto. Qed.
(** ... but never before the write timeout of the HTTP server has passed: the caller does not
    get it.  (For every such run; the second theorem shows there is one.) *)
Theorem C45_reply_never_sent : forall w w' abs rel o,
  idle w -> 0 <= abs -> CurrentMode (sh_prof (w_sh w)) = o -> 0 <= o < 256 ->
  run (handle (SetFanSpeedR abs rel)) w = (RDone (RespErr (Internal ErrSetPollFailed)), w') ->
  http_reply (w_clk w) (w_clk w') (RespErr (Internal ErrSetPollFailed)) = None.
Proof. exact poll_failure_lost. Qed.
Print Assumptions C45_reply_never_sent.
Theorem C45_poll_failure_refuted : exists w w', idle w /\ CurrentMode (sh_prof (w_sh w)) = 2 /\
  run (handle (SetFanSpeedR 3 false)) w = (RDone (RespErr (Internal ErrSetPollFailed)), w') /\
  http_reply (w_clk w) (w_clk w') (RespErr (Internal ErrSetPollFailed)) = None.
Proof. exact poll_failure_occurs. Qed.
Print Assumptions C45_poll_failure_refuted.

(** C47 *)
Theorem C47_messages : forall w c, idle w -> typed (cached (w_sh w) c) ->
  run (handle (getter_rpc c)) w = (RDone (message (cached (w_sh w) c)), w).
Proof. exact getter_message. Qed.
Print Assumptions C47_messages.
Theorem C47_messages_differ : forall v1 v2, message v1 = message v2 -> v1 = v2.
Proof. exact message_inj. Qed.
Print Assumptions C47_messages_differ.
Example C47_ex : typed (cached (w_sh (started [])) CFans) /\
  fst (run (handle GetFansRPC) (started [])) = RDone (RespFans (mkPbFans 35 35 915 813)).
Proof. vm_compute. repeat split; auto; discriminate. Qed.

(** C49: [w1] is the world after the first of the two refreshes. *)
Theorem C49_ticks : forall w t, idle w -> exists (w1 w' : world shared) l1 l2,
  run (on_tick t) w = (RDone tt, w') /\ idle w' /\
  added w w' (l1 ++ l2) /\ w_clk w <= w_clk w1 <= w_clk w' /\
  (l1 = [] \/ one_query (tick_first t) l1) /\ (l2 = [] \/ one_query (tick_second t) l2) /\
  (l1 <> [] <-> 4500000000 < w_clk w1 - stamp (w_sh w) (tick_first t)) /\
  (l2 <> [] <-> 4500000000 < w_clk w' - stamp (w_sh w) (tick_second t)).
Proof. exact tick_spec. Qed.
Print Assumptions C49_ticks.
Theorem C49_start : forall w, idle w -> exists w' l, run StartCaches w = (RDone tt, w') /\ idle w' /\ added w w' l /\
  queries [CBoot; CBypass; CTemp; CFans; CProf; CErr] l.
Proof. exact start_spec. Qed.
Print Assumptions C49_start.
Theorem C49_no_hours : forall l, session l -> forall r, ~ In (Wr (framed 221 []) r) l.
Proof. exact session_no_hours. Qed.
Print Assumptions C49_no_hours.
Example C49_ex : let w := add_clock (started (answer 210 temps_payload ++ answer 12 fans_payload)) 5000000000 in
  length (c_log (w_conn (snd (run (on_tick TickFast) w)))) = 24%nat /\
  length (c_log (w_conn (snd (run (on_tick TickFast) (started []))))) = 18%nat.
Proof. vm_compute. auto. Qed.

(** C50: UpdatePoll for an unknown speed leaves the profile cache read-locked; the next refresh
    of that cache waits for ever.  (No caller in the code passes such a speed.) *)
Theorem C50_poll_lock_refuted : forall w n v, idle w -> ~ (1 <= v <= 4) -> exists w',
  run (UpdatePoll n v) w = (RDone (Some (LibErr ErrNotExist)), w') /\ w_held w' = [(LC CProf, false)] /\
  w_sh w' = w_sh w /\ w_conn w' = w_conn w /\
  forall force, fst (run (Update CProf force) w') = RBlocked.
Proof. exact poll_leak. Qed.
Print Assumptions C50_poll_lock_refuted.
Example C50_ex : fst (run (UpdatePoll 10 5) (started [])) = RDone (Some (LibErr ErrNotExist)) /\
  fst (run (Update CProf true) (snd (run (UpdatePoll 10 5) (started [])))) = RBlocked.
Proof. vm_compute. auto. Qed.

(** C51: everything any sequence of operations sends; see [session] and [permitted]. *)
Theorem C51_permitted_requests : forall w ops h w', idle w -> history ops w = (h, w') ->
  idle w' /\ exists l, added w w' l /\ session l.
Proof. exact history_session. Qed.
Print Assumptions C51_permitted_requests.
Example C51_ex : let ops := [OStart; OTick TickSlow; ORpc (SetFanSpeedR 3 false); ORpc (SetComfortTempR 20)] in
  length (c_log (w_conn (snd (history ops (server (script startup) init_shared))))) = 22%nat.
Proof. vm_compute. auto. Qed.
