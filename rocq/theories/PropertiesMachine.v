(** Properties C36-C42 and C55-C58: all interleavings (Machine.v). *)
From Coq Require Import Permutation.
From Verif Require Import GoBase Proto SpecProto SpecFrame SpecConn SpecLayout SpecUnit Scanner Conn Proc Lib Server SpecServer Machine SpecMachine
  Samples SamplesServer SamplesUnit SamplesMachine MachineFlush MachineRace AtomicCalls MachineClaims.

(** C36: between taking the request of goroutine [i] and the next reply the worker serves nobody else and
    no ticker; the reply goes to [i], says whether there is such a cache, and the queries for it were
    written in between. *)
Theorem C36_flush_pairing : forall rs c clk s1 i s2 j m0 m m',
  exec s1 (serve rs c clk) = Some m0 -> exec (Flush i :: s2) m0 = Some m -> exec1 m (Succ j) = Some m' ->
  Forall (fun x => forall k, x <> Succ k) s2 ->
  i = j /\ Forall no_channel s2 /\ exists k b t l, nth_error rs i = Some (FlushCacheR k) /\
    nth_error (m_ts m') i = Some t /\ t_p t = Ret (RespFlush b) /\ (b = true <-> flushes k <> []) /\
    c_log (g_conn (m_g m')) = c_log (g_conn (m_g m0)) ++ l /\
    forall q, In q (flushes k) -> exists r, In (Wr (framed (request q) []) r) l.
Proof. exact flush_pairs. Qed.
Print Assumptions C36_flush_pairing.
(** Every answer of FlushCache, whenever it is looked at. *)
Theorem C36_flush_answers : forall rs c clk xs m i k a, exec xs (serve rs c clk) = Some m ->
  nth_error rs i = Some (FlushCacheR k) -> answered m i a -> exists b, a = RespFlush b /\ (b = true <-> flushes k <> []).
Proof. exact flush_answers. Qed.
Print Assumptions C36_flush_answers.
(** Two callers, one of them asking for a cache that does not exist; a getter sees the refreshed fans. *)
Example C36_ex : option_map results (exec (flush_before ++ flush_during ++ [Succ 0] ++ flush_after) two_flushes) =
  Some [Some (RespFlush true); Some (RespFlush false); Some (RespFans (mkPbFans 44 55 915 813))].
Proof. vm_compute. reflexivity. Qed.

(** C37: as long as something is unfinished a goroutine can take a step, also when waiting writers keep
    readers out ([possible]); the steps of goroutines come to an end by themselves (no infinite
    execution without the timers); and all requests can be completed. *)
Theorem C37_no_deadlock : forall rs c clk xs m, exec xs (serve rs c clk) = Some m ->
  (~ finished m -> exists x, working x /\ possible m x) /\ Acc works m /\
  exists ys m', Forall working ys /\ proceeds m ys m' /\ finished m'.
Proof. exact no_deadlock. Qed.
Print Assumptions C37_no_deadlock.
(** The worker holds the lock of the fans and waits for nothing; the getter has to wait for it. *)
Example C37_ex : match exec (flush_before ++ repeat RunWk 3) two_flushes with
  | Some m => match exec1 m (Run 2), exec1 m RunWk with None, Some _ => True | _, _ => False end
  | None => False
  end.
Proof. vm_compute. exact I. Qed.

(** C38: the calls of the library made by any number of goroutines. *)
Theorem C38_calls_serialised : forall ks c s clk xs m rs, only_runs xs ->
  exec xs (spawn (map calling ks) (mkMem c s clk)) = Some m -> Forall2 (fun t r => t_p t = Ret r) (m_ts m) rs ->
  exists l, Permutation l (combine (map calling ks) rs) /\ one_by_one l c (g_conn (m_g m)).
Proof. exact calls_serialised. Qed.
Print Assumptions C38_calls_serialised.
Example C38_ex : option_map results (exec two_schedule two_calls) =
  option_map (fun x => [Some (fst x); Some (snd x)])
    (match fst (run GetFans (world0 (script (answer 12 fans_payload)))),
           fst (run GetTemperatures (world0 (script (answer 210 temps_payload)))) with
     | RDone a, RDone b => Some (XFans a, XTemps b) | _, _ => None end).
Proof. vm_compute. reflexivity. Qed.

(** C39: one fetch, not a mixture. *)
Theorem C39_snapshot : forall rs c clk xs m i k a, exec xs (serve rs c clk) = Some m -> legal m ->
  nth_error rs i = Some (getter_rpc k) -> answered m i a -> exists v, a = message v /\ seen m k v.
Proof. exact snapshot. Qed.
Print Assumptions C39_snapshot.
(** The getter arrives while the worker is replacing the fans one field after the other. *)
Example C39_ex : match exec (flush_before ++ repeat RunWk 10) two_flushes with
  | Some m => sh_fans (g_sh (m_g m)) = mkFans 44 55 915 813 /\ exec1 m (Run 2) = None /\
      option_map results (exec (repeat RunWk 4 ++ [Succ 0; RunWk] ++ repeat (Run 2) 6) m) =
        Some [Some (RespFlush true); None; Some (RespFans (mkPbFans 44 55 915 813))]
  | None => False
  end.
Proof. vm_compute. auto. Qed.

(** C40.  Partial: each of the two percentages was that of some fetched reading. *)
Theorem C40_poll_partial : forall rs c clk xs m i a b md o t, exec xs (serve rs c clk) = Some m -> legal m ->
  nth_error rs i = Some (SetFanSpeedR a b) -> answered m i (RespSpeed md o t) ->
  1 <= t <= 4 /\ (exists p, seen m CProf (VProf p) /\ o = CurrentMode p) /\
  (md = true -> exists p f1 f2, seen m CProf (VProf p) /\ seen m CFans (VFans f1) /\ seen m CFans (VFans f2) /\
     InPercent f1 = in_percent p t /\ OutPercent f2 = out_percent p t).
Proof. exact speed_answer. Qed.
Print Assumptions C40_poll_partial.
(** In full it is false: UpdatePoll reads the two fields without the lock, and the worker may refresh the
    cache in between.  (50, 10) and then (10, 50) pass for (50, 50). *)
Theorem C40_poll_refuted : exists rs c xs m o t, exec xs (serve rs c 0) = Some m /\ legal m /\
  nth_error rs 0 = Some (SetFanSpeedR t false) /\ answered m 0 (RespSpeed true o t) /\
  ~ exists p f, brought m CProf (VProf p) /\ seen m CFans (VFans f) /\ InPercent f = in_percent p t /\ OutPercent f = out_percent p t.
Proof. exact poll_refuted. Qed.
Print Assumptions C40_poll_refuted.
Example C40_ex : exists m, exec split_schedule split_poll = Some m /\ answered m 0 (RespSpeed true 2 3).
Proof. destruct split_witness as (m & E & A & _). exists m. split; [exact E|exact A]. Qed.

(** C41: concurrent changes of single profiles. *)
Theorem C41_profiles_serialised : forall (mv : list (Z * Z)) c s clk xs m rs, only_runs xs ->
  let ps := map (fun x => SetFanProfile (fst x) (snd x)) mv in
  exec xs (spawn ps (mkMem c s clk)) = Some m -> Forall2 (fun t r => t_p t = Ret r) (m_ts m) rs ->
  exists l, Permutation l (combine ps rs) /\ one_by_one l c (g_conn (m_g m)).
Proof. exact profiles_serialised. Qed.
Print Assumptions C41_profiles_serialised.
Example C41_ex : match exec three_schedule three_changes with
  | Some m => results m = [Some None; Some None; Some None] /\
      read_back (g_conn (m_g m)) = RDone (mkProf 15 42 40 90 true 15 42 50 90 35 35 2, None)
  | None => False
  end.
Proof. vm_compute. auto. Qed.

(** C42: false.  SetFanProfiles does not take the lock that SetFanProfile holds between reading the profiles
    and writing them back, and is undone: whatever the order, running the two calls one after the other
    leaves other profiles in the unit. *)
Theorem C42_lost_update_refuted : exists m, only_runs lost_schedule /\ exec lost_schedule lost_start = Some m /\
  Forall2 (fun t r => t_p t = Ret r) (m_ts m) [None; None] /\
  forall l c', Permutation l (combine lost_calls [None; None]) -> one_by_one l lost_conn c' -> read_back c' <> read_back (g_conn (m_g m)).
Proof. exact lost_update. Qed.
Print Assumptions C42_lost_update_refuted.

(** C55: on the wire there are only complete exchanges the server may make, one after the other. *)
Theorem C55_wire_discipline : forall rs c clk xs m, exec xs (serve rs c clk) = Some m -> rfree (locks_held m) LPm = true ->
  exists l, c_log (g_conn (m_g m)) = c_log c ++ l /\ session l.
Proof. exact wire_discipline. Qed.
Print Assumptions C55_wire_discipline.
(** SetFanSpeed and the worker use the connection in turn. *)
Example C55_ex : match exec split_schedule split_poll with
  | Some m => rfree (locks_held m) LPm = true /\ length (c_log (g_conn (m_g m))) = 30%nat
  | None => False
  end.
Proof. vm_compute. auto. Qed.

(** C56: the originals reported by the Set RPCs. *)
Theorem C56_profile_origin : forall rs c clk xs m i md t b o t', exec xs (serve rs c clk) = Some m -> legal m ->
  nth_error rs i = Some (SetFanProfileR md t) -> answered m i (RespProfile b o t') ->
  t' = t /\ exists p, seen m CProf (VProf p) /\ o = in_percent p (md mod 256).
Proof. exact profile_answer. Qed.
Print Assumptions C56_profile_origin.
Theorem C56_comfort_origin : forall rs c clk xs m i t b o t', exec xs (serve rs c clk) = Some m -> legal m ->
  nth_error rs i = Some (SetComfortTempR t) -> answered m i (RespComfort b o t') ->
  t' = t /\ exists v, seen m CTemp (VTemp v) /\ o = f32_to_u32 (Comfort v).
Proof. exact comfort_answer. Qed.
Print Assumptions C56_comfort_origin.
Theorem C56_speed_origin : forall rs c clk xs m i a b md o t, exec xs (serve rs c clk) = Some m -> legal m ->
  nth_error rs i = Some (SetFanSpeedR a b) -> answered m i (RespSpeed md o t) ->
  exists p, seen m CProf (VProf p) /\ o = CurrentMode p.
Proof. exact (fun rs c clk xs m i a b md o t E L N A => proj1 (proj2 (speed_answer rs c clk xs m i a b md o t E L N A))). Qed.
Print Assumptions C56_speed_origin.
Example C56_ex : let m := serve [SetFanProfileR 3 50; SetComfortTempR 21; SetFanSpeedR 2 false] (fresh (script startup)) 0 in
  option_map results (exec (repeat RunWk 94 ++ repeat (Run 0) 3 ++ [Run 1] ++ repeat (Run 2) 3) m) =
  Some [Some (RespProfile false 50 50); Some (RespComfort false 21 21); Some (RespSpeed false 2 2)].
Proof. vm_compute. reflexivity. Qed.

(** C57: no goroutine ever panics or unlocks what it does not hold. *)
Theorem C57_no_panic : forall rs c clk xs m, exec xs (serve rs c clk) = Some m ->
  (forall i t, nth_error (m_ts m) i = Some t -> t_p t <> Crash) /\ (forall t, m_wk m = Some t -> t_p t <> Crash).
Proof. exact no_panic. Qed.
Print Assumptions C57_no_panic.
(** Unlocking a lock that is not held is a crash in this model. *)
Example C57_ex : match exec [Run 0] (spawn [Unlock LPm (Ret tt)] (mkMem (fresh (script [])) init_shared 0)) with
  | Some m => map t_p (m_ts m) = [Crash]
  | None => False
  end.
Proof. vm_compute. reflexivity. Qed.

(** C58.  Partial: getters and FlushCache never read a record that somebody else is about to write. *)
Theorem C58_no_race_partial : forall rs c clk xs m i r t k, exec xs (serve rs c clk) = Some m -> nth_error rs i = Some r -> careful r ->
  nth_error (m_ts m) i = Some t -> reads (t_p t) k ->
  (forall j t', nth_error (m_ts m) j = Some t' -> writes (t_p t') k -> False) /\
  (forall w, m_wk m = Some w -> writes (t_p w) k -> False).
Proof. exact no_race. Qed.
Print Assumptions C58_no_race_partial.
Example C58_ex : careful GetFansRPC /\ exists m t, exec [Run 0%nat] (serve [GetFansRPC; FlushCacheR 3] lost_conn 0) = Some m /\
  nth_error (m_ts m) 0 = Some t /\ reads (t_p t) CFans.
Proof.
  split; [exact I|]. do 2 eexists. split; [cbn -[lost_conn]; reflexivity|]. split; [cbn -[lost_conn]; reflexivity|]. cbn [t_p].
  pose (s := init_shared).
  exists (fun s => Get (fun s0 => Get (fun s1 => Get (fun s2 => Unlock (LC CFans) (Ret (RespFans
      (mkPbFans (u32 (InPercent (sh_fans s))) (u32 (OutPercent (sh_fans s0))) (u32 (InSpeed (sh_fans s1))) (u32 (OutSpeed (sh_fans s2)))))))))), s,
    (mkShared (sh_boot s) (sh_boot_t s) (sh_bypass s) (sh_bypass_t s) (sh_temp s) (sh_temp_t s) (mkFans 1 0 0 0) (sh_fans_t s)
      (sh_prof s) (sh_prof_t s) (sh_err s) (sh_err_t s)).
  repeat apply conj; [reflexivity| |intros []; reflexivity|].
  - intros [] N; try reflexivity. now destruct N.
  - intros E. injection E as E. apply (f_equal (fun f => match f s with Get g => match g s with Get h => h s | x => x end | x => x end)) in E. discriminate E.
Qed.
(** In full it is false: the Set RPCs look at the caches without locking them. *)
Theorem C58_no_race_refuted : exists m, exec race_schedule race_start = Some m /\ race m CTemp.
Proof. exact race_witness. Qed.
Print Assumptions C58_no_race_refuted.
