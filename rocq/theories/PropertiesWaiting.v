(** Properties C118 and C119: how long requests wait for the unit, in every execution. *)
From Coq Require Import String.
From Verif Require Import GoBase GoStrings Proto Scanner Conn Proc Lib Server Wire Twirp Machine HttpMachine SamplesWaiting SpecWaiting WaitingProofs.

(** C118: a request, whatever the unit and the other goroutines do ... *)
Theorem C118_request : forall rs c clk xs i q, nth_error rs i = Some q -> waited (by_request i) (serve rs c clk) xs <= patience q.
Proof. exact waits_request. Qed.
Print Assumptions C118_request.
(** (and it can be as long as that, with a success to report at the end:) *)
Theorem C118_longest : exists m, exec slow_speed (serve [SetFanSpeedR 3 false] slow_unit 0) = Some m /\ map t_p (m_ts m) = [Ret (RespSpeed true 2 3)] /\
  waited (by_request 0) (serve [SetFanSpeedR 3 false] slow_unit 0) slow_speed = patience (SetFanSpeedR 3 false).
Proof. exact no_room_speed. Qed.
Print Assumptions C118_longest.
(** ... the worker while it flushes ... *)
Theorem C118_flush : forall rs c clk xs m i k m' ys, exec xs (serve rs c clk) = Some m -> nth_error rs i = Some (FlushCacheR k) -> exec1 m (Flush i) = Some m' ->
  ticks ys = 0 -> flushes ys = 0 -> waited by_worker m' ys <= flush_time k.
Proof. exact waits_flush. Qed.
Print Assumptions C118_flush.
Example C118_flush_ex : exists m m' m'', exec dead_start (serve [FlushCacheR 10] dead_unit 0) = Some m /\ exec1 m (Flush 0) = Some m' /\ exec dead_flush m' = Some m'' /\
  map t_p (m_ts m'') = [Ret (RespFlush true)] /\ ticks dead_flush = 0 /\ flushes dead_flush = 0 /\ waited by_worker m' dead_flush = flush_time 10.
Proof. exact no_room_flush. Qed.
(** ... and altogether ... *)
Theorem C118_worker : forall rs c clk xs, waited by_worker (serve rs c clk) xs <= ms 6000 + ms 2000 * ticks xs + ms 6000 * flushes xs.
Proof. exact waits_worker. Qed.
Print Assumptions C118_worker.
Theorem C118_everyone : forall rs c clk xs, waited by_anyone (serve rs c clk) xs <= ms 6000 + ms 2000 * ticks xs + total (map on_behalf rs).
Proof. exact waits_all. Qed.
Print Assumptions C118_everyone.
Example C118_everyone_ex : let xs := dead_start ++ Tick TickFast :: repeat RunWk 17 ++ Flush 0 :: dead_flush in
  (exists m, exec xs (serve [FlushCacheR 10] dead_unit 0) = Some m) /\ ticks xs = 1 /\ flushes xs = 1 /\ waited by_worker (serve [FlushCacheR 10] dead_unit 0) xs = ms 14000 /\
  waited by_anyone (serve [FlushCacheR 10] dead_unit 0) xs = ms 6000 + ms 2000 + total (map on_behalf [FlushCacheR 10]).
Proof. vm_compute. repeat split; eauto. Qed.
(** ... also behind HTTP, by the path of the request. *)
Theorem C118_http : forall ul uj hs c clk xs i h t, nth_error hs i = Some (h, t) ->
  path_patience (h_path h) (waited (by_request i) (serve_http ul uj hs c clk) xs).
Proof. exact waits_http. Qed.
Print Assumptions C118_http.
Example C118_http_ex : match post (SetFanSpeedR 3 false) with
  | Some h => h_path h = method_path "SetFanSpeed" /\
      waited (by_request 0) (serve_http (fun l => l) (fun _ _ => None) [(h, str "1s")] slow_unit 0) slow_speed = ms 16500
  | None => False
  end.
Proof. vm_compute. auto. Qed.

(** C119: the write timeout of the HTTP server (five seconds) leaves room for the waiting of a request: all but SetFanSpeed ... *)
Theorem C119_room_partial : forall rs c clk xs i q, nth_error rs i = Some q -> (forall a r, q <> SetFanSpeedR a r) ->
  waited (by_request i) (serve rs c clk) xs < WriteTimeout.
Proof. exact room. Qed.
Print Assumptions C119_room_partial.
Example C119_ex : let m := serve [SetComfortTempR 23] dead_unit 0 in waited (by_request 0) m (dead_start ++ repeat (Run 0) 6) = ms 1000.
Proof. vm_compute. reflexivity. Qed.
(** ... and FlushCache of all caches, where the worker waits. *)
Theorem C119_room_refuted :
  (exists m, exec slow_speed (serve [SetFanSpeedR 3 false] slow_unit 0) = Some m /\ map t_p (m_ts m) = [Ret (RespSpeed true 2 3)] /\
    WriteTimeout < waited (by_request 0) (serve [SetFanSpeedR 3 false] slow_unit 0) slow_speed) /\
  (exists m m' m'', exec dead_start (serve [FlushCacheR 10] dead_unit 0) = Some m /\ exec1 m (Flush 0) = Some m' /\ exec dead_flush m' = Some m'' /\
    map t_p (m_ts m'') = [Ret (RespFlush true)] /\ ticks dead_flush = 0 /\ flushes dead_flush = 0 /\ WriteTimeout < waited by_worker m' dead_flush).
Proof. exact no_room. Qed.
Print Assumptions C119_room_refuted.
