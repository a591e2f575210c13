(** Properties C73-C74: the server under concurrent HTTP requests, all interleavings. *)
From Coq Require Import String.
From Verif Require Import GoBase Proto SpecProto SpecFrame SpecConn SpecLayout Conn Proc Lib Server SpecServer
  Client Wire Twirp ClientHttp SpecWire SpecTwirp Machine SpecMachine HttpMachine SpecHttp HttpProofs Samples SamplesServer SamplesMachine SamplesHttp.

(** C73: whatever is posted, no goroutine panics; *)
Theorem C73_no_panic : forall ul uj hs c clk xs m, exec xs (serve_http ul uj hs c clk) = Some m ->
  (forall i t, nth_error (m_ts m) i = Some t -> t_p t <> Crash) /\ (forall t, m_wk m = Some t -> t_p t <> Crash).
Proof. exact http_no_panic. Qed.
Print Assumptions C73_no_panic.
(** as long as a request is unanswered somebody can do something, and all of them can be answered; *)
Theorem C73_no_deadlock : forall ul uj hs c clk xs m, exec xs (serve_http ul uj hs c clk) = Some m ->
  (~ finished m -> exists x, working x /\ possible m x) /\ Acc works m /\
  exists ys m', Forall working ys /\ proceeds m ys m' /\ finished m'.
Proof. exact http_no_deadlock. Qed.
Print Assumptions C73_no_deadlock.
(** the unit is sent only complete exchanges the server may make; *)
Theorem C73_wire_discipline : forall ul uj hs c clk xs m, exec xs (serve_http ul uj hs c clk) = Some m ->
  rfree (locks_held m) LPm = true -> exists l, c_log (g_conn (m_g m)) = c_log c ++ l /\ session l.
Proof. exact http_wire. Qed.
Print Assumptions C73_wire_discipline.
(** a request that calls nothing is refused at once, whatever the others are doing; *)
Theorem C73_refused : forall ul uj hs c clk xs m i h t, exec xs (serve_http ul uj hs c clk) = Some m -> nth_error hs i = Some (h, t) ->
  ascii (h_ctype h) ->
  (forall name, ~ (addressed h name /\ (media "application/protobuf" (h_ctype h) \/ media "application/json" (h_ctype h)))) ->
  exists a, answered m i a /\ refusal h a.
Proof. exact http_refused. Qed.
Print Assumptions C73_refused.
(** a get request is answered with what one fetch has brought; *)
Theorem C73_snapshot : forall ul uj hs c clk xs m i h t k fs a, exec xs (serve_http ul uj hs c clk) = Some m -> legal m ->
  nth_error hs i = Some (h, t) -> bytes_ok (h_body h) -> ascii (h_ctype h) -> time_string t ->
  addressed h (rpc_name (getter_rpc k)) -> media "application/protobuf" (h_ctype h) -> encodes fs (h_body h) ->
  answered m i a -> exists v, seen m k v /\
    (readable (message v) -> exists b fs', a = mkHresp 200 (Protobuf b) /\ encodes fs' b /\ carries t (message v) fs') /\
    (~ readable (message v) -> r_status a = 500).
Proof. exact http_snapshot. Qed.
Print Assumptions C73_snapshot.
(** and altogether: the server does what it would do if the procedures were called by the same number of goroutines
    directly, and answers accordingly. *)
Theorem C73_refines : forall ul uj hs c clk xs mh, exec xs (serve_http ul uj hs c clk) = Some mh ->
  exists m, exec (map (renumber ul uj hs) xs) (serve (calls ul uj hs) c clk) = Some m /\ m_g mh = m_g m /\
  forall i h t, nth_error hs i = Some (h, t) ->
    match front ul uj h with
    | Answer a => answered mh i a
    | Call pb q => exists j, is_call ul uj hs i j /\ nth_error (calls ul uj hs) j = Some q /\
        forall a, answered mh i a <-> exists r, answered m j r /\ a = respond pb t r
    end.
Proof. exact http_refines. Qed.
Print Assumptions C73_refines.
(** A stray GET, a getter, a truncated body and a flush; the two calls are served by turns. *)
Example C73_ex : option_map results (exec crowd_schedule crowded) =
  Some [Some (mkHresp 404 (ErrorJson TBadRoute)); Some (mkHresp 200 (Protobuf [8; 44; 16; 55; 24; 147; 7; 32; 173; 6]));
        Some (mkHresp 400 (ErrorJson TMalformed)); Some (mkHresp 200 (Protobuf [8; 1; 18; 3; 52; 109; 115]))] /\
  calls (fun x => x) (fun _ _ => None) crowd = [GetFansRPC; FlushCacheR 1].
Proof. vm_compute. auto. Qed.

(** C74: any number of Python clients at a time, among other requests. *)
Theorem C74_clients : forall ul uj hs c clk xs mh, exec xs (serve_http ul uj hs c clk) = Some mh -> legal mh ->
  exists m, exec (map (renumber ul uj hs) xs) (serve (calls ul uj hs) c clk) = Some m /\ m_g mh = m_g m /\
  forall i q h t, nth_error hs i = Some (h, t) -> post q = Some h -> args_ok q -> time_string t ->
    exists j, is_call ul uj hs i j /\ nth_error (calls ul uj hs) j = Some q /\
    forall a, answered mh i a -> exists r, answered m j r /\
      (readable r -> stub_result q a = as_seen r) /\ (~ readable r -> stub_result q a = Twirp TMarshal).
Proof. exact http_client. Qed.
Print Assumptions C74_clients.
(** What a client learns from a reply to SetFanSpeed holds of the unit's own reports (see C40). *)
Theorem C74_speed : forall ul uj hs c clk xs m i h t a ab rl md o v, exec xs (serve_http ul uj hs c clk) = Some m -> legal m ->
  nth_error hs i = Some (h, t) -> post (SetFanSpeedR ab rl) = Some h -> u32_ok ab -> time_string t -> answered m i a ->
  stub_result (SetFanSpeedR ab rl) a = Got (RespSpeed md o v) ->
  1 <= v <= 4 /\ (exists p, seen m CProf (VProf p) /\ o = CurrentMode p) /\
  (md = true -> exists p f1 f2, seen m CProf (VProf p) /\ seen m CFans (VFans f1) /\ seen m CFans (VFans f2) /\
     InPercent f1 = in_percent p v /\ OutPercent f2 = out_percent p v).
Proof. exact http_speed. Qed.
Print Assumptions C74_speed.
(** The clients of the crowd. *)
Example C74_ex : match exec crowd_schedule crowded with
  | Some m => match results m with
      | [_; Some a; _; Some b] => stub_result GetFansRPC a = Got (RespFans (mkPbFans 44 55 915 813)) /\
          stub_result (FlushCacheR 1) b = Got (RespFlush true)
      | _ => False
      end
  | None => False
  end.
Proof. vm_compute. auto. Qed.
