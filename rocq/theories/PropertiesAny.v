(** Property C133: what clients of all kinds are told, among any number of other requests, holds of the unit. *)
From Coq Require Import String.
From Verif Require Import GoBase Proto SpecProto SpecFrame SpecConn SpecLayout SpecUnit Conn Proc Lib Server SpecServer
  Client Wire Twirp ClientHttp SpecWire SpecTwirp GoClient SpecGo JsonRead JsonWrite Machine SpecMachine HttpMachine SpecHttp SpecFresh SpecTrack
  Samples SamplesServer SamplesUnit SamplesMachine SamplesTrack SamplesHttp SpecEnd StartClaims SamplesEnd AnyProofs SpecAny SamplesAny.

(** A reply that reports a change: between the arrival of the request and its answer the unit was as asked; *)
Theorem C133_set : forall ul ftoa sp hs c clk lo u xs mh0 ys mh i k q r, lo <= 15 -> lined lo c u -> c_log c = [] ->
  exec xs (serve_http ul unjson hs c clk) = Some mh0 -> waits i xs -> exec ys mh0 = Some mh ->
  wrote hs i k q -> ended ftoa sp hs mh i k q (Told r) -> modified r ->
  exists ys1 ys2 mh1 u1, ys = ys1 ++ ys2 /\ exec ys1 mh0 = Some mh1 /\ unit_in lo mh1 u1 /\ achieved u1 q r.
Proof. exact any_set. Qed.
Print Assumptions C133_set.
(** an error comes only of these; *)
Theorem C133_fails : forall ul ftoa sp hs c clk lo u xs mh0 ys mh i k q co, lo <= 15 -> lined lo c u -> c_log c = [] ->
  exec xs (serve_http ul unjson hs c clk) = Some mh0 -> waits i xs -> exec ys mh0 = Some mh ->
  wrote hs i k q -> ended ftoa sp hs mh i k q (Error co) ->
  (co = str "invalid_argument" /\ (bad_args q \/ exists b, q = SetFanSpeedR 0 b)) \/
  (co = str "internal" /\ ~ bad_args q /\ ((exists a b, q = SetFanSpeedR a b) \/ (exists t, q = SetComfortTempR t /\ 107 < t) \/ q = GetBootInfo)).
Proof. exact any_fails. Qed.
Print Assumptions C133_fails.
(** and bad arguments always get one; *)
Theorem C133_bad : forall ul ftoa sp hs c clk lo u xs mh0 ys mh i k q x, lo <= 15 -> lined lo c u -> c_log c = [] ->
  exec xs (serve_http ul unjson hs c clk) = Some mh0 -> waits i xs -> exec ys mh0 = Some mh ->
  wrote hs i k q -> bad_args q -> ended ftoa sp hs mh i k q x -> x = Error (str "invalid_argument").
Proof. exact any_bad. Qed.
Print Assumptions C133_bad.
(** after start-up the temperatures and the profiles are those of the unit at one moment; *)
Theorem C133_get : forall ul ftoa sp hs c clk lo u xs mh0 ys mh i k kk x, lo <= 15 -> lined lo c u -> c_log c = [] ->
  exec xs (serve_http ul unjson hs c clk) = Some mh0 -> m_wk mh0 = None -> waits i xs -> exec ys mh0 = Some mh -> telling kk ->
  wrote hs i k (getter_rpc kk) -> ended ftoa sp hs mh i k (getter_rpc kk) x ->
  exists s1 s2 n1 u1 r, xs ++ ys = s1 ++ s2 /\ exec s1 (serve_http ul unjson hs c clk) = Some n1 /\ unit_in lo n1 u1 /\ x = Told r /\ SpecTrack.shown u1 kk r.
Proof. exact any_get. Qed.
Print Assumptions C133_get.
(** after a flush, at a moment since it was asked for; *)
Theorem C133_flush : forall ul ftoa sp hs c clk lo u xs mh1 ys mh2 zs mh i j k k' kk t b x, lo <= 15 -> lined lo c u -> c_log c = [] ->
  exec xs (serve_http ul unjson hs c clk) = Some mh1 -> waits j xs -> exec ys mh1 = Some mh2 -> waits i (xs ++ ys) -> exec zs mh2 = Some mh ->
  wrote hs j k (FlushCacheR t) -> ended ftoa sp hs mh2 j k (FlushCacheR t) (Told b) -> In kk (flushes t) -> telling kk ->
  wrote hs i k' (getter_rpc kk) -> ended ftoa sp hs mh i k' (getter_rpc kk) x ->
  exists s1 s2 n1 u1 r, ys ++ zs = s1 ++ s2 /\ exec s1 mh1 = Some n1 /\ unit_in lo n1 u1 /\ x = Told r /\ SpecTrack.shown u1 kk r.
Proof. exact any_flush. Qed.
Print Assumptions C133_flush.
(** and what one client has set any client sees, if nobody asks for something else. *)
Theorem C133_comfort : forall ul ftoa sp hs c clk lo u xs mh1 ys mh2 zs mh i j k k' t o t' x, lo <= 15 -> lined lo c u -> c_log c = [] ->
  exec xs (serve_http ul unjson hs c clk) = Some mh1 -> waits j xs -> exec ys mh1 = Some mh2 -> waits i (xs ++ ys) -> exec zs mh2 = Some mh ->
  wrote hs j k (SetComfortTempR t) -> ended ftoa sp hs mh2 j k (SetComfortTempR t) (Told (RespComfort true o t')) ->
  (forall t0, In (SetComfortTempR t0) (calls ul unjson hs) -> t0 <= 107 -> t0 = t) ->
  wrote hs i k' GetTempsRPC -> ended ftoa sp hs mh i k' GetTempsRPC x ->
  exists p, x = Told (RespTemps p) /\ f32_is (pbComfort p) t.
Proof. exact any_comfort. Qed.
Print Assumptions C133_comfort.
Theorem C133_profile : forall ul ftoa sp hs c clk lo u xs mh1 ys mh2 zs mh i j k k' p v o t' x, lo <= 15 -> lined lo c u -> c_log c = [] ->
  exec xs (serve_http ul unjson hs c clk) = Some mh1 -> waits j xs -> exec ys mh1 = Some mh2 -> waits i (xs ++ ys) -> exec zs mh2 = Some mh ->
  1 <= p <= 4 -> 15 <= v <= 100 ->
  wrote hs j k (SetFanProfileR p v) -> ended ftoa sp hs mh2 j k (SetFanProfileR p v) (Told (RespProfile true o t')) ->
  (forall p0 t0, In (SetFanProfileR p0 t0) (calls ul unjson hs) -> p0 mod 256 = p -> t0 mod 256 = v) ->
  wrote hs i k' GetFanProfilesRPC -> ended ftoa sp hs mh i k' GetFanProfilesRPC x ->
  exists q, x = Told (RespProf q) /\ nth (Z.to_nat (p - 1)) [pbOutAway q; pbOutLow q; pbOutMid q; pbOutHigh q] 0 = v /\
    nth (Z.to_nat (p - 1)) [pbInAway q; pbInLow q; pbInMid q; pbInHigh q] 0 = v.
Proof. exact any_profile. Qed.
Print Assumptions C133_profile.
Theorem C133_speed : forall ul ftoa sp hs c clk lo u xs mh1 ys mh2 zs mh i j k k' n b o t' x, lo <= 15 -> lined lo c u -> c_log c = [] ->
  exec xs (serve_http ul unjson hs c clk) = Some mh1 -> waits j xs -> exec ys mh1 = Some mh2 -> waits i (xs ++ ys) -> exec zs mh2 = Some mh ->
  1 <= n <= 4 ->
  wrote hs j k (SetFanSpeedR n b) -> ended ftoa sp hs mh2 j k (SetFanSpeedR n b) (Told (RespSpeed true o t')) ->
  (forall v0 b0, In (SetFanSpeedR v0 b0) (calls ul unjson hs) -> v0 = n) ->
  wrote hs i k' GetFanProfilesRPC -> ended ftoa sp hs mh i k' GetFanProfilesRPC x ->
  exists q, x = Told (RespProf q) /\ pbCurrentMode q = n.
Proof. exact any_speed. Qed.
Print Assumptions C133_speed.
(** A Go client sets the comfort temperature, one with JSON a profile, Python the speed; Python and JSON clients read; two calls
    fail; JSON flushes and Go reads again. *)
Example C133_ex : lined 15 unit_line vent2 /\ c_log unit_line = [] /\ waits 1 end_before /\ waits 2 end_before /\ waits 3 end_before /\
  waits 4 (end_before ++ end_during) /\ waits 9 ((end_before ++ end_during ++ any_after) ++ any_flush_items) /\
  wrote any_reqs 1 GoPb (SetComfortTempR 22) /\ wrote any_reqs 2 (GoJson true) (SetFanProfileR 1 20) /\ wrote any_reqs 4 Python GetTempsRPC /\
  wrote any_reqs 7 GoPb (SetComfortTempR 300) /\ bad_args (SetComfortTempR 300) /\
  calls (fun x => x) unjson any_reqs = map snd any_calls /\
  match exec end_before any_start with
  | Some m0 => m_wk m0 = None /\
      match exec end_during m0 with
      | Some m1 => any_heard m1 1 = Some (Told (RespComfort true 21 22)) /\ any_heard m1 2 = Some (Told (RespProfile true 15 20)) /\
          any_heard m1 3 = Some (Told (RespSpeed true 2 3)) /\
          match exec any_after m1 with
          | Some m => any_heard m 6 = Some (Error (str "internal")) /\ any_heard m 7 = Some (Error (str "invalid_argument")) /\
              match any_heard m 4, any_heard m 5 with
              | Some (Told (RespTemps o)), Some (Told (RespProf p)) => pbComfort o = f32_of_Z 22 /\ pbOutAway p = 20 /\ pbInAway p = 20 /\ pbCurrentMode p = 3
              | _, _ => False
              end /\
              match exec any_flush_items m with
              | Some m2 => any_heard m2 8 = Some (Told (RespFlush true)) /\
                  match exec any_again m2 with
                  | Some m3 => match any_heard m3 9 with Some (Told (RespTemps o)) => pbComfort o = f32_of_Z 22 | _ => False end
                  | None => False
                  end
              | None => False
              end
          | None => False
          end
      | None => False
      end
  | None => False
  end.
Proof.
  split; [exact unit_line_lined|]. split; [reflexivity|]. do 5 (split; [repeat constructor; discriminate|]).
  split; [exact any_wrote_1|]. split; [exact any_wrote_2|]. split; [exact any_wrote_4|]. split; [exact any_wrote_7|].
  split; [constructor; reflexivity|]. split; [vm_compute; reflexivity|]. vm_compute. auto 20.
Qed.
