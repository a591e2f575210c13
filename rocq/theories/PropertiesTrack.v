(** Properties C78-C81: the unit behind the server, in all interleavings. *)
From Verif Require Import GoBase Proto SpecProto SpecFrame SpecConn SpecLayout SpecUnit Scanner Conn Proc Lib Server SpecServer Machine SpecMachine SpecFresh SpecTrack
  Samples SamplesServer SamplesUnit SamplesMachine SamplesTrack TrackClaims StartClaims.

(** C78: the whole log of the connection is one conversation in which every reply read shows the unit as it then
    is, and the unit changes only as requests say. *)
Theorem C78_conversation : forall lo rs c clk u xs m, lo <= 15 -> lined lo c u -> exec xs (serve rs c clk) = Some m ->
  exists l k u', log_of m = c_log c ++ l /\ course rs Idle u l k u' /\ unit_in lo m u'.
Proof. exact unit_course. Qed.
Print Assumptions C78_conversation.
(** The state of a unit is a fact about the device: no two states fit. *)
Theorem C78_unique : forall lo u u' d, unit_at lo true u d -> unit_at lo true u' d -> vent_ok lo u -> vent_ok lo u' -> u = u'.
Proof. exact unit_unique. Qed.
Print Assumptions C78_unique.
(** Which requests fail inside the server, and how, when the line and the unit are all right. *)
Theorem C78_errors : forall lo rs c clk u xs m0 ys m i r e, lo <= 15 -> lined lo c u -> exec xs (serve rs c clk) = Some m0 -> waits i xs ->
  exec ys m0 = Some m -> nth_error rs i = Some r -> answered m i (RespErr (Internal e)) ->
  (exists a b, r = SetFanSpeedR a b /\ e = ErrSetPollFailed) \/ (exists t, r = SetComfortTempR t /\ t <= 255 /\ 107 < t mod 256 /\ e = LibErr ErrTooHigh).
Proof. exact setter_errors. Qed.
Print Assumptions C78_errors.
Example C78_ex : lined 15 unit_line vent2 /\ waits 5 unit_before /\
  match exec (unit_before ++ unit_during ++ unit_after) unit_start with
  | Some m => firstn 3 (results m) = [Some (RespComfort true 21 22); Some (RespProfile true 15 20); Some (RespSpeed true 2 3)] /\
      nth_error (results m) 5 = Some (Some (RespErr (Internal (LibErr ErrTooHigh)))) /\
      flat_map (fun x => match x with Wr (7 :: 240 :: _ :: cmd :: _) _ => [cmd] | _ => [] end) (log_of m) =
        [103; 223; 209; 11; 205; 217; 211; 209; 205; 207; 205; 153; 11; 205]
  | None => False
  end.
Proof. split; [exact unit_line_lined|]. split; [repeat constructor; discriminate|]. vm_compute. auto. Qed.

(** C79: a setter that reports a change has made it, at a moment between its arrival and its answer. *)
Theorem C79_takes_effect : forall lo rs c clk u xs m0 ys m j q b, lo <= 15 -> lined lo c u -> exec xs (serve rs c clk) = Some m0 -> waits j xs ->
  exec ys m0 = Some m -> nth_error rs j = Some q -> answered m j b -> modified b ->
  exists ys1 ys2 m1 u1, ys = ys1 ++ ys2 /\ exec ys1 m0 = Some m1 /\ unit_in lo m1 u1 /\ achieved u1 q b.
Proof. exact change_takes_effect. Qed.
Print Assumptions C79_takes_effect.
Example C79_ex : lined 15 unit_line vent2 /\ waits 0 unit_before /\ waits 1 unit_before /\ waits 2 unit_before /\
  match exec (unit_before ++ unit_during) unit_start with
  | Some m => firstn 3 (results m) = [Some (RespComfort true 21 22); Some (RespProfile true 15 20); Some (RespSpeed true 2 3)]
  | None => False
  end /\
  achieved (mkVent [20; 35; 40; 70] [20; 35; 50; 70] 3 84) (SetComfortTempR 22) (RespComfort true 21 22) /\
  achieved (mkVent [20; 35; 40; 70] [20; 35; 50; 70] 3 84) (SetFanProfileR 1 20) (RespProfile true 15 20) /\
  achieved (mkVent [20; 35; 40; 70] [20; 35; 50; 70] 3 84) (SetFanSpeedR 3 false) (RespSpeed true 2 3).
Proof.
  split; [exact unit_line_lined|]. do 3 (split; [repeat constructor; discriminate|]). split; [vm_compute; auto|].
  split; [constructor; [discriminate|reflexivity]|]. split; constructor; try reflexivity; repeat split; try discriminate.
Qed.

(** C80: a getter that begins after such an answer shows the unit as it was when, or after, the change was made. *)
Theorem C80_shows_after : forall lo k rs c clk u xs m1 ys m2 zs m i j q b a, lo <= 15 -> lined lo c u -> c_log c = [] ->
  exec xs (serve rs c clk) = Some m1 -> waits j xs -> exec ys m1 = Some m2 -> waits i (xs ++ ys) -> exec zs m2 = Some m ->
  nth_error rs j = Some q -> answered m2 j b -> modified b -> In k (refreshed q) -> telling k ->
  nth_error rs i = Some (getter_rpc k) -> answered m i a ->
  exists s1 s2 s3 n1 n2 u1 u2 l k1 k2, ys ++ zs = s1 ++ s2 ++ s3 /\ exec s1 m1 = Some n1 /\ unit_in lo n1 u1 /\ achieved u1 q b /\
    exec s2 n1 = Some n2 /\ log_of n2 = log_of n1 ++ l /\ course rs k1 u1 l k2 u2 /\ unit_in lo n2 u2 /\ shown u2 k a.
Proof. exact shows_after. Qed.
Print Assumptions C80_shows_after.
(** So if nobody asks for something else (that is not refused), it shows what was asked for. *)
Theorem C80_comfort : forall lo rs c clk u xs m1 ys m2 zs m i j t o t' a, lo <= 15 -> lined lo c u -> c_log c = [] ->
  exec xs (serve rs c clk) = Some m1 -> waits j xs -> exec ys m1 = Some m2 -> waits i (xs ++ ys) -> exec zs m2 = Some m ->
  nth_error rs j = Some (SetComfortTempR t) -> 0 <= t -> answered m2 j (RespComfort true o t') ->
  (forall t0, In (SetComfortTempR t0) rs -> t0 <= 255 -> t0 mod 256 <= 107 -> t0 = t) ->
  nth_error rs i = Some GetTempsRPC -> answered m i a -> exists p, a = RespTemps p /\ f32_is (pbComfort p) t.
Proof. exact comfort_shown. Qed.
Print Assumptions C80_comfort.
Theorem C80_profile : forall lo rs c clk u xs m1 ys m2 zs m i j p t o t' a, lo <= 15 -> lined lo c u -> c_log c = [] ->
  exec xs (serve rs c clk) = Some m1 -> waits j xs -> exec ys m1 = Some m2 -> waits i (xs ++ ys) -> exec zs m2 = Some m ->
  nth_error rs j = Some (SetFanProfileR p t) -> 1 <= p <= 4 -> 15 <= t <= 100 -> answered m2 j (RespProfile true o t') ->
  (forall p0 t0, In (SetFanProfileR p0 t0) rs -> p0 mod 256 = p -> t0 mod 256 = t) ->
  nth_error rs i = Some GetFanProfilesRPC -> answered m i a -> exists q, a = RespProf q /\
    nth (Z.to_nat (p - 1)) [pbOutAway q; pbOutLow q; pbOutMid q; pbOutHigh q] 0 = t /\
    nth (Z.to_nat (p - 1)) [pbInAway q; pbInLow q; pbInMid q; pbInHigh q] 0 = t.
Proof. exact profile_shown. Qed.
Print Assumptions C80_profile.
Theorem C80_speed : forall lo rs c clk u xs m1 ys m2 zs m i j v b o v' a, lo <= 15 -> lined lo c u -> c_log c = [] ->
  exec xs (serve rs c clk) = Some m1 -> waits j xs -> exec ys m1 = Some m2 -> waits i (xs ++ ys) -> exec zs m2 = Some m ->
  nth_error rs j = Some (SetFanSpeedR v b) -> answered m2 j (RespSpeed true o v') ->
  (forall v0 b0, In (SetFanSpeedR v0 b0) rs -> v0 = v) -> v <> 0 ->
  nth_error rs i = Some GetFanProfilesRPC -> answered m i a -> exists q, a = RespProf q /\ pbCurrentMode q = v mod 256.
Proof. exact speed_shown. Qed.
Print Assumptions C80_speed.
(** After a flush: as the unit was at a moment since the flush was asked for. *)
Theorem C80_shows_flushed : forall lo k rs c clk u xs m1 ys m2 zs m i j t b a, lo <= 15 -> lined lo c u -> c_log c = [] ->
  exec xs (serve rs c clk) = Some m1 -> waits j xs -> exec ys m1 = Some m2 -> waits i (xs ++ ys) -> exec zs m2 = Some m ->
  nth_error rs j = Some (FlushCacheR t) -> answered m2 j b -> In k (flushes t) -> telling k ->
  nth_error rs i = Some (getter_rpc k) -> answered m i a ->
  exists s1 s2 n1 u1, ys ++ zs = s1 ++ s2 /\ exec s1 m1 = Some n1 /\ unit_in lo n1 u1 /\ shown u1 k a.
Proof. exact shows_flushed. Qed.
Print Assumptions C80_shows_flushed.
Example C80_ex : lined 15 unit_line vent2 /\ c_log unit_line = [] /\ waits 0 unit_before /\ waits 1 unit_before /\ waits 2 unit_before /\
  waits 3 (unit_before ++ unit_during) /\ waits 4 (unit_before ++ unit_during) /\
  In CTemp (refreshed (SetComfortTempR 22)) /\ In CProf (refreshed (SetFanProfileR 1 20)) /\ In CProf (refreshed (SetFanSpeedR 3 false)) /\
  match exec (unit_before ++ unit_during ++ unit_after) unit_start with
  | Some m => match nth_error (results m) 3, nth_error (results m) 4 with
    | Some (Some (RespTemps t)), Some (Some (RespProf p)) =>
        pbComfort t = f32_of_Z 22 /\ pbOutAway p = 20 /\ pbInAway p = 20 /\ pbOutMid p = 40 /\ pbCurrentMode p = 3
    | _, _ => False
    end
  | None => False
  end.
Proof.
  split; [exact unit_line_lined|]. split; [reflexivity|]. do 5 (split; [repeat constructor; discriminate|]).
  do 3 (split; [cbn; auto|]). vm_compute. auto.
Qed.
Example C80_ex_flush : let xs := unit_before ++ unit_during ++ unit_after in waits 6 xs /\ waits 7 (xs ++ unit_flush) /\ In CTemp (flushes 2) /\
  match exec (xs ++ unit_flush) unit_start with
  | Some m2 => nth_error (results m2) 6 = Some (Some (RespFlush true)) /\
      match exec unit_again m2 with
      | Some m => match nth_error (results m) 7 with Some (Some (RespTemps t)) => pbComfort t = f32_of_Z 22 | _ => False end
      | None => False
      end
  | None => False
  end.
Proof. cbv zeta. do 2 (split; [repeat constructor; discriminate|]). vm_compute. auto. Qed.

(** C81: what getters show is how the unit was.  A getter answers with the empty record or as the unit was at one moment ... *)
Theorem C81_moment : forall lo k rs c clk u xs m i a, lo <= 15 -> lined lo c u -> c_log c = [] -> exec xs (serve rs c clk) = Some m -> telling k ->
  nth_error rs i = Some (getter_rpc k) -> answered m i a ->
  a = message (blank k) \/ exists xs1 xs2 m1 u1, xs = xs1 ++ xs2 /\ exec xs1 (serve rs c clk) = Some m1 /\ unit_in lo m1 u1 /\ shown u1 k a.
Proof. exact shows_moment. Qed.
Print Assumptions C81_moment.
(** ... the moments come in the order of the getters ... *)
Theorem C81_order : forall lo k rs c clk u xs m0 ys m i j a b, lo <= 15 -> lined lo c u -> c_log c = [] ->
  exec xs (serve rs c clk) = Some m0 -> waits i xs -> exec ys m0 = Some m -> telling k ->
  nth_error rs j = Some (getter_rpc k) -> answered m0 j b -> nth_error rs i = Some (getter_rpc k) -> answered m i a ->
  b = message (blank k) \/
  exists s1 s2 s3 n1 n2 u1 u2 l k1 k2, xs ++ ys = s1 ++ s2 ++ s3 /\ exec s1 (serve rs c clk) = Some n1 /\ unit_in lo n1 u1 /\ shown u1 k b /\
    exec s2 n1 = Some n2 /\ log_of n2 = log_of n1 ++ l /\ course rs k1 u1 l k2 u2 /\ unit_in lo n2 u2 /\ shown u2 k a.
Proof. exact shows_order. Qed.
Print Assumptions C81_order.
(** ... and once start-up is done (the worker is idle) no getter answers with the empty record. *)
Theorem C81_started : forall lo k rs c clk u xs m0 ys m i a, lo <= 15 -> lined lo c u -> c_log c = [] ->
  exec xs (serve rs c clk) = Some m0 -> m_wk m0 = None -> waits i xs -> exec ys m0 = Some m -> telling k ->
  nth_error rs i = Some (getter_rpc k) -> answered m i a ->
  exists s1 s2 n1 u1, xs ++ ys = s1 ++ s2 /\ exec s1 (serve rs c clk) = Some n1 /\ unit_in lo n1 u1 /\ shown u1 k a.
Proof. exact shows_started. Qed.
Print Assumptions C81_started.
(** For all caches and any device: what a getter shows after start-up was fetched, if no query for it failed during start-up. *)
Theorem C81_fetched : forall k rs c clk xs m0 ys m i a, exec xs (serve rs c clk) = Some m0 -> m_wk m0 = None -> waits i xs -> exec ys m0 = Some m -> legal m ->
  (forall l, log_of m0 = c_log c ++ l -> queries_ok k l) -> nth_error rs i = Some (getter_rpc k) -> answered m i a ->
  exists l pl v, log_of m = c_log c ++ l /\ In pl (fetched k l) /\ layout_of k pl v /\ a = message v.
Proof. exact after_start. Qed.
Print Assumptions C81_fetched.
(** Two getters of the temperatures: the first before, the second after the change. *)
Example C81_ex : waits 3 unit_before /\ waits 7 (unit_before ++ repeat (Run 3) 10 ++ unit_during) /\
  match exec unit_before unit_start with
  | Some m0 => m_wk m0 = None /\
      match exec (repeat (Run 3) 10 ++ unit_during ++ unit_again) m0 with
      | Some m => match nth_error (results m) 3, nth_error (results m) 7 with
        | Some (Some (RespTemps t)), Some (Some (RespTemps t')) => pbComfort t = f32_of_Z 21 /\ pbComfort t' = f32_of_Z 22
        | _, _ => False
        end
      | None => False
      end
  | None => False
  end.
Proof. do 2 (split; [repeat constructor; discriminate|]). vm_compute. auto. Qed.
