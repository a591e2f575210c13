(** Properties C75-C77: how recent answers are, and what every request does on the connection, in all
    interleavings (Machine.v). *)
From Verif Require Import GoBase Proto SpecProto SpecFrame SpecConn SpecLayout SpecServer Scanner Conn Proc Lib Server Machine SpecMachine
  SpecFresh Samples SamplesServer SamplesMachine SamplesFresh OwnInv FreshClaims.

(** C75: a getter whose request arrives after [xs] answers with what the latest successful fetch had
    brought at some moment between then and its answer ([ys1]). Not for the fan profiles when
    SetFanProfile is among the requests. *)
Theorem C75_linearizable_partial : forall k rs c clk xs m0 ys m i a, storing k rs -> c_log c = [] ->
  exec xs (serve rs c clk) = Some m0 -> waits i xs -> exec ys m0 = Some m -> legal m ->
  nth_error rs i = Some (getter_rpc k) -> answered m i a ->
  exists ys1 ys2 m1 v, ys = ys1 ++ ys2 /\ exec ys1 m0 = Some m1 /\ a = message v /\ current k (log_of m1) v.
Proof. exact linear_read. Qed.
Print Assumptions C75_linearizable_partial.
(** SetFanProfile has fetched the profiles for its own use; a getter that begins after that still
    answers with the blank record. *)
Theorem C75_linearizable_refuted : exists rs c xs m0 ys m i a, c_log c = [] /\ exec xs (serve rs c 0) = Some m0 /\ waits i xs /\
  exec ys m0 = Some m /\ legal m /\ nth_error rs i = Some (getter_rpc CProf) /\ answered m i a /\
  ~ exists ys1 ys2 m1 v, ys = ys1 ++ ys2 /\ exec ys1 m0 = Some m1 /\ a = message v /\ current CProf (log_of m1) v.
Proof. exact linear_refuted. Qed.
Print Assumptions C75_linearizable_refuted.
(** A getter that begins after another has answered never answers with an older fetch. *)
Theorem C75_monotone_partial : forall k rs c clk xs m0 ys m i j a b, storing k rs -> c_log c = [] ->
  exec xs (serve rs c clk) = Some m0 -> waits i xs -> exec ys m0 = Some m -> legal m ->
  nth_error rs j = Some (getter_rpc k) -> answered m0 j b -> nth_error rs i = Some (getter_rpc k) -> answered m i a ->
  exists l1 l2 l3 v w, log_of m = l1 ++ l2 ++ l3 /\ b = message v /\ current k l1 v /\ a = message w /\ current k (l1 ++ l2) w.
Proof. exact reads_agree. Qed.
Print Assumptions C75_monotone_partial.
(** In all cases: if the first answer came from the unit, the second brings that fetch or a later one
    ([l2] begins with the fetch the first answer shows). *)
Theorem C75_never_older : forall k rs c clk xs m0 ys m i j a b,
  exec xs (serve rs c clk) = Some m0 -> waits i xs -> exec ys m0 = Some m -> legal m ->
  nth_error rs j = Some (getter_rpc k) -> answered m0 j b -> nth_error rs i = Some (getter_rpc k) -> answered m i a ->
  b = message (blank k) \/
  exists l1 l2 l3 pl v pl' w, log_of m0 = l1 ++ l2 /\ hd_error (fetched k l2) = Some pl /\ layout_of k pl v /\ b = message v /\
    log_of m = l1 ++ l2 ++ l3 /\ In pl' (fetched k (l2 ++ l3)) /\ layout_of k pl' w /\ a = message w.
Proof. exact never_older. Qed.
Print Assumptions C75_never_older.
(** A cache nobody is writing to holds the latest fetch. *)
Theorem C75_cache_partial : forall k rs c clk xs m, storing k rs -> c_log c = [] -> exec xs (serve rs c clk) = Some m -> legal m ->
  at_rest m k -> current k (log_of m) (cached (g_sh (m_g m)) k).
Proof. exact cache_current. Qed.
Print Assumptions C75_cache_partial.
(** Three fetches of the temperatures; the getter that comes last answers with the last. *)
Example C75_ex : match exec warm_before warm_start with
  | Some m1 => match exec (warm_during ++ warm_after) m1 with
    | Some m => fetched CTemp (log_of m1) = [[82; 60; 70; 72; 66; 15; 40; 40; 40]] /\
        rev (fetched CTemp (log_of m)) = [[84; 50; 60; 70; 45; 15; 40; 40; 40]; [80; 50; 60; 70; 45; 15; 40; 40; 40]; [82; 60; 70; 72; 66; 15; 40; 40; 40]] /\
        match nth_error (results m) 2 with Some (Some (RespTemps t)) => pbComfort t = f32_of_Z 22 | _ => False end
    | None => False
    end
  | None => False
  end.
Proof. vm_compute. auto. Qed.

(** C76: what a request has done on the connection when it is answered, whatever others did meanwhile. *)
Theorem C76_own_exchanges : forall rs c clk xs m0 ys m i r a, exec xs (serve rs c clk) = Some m0 -> waits i xs ->
  exec ys m0 = Some m -> nth_error rs i = Some r -> answered m i a ->
  exists l ls, log_of m = log_of m0 ++ l /\ does_on_wire r a ls /\ embedded ls l.
Proof. exact rpc_on_wire. Qed.
Print Assumptions C76_own_exchanges.
(** SetComfortTemp 22 and a flush of the temperatures between its two exchanges. *)
Example C76_ex : match exec warm_before warm_start with
  | Some m1 => match exec warm_during m1 with
    | Some m2 => nth_error (results m2) 0 = Some (Some (RespComfort true 21 22)) /\
        map (fun x => match x with Wr b _ => b | Rd _ _ _ => [] end) (skipn (length (log_of m1)) (log_of m2)) =
          [framed 211 [84]; []; ack_seq; framed 209 []; []; ack_seq; framed 209 []; []; ack_seq]
    | None => False
    end
  | None => False
  end.
Proof. vm_compute. auto. Qed.

(** C77: a getter that begins after a setter has reported a change answers with data fetched after the
    exchange that made the change. *)
Theorem C77_read_your_writes : forall k rs c clk xs m1 ys m2 zs m i j q b a,
  exec xs (serve rs c clk) = Some m1 -> waits j xs -> exec ys m1 = Some m2 -> waits i (xs ++ ys) -> exec zs m2 = Some m -> legal m ->
  nth_error rs j = Some q -> answered m2 j b -> modified b -> In k (refreshed q) ->
  (forall l, log_of m2 = log_of m1 ++ l -> queries_ok k l) ->
  nth_error rs i = Some (getter_rpc k) -> answered m i a ->
  exists cmd data l x l' p pl v, change q b cmd data /\ log_of m = log_of m1 ++ l ++ x ++ l' /\ exchange cmd data false p None x /\
    In pl (fetched k l') /\ layout_of k pl v /\ a = message v.
Proof. exact read_back_after. Qed.
Print Assumptions C77_read_your_writes.
(** The same for a flush of the cache. *)
Theorem C77_read_after_flush : forall k rs c clk xs m1 ys m2 zs m i j t b a,
  exec xs (serve rs c clk) = Some m1 -> waits j xs -> exec ys m1 = Some m2 -> waits i (xs ++ ys) -> exec zs m2 = Some m -> legal m ->
  nth_error rs j = Some (FlushCacheR t) -> answered m2 j b -> In k (flushes t) ->
  (forall l, log_of m2 = log_of m1 ++ l -> queries_ok k l) ->
  nth_error rs i = Some (getter_rpc k) -> answered m i a ->
  exists l pl v, log_of m = log_of m1 ++ l /\ In pl (fetched k l) /\ layout_of k pl v /\ a = message v.
Proof. exact read_after_flush. Qed.
Print Assumptions C77_read_after_flush.
(** All hypotheses of both are met by SetComfortTemp 22 and the flush that runs meanwhile. *)
Example C77_ex : waits 0 warm_before /\ waits 1 warm_before /\ waits 2 (warm_before ++ warm_during) /\
  (forall m1 m2 l, exec warm_before warm_start = Some m1 -> exec warm_during m1 = Some m2 -> log_of m2 = log_of m1 ++ l -> queries_ok CTemp l) /\
  In CTemp (refreshed (SetComfortTempR 22)) /\ change (SetComfortTempR 22) (RespComfort true 21 22) 211 [84] /\ In CTemp (flushes 2) /\
  match exec (warm_before ++ warm_during) warm_start with
  | Some m2 => results m2 = [Some (RespComfort true 21 22); Some (RespFlush true); None] /\
      match exec warm_after m2 with
      | Some m => match nth_error (results m) 2 with Some (Some (RespTemps t)) => pbComfort t = f32_of_Z 22 | _ => False end
      | None => False
      end
  | None => False
  end.
Proof.
  split; [repeat constructor; discriminate|]. split; [repeat constructor; discriminate|]. split; [repeat constructor; discriminate|].
  split; [exact warm_queries|]. split; [left; reflexivity|]. split; [apply (ch_comfort 22 21); discriminate|]. vm_compute. auto 10.
Qed.
(** And by SetFanProfile, the setter that asks for the profiles itself. *)
Example C77_ex_profile : waits 0 warm_before /\ waits 1 (warm_before ++ prof_during) /\
  (forall m1 m2 l, exec warm_before prof_start = Some m1 -> exec prof_during m1 = Some m2 -> log_of m2 = log_of m1 ++ l -> queries_ok CProf l) /\
  In CProf (refreshed (SetFanProfileR 1 20)) /\
  change (SetFanProfileR 1 20) (RespProfile true 15 20) 207 [20; 35; 50; 20; 35; 50; 70; 70] /\
  match exec (warm_before ++ prof_during) prof_start with
  | Some m2 => results m2 = [Some (RespProfile true 15 20); None] /\
      match exec prof_after m2 with
      | Some m => match nth_error (results m) 1 with Some (Some (RespProf t)) => pbOutAway t = 20 | _ => False end
      | None => False
      end
  | None => False
  end.
Proof.
  split; [repeat constructor; discriminate|]. split; [repeat constructor; discriminate|].
  split; [exact prof_queries|]. split; [left; reflexivity|]. split; [apply (ch_profile 1 20 15 (prof_payload 2)); [repeat split; discriminate|reflexivity]|]. vm_compute. auto 10.
Qed.
