(** What the goroutines of the server log while they run at once. *)
From Verif Require Import GoBase Proto Scanner Conn Proc Lib Server SpecProto SpecFrame SpecConn SpecServer Machine SpecMachine Log SpecLog LogServer LogMachine SpecLogMachine
  LogMachineProofs Samples SamplesServer SamplesMachine SamplesLogMachine.

(** C126: in every interleaving the traffic with the unit consists of whole exchanges, each of one goroutine; the records of a request are
    the reports of those of its own refreshes that failed, in order, and the records of the worker, apart from those of the start, those of its
    own; no other goroutine's failures are among them, and none is left out. *)
Theorem C126_records : forall txt rs c clk xs m, lexec txt xs (lserve txt rs c clk) = Some m ->
  exists tags unfinished, c_log (g_conn (l_g m)) = c_log c ++ concat (map snd tags) ++ unfinished /\
    (forall o l, In (o, l) tags -> among (length rs) o) /\
    (forall i r t a es, nth_error rs i = Some r -> nth_error (l_ts m) i = Some t -> t_p t = Ret (a, es) -> recorded txt r (by_whom (Request i) tags) a es) /\
    (l_wk m = None -> worker_recorded txt (by_whom Worker tags) (l_out m)) /\
    (all_done m -> unfinished = []).
Proof. exact records. Qed.
Print Assumptions C126_records.
(** Except for the records, this is the machine of the other chapters. *)
Theorem C126_same : forall txt rs c clk xs,
  match exec xs (serve rs c clk), lexec txt xs (lserve txt rs c clk) with Some m, Some m' => alike m m' | None, None => True | _, _ => False end.
Proof. exact logged_machine. Qed.
Print Assumptions C126_same.
Example C126_ex : let txt i := [69] in
  match lexec txt failing_run (lserve txt failing_reqs failing_line 0) with
  | Some m =>
      records_of m = [Some (RespComfort true 21 25, [report txt CTemp ErrTimeout]); Some (RespFlush true, []); Some (RespFans (mkPbFans 35 35 915 813), [])] /\
      l_out m = caches_started [report txt CErr ErrPktLen] ++ [report txt CProf ErrPktLen] /\
      all_done m /\ List.length (c_log (g_conn (l_g m))) = 26%nat
  | None => False
  end.
Proof. vm_compute. repeat split; repeat constructor; eexists; reflexivity. Qed.
