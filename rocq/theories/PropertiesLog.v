(** Properties C112-C115: log output. *)
From Coq Require Import String.
From Verif Require Import GoBase Proto SpecProto SpecFrame SpecConn SpecServer Scanner Conn Proc Lib Server Samples SamplesServer Twirp SpecTwirp ErrorText SpecErrorText
  GoClient Duration SpecDuration Main SpecMain Log SpecLog LogProofs LogServer LogServerProofs LogMainProofs.

(** C112: what is logged can be read back: the output is a sequence of lines, one for each record that is shown, which says its
    time, level, message and attributes; *)
Theorem C112_lines : forall isPrint isSpace debug l, Forall (fun x => date_ok (fst x) /\ event_ok (snd x)) l ->
  exists ls, log_file (logText isPrint isSpace debug l) ls /\ tells debug l ls.
Proof. exact log_tells. Qed.
Print Assumptions C112_lines.
(** it can be read in one way only, also while it grows; *)
Theorem C112_unique : forall t ls ls', log_file t ls -> log_file t ls' -> ls = ls'.
Proof. exact file_unique. Qed.
Print Assumptions C112_unique.
Theorem C112_grows : forall t ls, log_file t ls -> forall rest ls', log_file (t ++ rest) ls' -> exists ls'', ls' = ls ++ ls'' /\ log_file rest ls''.
Proof. exact file_prefix. Qed.
Print Assumptions C112_grows.
(** a line ends at the first newline, whatever the attributes contain; *)
Theorem C112_newline : forall t l, log_line t l -> exists x, t = x ++ [10] /\ ~ In 10 x.
Proof. exact line_one. Qed.
Print Assumptions C112_newline.
(** and two records with the same line agree. *)
Theorem C112_says : forall l d d' e e', says_event l d e -> says_event l d' e' ->
  d = d' /\ ev_level e = ev_level e' /\ ev_msg e = ev_msg e' /\
  Forall2 (fun x y => fst x = fst y /\ exists t, value_text t (snd x) /\ value_text t (snd y)) (ev_attrs e) (ev_attrs e').
Proof. exact event_fun. Qed.
Print Assumptions C112_says.
Example C112_ex : let d := mkDate 2024 2 29 7 8 9 45 (-90) in
  let uri := str "/x" ++ [10] ++ str "level=ERROR ""a""" in
  let e := mkEvent LDebug (str "Request") [(str "URI", VText uri); (str "route", VText (str "twirp")); (str "duration", VDur 1500000)] in
  date_ok d /\ event_ok e /\ logText (fun _ => true) (fun _ => false) false [(d, e)] = [] /\
  logText (fun _ => true) (fun _ => false) true [(d, e)] =
    str "time=2024-02-29T07:08:09.045-01:30 level=DEBUG msg=Request URI=""/x\nlevel=ERROR \""a\"""" route=twirp duration=1.5ms" ++ [10].
Proof. vm_compute. repeat split; try discriminate; repeat constructor; try discriminate. Qed.

(** C113: a refresh that fails is reported once, with its cause, and leaves the caches alone; one that succeeds is not reported
    and marks the cache as fetched during it. *)
Theorem C113_refresh : forall txt c force w, can_lock (w_held w) (LC c) = true -> can_lock (w_held w) LPm = true ->
  exists es w' l, run (Update' txt c force) w = (RDone es, w') /\ w_held w' = w_held w /\ added w w' l /\ reports txt l es /\ outcome_ok txt c force w w' l es.
Proof. exact update_logs. Qed.
Print Assumptions C113_refresh.
(** Whatever the server does: the records are the reports of the refreshes that failed, in order. *)
Theorem C113_rpc : forall txt r w, idle w -> quiet_rpc r ->
  exists a es w' l, run (handle' txt r) w = (RDone (a, es), w') /\ idle w' /\ added w w' l /\ reports txt l es.
Proof. exact rpc_reports. Qed.
Print Assumptions C113_rpc.
Theorem C113_profile : forall txt m t w, idle w ->
  exists r es w' l1 l2, run (handle' txt (SetFanProfileR m t)) w = (RDone (r, es), w') /\ idle w' /\ added w w' (l1 ++ l2) /\
    own l1 /\ reports txt l2 es /\ (l2 = [] \/ one_query CProf l2 /\ exists a b c, r = RespProfile a b c).
Proof. exact profile_logs. Qed.
Print Assumptions C113_profile.
Theorem C113_flush : forall txt c w, idle w ->
  exists b es w' l, run (FlushCaches_body' txt c) w = (RDone (b, es), w') /\ idle w' /\ added w w' l /\ reports txt l es.
Proof. exact flush_reports. Qed.
Print Assumptions C113_flush.
Theorem C113_tick : forall txt t w, idle w ->
  exists es w' l, run (on_tick' txt t) w = (RDone es, w') /\ idle w' /\ added w w' l /\ reports txt l es.
Proof. exact tick_reports. Qed.
Print Assumptions C113_tick.
Theorem C113_start : forall txt w, idle w ->
  exists es w' l, run (StartCaches' txt) w = (RDone (caches_started es), w') /\ idle w' /\ added w w' l /\ reports txt l es.
Proof. exact start_reports. Qed.
Print Assumptions C113_start.
(** The traffic with the unit determines the reports; they are made of bytes if the texts of errors are. *)
Theorem C113_unique : forall txt l es, reports txt l es -> forall es', reports txt l es' -> es = es'.
Proof. exact reports_unique. Qed.
Print Assumptions C113_unique.
Theorem C113_bytes : forall txt l es, (forall i, bytes_ok (txt i)) -> reports txt l es -> Forall event_ok es.
Proof. exact reports_bytes. Qed.
Print Assumptions C113_bytes.
(** Except for the records, these are the programs of the other chapters. *)
Theorem C113_same : forall txt, (forall c force, same silent (Update c force) (Update' txt c force)) /\ (forall r, same erases (handle r) (handle' txt r)) /\
  (forall c, same erases (FlushCaches_body c) (FlushCaches_body' txt c)) /\ (forall t, same silent (on_tick t) (on_tick' txt t)) /\
  same silent StartCaches (StartCaches' txt).
Proof. exact logged_same. Qed.
Print Assumptions C113_same.
Theorem C113_run : forall S A A' (R : A -> A' -> Prop) (p : proc S A) (p' : proc S A'), same R p p' -> forall w,
  snd (run p w) = snd (run p' w) /\
  match fst (run p w), fst (run p' w) with RDone a, RDone a' => R a a' | RPanic, RPanic | RBlocked, RBlocked => True | _, _ => False end.
Proof. exact @run_same. Qed.
Print Assumptions C113_run.
Example C113_ex : let txt i := str "EOF" in let w := started (answer 12 [1; 2; 3] ++ answer 210 temps_payload ++ answer 12 [20; 25; 0; 0; 9; 0] ++ answer 13 []) in
  let (r1, w1) := run (Update' txt CFans true) w in
  let (r2, w2) := run (on_tick' txt TickFast) (add_clock w1 5000000000) in
  let (r3, w3) := run (FlushCaches_body' txt 1) w2 in
  let (r4, w4) := run (Update' txt CErr true) w3 in
  idle w /\ r1 = RDone [report txt CFans ErrPktLen] /\ r2 = RDone [report txt CFans ErrZeroValue] /\
  r3 = RDone (true, [report txt CFans ErrInvalidResponse]) /\ r4 = RDone [report txt CErr ErrTimeout].
Proof. vm_compute. repeat split. Qed.

(** C114: a request for the API is answered as without the logger, and recorded once, with the time it took; *)
Theorem C114_recorded : forall ulower unjson t uri h w, for_api h ->
  match run (serveHTTP ulower unjson t h) (tick_clock w) with
  | (RDone a, w2) => exists d, run (loggedHTTP ulower unjson t uri h) w = (RDone (a, [request_record h uri d]), tick_clock w2) /\
      d = Z.min (2 ^ 63 - 1) (w_clk (tick_clock w2) - w_clk (tick_clock w)) /\ 0 <= d
  | (RPanic, w2) => run (loggedHTTP ulower unjson t uri h) w = (RPanic, w2)
  | (RBlocked, w2) => run (loggedHTTP ulower unjson t uri h) w = (RBlocked, w2)
  end.
Proof. exact request_logged. Qed.
Print Assumptions C114_recorded.
(** other requests are not recorded; *)
Theorem C114_other : forall ulower unjson t uri h, ~ for_api h ->
  exists a, serveHTTP ulower unjson t h = Ret a /\ loggedHTTP ulower unjson t uri h = Ret (a, []).
Proof. exact request_other. Qed.
Print Assumptions C114_other.
(** the record is shown in debug mode only. *)
Theorem C114_shown : forall isPrint isSpace debug date h uri d, date_ok date -> bytes_ok (h_method h) -> bytes_ok uri ->
  exists ls, log_file (logText isPrint isSpace debug [(date, request_record h uri d)]) ls /\
    (debug = false -> ls = []) /\ (debug = true -> exists l, ls = [l] /\ says_event l date (request_record h uri d)).
Proof. exact request_line. Qed.
Print Assumptions C114_shown.
Example C114_ex : let h p := mkHreq (str "POST") p (str "application/protobuf") [] in
  let w := add_clock (started []) 0 in let w := mkWorld (w_conn w) (w_sh w) [] 1000 [1; 25] in
  let log p := run (loggedHTTP (fun s => s) (fun _ _ => None) [] (p ++ str "?x") (h p)) w in
  let p := str "/twirp/comfo.api.Comfo/GetFans" in
  for_api (h p) /\ (exists a, log p = (RDone (a, [request_record (h p) (p ++ str "?x") 25]), mkWorld (w_conn w) (w_sh w) [] 1026 []) /\ r_status a = 200) /\
  fst (log (str "/twirp/comfo.api.Comfo/../x")) = RDone (mkHresp 301 Text, []) /\ fst (log (str "/twirp/comfo.api.ComfoX/GetFans")) = RDone (mkHresp 404 Text, []).
Proof.
  cbv zeta. split; [apply for_api_iff; split; vm_compute; reflexivity|]. split; [eexists; split; [vm_compute; reflexivity|reflexivity]|]. split; vm_compute; reflexivity.
Qed.

(** C115: the log of the start says what the program did *)
Theorem C115_recounts : forall args env fails es, Forall (fun e => ev_level e = LError) es ->
  recounts (mainLog args env fails (caches_started es)) (main args env (opening fails)).
Proof. exact main_recounts. Qed.
Print Assumptions C115_recounts.
Theorem C115_unique : forall l a, recounts l a -> forall a', recounts l a' -> a = a'.
Proof. exact recounts_fun. Qed.
Print Assumptions C115_unique.
(** and ends with the cause if it had to give up; *)
Theorem C115_ends : forall l args env fails es, command_line l args -> exists mode target listen before last,
  setting l env "mode" "COMFO_MODE" (str "serial") mode /\ setting l env "target" "COMFO_TARGET" (str "/dev/ttyUSB0") target /\
  setting l env "listen" "COMFO_LISTEN" (str "[::]:3094") listen /\
  mainLog args env fails (caches_started es) = before ++ [last] /\ only_errors es before /\
  (mode <> str "tcp" -> mode <> str "serial" -> last = failure "Error connecting to unit" (str "unsupported unit mode " ++ mode)) /\
  (mode = str "tcp" -> forall e, fails (DialTCP target) = Some e -> last = failure "Error connecting to unit" (str "unable to dial the unit at " ++ target ++ str ": " ++ e)) /\
  (mode = str "serial" -> forall e, fails (OpenSerial target 9600) = Some e ->
     last = failure "Error connecting to unit" (str "unable to open serial device at " ++ target ++ str ": " ++ e)) /\
  (mode = str "tcp" /\ fails (DialTCP target) = None \/ mode = str "serial" /\ fails (OpenSerial target 9600) = None ->
     (forall e, fails (Listen listen) = Some e -> last = failure "ListenAndServe" e) /\
     (fails (Listen listen) = None -> last = info "API listening" [(str "address", VText listen)])).
Proof. exact main_ends. Qed.
Print Assumptions C115_ends.
(** with a bad command line nothing is logged. *)
Theorem C115_silent : forall args env fails es, (forall l, ~ command_line l args) -> mainLog args env fails es = [].
Proof. exact main_silent. Qed.
Print Assumptions C115_silent.
(** Debug records are shown if the setting is a word for true. *)
Theorem C115_debug : forall l args env, command_line l args ->
  exists v, setting l env "debug" "COMFO_DEBUG" (str "false") v /\ (debugOn args env = true <-> truth true v).
Proof. exact debug_on. Qed.
Print Assumptions C115_debug.
Example C115_ex : let args := [str "--mode"; str "tcp"; str "--target=h:1"] in let env v := if beq v (str "COMFO_DEBUG") then Some (str "T") else None in
  let fails a := match a with Listen _ => Some (str "in use") | _ => None end in
  mainLog args env fails (caches_started [report (fun _ => []) CFans ErrTimeout]) =
   [mkEvent LDebug (str "Debug logging enabled") []; info "Connecting to the unit over tcp" [(str "address", VText (str "h:1"))];
    info "Connection established!" [(str "address", VText (str "h:1"))]; info "Populating caches" []; report (fun _ => []) CFans ErrTimeout;
    info "Cache worker started" []; info "API listening" [(str "address", VText (str "[::]:3094"))]; failure "ListenAndServe" (str "in use")] /\
  main args env (opening fails) = [DialTCP (str "h:1"); Start; Listen (str "[::]:3094")] /\ debugOn args env = true /\ debugOn [] (fun _ => Some (str "yes")) = false /\
  mainLog args env (fun a => match a with DialTCP _ => Some (str "refused") | _ => None end) [] =
   [mkEvent LDebug (str "Debug logging enabled") []; info "Connecting to the unit over tcp" [(str "address", VText (str "h:1"))];
    failure "Error connecting to unit" (str "unable to dial the unit at h:1: refused")].
Proof. vm_compute. repeat split. Qed.
