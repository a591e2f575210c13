(** Proofs about the records of requests and of the start of the program. *)
From Coq Require Import String.
From Verif Require Import ProofBase GoStrings Proto Scanner Conn Proc Lib Server QueryProofs ServerProofs SpecServer SpecErrorText Twirp SpecTwirp TwirpProofs
  GoClient Main SpecMain MainProofs Log SpecLog LogProofs LogServer.

(** ** Requests *)
Lemma for_api_iff h : for_api h <-> beq (cleanPath (h_path h)) (h_path h) = true /\ hasPrefix ComfoPathPrefix (h_path h) = true.
Proof.
  unfold for_api. rewrite tidy_clean. assert (P : in_service (h_path h) <-> hasPrefix ComfoPathPrefix (h_path h) = true).
  { unfold in_service, ComfoPathPrefix. generalize (str "/twirp/comfo.api.Comfo/") (h_path h). induction l as [|x l IH]; intros p.
    - split; [reflexivity|]. intros _. exists p. reflexivity.
    - destruct p as [|y p]; [split; [intros (r & F)|intros F]; discriminate|]. cbn [hasPrefix]. rewrite andb_true_iff, Z.eqb_eq, <- IH. split.
      + intros (r & E). injection E as -> ->. split; eauto.
      + intros (-> & r & ->). exists r. reflexivity. }
  rewrite P. split; intros [A B]; split; auto; [rewrite A; apply beq_refl|apply beq_eq; auto].
Qed.
Lemma run_clock {S A} (p : proc S A) : forall w, w_clk w <= w_clk (snd (run p w)).
Proof.
  induction p as [a| |l k IH|l k IH|l k IH|l k IH|bs k IH|x k IH|k IH|f k IH|k IH|d k IH|c k IH|k IH|b k IH]; intros w; cbn [run snd]; try lia; auto.
  - destruct (can_lock _ _); cbn [snd]; [|lia]. exact (IH (set_held w _)).
  - destruct (release _ _ _); cbn [snd]; [|lia]. exact (IH (set_held w _)).
  - destruct (can_rlock _ _); cbn [snd]; [|lia]. exact (IH (set_held w _)).
  - destruct (release _ _ _); cbn [snd]; [|lia]. exact (IH (set_held w _)).
  - destruct (do_write w bs) as [r w'] eqn:E. transitivity (w_clk w'); [|apply IH].
    unfold do_write in E. destruct (conn_write _ _). injection E as _ <-. cbn. lia.
  - destruct (do_read w x) as [o w'] eqn:E. assert (K : w_clk w = w_clk w').
    { unfold do_read in E. destruct (ReadPacket _ _) as [[[]|] ?]; injection E as _ <-; reflexivity. }
    destruct o as [[q e]|]; cbn [snd]; [|lia]. rewrite K. apply IH.
  - exact (IH (set_sh w _)).
  - transitivity (w_clk (tick_clock w)); [unfold tick_clock; cbn [w_clk]; lia|apply IH].
  - transitivity (w_clk (add_clock w d)); [unfold add_clock; cbn [w_clk]; lia|apply IH].
Qed.
Lemma request_logged ulower unjson t uri h w : for_api h ->
  match run (serveHTTP ulower unjson t h) (tick_clock w) with
  | (RDone a, w2) => exists d, run (loggedHTTP ulower unjson t uri h) w = (RDone (a, [request_record h uri d]), tick_clock w2) /\
      d = Z.min (2 ^ 63 - 1) (w_clk (tick_clock w2) - w_clk (tick_clock w)) /\ 0 <= d
  | (RPanic, w2) => run (loggedHTTP ulower unjson t uri h) w = (RPanic, w2)
  | (RBlocked, w2) => run (loggedHTTP ulower unjson t uri h) w = (RBlocked, w2)
  end.
Proof.
  intros F. apply for_api_iff in F as [C P]. unfold loggedHTTP. rewrite C, P. cbn [negb run].
  assert (E : serveHTTP ulower unjson t h = match dispatch ulower unjson h with Answer a => Ret a | Call pb q => do r <- handle q; Ret (respond pb t r) end).
  { unfold serveHTTP, front. rewrite C, P. reflexivity. }
  rewrite E. clear E. set (pr := match dispatch ulower unjson h with Answer a => Ret a | Call pb q => do r <- handle q; Ret (respond pb t r) end : sproc hresp).
  pose proof (run_clock pr (tick_clock w)) as K. 
  pose proof (run_bind pr (fun a => Now (fun finish => Ret (a, [requestEvent (h_method h) uri (str "twirp") (time_sub finish (w_clk (tick_clock w)))]))) (tick_clock w)) as R.
  destruct (run pr (tick_clock w)) as [[a| |] w2]; cbn [run snd] in *; auto.
  eexists; split; [exact R|]. unfold time_sub. assert (w_clk w2 <= w_clk (tick_clock w2)) by (unfold tick_clock; cbn [w_clk]; lia).
  split; [|lia]. lia.
Qed.
Lemma request_other ulower unjson t uri h : ~ for_api h ->
  exists a, serveHTTP ulower unjson t h = Ret a /\ loggedHTTP ulower unjson t uri h = Ret (a, []).
Proof.
  intros N. rewrite for_api_iff in N. unfold serveHTTP, front, loggedHTTP.
  destruct (beq _ _); cbn [negb]; [|eauto]. destruct (hasPrefix _ _); [tauto|]. eauto.
Qed.
Lemma request_line isPrint isSpace debug date h uri d : date_ok date -> bytes_ok (h_method h) -> bytes_ok uri ->
  exists ls, log_file (logText isPrint isSpace debug [(date, request_record h uri d)]) ls /\
    (debug = false -> ls = []) /\ (debug = true -> exists l, ls = [l] /\ says_event l date (request_record h uri d)).
Proof.
  intros D M U. destruct (log_tells isPrint isSpace debug [(date, request_record h uri d)]) as (ls & F & T).
  { repeat constructor; auto; try (apply D). all: cbn; repeat constructor; auto; lia. }
  exists ls. split; auto. split; intros ->; inversion T as [|? ? ? ? ? S E T'|? ? ? ? S T']; subst.
  - destruct S as [S|S]; [discriminate|]. destruct S. reflexivity.
  - inversion T'. reflexivity.
  - inversion T'; subst. eauto.
  - destruct S. left. reflexivity.
Qed.

(** ** The start of the program *)
Lemma recounts_errors es l a : Forall (fun e => ev_level e = LError) es -> recounts l a -> recounts (es ++ l) a.
Proof. induction 1 as [|e es E F IH]; auto. intros H. apply rc_other; auto. rewrite E. discriminate. Qed.
Lemma recounts_fun l a : recounts l a -> forall a', recounts l a' -> a = a'.
Proof.
  assert (X : forall m attrs, In m ["Connecting to the unit over tcp"; "Opening serial device"; "Populating caches"; "API listening"]%string ->
    ~ (ev_level (info m attrs) = LInfo -> Forall (fun k => ev_msg (info m attrs) <> str k)
      ["Connecting to the unit over tcp"; "Opening serial device"; "Populating caches"; "API listening"]%string)).
  { intros m attrs I H. specialize (H eq_refl). rewrite Forall_forall in H. apply (H m I). reflexivity. }
  induction 1; intros a' H'; inversion H'; subst; auto; try (f_equal; auto; fail); exfalso;
    match goal with H : ev_level (info ?m _) = LInfo -> _ |- _ => eapply (X m); [cbn; auto 6|exact H] end.
Qed.
Ltac other := apply rc_other; [intros L; first [discriminate L|repeat (constructor; [let F := fresh in intros F; vm_compute in F; discriminate F|]); constructor]|].
Lemma main_recounts args env fails es : Forall (fun e => ev_level e = LError) es ->
  recounts (mainLog args env fails (caches_started es)) (main args env (opening fails)).
Proof.
  intros E. unfold mainLog, main, connectLog, ConnectUnit. destruct (parseArgs args) as [set|]; [|constructor].
  set (m := find_setting _ _ configMode _). set (u := find_setting _ _ configTarget _). set (ad := find_setting _ _ configListen _).
  assert (K : recounts (caches_started es ++ mkEvent LInfo (str "API listening") [(str "address", VText ad)] ::
     match fails (Listen ad) with Some e => [mkEvent LError (str "ListenAndServe") [(str "error", VError e)]] | None => [] end) [Start; Listen ad]).
  { unfold caches_started. cbn [app]. apply rc_start. rewrite <- app_assoc. apply recounts_errors; auto. cbn [app]. other.
    apply (rc_listen ad). destruct (fails (Listen ad)); [other|]; constructor. }
  other. destruct (beq m (str "tcp")).
  { unfold opening. destruct (fails (DialTCP u)); cbn [app].
    - apply (rc_tcp u). other. constructor.
    - apply (rc_tcp u). other. exact K. }
  destruct (beq m (str "serial")).
  { unfold opening. destruct (fails (OpenSerial u 9600)); cbn [app].
    - apply (rc_serial u). other. constructor.
    - apply (rc_serial u). other. exact K. }
  cbn [app]. other. constructor.
Qed.
Lemma main_ends l args env fails es : command_line l args -> exists mode target listen before last,
  setting l env "mode" "COMFO_MODE" (str "serial") mode /\ setting l env "target" "COMFO_TARGET" (str "/dev/ttyUSB0") target /\
  setting l env "listen" "COMFO_LISTEN" (str "[::]:3094") listen /\
  mainLog args env fails (caches_started es) = before ++ [last] /\ only_errors es before /\
  (mode <> str "tcp" -> mode <> str "serial" -> last = failure "Error connecting to unit" (str "unsupported unit mode " ++ mode)) /\
  (mode = str "tcp" -> forall e, fails (DialTCP target) = Some e -> last = failure "Error connecting to unit" (str "unable to dial the unit at " ++ target ++ str ": " ++ e)) /\
  (mode = str "serial" -> forall e, fails (OpenSerial target 9600) = Some e ->
     last = failure "Error connecting to unit" (str "unable to open serial device at " ++ target ++ str ": " ++ e)) /\
  (mode = str "tcp" /\ fails (DialTCP target) = None \/ mode = str "serial" /\ fails (OpenSerial target 9600) = None ->
     (forall e, fails (Listen listen) = Some e -> last = failure "ListenAndServe" e) /\
     (fails (Listen listen) = None -> last = info "API listening" [(str "address", VText listen)])).
Proof.
  intros C. pose proof (parses l args C) as P. pose proof (names l args C) as F.
  unfold mainLog, connectLog. rewrite P.
  pose proof (find_is l env "mode" "COMFO_MODE" (str "serial") ltac:(cbn; auto) F eq_refl) as Sm.
  pose proof (find_is l env "target" "COMFO_TARGET" (str "/dev/ttyUSB0") ltac:(cbn; auto) F eq_refl) as St.
  pose proof (find_is l env "listen" "COMFO_LISTEN" (str "[::]:3094") ltac:(cbn; auto) F eq_refl) as Sl.
  change (str "mode") with configMode in Sm. change (str "target") with configTarget in St. change (str "listen") with configListen in Sl.
  change (str "serial") with defaultMode in Sm. change (str "/dev/ttyUSB0") with defaultTarget in St. change (str "[::]:3094") with defaultListen in Sl.
  set (m := find_setting _ _ configMode _) in *. set (u := find_setting _ _ configTarget _) in *. set (ad := find_setting _ _ configListen _) in *.
  assert (Es : only_errors es (caches_started es)).
  { unfold caches_started, only_errors. constructor; [discriminate|]. apply Forall_app. split; [apply Forall_forall; auto|]. constructor; [discriminate|constructor]. }
  assert (K : exists before last, caches_started es ++ mkEvent LInfo (str "API listening") [(str "address", VText ad)] ::
     match fails (Listen ad) with Some e => [mkEvent LError (str "ListenAndServe") [(str "error", VError e)]] | None => [] end = before ++ [last] /\ only_errors es before /\
     (forall e, fails (Listen ad) = Some e -> last = failure "ListenAndServe" e) /\
     (fails (Listen ad) = None -> last = info "API listening" [(str "address", VText ad)])).
  { destruct (fails (Listen ad)) as [e|].
    - exists (caches_started es ++ [info "API listening" [(str "address", VText ad)]]), (failure "ListenAndServe" e). splits.
      + rewrite <- app_assoc. reflexivity.
      + apply Forall_app. split; auto. constructor; [discriminate|constructor].
      + intros e' E. injection E as <-. reflexivity.
      + discriminate.
    - exists (caches_started es), (info "API listening" [(str "address", VText ad)]). splits; auto. discriminate. }
  destruct K as (kb & kl & Ek & Ok & Kf & Kn).
  exists m, u, ad. 
  assert (Dbg : forall x, only_errors es x -> only_errors es (mkEvent LDebug (str "Debug logging enabled") [] :: x)).
  { intros x H. constructor; [discriminate|exact H]. }
  assert (Inf : forall k at_ x, only_errors es x -> only_errors es (mkEvent LInfo k at_ :: x)).
  { intros k at_ x H. constructor; [discriminate|exact H]. }
  set (dbg := mkEvent LDebug (str "Debug logging enabled") []) in *.
  assert (Stop : forall x y, only_errors es [dbg; mkEvent LInfo x y]) by (intros; apply Dbg, Inf; constructor).
  assert (Serial : str "tcp" <> str "serial") by (intros H; vm_compute in H; discriminate H).
  destruct (beq m (str "tcp")) eqn:Bt.
  - apply beq_eq in Bt. destruct (fails (DialTCP u)) as [e|] eqn:Fd; cbn [app].
    + exists [dbg; info "Connecting to the unit over tcp" [(str "address", VText u)]], (failure "Error connecting to unit" (str "unable to dial the unit at " ++ u ++ str ": " ++ e)).
      splits; auto; try congruence; try (apply Stop); try (apply Dbg, Inf, Inf, Ok); try solve [apply Dbg; constructor];
        try (rewrite Ek; reflexivity); try (intros _ e' E; injection E as <-; reflexivity); try (intros [[H1 H2]|[H1 H2]]; congruence).
    + exists (dbg :: info "Connecting to the unit over tcp" [(str "address", VText u)] :: info "Connection established!" [(str "address", VText u)] :: kb), kl.
      splits; auto; try congruence; try (apply Stop); try (apply Dbg, Inf, Inf, Ok); try solve [apply Dbg; constructor];
        try (rewrite Ek; reflexivity); try (intros _ e' E; injection E as <-; reflexivity); try (intros [[H1 H2]|[H1 H2]]; congruence).
  - apply beq_neq in Bt. destruct (beq m (str "serial")) eqn:Bs.
    + apply beq_eq in Bs. destruct (fails (OpenSerial u 9600)) as [e|] eqn:Fd; cbn [app].
      * exists [dbg; info "Opening serial device" [(str "device", VText u)]], (failure "Error connecting to unit" (str "unable to open serial device at " ++ u ++ str ": " ++ e)).
        splits; auto; try congruence; try (apply Stop); try (apply Dbg, Inf, Inf, Ok); try solve [apply Dbg; constructor];
        try (rewrite Ek; reflexivity); try (intros _ e' E; injection E as <-; reflexivity); try (intros [[H1 H2]|[H1 H2]]; congruence).
      * exists (dbg :: info "Opening serial device" [(str "device", VText u)] :: info "Opened device" [(str "device", VText u)] :: kb), kl.
        splits; auto; try congruence; try (apply Stop); try (apply Dbg, Inf, Inf, Ok); try solve [apply Dbg; constructor];
        try (rewrite Ek; reflexivity); try (intros _ e' E; injection E as <-; reflexivity); try (intros [[H1 H2]|[H1 H2]]; congruence).
    + apply beq_neq in Bs. cbn [app]. exists [dbg], (failure "Error connecting to unit" (str "unsupported unit mode " ++ m)).
      splits; auto; try congruence; try (apply Stop); try (apply Dbg, Inf, Inf, Ok); try solve [apply Dbg; constructor];
        try (rewrite Ek; reflexivity); try (intros _ e' E; injection E as <-; reflexivity); try (intros [[H1 H2]|[H1 H2]]; congruence).
Qed.
Lemma main_silent args env fails es : (forall l, ~ command_line l args) -> mainLog args env fails es = [].
Proof.
  intros N. unfold mainLog. destruct (parseArgs args) as [x|] eqn:P; [|reflexivity].
  destruct (parses_only (List.length args) args x (le_n _) P) as (l & C & _). destruct (N l C).
Qed.
Lemma debug_on l args env : command_line l args -> exists v, setting l env "debug" "COMFO_DEBUG" (str "false") v /\ (debugOn args env = true <-> truth true v).
Proof.
  intros C. pose proof (parses l args C) as P. pose proof (names l args C) as F.
  eexists. split; [apply (find_is l env "debug" "COMFO_DEBUG" (str "false") ltac:(cbn; auto) F eq_refl)|].
  unfold debugOn, debugSetting. rewrite P. rewrite truth_parse. change configDebug with (str "debug").
  destruct (parseBool _) as [[]|]; split; congruence.
Qed.
