(** Vocabulary for statements about interleaved executions. *)
From Verif Require Import GoBase Proto SpecProto SpecFrame SpecConn SpecLayout SpecServer Scanner Conn Proc Lib Server Machine.

(** Every request has been answered and the worker is back in its select. *)
Definition finished {A} (m : machine A) : Prop :=
  Forall (fun t => exists r, t_p t = Ret r) (m_ts m) /\ m_wk m = None.

(** What goroutine [i] returned. *)
Definition answered {A} (m : machine A) (i : nat) (r : A) : Prop :=
  exists t, nth_error (m_ts m) i = Some t /\ t_p t = Ret r.

(** Steps of goroutines, as opposed to the passing of time and tickers. *)
Definition working (x : item) : Prop :=
  match x with Pass _ | Tick _ => False | _ => True end.

(** Somebody is about to lock [l] for writing. *)
Definition writer_waits {A} (m : machine A) (l : lockid) : Prop :=
  (exists i t k, nth_error (m_ts m) i = Some t /\ t_p t = Lock l k) \/
  (exists t k, m_wk m = Some t /\ t_p t = Lock l k).
(** A step that is possible even though sync.RWMutex lets waiting writers go first. *)
Definition possible {A} (m : machine A) (x : item) : Prop :=
  exec1 m x <> None /\
  match x with
  | Run i => forall t l k, nth_error (m_ts m) i = Some t -> t_p t = RLock l k -> ~ writer_waits m l
  | RunWk => forall t l k, m_wk m = Some t -> t_p t = RLock l k -> ~ writer_waits m l
  | _ => True
  end.
(** Executions all of whose steps are possible in this sense. *)
Inductive proceeds {A} : machine A -> list item -> machine A -> Prop :=
| pr_nil m : proceeds m [] m
| pr_cons m x m1 xs m2 : possible m x -> exec1 m x = Some m1 -> proceeds m1 xs m2 -> proceeds m (x :: xs) m2.

(** ** Calls of the library *)
Inductive call :=
| KTemps | KBypass | KFans | KHours | KBootloader | KFirmware | KProfiles | KErrors
| KSpeed (v : Z) | KComfort (v : Z) | KSetProfiles (p : FanProfiles) | KQuery (p : packet).
Inductive call_res :=
| XTemps (r : Temps * option err) | XBypass (r : Bypass * option err) | XFans (r : Fans * option err)
| XHours (r : Hours * option err) | XBoot (r : BootInfo * option err)
| XProf (r : FanProfiles * option err) | XErrors (r : Errors * option err)
| XErr (r : option err) | XPacket (r : packet * option err).
Definition calling (k : call) : sproc call_res :=
  match k with
  | KTemps => do r <- GetTemperatures; Ret (XTemps r)
  | KBypass => do r <- GetBypass; Ret (XBypass r)
  | KFans => do r <- GetFans; Ret (XFans r)
  | KHours => do r <- GetHours; Ret (XHours r)
  | KBootloader => do r <- GetBootloader; Ret (XBoot r)
  | KFirmware => do r <- GetFirmware; Ret (XBoot r)
  | KProfiles => do r <- GetFanProfiles; Ret (XProf r)
  | KErrors => do r <- GetErrors; Ret (XErrors r)
  | KSpeed v => do r <- SetSpeed v; Ret (XErr r)
  | KComfort v => do r <- SetComfort v; Ret (XErr r)
  | KSetProfiles p => do r <- SetFanProfiles p; Ret (XErr r)
  | KQuery p => do r <- QueryPacket p; Ret (XPacket r)
  end.

(** Running processes one after the other on a connection: the processes with their results. *)
Inductive one_by_one {A} : list (sproc A * A) -> conn -> conn -> Prop :=
| obo_nil c : one_by_one [] c c
| obo_cons p r c w l c' :
    run p (mkWorld c init_shared [] 0 []) = (RDone r, w) ->
    one_by_one l (w_conn w) c' -> one_by_one ((p, r) :: l) c c'.
(** Only the given goroutines run: no worker, no tickers. *)
Definition only_runs (xs : list item) : Prop :=
  Forall (fun x => match x with Run _ | Pass _ => True | _ => False end) xs.
(** One machine follows another by a step of a goroutine. *)
Definition works {A} (m' m : machine A) : Prop := exists x, working x /\ exec1 m x = Some m'.

(** ** Where answers come from *)

(** Everything read from the unit consists of bytes. *)
Definition legal {A} (m : machine A) : Prop := forall c, Forall bytes_ok (fetched c (c_log (g_conn (m_g m)))).
(** What a successful fetch for cache [c] brought. *)
Definition brought {A} (m : machine A) (c : cache) (v : rec) : Prop :=
  exists pl, In pl (fetched c (c_log (g_conn (m_g m)))) /\ layout_of c pl v.
(** That, or the initial content. *)
Definition seen {A} (m : machine A) (c : cache) (v : rec) : Prop := v = blank c \/ brought m c v.

(** ** Data races *)

(** The next step of a process writes to cache [c]. *)
Definition writes {A} (p : sproc A) (c : cache) : Prop :=
  exists f k s, p = Put f k /\ cached (f s) c <> cached s c.
(** ... reads from it: what happens next depends on it. *)
Definition reads {A} (p : sproc A) (c : cache) : Prop :=
  exists k s s', p = Get k /\ (forall c', c' <> c -> cached s c' = cached s' c') /\
    (forall c', stamp s c' = stamp s' c') /\ k s <> k s'.
(** One goroutine is about to write to the record in cache [c] while another is about to read it. *)
Definition race {A} (m : machine A) (c : cache) : Prop :=
  exists t, In t (m_ts m) /\ reads (t_p t) c /\
    ((exists w, m_wk m = Some w /\ writes (t_p w) c) \/ exists t', In t' (m_ts m) /\ writes (t_p t') c).
(** The requests that only read caches or have them refreshed. *)
Definition careful (r : rpc) : Prop :=
  match r with SetComfortTempR _ | SetFanSpeedR _ _ | SetFanProfileR _ _ => False | _ => True end.
(** Nothing happens on the channels and no ticker fires. *)
Definition no_channel (x : item) : Prop := match x with Flush _ | Succ _ | Tick _ => False | _ => True end.
(** What asking for the fan profiles would bring. *)
Definition read_back (c : conn) : rres (FanProfiles * option err) :=
  fst (run GetFanProfiles (mkWorld c init_shared [] 0 [])).
