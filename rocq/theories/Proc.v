(** A small process language in which the stateful Go functions are written once,
    and its sequential interpretation.  Locks are the sync.Mutex / sync.RWMutex variables
    of /repo; channels are flushCache / flushSuccess (comfoserver/caches.go:22-23). *)
From Verif Require Import GoBase Proto Scanner Conn.

(** The caches (comfoserver/caches.go:15-20). *)
Inductive cache := CBoot | CBypass | CTemp | CFans | CProf | CErr.

(** Lock variables: [LPm] libcomfo/conn.go:12, [LAm] libcomfo/api.go:10,
    [LFan]/[LTemp] comfoserver/server.go:19-22, [LC c] the CacheLock fields of
    comfoserver/caches.go:27-66. *)
Inductive lockid := LPm | LAm | LFan | LTemp | LC (c : cache).

Definition cache_eqb (a b : cache) : bool :=
  match a, b with
  | CBoot, CBoot | CBypass, CBypass | CTemp, CTemp | CFans, CFans | CProf, CProf | CErr, CErr => true
  | _, _ => false
  end.
Definition lock_eqb (a b : lockid) : bool :=
  match a, b with
  | LPm, LPm | LAm, LAm | LFan, LFan | LTemp, LTemp => true
  | LC x, LC y => cache_eqb x y
  | _, _ => false
  end.

(** Processes over shared variables [S], returning [A].
    [Get] reads shared variables; each use in the model reads the variables of
    one Go expression.  [Put] writes shared variables.
    [WriteC] is conn.Write, [ReadC] is ReadPacket (libcomfo/conn.go:50-124).
    [Now] is time.Now(), [Sleep] is time.Sleep. *)
Inductive proc (S A : Type) : Type :=
| Ret (a : A)
| Crash                                   (* Go panic *)
| Lock (l : lockid) (k : proc S A)
| Unlock (l : lockid) (k : proc S A)
| RLock (l : lockid) (k : proc S A)
| RUnlock (l : lockid) (k : proc S A)
| WriteC (bs : list byte) (k : wres -> proc S A)
| ReadC (expect : bool) (k : packet -> option err -> proc S A)
| Get (k : S -> proc S A)
| Put (f : S -> S) (k : proc S A)
| Now (k : Z -> proc S A)
| Sleep (d : Z) (k : proc S A)
| SendFlush (c : Z) (k : proc S A)        (* flushCache <- c *)
| RecvSucc (k : bool -> proc S A)         (* <-flushSuccess *)
| SendSucc (b : bool) (k : proc S A).     (* flushSuccess <- b *)
Arguments Ret {S A} a.
Arguments Crash {S A}.
Arguments Lock {S A} l k.
Arguments Unlock {S A} l k.
Arguments RLock {S A} l k.
Arguments RUnlock {S A} l k.
Arguments WriteC {S A} bs k.
Arguments ReadC {S A} expect k.
Arguments Get {S A} k.
Arguments Put {S A} f k.
Arguments Now {S A} k.
Arguments Sleep {S A} d k.
Arguments SendFlush {S A} c k.
Arguments RecvSucc {S A} k.
Arguments SendSucc {S A} b k.

Fixpoint bind {S A B} (p : proc S A) (f : A -> proc S B) : proc S B :=
  match p with
  | Ret a => f a
  | Crash => Crash
  | Lock l k => Lock l (bind k f)
  | Unlock l k => Unlock l (bind k f)
  | RLock l k => RLock l (bind k f)
  | RUnlock l k => RUnlock l (bind k f)
  | WriteC bs k => WriteC bs (fun r => bind (k r) f)
  | ReadC x k => ReadC x (fun p e => bind (k p e) f)
  | Get k => Get (fun s => bind (k s) f)
  | Put g k => Put g (bind k f)
  | Now k => Now (fun t => bind (k t) f)
  | Sleep d k => Sleep d (bind k f)
  | SendFlush c k => SendFlush c (bind k f)
  | RecvSucc k => RecvSucc (fun b => bind (k b) f)
  | SendSucc b k => SendSucc b (bind k f)
  end.
Notation "'do' x '<-' a ';' b" := (bind a (fun x => b))
  (at level 200, x pattern, a at level 100, b at level 200, right associativity).

(** [l.Lock(); defer l.Unlock(); body]: the deferred unlock runs after the result is
    computed.  (A panic in [body] would also run it; [Crash] ends the model run.) *)
Definition with_lock {S A} (l : lockid) (body : proc S A) : proc S A :=
  Lock l (do r <- body; Unlock l (Ret r)).

Definition lift {S A} (o : outcome A) : proc S A :=
  match o with Done a => Ret a | Panic => Crash end.

(** World in which processes run.  [w_held]: locks held, [true] for write, [false] for
    read locks, one entry per acquisition.  [w_adv]: how far the clock advances before
    each successive time.Now() (missing or negative: 0). *)
Record world (S : Type) := mkWorld {
  w_conn : conn; w_sh : S; w_held : list (lockid * bool); w_clk : Z; w_adv : list Z }.
Arguments mkWorld {S} _ _ _ _ _.
Arguments w_conn {S} _.
Arguments w_sh {S} _.
Arguments w_held {S} _.
Arguments w_clk {S} _.
Arguments w_adv {S} _.

Definition set_conn {S} (w : world S) c := mkWorld c (w_sh w) (w_held w) (w_clk w) (w_adv w).
Definition set_sh {S} (w : world S) (s : S) : world S := mkWorld (w_conn w) s (w_held w) (w_clk w) (w_adv w).
Definition set_held {S} (w : world S) h := mkWorld (w_conn w) (w_sh w) h (w_clk w) (w_adv w).

Definition holds (h : list (lockid * bool)) (l : lockid) (x : bool) : bool :=
  existsb (fun e => lock_eqb (fst e) l && Bool.eqb (snd e) x) h.
Definition can_lock (h : list (lockid * bool)) (l : lockid) : bool :=
  negb (holds h l true) && negb (holds h l false).
Definition can_rlock (h : list (lockid * bool)) (l : lockid) : bool := negb (holds h l true).

(** Remove one entry; [None] if absent (Go: fatal error, unlock of unlocked mutex). *)
Fixpoint release (h : list (lockid * bool)) (l : lockid) (x : bool) : option (list (lockid * bool)) :=
  match h with
  | [] => None
  | e :: r => if lock_eqb (fst e) l && Bool.eqb (snd e) x then Some r
              else match release r l x with Some r' => Some (e :: r') | None => None end
  end.

Definition tick_clock {S} (w : world S) : world S :=
  mkWorld (w_conn w) (w_sh w) (w_held w) (w_clk w + Z.max 0 (hd 0 (w_adv w))) (tl (w_adv w)).
Definition add_clock {S} (w : world S) (d : Z) : world S :=
  mkWorld (w_conn w) (w_sh w) (w_held w) (w_clk w + Z.max 0 d) (w_adv w).

(** Write and ReadPacket on the world's connection. *)
Definition do_write {S} (w : world S) bs : wres * world S :=
  let (r, c) := conn_write (w_conn w) bs in (r, set_conn w c).
Definition log_io (c : conn) (x : io) : conn :=
  mkConn (c_dev c) (c_pend c) (c_orph c) (c_log c ++ [x]).
Definition do_read {S} (w : world S) (expect : bool) : outcome (packet * option err) * world S :=
  match ReadPacket (w_conn w) expect with
  | (Done (p, e), c) => (Done (p, e), set_conn w (log_io c (Rd expect p e)))
  | (Panic, c) => (Panic, set_conn w c)
  end.

(** Outcome of running a process alone. *)
Inductive rres (A : Type) := RDone (a : A) | RPanic | RBlocked.
Arguments RDone {A} a.
Arguments RPanic {A}.
Arguments RBlocked {A}.

(** Sequential execution: nothing else runs, so waiting for a lock that is not free,
    or for a channel, blocks forever. *)
Fixpoint run {S A} (p : proc S A) (w : world S) : rres A * world S :=
  match p with
  | Ret a => (RDone a, w)
  | Crash => (RPanic, w)
  | Lock l k => if can_lock (w_held w) l then run k (set_held w ((l, true) :: w_held w))
                else (RBlocked, w)
  | Unlock l k => match release (w_held w) l true with
                  | Some h => run k (set_held w h) | None => (RPanic, w) end
  | RLock l k => if can_rlock (w_held w) l then run k (set_held w ((l, false) :: w_held w))
                 else (RBlocked, w)
  | RUnlock l k => match release (w_held w) l false with
                   | Some h => run k (set_held w h) | None => (RPanic, w) end
  | WriteC bs k => let (r, w') := do_write w bs in run (k r) w'
  | ReadC x k => match do_read w x with
                 | (Done (p, e), w') => run (k p e) w'
                 | (Panic, w') => (RPanic, w')
                 end
  | Get k => run (k (w_sh w)) w
  | Put f k => run k (set_sh w (f (w_sh w)))
  | Now k => run (k (w_clk (tick_clock w))) (tick_clock w)
  | Sleep d k => run k (add_clock w d)
  | SendFlush _ _ => (RBlocked, w)
  | RecvSucc _ => (RBlocked, w)
  | SendSucc _ _ => (RBlocked, w)
  end.
