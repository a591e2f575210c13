(** Interleaved execution of the server: any number of goroutines, each running a process of
    Server.v or Lib.v, and the goroutine of CacheWorker (comfoserver/timers.go:49-64).

    One step executes one constructor of [proc].  ReadPacket (libcomfo/conn.go:50-124) and Write
    are single steps; this loses nothing: Fine.v, theorem C101.
    time.Sleep is a step without effect and the clock may advance at any moment, so every timing
    is covered.  Memory is sequentially consistent; reads and writes of the model are those
    of single fields. *)
From Verif Require Import GoBase Proto Scanner Conn Proc Lib Server.

Definition held := list (lockid * bool).

(** A goroutine: what it still has to do, the locks it holds. *)
Record thread (A : Type) := mkThread { t_p : sproc A; t_h : held }.
Arguments mkThread {A} _ _.
Arguments t_p {A} _.
Arguments t_h {A} _.

(** What goroutines share: connection, package variables, clock. *)
Record mem := mkMem { g_conn : conn; g_sh : shared; g_clk : Z }.

(** The goroutine of CacheWorker is [None] while it waits in its select. *)
Record machine (A : Type) := mkMachine { m_g : mem; m_ts : list (thread A); m_wk : option (thread unit) }.
Arguments mkMachine {A} _ _ _.
Arguments m_g {A} _.
Arguments m_ts {A} _.
Arguments m_wk {A} _.

Definition locks_held {A} (m : machine A) : list held :=
  match m_wk m with Some t => [t_h t] | None => [] end ++ map t_h (m_ts m).

(** sync.Mutex.Lock, sync.RWMutex.Lock / RLock can return: nobody holds the lock, nobody
    holds it for writing. *)
Definition free (hs : list held) (l : lockid) : bool := forallb (fun h => can_lock h l) hs.
Definition rfree (hs : list held) (l : lockid) : bool := forallb (fun h => can_rlock h l) hs.

(** One step of a goroutine on its own; [None] if it is finished, has to wait, or is at a
    channel operation.  [hs]: the locks held by everybody. *)
Definition tstep {A} (hs : list held) (t : thread A) (g : mem) : option (thread A * mem) :=
  match t_p t with
  | Ret _ => None
  | Crash => None
  | Lock l k => if free hs l then Some (mkThread k ((l, true) :: t_h t), g) else None
  | Unlock l k => match release (t_h t) l true with
                  | Some h => Some (mkThread k h, g) | None => Some (mkThread Crash (t_h t), g) end
  | RLock l k => if rfree hs l then Some (mkThread k ((l, false) :: t_h t), g) else None
  | RUnlock l k => match release (t_h t) l false with
                   | Some h => Some (mkThread k h, g) | None => Some (mkThread Crash (t_h t), g) end
  | WriteC bs k => let (r, c) := conn_write (g_conn g) bs in
                   Some (mkThread (k r) (t_h t), mkMem c (g_sh g) (g_clk g))
  | ReadC x k => match ReadPacket (g_conn g) x with
                 | (Done (p, e), c) =>
                     Some (mkThread (k p e) (t_h t), mkMem (log_io c (Rd x p e)) (g_sh g) (g_clk g))
                 | (Panic, c) => Some (mkThread Crash (t_h t), mkMem c (g_sh g) (g_clk g))
                 end
  | Get k => Some (mkThread (k (g_sh g)) (t_h t), g)
  | Put f k => Some (mkThread k (t_h t), mkMem (g_conn g) (f (g_sh g)) (g_clk g))
  | Now k => Some (mkThread (k (g_clk g)) (t_h t), g)
  | Sleep _ k => Some (mkThread k (t_h t), g)
  | SendFlush _ _ | RecvSucc _ | SendSucc _ _ => None
  end.

Fixpoint set_nth {T} (i : nat) (x : T) (l : list T) : list T :=
  match l, i with
  | [], _ => []
  | _ :: r, O => x :: r
  | y :: r, S j => y :: set_nth j x r
  end.

(** What can happen next: goroutine [i] or the worker takes a step, the clock advances, a
    ticker fires and the worker, waiting in its select, takes it, the worker receives from
    flushCache what goroutine [i] sends (both channels are unbuffered), goroutine [i] receives
    from flushSuccess what the worker sends. *)
Inductive item :=
| Run (i : nat) | RunWk | Pass (d : Z) | Tick (t : tick) | Flush (i : nat) | Succ (i : nat).

Definition exec1 {A} (m : machine A) (x : item) : option (machine A) :=
  match x with
  | Run i => match nth_error (m_ts m) i with
             | Some t => match tstep (locks_held m) t (m_g m) with
                         | Some (t', g') => Some (mkMachine g' (set_nth i t' (m_ts m)) (m_wk m))
                         | None => None
                         end
             | None => None
             end
  | RunWk => match m_wk m with
             | Some t => match t_p t, t_h t with
                         | Ret tt, [] => Some (mkMachine (m_g m) (m_ts m) None)   (* back to the select *)
                         | _, _ =>
                             match tstep (locks_held m) t (m_g m) with
                             | Some (t', g') => Some (mkMachine g' (m_ts m) (Some t'))
                             | None => None
                             end
                         end
             | None => None
             end
  | Pass d => Some (mkMachine (mkMem (g_conn (m_g m)) (g_sh (m_g m)) (g_clk (m_g m) + Z.max 0 d)) (m_ts m) (m_wk m))
  | Tick t => match m_wk m with
              | None => Some (mkMachine (m_g m) (m_ts m) (Some (mkThread (on_tick t) [])))
              | Some _ => None
              end
  | Flush i => match m_wk m, nth_error (m_ts m) i with
               | None, Some t =>
                   match t_p t with
                   | SendFlush c k => Some (mkMachine (m_g m) (set_nth i (mkThread k (t_h t)) (m_ts m))
                                                      (Some (mkThread (FlushCaches c) [])))
                   | _ => None
                   end
               | _, _ => None
               end
  | Succ i => match m_wk m, nth_error (m_ts m) i with
              | Some w, Some t =>
                  match t_p w, t_p t with
                  | SendSucc b kw, RecvSucc k =>
                      Some (mkMachine (m_g m) (set_nth i (mkThread (k b) (t_h t)) (m_ts m))
                                      (Some (mkThread kw (t_h w))))
                  | _, _ => None
                  end
              | _, _ => None
              end
  end.

Fixpoint exec {A} (xs : list item) (m : machine A) : option (machine A) :=
  match xs with
  | [] => Some m
  | x :: r => match exec1 m x with Some m' => exec r m' | None => None end
  end.

(** Goroutines at the beginning of the given processes, no worker. *)
Definition spawn {A} (ps : list (sproc A)) (g : mem) : machine A :=
  mkMachine g (map (fun p => mkThread p []) ps) None.

(** The server process (comfo.go:57-71): the caches are filled, then the worker waits for
    events and requests are accepted.  Requests [rs] may arrive at any time (an arrival is
    the first step of its goroutine), here even while the caches are being filled. *)
Definition serve (rs : list rpc) (c : conn) (clk : Z) : machine resp :=
  mkMachine (mkMem c init_shared clk) (map (fun r => mkThread (handle r) []) rs)
            (Some (mkThread StartCaches [])).
