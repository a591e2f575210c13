(** How long goroutines wait for the unit and the clock. *)
From Coq Require Import String.
From Verif Require Import GoBase GoStrings Conn Proc Lib Server Twirp Machine.

(** The most that the next step can take: ReadPacket ends when the timer of its query has expired (libcomfo/conn.go:180-183: one second);
    time.Sleep takes what it is told (comfoserver/caches.go:241).  Other steps are not counted: computing, waiting for a lock or a channel
    (that is, for another goroutine) and conn.Write. *)
Definition wait_of {A} (p : sproc A) : Z := match p with ReadC _ _ => 1000000000 | Sleep d _ => d | _ => 0 end.
Definition step_waiting {A} (m : machine A) (x : item) : Z :=
  match x with
  | Run i => match nth_error (m_ts m) i with Some t => wait_of (t_p t) | None => 0 end
  | RunWk => match m_wk m with Some t => wait_of (t_p t) | None => 0 end
  | _ => 0
  end.
(** What the steps of [who] take in the course of [xs]. *)
Fixpoint waited {A} (who : item -> bool) (m : machine A) (xs : list item) : Z :=
  match xs with
  | [] => 0
  | x :: r => (if who x then step_waiting m x else 0) + match exec1 m x with Some m' => waited who m' r | None => 0 end
  end.
Definition by_request (i : nat) (x : item) : bool := match x with Run j => Nat.eqb i j | _ => false end.
Definition by_worker (x : item) : bool := match x with RunWk => true | _ => false end.
Definition by_anyone (x : item) : bool := true.

Definition ms (n : Z) : Z := 1000000 * n.
(** The longest that a request waits itself: set, read back; set, ten polls with nine pauses, read back; read, set, read back. *)
Definition patience (q : rpc) : Z :=
  match q with
  | SetComfortTempR _ => ms 2000
  | SetFanSpeedR _ _ => ms 16500
  | SetFanProfileR _ _ => ms 3000
  | _ => 0
  end.
(** The longest that the worker waits for a request to flush a cache: one refresh or six. *)
Definition flush_time (c : Z) : Z := if c =? 10 then ms 6000 else if (0 <=? c) && (c <=? 4) then ms 1000 else 0.
Definition on_behalf (q : rpc) : Z := match q with FlushCacheR c => flush_time c | _ => patience q end.
Definition total (l : list Z) : Z := fold_right Z.add 0 l.
Definition ticks (xs : list item) : Z := total (map (fun x => match x with Tick _ => 1 | _ => 0 end) xs).
Definition flushes (xs : list item) : Z := total (map (fun x => match x with Flush _ => 1 | _ => 0 end) xs).
(** The same by the path of an HTTP request. *)
Definition method_path (name : string) : list byte := str ("/twirp/comfo.api.Comfo/" ++ name)%string.
Definition path_patience (path : list byte) (n : Z) : Prop :=
  (path = method_path "SetComfortTemp" -> n <= ms 2000) /\
  (path = method_path "SetFanProfile" -> n <= ms 3000) /\
  (path = method_path "SetFanSpeed" -> n <= ms 16500) /\
  (path <> method_path "SetComfortTemp" -> path <> method_path "SetFanProfile" -> path <> method_path "SetFanSpeed" -> n <= 0).
