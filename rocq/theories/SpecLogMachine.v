(** Vocabulary for statements about what the goroutines log while they run at once. *)
From Verif Require Import GoBase Proto Scanner Conn Proc Lib Server SpecConn SpecServer Machine Log LogServer SpecLog LogMachine.

(** Who uses the connection. *)
Inductive who := Worker | Request (i : nat).
Definition who_eqb (a b : who) : bool :=
  match a, b with Worker, Worker => true | Request i, Request j => Nat.eqb i j | _, _ => false end.
(** One of [n] requests, or the worker. *)
Definition among (n : nat) (o : who) : Prop := match o with Worker => True | Request i => (i < n)%nat end.
(** The exchanges of one, of all the exchanges with who made them. *)
Definition by_whom (o : who) (tags : list (who * list io)) : list (list io) :=
  map snd (filter (fun t => who_eqb (fst t) o) tags).

(** What a request has said to the unit, exchange by exchange, its answer and its records. *)
Definition recorded (txt : Z -> list byte) (r : rpc) (ls : list (list io)) (a : resp) (es : list event) : Prop :=
  match r with
  | FlushCacheR _ => ls = [] /\ es = []
  | SetFanProfileR _ _ => exists l1 l2, concat ls = l1 ++ l2 /\ own l1 /\ reports txt l2 es /\
      (l2 = [] \/ one_query CProf l2 /\ exists x y z, a = RespProfile x y z)
  | _ => reports txt (concat ls) es
  end.
(** The records of the worker: those of the start, then those of its actions. *)
Definition worker_recorded (txt : Z -> list byte) (ls : list (list io)) (out : list event) : Prop :=
  exists e1 e2, out = caches_started e1 ++ e2 /\ reports txt (concat ls) (e1 ++ e2).

(** The goroutines of two machines do the same, up to what they return. *)
Definition thread_alike {A B} (R : A -> B -> Prop) (t : thread A) (t' : thread B) : Prop :=
  t_h t = t_h t' /\ same R (t_p t) (t_p t').
Definition alike (m : machine resp) (m' : lmachine) : Prop :=
  m_g m = l_g m' /\ Forall2 (thread_alike erases) (m_ts m) (l_ts m') /\
  match m_wk m, l_wk m' with
  | Some t, Some t' => thread_alike silent t t'
  | None, None => True
  | _, _ => False
  end.
(** Everybody is done. *)
Definition all_done (m : lmachine) : Prop :=
  l_wk m = None /\ Forall (fun t => exists x, t_p t = Ret x) (l_ts m).
