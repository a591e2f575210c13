(** Vocabulary for statements about executions in small steps. *)
From Verif Require Import GoBase Proto Scanner Conn Proc Lib Server Machine SpecMachine Fine.

(** A goroutine that is not inside ReadPacket or Write. *)
Definition settled {A} (t : fthread A) : Prop := exists p, f_p t = FAt p.
Definition all_settled {A} (m : fmachine A) : Prop :=
  Forall settled (fm_ts m) /\ forall t, fm_wk m = Some t -> settled t.
(** The goroutine as it was when it called ReadPacket or Write. *)
Definition rewound {A} (t : fthread A) : thread A :=
  mkThread (match f_p t with
            | FAt p => p
            | FRead r k => ReadC (r_expect r) k
            | FWrite bs k => WriteC bs k
            | FWrote bs _ k => WriteC bs k
            end) (f_h t).
(** The same goroutines and variables, calls in progress not begun; the same connection if there are none. *)
Definition same {A} (fm : fmachine A) (m : machine A) : Prop :=
  m_ts m = map rewound (fm_ts fm) /\ m_wk m = option_map rewound (fm_wk fm) /\
  g_sh (m_g m) = g_sh (fm_g fm) /\ g_clk (m_g m) = g_clk (fm_g fm) /\
  (all_settled fm -> g_conn (m_g m) = g_conn (fm_g fm)).
(** Some items of a list, in their order. *)
Inductive some_of {T} : list T -> list T -> Prop :=
| so_nil : some_of [] []
| so_skip x l l' : some_of l l' -> some_of l (x :: l')
| so_keep x l l' : some_of l l' -> some_of (x :: l) (x :: l').
(** All requests answered, the worker waits. *)
Definition ffinished {A} (m : fmachine A) : Prop :=
  Forall (fun t => exists r, f_p t = FAt (Ret r)) (fm_ts m) /\ fm_wk m = None.
Definition fanswered {A} (m : fmachine A) (i : nat) (r : A) : Prop :=
  exists t, nth_error (fm_ts m) i = Some t /\ f_p t = FAt (Ret r).
(** Somebody is about to lock [l] for writing. *)
Definition fwriter_waits {A} (m : fmachine A) (l : lockid) : Prop :=
  (exists i t k, nth_error (fm_ts m) i = Some t /\ f_p t = FAt (Lock l k)) \/
  (exists t k, fm_wk m = Some t /\ f_p t = FAt (Lock l k)).
Definition fpossible {A} (m : fmachine A) (x : item) : Prop :=
  fexec1 m x <> None /\
  match x with
  | Run i => forall t l k, nth_error (fm_ts m) i = Some t -> f_p t = FAt (RLock l k) -> ~ fwriter_waits m l
  | RunWk => forall t l k, fm_wk m = Some t -> f_p t = FAt (RLock l k) -> ~ fwriter_waits m l
  | _ => True
  end.
Inductive fproceeds {A} : fmachine A -> list item -> fmachine A -> Prop :=
| fp_nil m : fproceeds m [] m
| fp_cons m x m1 xs m2 : fpossible m x -> fexec1 m x = Some m1 -> fproceeds m1 xs m2 -> fproceeds m (x :: xs) m2.
Definition fworks {A} (m' m : fmachine A) : Prop := exists x, working x /\ fexec1 m x = Some m'.
