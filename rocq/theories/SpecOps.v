(** Vocabulary for statements about the operations of libcomfo. *)
From Verif Require Import GoBase Proto SpecProto SpecFrame SpecConn Conn Proc.

(** [op] sends request [req], whose reply payload has [n] bytes and is decoded by [dec].
    If one byte of the reply is replaced, [op] fails or returns what the unit sent. *)
Definition never_misled {T} (op : proc unit (T * option err)) (req : Z) (n : nat)
    (dec : list Z -> outcome (T * option err)) : Prop :=
  forall w w' chunks data a x y b v,
  w_held w = [] -> quiet (w_conn w) -> replies (w_conn w) (framed req []) chunks ->
  bytes_ok data -> length data = n ->
  reply (req + 1) data = a ++ x :: b -> concat chunks = a ++ y :: b -> byte_ok y -> y <> x ->
  run op w = (RDone (v, None), w') -> dec data = Done (v, None).

(** [op] sends exactly one request [req]; on error it returns [zero]; on success its
    value is described by [ok] from the payload of the reply that was read. *)
Definition getter_behaves {T} (op : proc unit (T * option err)) (req : Z) (zero : T)
    (ok : list Z -> T -> Prop) : Prop :=
  forall w, w_held w = [] -> exists v e c' q qe l,
    run op w = (RDone (v, e), set_conn w c') /\
    c_log c' = c_log (w_conn w) ++ l /\ exchange req [] true q qe l /\
    (qe <> None -> e = qe) /\ (e <> None -> v = zero) /\
    (e = None -> qe = None /\ ok (p_data q) v).

(** The unit takes every Write, answers [request] at once with [rep] in one piece and
    everything else with nothing, for ever. *)
CoInductive prompt (request rep : list Z) : device -> Prop :=
| prompt_dev d :
    (forall bs, exists d' r, react d bs = (d', if list_eq_dec Z.eq_dec bs request then [Data rep None] else [], r)
                             /\ w_err r = None /\ prompt request rep d') ->
    prompt request rep d.

(** Results of [n] calls of [op], one after the other. *)
Fixpoint repeat_run {S A} (n : nat) (op : proc S A) (w : world S) : list (rres A) :=
  match n with
  | O => []
  | Datatypes.S n => let (r, w') := run op w in r :: repeat_run n op w'
  end.
