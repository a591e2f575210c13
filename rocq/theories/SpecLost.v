(** Vocabulary for statements about a connection on which nothing arrives any more. *)
From Verif Require Import GoBase Proto Scanner Conn Proc Lib Server Machine.

(** Not a single byte arrives (but errors, the end of the stream or the timeout may). *)
Definition no_bytes (e : ev) : Prop := match e with Data bs _ => bs = [] | _ => True end.
CoInductive mute : device -> Prop :=
| mute_dev d : (forall bs d' evs w, react d bs = (d', evs, w) -> Forall no_bytes evs /\ mute d') -> mute d.
Definition cut_off (c : conn) : Prop := mute (c_dev c) /\ Forall no_bytes (c_pend c).
(** Reads do not even fail: queries time out. *)
Definition no_data (e : ev) : Prop := match e with Data _ _ => False | _ => True end.
CoInductive hanging : device -> Prop :=
| hanging_dev d : (forall bs d' evs w, react d bs = (d', evs, w) -> Forall no_data evs /\ hanging d') -> hanging d.
Definition hangs (c : conn) : Prop := hanging (c_dev c) /\ Forall no_data (c_pend c).
(** Writes fail. *)
CoInductive refusing : device -> Prop :=
| refusing_dev d : (forall bs d' evs w, react d bs = (d', evs, w) -> w_err w <> None /\ refusing d') -> refusing d.

(** The worker waits for the next event, and no request is being processed: some are answered, the others have not begun. *)
Definition resting (m : machine resp) : Prop :=
  m_wk m = None /\ Forall (fun t => (exists q, t_p t = handle q) \/ exists a, t_p t = Ret a) (m_ts m).
(** Request [i] is [q] and has not begun. *)
Definition to_come (m : machine resp) (i : nat) (q : rpc) : Prop := exists t, nth_error (m_ts m) i = Some t /\ t_p t = handle q.
(** The reply does not claim that something was changed. *)
Definition no_change (a : resp) : Prop :=
  match a with RespComfort b _ _ | RespSpeed b _ _ | RespProfile b _ _ => b = false | _ => True end.
(** Nothing was received: an error or the packet that stands for nothing. *)
Definition nothing_read (x : io) : Prop := match x with Rd _ p e => e <> None \/ p = zero_packet | Wr _ _ => True end.
