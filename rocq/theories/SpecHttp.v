(** Vocabulary for statements about the server under concurrent HTTP requests. *)
From Verif Require Import GoBase Proc Lib Server Wire Twirp SpecWire SpecTwirp Machine SpecMachine.

(** The procedures called by a list of requests, in order; those refused leave no trace. *)
Definition calls (ul : list byte -> list byte) (uj : desc -> list byte -> option msg)
    (hs : list (hreq * list byte)) : list rpc :=
  flat_map (fun x => match front ul uj (fst x) with Call _ q => [q] | Answer _ => [] end) hs.
(** Request [i] of [hs] is the [j]th of those calls. *)
Definition is_call ul uj (hs : list (hreq * list byte)) (i j : nat) : Prop :=
  j = length (calls ul uj (firstn i hs)) /\ exists x pb q, nth_error hs i = Some x /\ front ul uj (fst x) = Call pb q.
(** The same event, for the goroutines numbered as calls. *)
Definition renumber ul uj hs (x : item) : item :=
  let n i := length (calls ul uj (firstn i hs)) in
  match x with Run i => Run (n i) | Flush i => Flush (n i) | Succ i => Succ (n i) | _ => x end.
(** What the stub shows of a reply of the server. *)
Definition as_seen (r : resp) : stubres := match r with RespErr e => Twirp (TRpc e) | _ => Got r end.
