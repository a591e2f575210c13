(** The connection to the unit, and libcomfo/conn.go:15-124 (WaitTimeout,
    ScanTimeout, ReadPacket). *)
From Verif Require Import GoBase Proto Scanner.

(** What happens next on the read side of the connection:
    [Data bs e] - a Read call returns these bytes and possibly an error;
    [Expire]    - the query timer expires before the pending Read returns
                  (or, at the start of ScanTimeout, wins the select);
    [Turn]      - of the goroutines blocked in Read, the first goes to the end of the queue. *)
Inductive ev :=
| Data (bs : list byte) (e : option serr)
| Expire
| Turn.

(** Result of a Write call: number of bytes written and error. *)
Record wres := mkWres { w_n : Z; w_err : option err }.

(** The device at the other end, as any automaton reacting to Write calls.
    Each Write yields the Write result and the read-side events it causes,
    appended to those not consumed yet. *)
CoInductive device : Type :=
  Dev (react : list byte -> device * list ev * wres).
Definition react (d : device) (bs : list byte) : device * list ev * wres :=
  match d with Dev f => f bs end.

(** Entries of the log of a connection: a Write call with the bytes passed to it and
    its result; a completed ReadPacket call with argument and results. *)
Inductive io :=
| Wr (bs : list byte) (r : wres)
| Rd (expect : bool) (p : packet) (e : option err).

(** State of the connection.
    [c_pend]: read-side events not consumed yet.  When it is exhausted nothing
    more arrives before the timer expires.
    [c_orph]: scanners of goroutines started by ScanTimeout whose caller has
    timed out and which are still blocked in Read; first = the one whose Read
    returns first.  They are never cancelled (conn.go:35).
    [c_log]: what has happened so far on the connection, oldest first (ghost). *)
Record conn := mkConn {
  c_dev : device; c_pend : list ev; c_orph : list scanner; c_log : list io }.

(** conn.Write(bs) (libcomfo/conn.go:143 and 154). *)
Definition conn_write (c : conn) (bs : list byte) : wres * conn :=
  match react (c_dev c) bs with
  | (d, evs, w) => (w, mkConn d (c_pend c ++ evs) (c_orph c) (c_log c ++ [Wr bs w]))
  end.

(** Outcome of [scanner.Scan()] raced against the timer. *)
Inductive scan_result :=
| STok (tok : list byte) (s : scanner)  (* Scan returned true *)
| SFalse (s : scanner)                  (* Scan returned false; Bytes() is nil *)
| STime.                                (* timer expired first *)

(** [scanner.Scan()] of the current query while other readers may wait in Read.
    [pre]: readers ahead of the current one in the queue for the file
    descriptor's read lock; [post]: readers behind it.  A piece of data goes to
    the head of the queue; a reader that needs more data queues up again at the
    back.  (Go's poll.FD read lock hands over in FIFO order except for barging by
    the releasing goroutine.  With [Turn] before it, any piece can go to any reader.) *)
Fixpoint scan_wait (evs : list ev) (pre : list scanner) (s : scanner) (post : list scanner)
  : scan_result * list ev * list scanner :=
  match scan_top s with
  | TTok tok s' => (STok tok s', evs, pre ++ post)
  | TFalse s' => (SFalse s', evs, pre ++ post)
  | TRead s' =>
      match evs with
      | [] => (STime, [], pre ++ s' :: post)
      | Expire :: r => (STime, r, pre ++ s' :: post)
      | Turn :: r =>
          match pre with
          | [] => scan_wait r post s' []
          | o :: pre' => scan_wait r pre' s' (post ++ [o])
          end
      | Data bs e :: r =>
          match pre with
          | [] => scan_wait r post (scan_feed s' bs e) []
          | o :: pre' =>
              match scan_top (scan_feed o bs e) with
              | TRead o' => scan_wait r pre' s' (post ++ [o'])
              | _ => scan_wait r pre' s' post   (* it blocks forever on its channel *)
              end
          end
      end
  end.

(** libcomfo/conn.go:17-46: WaitTimeout + ScanTimeout.  The boolean sent on the
    channel (whether Scan found a token) is dropped at conn.go:38, so a false
    Scan yields [scanner.Bytes() = nil] and no error. *)
Definition ScanTimeout (c : conn) (s : scanner) : (list byte * option err) * scanner * conn :=
  match c_pend c with
  | Expire :: r =>
      (* the timer has already expired and wins; the goroutine keeps running *)
      match scan_top s with
      | TRead s' => (([], Some ErrTimeout), s',
                     mkConn (c_dev c) r (c_orph c ++ [s']) (c_log c))
      | _ => (([], Some ErrTimeout), s, mkConn (c_dev c) r (c_orph c) (c_log c))
      end
  | evs =>
      match scan_wait evs (c_orph c) s [] with
      | (STok tok s', r, os) => ((tok, None), s', mkConn (c_dev c) r os (c_log c))
      | (SFalse s', r, os) => (([], None), s', mkConn (c_dev c) r os (c_log c))
      | (STime, r, os) => (([], Some ErrTimeout), s, mkConn (c_dev c) r os (c_log c))
      end
  end.

(** libcomfo/conn.go:50-124 *)
Definition ReadPacket (c : conn) (expect : bool) : outcome (packet * option err) * conn :=
  let s := new_scanner in
  match ScanTimeout c s with                                 (* 78 *)
  | ((_, Some e), _, c) => (Done (zero_packet, Some e), c)   (* 79-81 *)
  | ((pr, None), s, c) =>
    if negb (len pr =? 0) then (Done (zero_packet, Some ErrScanInput), c)   (* 84-86 *)
    else if negb expect then (Done (zero_packet, None), c)   (* 89-91 *)
    else
    match ScanTimeout c s with                               (* 94 *)
    | ((_, Some e), _, c) => (Done (zero_packet, Some e), c) (* 95-97 *)
    | ((pr, None), s, c) =>
      if negb (len pr =? 0) then (Done (zero_packet, Some ErrScanInput), c) (* 100-102 *)
      else
      match ScanTimeout c s with                             (* 105 *)
      | ((_, Some e), _, c) => (Done (zero_packet, Some e), c)   (* 106-108 *)
      | ((pr, None), s, c) =>
        if (len pr >? 0) && (len pr <? 4)
        then (Done (zero_packet, Some ErrTooShort), c)       (* 111-113 *)
        else if len pr >=? 4 then
          (UnmarshalPacket pr, c)                            (* 116-121 *)
        else (Done (zero_packet, None), c)                   (* 123 *)
      end
    end
  end.
