(** The machine of Machine.v with ReadPacket (libcomfo/conn.go:50-124) and Write cut into steps, so that goroutines
    can be interrupted within them: one step for every call of ScanTimeout, for every event on the connection and for the
    result of a scan; Write is called, the bytes reach the unit, Write returns. *)
From Verif Require Import GoBase Proto Scanner Conn Proc Lib Server Machine.

(** Where in ReadPacket a goroutine is.  [r_stage]: 0, 1, 2 for the calls of ScanTimeout in lines 78, 94, 105.  [r_s]: its
    scanner.  [r_wait]: [None] when ScanTimeout is called, afterwards the number of goroutines (of earlier calls, blocked in
    Read) that are served before it. *)
Record reading := mkReading { r_stage : nat; r_expect : bool; r_s : scanner; r_wait : option nat }.
Inductive rstep := More (r : reading) (c : conn) | Over (o : outcome (packet * option err)) (c : conn).

(** conn.go:79-91, 95-102, 106-123: after ScanTimeout has returned. *)
Definition scanned (stage : nat) (x : bool) (pr : list byte) (e : option err) (s : scanner) (c : conn) : rstep :=
  match e with
  | Some e => Over (Done (zero_packet, Some e)) c
  | None =>
      match stage with
      | 0%nat => if negb (len pr =? 0) then Over (Done (zero_packet, Some ErrScanInput)) c
                 else if negb x then Over (Done (zero_packet, None)) c else More (mkReading 1 x s None) c
      | 1%nat => if negb (len pr =? 0) then Over (Done (zero_packet, Some ErrScanInput)) c else More (mkReading 2 x s None) c
      | _ => if (len pr >? 0) && (len pr <? 4) then Over (Done (zero_packet, Some ErrTooShort)) c
             else if len pr >=? 4 then Over (UnmarshalPacket pr) c else Over (Done (zero_packet, None)) c
      end
  end.
(** conn.go:17-46, one step. *)
Definition read_step (r : reading) (c : conn) : rstep :=
  let back := scanned (r_stage r) (r_expect r) in
  let leave evs os := mkConn (c_dev c) evs os (c_log c) in
  match r_wait r with
  | None =>
      match c_pend c with
      | Expire :: evs =>
          match scan_top (r_s r) with
          | TRead s => back [] (Some ErrTimeout) s (leave evs (c_orph c ++ [s]))
          | _ => back [] (Some ErrTimeout) (r_s r) (leave evs (c_orph c))
          end
      | _ => More (mkReading (r_stage r) (r_expect r) (r_s r) (Some (length (c_orph c)))) c
      end
  | Some n =>
      match scan_top (r_s r) with
      | TTok tok s => back tok None s c
      | TFalse s => back [] None s c
      | TRead s =>
          let late evs := leave evs (firstn n (c_orph c) ++ s :: skipn n (c_orph c)) in
          let go s n evs os := More (mkReading (r_stage r) (r_expect r) s (Some n)) (leave evs os) in
          match c_pend c, n, c_orph c with
          | [], _, _ => back [] (Some ErrTimeout) s (late [])
          | Expire :: evs, _, _ => back [] (Some ErrTimeout) s (late evs)
          | Turn :: evs, S n', o :: os => go s n' evs (os ++ [o])
          | Turn :: evs, _, os => go s (length os) evs os
          | Data bs e :: evs, S n', o :: os =>
              match scan_top (scan_feed o bs e) with
              | TRead o' => go s n' evs (os ++ [o'])
              | _ => go s n' evs os
              end
          | Data bs e :: evs, _, os => go (scan_feed s bs e) (length os) evs os
          end
      end
  end.

(** A goroutine: between steps of its process, in ReadPacket, before or after its bytes reach the unit. *)
Inductive fproc (A : Type) :=
| FAt (p : sproc A)
| FRead (r : reading) (k : packet -> option err -> sproc A)
| FWrite (bs : list byte) (k : wres -> sproc A)
| FWrote (bs : list byte) (w : wres) (k : wres -> sproc A).
Arguments FAt {A} p.
Arguments FRead {A} r k.
Arguments FWrite {A} bs k.
Arguments FWrote {A} bs w k.
Record fthread (A : Type) := mkFThread { f_p : fproc A; f_h : held }.
Arguments mkFThread {A} _ _.
Arguments f_p {A} _.
Arguments f_h {A} _.
Record fmachine (A : Type) := mkFMachine { fm_g : mem; fm_ts : list (fthread A); fm_wk : option (fthread unit) }.
Arguments mkFMachine {A} _ _ _.
Arguments fm_g {A} _.
Arguments fm_ts {A} _.
Arguments fm_wk {A} _.
Definition flocks {A} (m : fmachine A) : list held :=
  match fm_wk m with Some t => [f_h t] | None => [] end ++ map f_h (fm_ts m).

Definition ftstep {A} (hs : list held) (t : fthread A) (g : mem) : option (fthread A * mem) :=
  let conn' c := mkMem c (g_sh g) (g_clk g) in
  match f_p t with
  | FAt (WriteC bs k) => Some (mkFThread (FWrite bs k) (f_h t), g)
  | FWrite bs k => let (w, c) := conn_write (g_conn g) bs in Some (mkFThread (FWrote bs w k) (f_h t), conn' c)
  | FWrote bs w k => Some (mkFThread (FAt (k w)) (f_h t), g)
  | FAt (ReadC x k) => Some (mkFThread (FRead (mkReading 0 x new_scanner None) k) (f_h t), g)
  | FRead r k =>
      match read_step r (g_conn g) with
      | More r' c => Some (mkFThread (FRead r' k) (f_h t), conn' c)
      | Over (Done (p, e)) c => Some (mkFThread (FAt (k p e)) (f_h t), conn' (log_io c (Rd (r_expect r) p e)))
      | Over Panic c => Some (mkFThread (FAt Crash) (f_h t), conn' c)
      end
  | FAt p =>
      match tstep hs (mkThread p (f_h t)) g with
      | Some (t', g') => Some (mkFThread (FAt (t_p t')) (t_h t'), g')
      | None => None
      end
  end.

Definition fexec1 {A} (m : fmachine A) (x : item) : option (fmachine A) :=
  match x with
  | Run i => match nth_error (fm_ts m) i with
             | Some t => match ftstep (flocks m) t (fm_g m) with
                         | Some (t', g') => Some (mkFMachine g' (set_nth i t' (fm_ts m)) (fm_wk m))
                         | None => None
                         end
             | None => None
             end
  | RunWk => match fm_wk m with
             | Some t => match f_p t, f_h t with
                         | FAt (Ret tt), [] => Some (mkFMachine (fm_g m) (fm_ts m) None)
                         | _, _ =>
                             match ftstep (flocks m) t (fm_g m) with
                             | Some (t', g') => Some (mkFMachine g' (fm_ts m) (Some t'))
                             | None => None
                             end
                         end
             | None => None
             end
  | Pass d => Some (mkFMachine (mkMem (g_conn (fm_g m)) (g_sh (fm_g m)) (g_clk (fm_g m) + Z.max 0 d)) (fm_ts m) (fm_wk m))
  | Tick t => match fm_wk m with
              | None => Some (mkFMachine (fm_g m) (fm_ts m) (Some (mkFThread (FAt (on_tick t)) [])))
              | Some _ => None
              end
  | Flush i => match fm_wk m, nth_error (fm_ts m) i with
               | None, Some t =>
                   match f_p t with
                   | FAt (SendFlush c k) => Some (mkFMachine (fm_g m) (set_nth i (mkFThread (FAt k) (f_h t)) (fm_ts m))
                                                             (Some (mkFThread (FAt (FlushCaches c)) [])))
                   | _ => None
                   end
               | _, _ => None
               end
  | Succ i => match fm_wk m, nth_error (fm_ts m) i with
              | Some w, Some t =>
                  match f_p w, f_p t with
                  | FAt (SendSucc b kw), FAt (RecvSucc k) =>
                      Some (mkFMachine (fm_g m) (set_nth i (mkFThread (FAt (k b)) (f_h t)) (fm_ts m))
                                       (Some (mkFThread (FAt kw) (f_h w))))
                  | _, _ => None
                  end
              | _, _ => None
              end
  end.
Fixpoint fexec {A} (xs : list item) (m : fmachine A) : option (fmachine A) :=
  match xs with
  | [] => Some m
  | x :: r => match fexec1 m x with Some m' => fexec r m' | None => None end
  end.
(** As [serve]. *)
Definition fserve (rs : list rpc) (c : conn) (clk : Z) : fmachine resp :=
  mkFMachine (mkMem c init_shared clk) (map (fun r => mkFThread (FAt (handle r)) []) rs)
             (Some (mkFThread (FAt StartCaches) [])).
