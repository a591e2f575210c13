(** Model of Go 1.22's [bufio.Scanner] as used by libcomfo/conn.go:52-75 (only the
    paths reachable with the split function below), and of that split function. *)
From Verif Require Import GoBase Proto.

(** libcomfo/conn.go:63-64: the bytes that complete a control sequence after esc. *)
Definition is_ctl (c : byte) : bool := (c =? ack) || (c =? start) || (c =? end_).

(** libcomfo/conn.go:56-73.  [Some (i, tok)] stands for [return i+2, data[:i], nil];
    [None] for the final [return] (0, nil, nil: more data needed).  [atEOF] is
    ignored by the code.  [i] is the loop variable. *)
Fixpoint split_from (i : nat) (pre data : list byte) : option (nat * list byte) :=
  match data with
  | [] => None
  | b :: r =>
      match r with
      | c :: _ =>
          if (b =? esc) && is_ctl c then Some ((i + 2)%nat, rev pre)
          else split_from (S i) (b :: pre) r
      | [] => None
      end
  end.
Definition splitFunc (data : list byte) : option (nat * list byte) := split_from 0 [] data.

(** Errors a Scanner can record (bufio.Scanner.err). *)
Inductive serr := SEof | STooLong | SBadCount | SNoProgress | SAdvance | SRead (n : Z).

(** [bufio.Scanner]: [buf[start:end]] is [s_data]; [end = start + len s_data].
    [s_loop] is the counter of consecutive empty reads inside one Scan call.
    The fields [empties] and [done] never matter here: every token returned by the
    split function advances the input by at least 2, and ErrFinalToken is not used. *)
Record scanner := mkScanner {
  s_buflen : Z; s_start : Z; s_data : list byte; s_err : option serr; s_loop : Z }.

(** [bufio.NewScanner] (libcomfo/conn.go:52); the buffer is allocated lazily. *)
Definition new_scanner : scanner := mkScanner 0 0 [] None 0.

Definition startBufSize : Z := 4096.
Definition maxTokenSize : Z := 65536.
Definition maxConsecutiveEmptyReads : Z := 100.

(** [Scanner.setErr]: EOF may be overwritten. *)
Definition set_err (s : scanner) (e : serr) : scanner :=
  let e' := match s_err s with None => e | Some SEof => e | Some old => old end in
  mkScanner (s_buflen s) (s_start s) (s_data s) (Some e') (s_loop s).

(** Outcome of the part of the Scan loop before a Read call. *)
Inductive top :=
| TTok (tok : list byte) (s : scanner)   (* Scan returns true *)
| TFalse (s : scanner)                   (* Scan returns false, token is nil *)
| TRead (s : scanner).                   (* Scan calls Read *)

Definition s_end (s : scanner) : Z := s_start s + len (s_data s).

(** Scan: "Must read more data": shift and grow the buffer. *)
Definition scan_grow (s : scanner) : top :=
  let s1 := if (s_start s >? 0) && ((s_end s =? s_buflen s) || (s_start s >? s_buflen s / 2))
            then mkScanner (s_buflen s) 0 (s_data s) (s_err s) (s_loop s) else s in
  if s_end s1 =? s_buflen s1 then
    if s_buflen s1 >=? maxTokenSize then TFalse (set_err s1 STooLong)
    else
      let n := s_buflen s1 * 2 in
      let n := if n =? 0 then startBufSize else n in
      let n := Z.min n maxTokenSize in
      TRead (mkScanner n 0 (s_data s1) (s_err s1) (s_loop s1))
  else TRead s1.

(** Scan: top of the loop. *)
Definition scan_top (s : scanner) : top :=
  let have_err := match s_err s with Some _ => true | None => false end in
  if (0 <? len (s_data s)) || have_err then
    match splitFunc (s_data s) with
    | Some (adv, tok) =>
        if (length (s_data s) <? adv)%nat then TFalse (set_err s SAdvance)
        else TTok tok (mkScanner (s_buflen s) (s_start s + Z.of_nat adv)
                                 (skipn adv (s_data s)) (s_err s) (s_loop s))
    | None =>
        if have_err then TFalse (mkScanner (s_buflen s) 0 [] (s_err s) (s_loop s))
        else scan_grow s
    end
  else scan_grow s.

(** Scan: a Read call returned [bs] and possibly an error.
    After this the loop continues at [scan_top]; for a non-final empty read Go
    retries Read directly, which is the same because [scan_top] then changes
    nothing and asks for a Read again. *)
Definition scan_feed (s : scanner) (bs : list byte) (e : option serr) : scanner :=
  if s_buflen s - s_end s <? len bs then set_err s SBadCount
  else
    let s1 := mkScanner (s_buflen s) (s_start s) (s_data s ++ bs) (s_err s) (s_loop s) in
    match e with
    | Some x => set_err s1 x
    | None =>
        if 0 <? len bs then mkScanner (s_buflen s1) (s_start s1) (s_data s1) (s_err s1) 0
        else
          let s2 := mkScanner (s_buflen s1) (s_start s1) (s_data s1) (s_err s1) (s_loop s1 + 1) in
          if s_loop s2 >? maxConsecutiveEmptyReads then set_err s2 SNoProgress else s2
    end.
