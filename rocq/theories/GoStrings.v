(** Model of Go's [strings.TrimSpace] on arbitrary byte strings (Go 1.22 standard
    library: strings/strings.go TrimSpace, TrimFunc, TrimLeftFunc, TrimRightFunc,
    indexFunc, lastIndexFunc; unicode/utf8/utf8.go DecodeRuneInString,
    DecodeLastRuneInString; unicode/graphic.go IsSpace).
    Used by libcomfo/response_types.go:46. *)
From Verif Require Import GoBase.

Definition runeError : Z := 65533.
Definition in_rng (lo hi x : Z) : bool := (lo <=? x) && (x <=? hi).

(** unicode/utf8: tables [first] and [acceptRanges], as (size, lo, hi) of the second
    byte; [None] is the entry xx (illegal first byte).  Only called for bytes >= 0x80. *)
Definition utf8_first (b : Z) : option (Z * Z * Z) :=
  if in_rng 194 223 b then Some (2, 128, 191)          (* C2-DF *)
  else if b =? 224 then Some (3, 160, 191)             (* E0 *)
  else if in_rng 225 236 b then Some (3, 128, 191)     (* E1-EC *)
  else if b =? 237 then Some (3, 128, 159)             (* ED *)
  else if in_rng 238 239 b then Some (3, 128, 191)     (* EE-EF *)
  else if b =? 240 then Some (4, 144, 191)             (* F0 *)
  else if in_rng 241 243 b then Some (4, 128, 191)     (* F1-F3 *)
  else if b =? 244 then Some (4, 128, 143)             (* F4 *)
  else None.

(** utf8.DecodeRuneInString: (rune, width).  Bit masks on bytes are written as
    [mod] (x & 0x1F = x mod 32, x & 0x3F = x mod 64, ...) and shifts as products. *)
Definition decodeRune (s : list Z) : Z * nat :=
  match s with
  | [] => (runeError, 0%nat)
  | s0 :: r0 =>
    if s0 <? 128 then (s0, 1%nat) else
    match utf8_first s0 with
    | None => (runeError, 1%nat)
    | Some (sz, lo, hi) =>
      if len s <? sz then (runeError, 1%nat) else
      match r0 with
      | [] => (runeError, 1%nat)
      | s1 :: r1 =>
        if negb (in_rng lo hi s1) then (runeError, 1%nat) else
        if sz <=? 2 then ((s0 mod 32) * 64 + s1 mod 64, 2%nat) else
        match r1 with
        | [] => (runeError, 1%nat)
        | s2 :: r2 =>
          if negb (in_rng 128 191 s2) then (runeError, 1%nat) else
          if sz <=? 3 then ((s0 mod 16) * 4096 + (s1 mod 64) * 64 + s2 mod 64, 3%nat) else
          match r2 with
          | [] => (runeError, 1%nat)
          | s3 :: _ =>
            if negb (in_rng 128 191 s3) then (runeError, 1%nat) else
            ((s0 mod 8) * 262144 + (s1 mod 64) * 4096 + (s2 mod 64) * 64 + s3 mod 64, 4%nat)
          end
        end
      end
    end
  end.

(** utf8.RuneStart: b&0xC0 != 0x80 *)
Definition runeStart (b : Z) : bool := negb (in_rng 128 191 b).

(** The backwards search loop of utf8.DecodeLastRuneInString:
    [back s n lim]: [n] is start+1; look at start = n-1 while start >= lim. Returns start
    (as n', i.e. start = n' - 1 may be -1 or lim-1). *)
Fixpoint back_start (s : list Z) (n lim : nat) : nat :=
  match n with
  | O => O                                       (* start = -1 *)
  | S st =>
      if Nat.ltb st lim then S st                (* loop condition start >= lim fails *)
      else if runeStart (nth st s 0) then S st   (* break *)
      else back_start s st lim
  end.

(** utf8.DecodeLastRuneInString *)
Definition decodeLastRune (s : list Z) : Z * nat :=
  match length s with
  | O => (runeError, 0%nat)
  | S st =>
      let r := nth st s 0 in
      if r <? 128 then (r, 1%nat)
      else
        let lim := (length s - 4)%nat in
        let n := back_start s st lim in          (* start + 1 *)
        let start := (n - 1)%nat in              (* if start < 0 { start = 0 } *)
        let (r, size) := decodeRune (skipn start s) in
        if Nat.eqb (start + size) (length s) then (r, size) else (runeError, 1%nat)
  end.

(** unicode.IsSpace *)
Definition isSpace (r : Z) : bool :=
  in_rng 9 13 r || (r =? 32) || (r =? 133) || (r =? 160)
  || (r =? 5760) || in_rng 8192 8202 r || (r =? 8232) || (r =? 8233)
  || (r =? 8239) || (r =? 8287) || (r =? 12288).

(** strings.TrimLeftFunc(s, IsSpace): drop runes while they are spaces.  [fuel] bounds
    the number of runes by the number of bytes. *)
Fixpoint trimLeft (fuel : nat) (s : list Z) : list Z :=
  match fuel with
  | O => s
  | S f =>
      match s with
      | [] => []
      | _ => let (r, w) := decodeRune s in
             if isSpace r then trimLeft f (skipn w s) else s
      end
  end.
Definition trimLeftFunc (s : list Z) : list Z := trimLeft (length s) s.

(** strings.lastIndexFunc(s, IsSpace, false) on s[0:i]; None is -1. *)
Fixpoint lastIndex (fuel : nat) (s : list Z) (i : nat) : option nat :=
  match fuel with
  | O => None
  | S f =>
      match i with
      | O => None
      | S _ => let (r, size) := decodeLastRune (firstn i s) in
               let i' := (i - size)%nat in
               if isSpace r then lastIndex f s i' else Some i'
      end
  end.

(** strings.TrimRightFunc(s, IsSpace) *)
Definition trimRightFunc (s : list Z) : list Z :=
  match lastIndex (length s) s (length s) with
  | Some i =>
      if nth i s 0 >=? 128 then
        let (_, wid) := decodeRune (skipn i s) in firstn (i + wid) s
      else firstn (i + 1) s
  | None => firstn 0 s
  end.

Definition asciiSpace (c : Z) : bool := in_rng 9 13 c || (c =? 32).

(** strings.TrimSpace, second loop: scan from the end of [s] (= s[start:stop]),
    given reversed. *)
Fixpoint trimSpaceRight (rs : list Z) : list Z :=
  match rs with
  | [] => []
  | c :: r => if c >=? 128 then trimRightFunc (rev rs)
              else if asciiSpace c then trimSpaceRight r
              else rev rs
  end.

(** strings.TrimSpace *)
Fixpoint trimSpace (s : list Z) : list Z :=
  match s with
  | [] => []
  | c :: r => if c >=? 128 then trimRightFunc (trimLeftFunc s)
              else if asciiSpace c then trimSpace r
              else trimSpaceRight (rev s)
  end.
