(** Go basics: fixed-width integers, indexing and slicing with panics,
    error values.  Everything here models the Go language or its standard
    library, not a particular line of /repo, unless a comment says so. *)
From Coq Require Export ZArith List Bool Lia.
Export ListNotations.
Open Scope Z_scope.

(** A Go [byte]/[uint8].  Represented by an unbounded integer; every operation
    that can leave 0..255 in Go is written with an explicit conversion. *)
Notation byte := Z (only parsing).

(** Go conversions to unsigned types truncate to the low bits. *)
Definition u8 (x : Z) : Z := x mod 256.
Definition u16 (x : Z) : Z := x mod 65536.
Definition u32 (x : Z) : Z := x mod 4294967296.
Definition u64 (x : Z) : Z := x mod 18446744073709551616.

(** Type invariant of Go's [byte] and [[]byte]. *)
Definition byte_ok (b : Z) : Prop := 0 <= b < 256.
Definition bytes_ok (l : list Z) : Prop := Forall byte_ok l.
Definition u32_ok (x : Z) : Prop := 0 <= x < 4294967296.

(** Result of a Go computation that may panic. *)
Inductive outcome (A : Type) : Type :=
| Done (a : A)
| Panic.
Arguments Done {A} a.
Arguments Panic {A}.

Definition obind {A B} (x : outcome A) (f : A -> outcome B) : outcome B :=
  match x with Done a => f a | Panic => Panic end.
Notation "'let!' x ':=' a 'in' b" := (obind a (fun x => b))
  (at level 200, x pattern, a at level 100, b at level 200, right associativity).

(** [len(s)] *)
Definition len {A} (l : list A) : Z := Z.of_nat (length l).

(** [s[i]]: panics out of range. *)
Definition idx (l : list Z) (i : nat) : outcome Z :=
  match nth_error l i with Some b => Done b | None => Panic end.

(** [s[lo:hi]].  Go allows [hi] up to the capacity; we bound it by the length,
    which panics in more cases than Go does (never used above the length in /repo). *)
Definition slice (l : list Z) (lo hi : nat) : outcome (list Z) :=
  if (Nat.leb lo hi && Nat.leb hi (length l))%bool
  then Done (firstn (hi - lo) (skipn lo l)) else Panic.

(** [s[i] = b]: panics out of range. *)
Definition set_at (l : list Z) (i : nat) (b : Z) : outcome (list Z) :=
  if Nat.ltb i (length l) then Done (firstn i l ++ b :: skipn (S i) l) else Panic.

(** [copy(s[lo:hi], src)]: copies [min (hi-lo) (len src)] bytes; panics like slicing. *)
Definition copy_at (l : list Z) (lo hi : nat) (src : list Z) : outcome (list Z) :=
  if (Nat.leb lo hi && Nat.leb hi (length l))%bool
  then let n := Nat.min (hi - lo) (length src) in
       Done (firstn lo l ++ firstn n src ++ skipn (lo + n) l)
  else Panic.

(** Error values: the sentinels of libcomfo/errors.go:5-23 and opaque errors
    from the connection.  [errors.New] values are compared by identity, so one
    constructor per variable. *)
Inductive err : Type :=
| ErrPktLen | ErrPayloadSize | ErrVerifyChecksum | ErrTooShort | ErrTooLong
| ErrTimeout | ErrScanInput | ErrAck | ErrInvalidResponse | ErrTooHigh | ErrTooLow
| ErrRequestType | ErrResponseType | ErrDecodeNil | ErrZeroValue | ErrNotExist
| ErrUnknownMode
| ErrIO (n : Z).   (* an error returned by the connection's Write *)
