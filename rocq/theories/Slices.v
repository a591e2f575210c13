(** Frame building at the level of arrays and slices (libcomfo/proto.go, conn.go:126-164), for questions of
    aliasing.  An array is a list of bytes of fixed length, named by its position in the heap.  The other
    files treat slices as values; SlicesProofs.v shows that this is right. *)
From Verif Require Import GoBase Proto.

(** A Go slice: array, offset, length, capacity. *)
Record slc := mkSlc { s_arr : nat; s_off : nat; s_len : nat; s_cap : nat }.

(** Programs on the heap, one memory access at a time.  [HGrow n k]: the runtime chooses a capacity of at
    least [n].  [HOut]: conn.Write; io.Writer implementations must neither modify nor retain the slice,
    so the call is its content. *)
Inductive hp (A : Type) : Type :=
| HRet (a : A)
| HPanic
| HAlloc (bs : list byte) (k : nat -> hp A)
| HGrow (n : nat) (k : nat -> hp A)
| HLoad (a i : nat) (k : byte -> hp A)
| HStore (a i : nat) (v : byte) (k : hp A)
| HOut (bs : list byte) (k : hp A).
Arguments HRet {A}. Arguments HPanic {A}. Arguments HAlloc {A}. Arguments HGrow {A}.
Arguments HLoad {A}. Arguments HStore {A}. Arguments HOut {A}.

Fixpoint hbind {A B} (p : hp A) (f : A -> hp B) : hp B :=
  match p with
  | HRet a => f a
  | HPanic => HPanic
  | HAlloc bs k => HAlloc bs (fun a => hbind (k a) f)
  | HGrow n k => HGrow n (fun c => hbind (k c) f)
  | HLoad a i k => HLoad a i (fun v => hbind (k v) f)
  | HStore a i v k => HStore a i v (hbind k f)
  | HOut bs k => HOut bs (hbind k f)
  end.
Notation "'her' x <- p ; q" := (hbind p (fun x => q)) (at level 200, x binder, p at level 100, q at level 200).

(** Reading [n] bytes, writing bytes. *)
Fixpoint loads (a i n : nat) : hp (list byte) :=
  match n with
  | O => HRet []
  | S m => HLoad a i (fun v => her r <- loads a (S i) m; HRet (v :: r))
  end.
Fixpoint stores (a i : nat) (bs : list byte) : hp unit :=
  match bs with
  | [] => HRet tt
  | v :: r => HStore a i v (stores a (S i) r)
  end.
Definition content (s : slc) : hp (list byte) := loads (s_arr s) (s_off s) (s_len s).

(** [make([]byte, n)] and composite literals: length and capacity agree. *)
Definition hmake (bs : list byte) : hp slc := HAlloc bs (fun a => HRet (mkSlc a 0 (length bs) (length bs))).

(** [append(s, bs...)], the bytes having been read: in place if the capacity suffices,
    otherwise into a new array with unspecified room. *)
Definition happend (s : slc) (bs : list byte) : hp slc :=
  let n := (s_len s + length bs)%nat in
  if Nat.leb n (s_cap s) then
    her _ <- stores (s_arr s) (s_off s + s_len s) bs;
    HRet (mkSlc (s_arr s) (s_off s) n (s_cap s))
  else
    HGrow n (fun c =>
      her old <- content s;
      HAlloc (old ++ bs ++ repeat 0 (c - n)) (fun a => HRet (mkSlc a 0 n c))).
(** [append(s, t...)] *)
Definition happends (s t : slc) : hp slc := her bs <- content t; happend s bs.
(** [s[lo:hi]] *)
Definition hslice (s : slc) (lo hi : nat) : hp slc :=
  if (Nat.leb lo hi && Nat.leb hi (s_cap s))%bool
  then HRet (mkSlc (s_arr s) (s_off s + lo) (hi - lo) (s_cap s - lo)) else HPanic.
(** [s[i] = v] *)
Definition hset (s : slc) (i : nat) (v : byte) : hp unit :=
  if Nat.ltb i (s_len s) then HStore (s_arr s) (s_off s + i) v (HRet tt) else HPanic.
(** [copy(dst, src)] *)
Definition hcopy (dst src : slc) : hp unit :=
  let n := Nat.min (s_len dst) (s_len src) in
  her bs <- loads (s_arr src) (s_off src) n; stores (s_arr dst) (s_off dst) bs.

(** proto.go:11-13: the package variables are the first three arrays. *)
Definition hpktStart : slc := mkSlc 0 0 2 2.
Definition hpktEnd : slc := mkSlc 1 0 2 2.
Definition hpktAck : slc := mkSlc 2 0 2 2.

(** proto.go:108-122, the loop from index [i] with [n] bytes to go *)
Fixpoint hescape (s : slc) (i n : nat) (out : slc) : hp slc :=
  match n with
  | O => HRet out
  | S m =>
      HLoad (s_arr s) (s_off s + i) (fun v =>
        her out <- (if v =? 7 then happend out [7] else HRet out);
        her out <- happend out [v];
        hescape s (S i) m out)
  end.
Definition hescapeData (s : slc) : hp slc := her out <- hmake []; hescape s 0 (s_len s) out.

(** proto.go:43-69; [None] is errTooLong *)
Definition hMarshalPacket (cmd : Z) (in_Data : slc) : hp (option slc) :=
  let dataLen := s_len in_Data in
  if Z.of_nat dataLen >? 255 then HRet None
  else
    her data <- hescapeData in_Data;
    let dataLenWire := s_len data in
    her out <- hmake (repeat 0 (dataLenWire + 4));
    let outLen := (dataLenWire + 4)%nat in
    her d <- hslice out cmdOffset lenOffset;
    her lit <- hmake [0; cmd];
    her _ <- hcopy d lit;
    her _ <- hset out lenOffset (u8 (Z.of_nat dataLen));
    her d <- hslice out dataOffset (dataOffset + dataLenWire);
    her _ <- hcopy d data;
    her ds <- content in_Data;
    her _ <- hset out (outLen - 1) (calculateChecksum cmd (u8 (Z.of_nat dataLen)) ds);
    HRet (Some out).

(** conn.go:128-152, up to the result of Write *)
Definition hWritePacket (cmd : Z) (data : slc) : hp unit :=
  her pb <- hMarshalPacket cmd data;
  match pb with
  | None => HRet tt
  | Some pb =>
      her wr <- happends hpktStart pb;
      her wr <- happends wr hpktEnd;
      her bs <- content wr;
      HOut bs (HRet tt)
  end.
(** conn.go:155-164, up to the result of Write *)
Definition hWriteAck : hp unit := her bs <- content hpktAck; HOut bs (HRet tt).

(** message.go:148-156 *)
Definition hleftPad32 (s : slc) : hp slc :=
  if Nat.ltb 4 (s_len s) then HPanic
  else her pad <- hmake (repeat 0 (4 - s_len s)); happends pad s.

(** proto.go:125-147: in-bounds index loop, from index [i] with [n] bytes to go.  [hunescape] looks at
    [in[i+1]] only if [i+1 < len(in)]. *)
Fixpoint hunescape (s : slc) (i n : nat) (out : slc) : hp slc :=
  match n with
  | O => HRet out
  | S m =>
      HLoad (s_arr s) (s_off s + i) (fun v =>
        if v =? 7 then
          match m with
          | O => hunescape s (S i) m out
          | S m' =>
              HLoad (s_arr s) (s_off s + S i) (fun v2 =>
                if v2 =? 7 then her out <- happend out [7]; hunescape s (S (S i)) m' out
                else hunescape s (S i) m out)
          end
        else her out <- happend out [v]; hunescape s (S i) m out)
  end.
Definition hunescapeData (s : slc) : hp slc := her out <- hmake []; hunescape s 0 (s_len s) out.

Fixpoint set_nth {A} (l : list A) (i : nat) (x : A) : list A :=
  match l, i with
  | [], _ => []
  | _ :: r, O => x :: r
  | y :: r, S j => y :: set_nth r j x
  end.

(** One of these programs on its own; [g] decides about extra room. *)
Fixpoint hrun {A} (g : nat -> nat) (p : hp A) (h : list (list byte)) : option (A * list (list byte) * list (list byte)) :=
  match p with
  | HRet a => Some (a, h, [])
  | HPanic => None
  | HAlloc bs k => hrun g (k (length h)) (h ++ [bs])
  | HGrow n k => hrun g (k (n + g (length h))%nat) h
  | HLoad a j k => match nth_error h a with
                   | Some bs => match nth_error bs j with Some v => hrun g (k v) h | None => None end
                   | None => None
                   end
  | HStore a j v k => match nth_error h a with
                      | Some bs => if Nat.ltb j (length bs) then hrun g k (set_nth h a (set_nth bs j v)) else None
                      | None => None
                      end
  | HOut bs k => match hrun g k h with Some (a, h', o) => Some (a, h', bs :: o) | None => None end
  end.

(** Several goroutines building frames on one heap.  [(i, c)]: goroutine i makes a step; c is the capacity
    the runtime chooses if asked. *)
Record hthread := mkHth { h_p : hp unit; h_out : list (list byte) }.
Record hstate := mkHst { h_heap : list (list byte); h_ths : list hthread }.

(** [None]: goroutine i panics (or does not exist, has finished, or the capacity is too small). *)
Definition hstep (ic : nat * nat) (m : hstate) : option hstate :=
  let (i, c) := ic in
  let h := h_heap m in
  match nth_error (h_ths m) i with
  | None => None
  | Some t =>
      let go p := Some (mkHst h (set_nth (h_ths m) i (mkHth p (h_out t)))) in
      match h_p t with
      | HRet _ | HPanic => None
      | HAlloc bs k => Some (mkHst (h ++ [bs]) (set_nth (h_ths m) i (mkHth (k (length h)) (h_out t))))
      | HGrow n k => if Nat.leb n c then go (k c) else None
      | HLoad a j k => match nth_error h a with
                       | Some bs => match nth_error bs j with Some v => go (k v) | None => None end
                       | None => None
                       end
      | HStore a j v k => match nth_error h a with
                          | Some bs => if Nat.ltb j (length bs)
                                       then Some (mkHst (set_nth h a (set_nth bs j v)) (set_nth (h_ths m) i (mkHth k (h_out t))))
                                       else None
                          | None => None
                          end
      | HOut bs k => Some (mkHst h (set_nth (h_ths m) i (mkHth k (h_out t ++ [bs]))))
      end
  end.
Fixpoint hexec (s : list (nat * nat)) (m : hstate) : option hstate :=
  match s with
  | [] => Some m
  | ic :: r => match hstep ic m with Some m' => hexec r m' | None => None end
  end.
