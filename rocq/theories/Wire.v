(** The protobuf wire format as read and written by google.golang.org/protobuf v1.34.1 (go.mod:11)
    for the messages of rpc/comfo/comfo.proto, whose fields are all singular scalars.  The package is
    not part of the repository: encoding/protowire/wire.go, internal/impl/decode.go, codec_gen.go are
    transcribed from that release.  Unknown fields are skipped (their bytes are kept by Go, but the server
    never looks at them). *)
From Coq Require Import Floats.SpecFloat.
From Verif Require Import GoBase GoStrings Lib Server.

(** ** protowire *)

(** ConsumeVarint; [i] bytes may still be read (10 at first).  The tenth byte must be 0 or 1. *)
Fixpoint varint (i : nat) (b : list byte) : option (Z * list byte) :=
  match i, b with
  | S j, y :: r =>
      if y <? 128 then
        if Nat.eqb j 0 && negb (y <? 2) then None else Some (y, r)
      else match varint j r with
           | Some (v, r') => Some (y - 128 + 128 * v, r')
           | None => None
           end
  | _, _ => None
  end.
Definition consumeVarint (b : list byte) : option (Z * list byte) := varint 10 b.
(** ConsumeTag and DecodeTag: number and wire type. *)
Definition consumeTag (b : list byte) : option (Z * Z * list byte) :=
  match consumeVarint b with
  | Some (v, r) => if (v / 8 >? 2147483647) || (v / 8 <? 1) then None else Some (v / 8, v mod 8, r)
  | None => None
  end.
(** The rest of [b] after [n] bytes, if there are so many (ConsumeFixed32, ConsumeFixed64, ConsumeBytes). *)
Definition consumeN (n : Z) (b : list byte) : option (list byte * list byte) :=
  if n <=? len b then Some (firstn (Z.to_nat n) b, skipn (Z.to_nat n) b) else None.
Definition consumeBytes (b : list byte) : option (list byte * list byte) :=
  match consumeVarint b with Some (m, r) => consumeN m r | None => None end.

(** ConsumeFieldValue (consumeFieldValueD): what is left after a field value of type [typ].  [fuel] bounds the
    number of nested calls and of group fields. *)
Fixpoint skipValue (fuel : nat) (depth num typ : Z) (b : list byte) : option (list byte) :=
  match fuel with
  | O => None
  | S f =>
      if typ =? 0 then option_map snd (consumeVarint b)
      else if typ =? 1 then option_map snd (consumeN 8 b)
      else if typ =? 2 then option_map snd (consumeBytes b)
      else if typ =? 3 then if depth <? 0 then None else skipGroup f depth num b
      else if typ =? 5 then option_map snd (consumeN 4 b)
      else None
  end
with skipGroup (fuel : nat) (depth num : Z) (b : list byte) : option (list byte) :=
  match fuel with
  | O => None
  | S f =>
      match consumeTag b with
      | None => None
      | Some (num2, typ2, r) =>
          if typ2 =? 4 then if num =? num2 then Some r else None
          else match skipValue f (depth - 1) num2 typ2 r with
               | Some r => skipGroup f depth num r
               | None => None
               end
      end
  end.
(** protowire.DefaultRecursionLimit *)
Definition recursionLimit : Z := 10000.
Definition consumeFieldValue (num typ : Z) (b : list byte) : option (list byte) :=
  skipValue (2 * length b + 2) recursionLimit num typ b.

(** utf8.Valid *)
Fixpoint validUTF8_ (fuel : nat) (s : list byte) : bool :=
  match fuel with
  | O => true
  | S f =>
      match s with
      | [] => true
      | _ => let (r, w) := decodeRune s in
             if (r =? runeError) && Nat.eqb w 1 then false else validUTF8_ f (skipn w s)
      end
  end.
Definition validUTF8 (s : list byte) : bool := validUTF8_ (length s) s.

(** ** Messages: comfo.pb.go, the struct tags. *)
Inductive kind := KUint32 | KBool | KEnum | KFloat | KString.
Definition desc := list (Z * kind).
(** Field values; floats by their bits (math.Float32bits). *)
Inductive pval := VInt (z : Z) | VBool (b : bool) | VFloat (bits : Z) | VStr (s : list byte).
(** A message: the fields that were set, latest first; others are zero. *)
Definition msg := list (Z * pval).
Fixpoint lookup {A} (n : Z) (l : list (Z * A)) : option A :=
  match l with
  | [] => None
  | (m, a) :: r => if n =? m then Some a else lookup n r
  end.
Definition getInt (n : Z) (m : msg) : Z := match lookup n m with Some (VInt z) => z | _ => 0 end.
Definition getBool (n : Z) (m : msg) : bool := match lookup n m with Some (VBool b) => b | _ => false end.
Definition getFloat (n : Z) (m : msg) : Z := match lookup n m with Some (VFloat z) => z | _ => 0 end.
Definition getStr (n : Z) (m : msg) : list byte := match lookup n m with Some (VStr s) => s | _ => [] end.

(** int32(v) *)
Definition i32 (x : Z) : Z := (x + 2147483648) mod 4294967296 - 2147483648.
(** Little-endian words. *)
Fixpoint le (bs : list byte) : Z := match bs with [] => 0 | b :: r => b + 256 * le r end.

(** The unmarshal functions of codec_gen.go (consumeUint32, consumeBool, consumeInt32 for enums,
    consumeFloat, consumeStringValidateUTF8) and decode.go: a known field of another wire type
    counts as unknown. *)
Inductive taken := Took (v : pval) (r : list byte) | Other | Bad.
Definition take (k : kind) (typ : Z) (b : list byte) : taken :=
  match k with
  | KUint32 => if typ =? 0 then match consumeVarint b with
                                | Some (v, r) => Took (VInt (u32 v)) r | None => Bad end else Other
  | KBool => if typ =? 0 then match consumeVarint b with
                              | Some (v, r) => Took (VBool (negb (v =? 0))) r | None => Bad end else Other
  | KEnum => if typ =? 0 then match consumeVarint b with
                              | Some (v, r) => Took (VInt (i32 v)) r | None => Bad end else Other
  | KFloat => if typ =? 5 then match consumeN 4 b with
                               | Some (v, r) => Took (VFloat (le v)) r | None => Bad end else Other
  | KString => if typ =? 2 then match consumeBytes b with
                                | Some (v, r) => if validUTF8 v then Took (VStr v) r else Bad
                                | None => Bad end else Other
  end.
(** decode.go unmarshalPointer, at top level (groupTag = 0: an end-group tag is an error). *)
Fixpoint unmarshal_ (fuel : nat) (d : desc) (m : msg) (b : list byte) : option msg :=
  match b with
  | [] => Some m
  | _ =>
    match fuel with
    | O => None
    | S f =>
      match consumeVarint b with
      | None => None
      | Some (tag, r) =>
          let num := tag / 8 in let typ := tag mod 8 in
          if (num <? 1) || (num >? 536870911) then None
          else if typ =? 4 then None
          else
            let unknown := match consumeFieldValue num typ r with
                           | Some r => unmarshal_ f d m r | None => None end in
            match lookup num d with
            | None => unknown
            | Some k => match take k typ r with
                        | Took v r => unmarshal_ f d ((num, v) :: m) r
                        | Other => unknown
                        | Bad => None
                        end
            end
      end
    end
  end.
(** proto.Unmarshal into a new message. *)
Definition unmarshal (d : desc) (b : list byte) : option msg := unmarshal_ (length b) d [] b.

(** ** Writing *)

(** AppendVarint, for values below 2^64. *)
Fixpoint putVarint_ (i : nat) (v : Z) : list byte :=
  match i with
  | O => [v]
  | S j => if v <? 128 then [v] else (v mod 128 + 128) :: putVarint_ j (v / 128)
  end.
Definition putVarint (v : Z) : list byte := putVarint_ 9 v.
Definition putTag (num typ : Z) : list byte := putVarint (8 * num + typ).
(** AppendFixed32 *)
Definition put32 (v : Z) : list byte :=
  [v mod 256; v / 256 mod 256; v / 65536 mod 256; v / 16777216 mod 256].
(** The marshal functions of codec_gen.go for implicit presence (appendUint32NoZero, appendBoolNoZero,
    appendFloatNoZero, appendStringNoZeroValidateUTF8): zero values are left out; negative zero is not.
    An enum is written as the varint of its sign extension.  None: invalid UTF-8. *)
Definition putField (num : Z) (v : pval) : option (list byte) :=
  match v with
  | VInt z => Some (if z =? 0 then [] else putTag num 0 ++ putVarint (u64 z))
  | VBool b => Some (if b then putTag num 0 ++ [1] else [])
  | VFloat z => Some (if z =? 0 then [] else putTag num 5 ++ put32 z)
  | VStr s => if validUTF8 s then Some (match s with [] => [] | _ => putTag num 2 ++ putVarint (len s) ++ s end)
              else None
  end.
(** proto.Marshal: fields in the order of their numbers. *)
Fixpoint marshal (fs : msg) : option (list byte) :=
  match fs with
  | [] => Some []
  | (n, v) :: r => match putField n v, marshal r with
                   | Some a, Some b => Some (a ++ b)
                   | _, _ => None
                   end
  end.

(** ** float32 and its bits (math.Float32bits; IEEE 754 binary32).  There is one NaN in the model. *)
Definition sign_bit (s : bool) : Z := if s then 2147483648 else 0.
Definition f32_bits (f : f32) : Z :=
  match f with
  | S754_zero s => sign_bit s
  | S754_infinity s => sign_bit s + 2139095040
  | S754_nan => 2143289344
  | S754_finite s m e =>
      if Zpos m <? 8388608 then sign_bit s + Zpos m
      else sign_bit s + (e + 150) * 8388608 + (Zpos m - 8388608)
  end.
Definition f32_of_bits (z : Z) : f32 :=
  let s := 2147483648 <=? z in
  let e := z / 8388608 mod 256 in
  let m := z mod 8388608 in
  if e =? 255 then if m =? 0 then S754_infinity s else S754_nan
  else if e =? 0 then match m with Zpos p => S754_finite s p (-149) | _ => S754_zero s end
  else match m + 8388608 with Zpos p => S754_finite s p (e - 150) | _ => S754_nan end.
