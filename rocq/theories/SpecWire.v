(** The protobuf encoding (protobuf.dev/programming-guides/encoding) as a relation between messages and bytes,
    the meaning of a message of singular fields, UTF-8, and the form of a path. *)
From Coq Require Import String Floats.SpecFloat.
From Verif Require Import GoBase Lib Server SpecLayout.

(** Base-128 numbers, least significant group first. *)
Inductive base128 : Z -> list byte -> Prop :=
| b128_last y : 0 <= y < 128 -> base128 y [y]
| b128_more y v r : 128 <= y < 256 -> base128 v r -> base128 (y - 128 + 128 * v) (y :: r).
Definition is_varint (v : Z) (b : list byte) : Prop :=
  base128 v b /\ (List.length b <= 10)%nat /\ v < 18446744073709551616.

Inductive wval := WVarint (v : Z) | WFix64 (b : list byte) | WBytes (b : list byte)
  | WGroup (fs : list (Z * wval)) | WFix32 (b : list byte).
Definition wtype (w : wval) : Z :=
  match w with WVarint _ => 0 | WFix64 _ => 1 | WBytes _ => 2 | WGroup _ => 3 | WFix32 _ => 5 end.

(** [wire_value d n w b]: [b] are the bytes of the value [w] of a field numbered [n]; groups may be nested [d + 1] deep.
    [wire_fields d max fs b]: [b] is the sequence of fields [fs], with numbers up to [max]. *)
Inductive wire_value : Z -> Z -> wval -> list byte -> Prop :=
| wv_varint d n v b : is_varint v b -> wire_value d n (WVarint v) b
| wv_64 d n b : List.length b = 8%nat -> wire_value d n (WFix64 b) b
| wv_bytes d n b l : is_varint (len b) l -> wire_value d n (WBytes b) (l ++ b)
| wv_group d n fs b e : 0 <= d -> wire_fields (d - 1) 2147483647 fs b -> is_varint (8 * n + 4) e ->
    wire_value d n (WGroup fs) (b ++ e)
| wv_32 d n b : List.length b = 4%nat -> wire_value d n (WFix32 b) b
with wire_fields : Z -> Z -> list (Z * wval) -> list byte -> Prop :=
| wf_nil d mx : wire_fields d mx [] []
| wf_cons d mx n w fs t b r : 1 <= n <= mx -> is_varint (8 * n + wtype w) t -> wire_value d n w b ->
    wire_fields d mx fs r -> wire_fields d mx ((n, w) :: fs) (t ++ b ++ r).
(** A message as it may be sent to the server: any fields, groups at most 10001 deep. *)
Definition encodes (fs : list (Z * wval)) (b : list byte) : Prop := wire_fields 10000 536870911 fs b.

(** The last value given for field [n] with the type of the field. *)
Fixpoint varints (n : Z) (fs : list (Z * wval)) : list Z :=
  match fs with
  | [] => []
  | (m, WVarint v) :: r => if Z.eq_dec n m then v :: varints n r else varints n r
  | _ :: r => varints n r
  end.
Fixpoint strings (n : Z) (fs : list (Z * wval)) : list (list byte) :=
  match fs with
  | [] => []
  | (m, WBytes v) :: r => if Z.eq_dec n m then v :: strings n r else strings n r
  | _ :: r => strings n r
  end.
Fixpoint words (n : Z) (fs : list (Z * wval)) : list (list byte) :=
  match fs with
  | [] => []
  | (m, WFix32 v) :: r => if Z.eq_dec n m then v :: words n r else words n r
  | _ :: r => words n r
  end.
(** uint32, bool, enum (int32), string and float (four bytes) fields. *)
Definition uint_field (n : Z) (fs : list (Z * wval)) : Z := last (varints n fs) 0 mod 4294967296.
Definition bool_field (n : Z) (fs : list (Z * wval)) : bool := negb (last (varints n fs) 0 =? 0).
Definition enum_field (n : Z) (fs : list (Z * wval)) : Z :=
  let v := uint_field n fs in if v <? 2147483648 then v else v - 4294967296.
Definition string_field (n : Z) (fs : list (Z * wval)) : list byte := last (strings n fs) [].
Definition word_field (n : Z) (fs : list (Z * wval)) : list byte := last (words n fs) [0; 0; 0; 0].

(** What each request message means (rpc/comfo/comfo.proto). *)
Definition meaning (name : string) (fs : list (Z * wval)) : option rpc :=
  if string_dec name "GetBootInfo" then Some GetBootInfo
  else if string_dec name "GetTemps" then Some GetTempsRPC
  else if string_dec name "GetBypass" then Some GetBypassRPC
  else if string_dec name "GetFans" then Some GetFansRPC
  else if string_dec name "GetFanProfiles" then Some GetFanProfilesRPC
  else if string_dec name "GetErrors" then Some GetErrorsRPC
  else if string_dec name "SetFanSpeed" then Some (SetFanSpeedR (uint_field 1 fs) (bool_field 2 fs))
  else if string_dec name "SetComfortTemp" then Some (SetComfortTempR (uint_field 1 fs))
  else if string_dec name "SetFanProfile" then Some (SetFanProfileR (uint_field 1 fs) (uint_field 2 fs))
  else if string_dec name "FlushCache" then Some (FlushCacheR (enum_field 1 fs))
  else None.
Definition served (name : string) : Prop := meaning name [] <> None.

(** UTF-8: the encodings of the Unicode scalar values. *)
Definition scalar (r : Z) : Prop := 0 <= r < 55296 \/ 57344 <= r < 1114112.
Definition utf8_of (r : Z) : list byte :=
  if r <? 128 then [r]
  else if r <? 2048 then [192 + r / 64; 128 + r mod 64]
  else if r <? 65536 then [224 + r / 4096; 128 + r / 64 mod 64; 128 + r mod 64]
  else [240 + r / 262144; 128 + r / 4096 mod 64; 128 + r / 64 mod 64; 128 + r mod 64].
Definition utf8 (s : list byte) : Prop := exists rs, Forall scalar rs /\ s = concat (map utf8_of rs).

(** IEEE 754 binary32, least significant byte first. *)
Definition float_of (b : list byte) : f32 :=
  match b with
  | [b0; b1; b2; b3] =>
      let neg := b3 / 128 =? 1 in
      let ex := b3 mod 128 * 2 + b2 / 128 in
      let frac := b2 mod 128 * 65536 + b1 * 256 + b0 in
      if ex =? 255 then if frac =? 0 then S754_infinity neg else S754_nan
      else if ex =? 0 then if frac =? 0 then S754_zero neg else S754_finite neg (Z.to_pos frac) (-149)
      else S754_finite neg (Z.to_pos (frac + 8388608)) (ex - 150)
  | _ => S754_nan
  end.
Definition float_field (n : Z) (fs : list (Z * wval)) : f32 := float_of (word_field n fs).
(** The message is the reply (rpc/comfo/comfo.proto); [t] is ReqTime. *)
Definition carries (t : list byte) (r : resp) (fs : list (Z * wval)) : Prop :=
  let u n v := uint_field n fs = v in let b n v := bool_field n fs = v in
  let f n v := float_field n fs = v in let s n v := string_field n fs = v in
  match r with
  | RespBoot m => u 1 (pbMajor m) /\ u 2 (pbMinor m) /\ u 3 (pbBeta m) /\ s 4 (pbName m)
  | RespBypass m => u 1 (pbFactor m) /\ u 2 (pbLevel m) /\ u 3 (pbCorrection m) /\ b 4 (pbSummer m)
  | RespTemps m => f 1 (pbComfort m) /\ f 2 (pbOutside m) /\ f 3 (pbSupply m) /\ f 4 (pbInside m) /\
      f 5 (pbExhaust m) /\ f 6 (pbGeo m) /\ f 7 (pbReheat m) /\ f 8 (pbKitchen m)
  | RespFans m => u 1 (pbInPct m) /\ u 2 (pbOutPct m) /\ u 3 (pbInSpeed m) /\ u 4 (pbOutSpeed m)
  | RespProf m => u 1 (pbOutAway m) /\ u 2 (pbOutLow m) /\ u 3 (pbOutMid m) /\ u 4 (pbOutHigh m) /\
      b 5 (pbInFanActive m) /\ u 6 (pbInAway m) /\ u 7 (pbInLow m) /\ u 8 (pbInMid m) /\ u 9 (pbInHigh m) /\
      u 10 (pbCurrentOut m) /\ u 11 (pbCurrentIn m) /\ u 12 (pbCurrentMode m)
  | RespErrors m => b 1 (pbFilter m)
  | RespComfort x o g | RespSpeed x o g | RespProfile x o g => b 1 x /\ u 2 o /\ u 3 g /\ s 4 t
  | RespFlush x => b 1 x /\ s 2 t
  | RespErr _ => False
  end.
(** The reply fits the types of the message: uint32, float32, bytes. *)
Definition in_types (r : resp) : Prop :=
  match r with
  | RespBoot m => u32_ok (pbMajor m) /\ u32_ok (pbMinor m) /\ u32_ok (pbBeta m) /\ bytes_ok (pbName m) /\
      len (pbName m) < 2147483648
  | RespBypass m => u32_ok (pbFactor m) /\ u32_ok (pbLevel m) /\ u32_ok (pbCorrection m)
  | RespTemps m => Forall binary32 [pbComfort m; pbOutside m; pbSupply m; pbInside m; pbExhaust m; pbGeo m;
      pbReheat m; pbKitchen m]
  | RespFans m => u32_ok (pbInPct m) /\ u32_ok (pbOutPct m) /\ u32_ok (pbInSpeed m) /\ u32_ok (pbOutSpeed m)
  | RespProf m => Forall u32_ok [pbOutAway m; pbOutLow m; pbOutMid m; pbOutHigh m; pbInAway m; pbInLow m; pbInMid m;
      pbInHigh m; pbCurrentOut m; pbCurrentIn m; pbCurrentMode m]
  | RespComfort _ o g | RespSpeed _ o g | RespProfile _ o g => u32_ok o /\ u32_ok g
  | _ => True
  end.
(** The strings in a reply. *)
Definition readable (r : resp) : Prop := match r with RespBoot m => utf8 (pbName m) | _ => True end.
