(** Model of the rest of libcomfo: message.go, request_types.go, response_types.go,
    conn.go:126-200 and api.go. *)
From Coq Require Import SpecFloat.
From Verif Require Import GoBase GoStrings Proto Scanner Conn Proc.

(** ** float32 (IEEE binary32): precision 24, maximal exponent 128. *)
Definition f32 := spec_float.
Definition f32_prec : Z := 24.
Definition f32_emax : Z := 128.
(** Conversion of an integer to float32 (round to nearest even). *)
Definition f32_of_Z (z : Z) : f32 := binary_normalize f32_prec f32_emax z 0 false.
Definition f32_add := SFadd f32_prec f32_emax.
Definition f32_sub := SFsub f32_prec f32_emax.
Definition f32_mul := SFmul f32_prec f32_emax.
(** Truncation toward zero.  NaN and infinities do not occur (mapped to 0). *)
Definition f32_trunc (f : f32) : Z :=
  match f with
  | S754_finite s m e =>
      let a := if 0 <=? e then Zpos m * 2 ^ e else Zpos m / 2 ^ (- e) in
      if s then - a else a
  | _ => 0
  end.
(** byte(f) / uint8(f), uint32(f).  In range this is truncation (Go spec); out of range
    the result is implementation-dependent: modelled as on amd64, where the value is
    converted to a wider signed integer whose low bits are kept. *)
Definition f32_to_u8 (f : f32) : Z := u8 (f32_trunc f).
Definition f32_to_u32 (f : f32) : Z := u32 (f32_trunc f).

(** ** message.go: temperature *)

(** libcomfo/message.go:124-137 *)
Definition temperature_MarshalBinary (t : f32) : Z * option err :=
  if f32_trunc t >? 107 then (0, Some ErrTooHigh)
  else if f32_trunc t <? -20 then (0, Some ErrTooLow)
  else (f32_to_u8 (f32_mul (f32_add t (f32_of_Z 20)) (f32_of_Z 2)), None).

(** libcomfo/message.go:141-143; [in/2] is integer division of a byte. *)
Definition temperature_UnmarshalBinary (b : Z) : f32 :=
  f32_sub (f32_of_Z (b / 2)) (f32_of_Z 20).

(** libcomfo/message.go:146-156; panics above 4 bytes. *)
Definition leftPad32 (l : list byte) : outcome (list byte) :=
  if (4 <? length l)%nat then Panic else Done (repeat 0 (4 - length l) ++ l).

(** encoding/binary BigEndian.Uint16 / Uint32: panic below 2 / 4 bytes. *)
Definition be16 (l : list byte) : outcome Z :=
  let! a := idx l 0 in let! b := idx l 1 in Done (a * 256 + b).
Definition be32 (l : list byte) : outcome Z :=
  let! a := idx l 0 in let! b := idx l 1 in let! c := idx l 2 in let! d := idx l 3 in
  Done (((a * 256 + b) * 256 + c) * 256 + d).

(** ** response_types.go *)

(** 25-30 *)
Record BootInfo := mkBoot {
  MajorVersion : Z; MinorVersion : Z; BetaVersion : Z; DeviceName : list byte }.
(** 53-62 *)
Record Temps := mkTemps {
  Comfort : f32; OutsideAir : f32; SupplyAir : f32; InsideAir : f32;
  ExhaustAir : f32; GeoHeat : f32; Reheating : f32; KitchenHood : f32 }.
(** 89-94 *)
Record Bypass := mkBypass { Factor : Z; Level : Z; Correction : Z; SummerMode : bool }.
(** 117-126 *)
Record Hours := mkHours {
  FanAway : Z; FanLow : Z; FanMid : Z; FanHigh : Z;
  FrostProtect : Z; HReheating : Z; BypassOpen : Z; Filter : Z }.
(** 152-157 *)
Record Fans := mkFans { InPercent : Z; OutPercent : Z; InSpeed : Z; OutSpeed : Z }.
(** 189-204 *)
Record FanProfiles := mkProf {
  OutAway : Z; OutLow : Z; OutMid : Z; OutHigh : Z;
  InFanActive : bool; InAway : Z; InLow : Z; InMid : Z; InHigh : Z;
  CurrentOut : Z; CurrentIn : Z; CurrentMode : Z }.
(** 255-257 *)
Record Errors := mkErrors { EFilter : bool }.

(** Zero values (the New methods and [var] declarations). float32 zero is +0. *)
Definition f0 : f32 := S754_zero false.
Definition zeroBoot := mkBoot 0 0 0 [].
Definition zeroTemps := mkTemps f0 f0 f0 f0 f0 f0 f0 f0.
Definition zeroBypass := mkBypass 0 0 0 false.
Definition zeroHours := mkHours 0 0 0 0 0 0 0 0.
Definition zeroFans := mkFans 0 0 0 0.
Definition zeroProf := mkProf 0 0 0 0 false 0 0 0 0 0 0 0.
Definition zeroErrors := mkErrors false.

(** The UnmarshalBinary methods, called on a fresh zero value (DecodeResponse calls New
    first): result value and error. *)

(** 37-49 *)
Definition BootInfo_Unmarshal (l : list byte) : outcome (BootInfo * option err) :=
  if negb (length l =? 13)%nat then Done (zeroBoot, Some ErrPktLen) else
  let! a := idx l 0 in let! b := idx l 1 in let! c := idx l 2 in
  let! n := slice l 3 (length l) in
  Done (mkBoot a b c (trimSpace n), None).

(** 69-85 *)
Definition Temps_Unmarshal (l : list byte) : outcome (Temps * option err) :=
  if negb (length l =? 9)%nat then Done (zeroTemps, Some ErrPktLen) else
  let! b0 := idx l 0 in let! b1 := idx l 1 in let! b2 := idx l 2 in let! b3 := idx l 3 in
  let! b4 := idx l 4 in let! b6 := idx l 6 in let! b7 := idx l 7 in let! b8 := idx l 8 in
  let t := temperature_UnmarshalBinary in
  Done (mkTemps (t b0) (t b1) (t b2) (t b3) (t b4) (t b6) (t b7) (t b8), None).

(** 101-113 *)
Definition Bypass_Unmarshal (l : list byte) : outcome (Bypass * option err) :=
  if negb (length l =? 7)%nat then Done (zeroBypass, Some ErrPktLen) else
  let! a := idx l 2 in let! b := idx l 3 in let! c := idx l 4 in let! d := idx l 6 in
  Done (mkBypass a b c (d =? 1), None).

(** 133-149 *)
Definition Hours_Unmarshal (l : list byte) : outcome (Hours * option err) :=
  if negb (length l =? 20)%nat then Done (zeroHours, Some ErrPktLen) else
  let u24 lo hi := (let! s := slice l lo hi in let! p := leftPad32 s in be32 p) in
  let w lo hi := (let! s := slice l lo hi in be16 s) in
  let! away := u24 0%nat 3%nat in
  let! low := u24 3%nat 6%nat in
  let! mid := u24 6%nat 9%nat in
  let! frost := w 9%nat 11%nat in
  let! reh := w 11%nat 13%nat in
  let! byp := w 13%nat 15%nat in
  let! fil := w 15%nat 17%nat in
  let! high := u24 17%nat 20%nat in
  Done (mkHours away low mid high frost reh byp fil, None).

(** 164-185.  Division by zero would panic. *)
Definition go_div (a b : Z) : outcome Z := if b =? 0 then Panic else Done (a / b).
Definition Fans_Unmarshal (l : list byte) : outcome (Fans * option err) :=
  if negb (length l =? 6)%nat then Done (zeroFans, Some ErrPktLen) else
  let! si := slice l 2 4 in let! inSpeed := be16 si in
  let! so := slice l 4 6 in let! outSpeed := be16 so in
  if (inSpeed =? 0) || (outSpeed =? 0) then Done (zeroFans, Some ErrZeroValue) else
  let! a := idx l 0 in let! b := idx l 1 in
  let! qi := go_div 1875000 inSpeed in
  let! qo := go_div 1875000 outSpeed in
  Done (mkFans a b (u16 qi) (u16 qo), None).

(** 211-233 *)
Definition FanProfiles_Unmarshal (l : list byte) : outcome (FanProfiles * option err) :=
  if negb (length l =? 14)%nat then Done (zeroProf, Some ErrPktLen) else
  let! b0 := idx l 0 in let! b1 := idx l 1 in let! b2 := idx l 2 in let! b10 := idx l 10 in
  let! b3 := idx l 3 in let! b4 := idx l 4 in let! b5 := idx l 5 in let! b11 := idx l 11 in
  let! b9 := idx l 9 in
  let! b6 := idx l 6 in let! b7 := idx l 7 in let! b8 := idx l 8 in
  Done (mkProf b0 b1 b2 b10 (b9 =? 1) b3 b4 b5 b11 b6 b7 b8, None).

(** 264-273 *)
Definition Errors_Unmarshal (l : list byte) : outcome (Errors * option err) :=
  if negb (length l =? 17)%nat then Done (zeroErrors, Some ErrPktLen) else
  let! b := idx l 8 in
  Done (mkErrors (b =? 1), None).

(** 237-251 *)
Definition Lookup (vp : FanProfiles) (speed : Z) : Z * Z * option err :=
  if speed =? 1 then (InAway vp, OutAway vp, None)
  else if speed =? 2 then (InLow vp, OutLow vp, None)
  else if speed =? 3 then (InMid vp, OutMid vp, None)
  else if speed =? 4 then (InHigh vp, OutHigh vp, None)
  else (0, 0, Some ErrNotExist).

(** The Response interface values (message.go:15-18): a pointer to one of the structs. *)
Inductive Response :=
| RFans (v : Fans) | RBoot (v : BootInfo) | RProf (v : FanProfiles) | RTemps (v : Temps)
| RErrors (v : Errors) | RHours (v : Hours) | RBypass (v : Bypass).

(** 12-21: ResponseType, as the decoder of the mapped type (New + UnmarshalBinary);
    [None] is a missing key (nil interface). *)
Definition omap {A B} (f : A -> B) (o : outcome (A * option err)) : outcome (B * option err) :=
  match o with Done (a, e) => Done (f a, e) | Panic => Panic end.
Definition ResponseType (cmd : Z) : option (list byte -> outcome (Response * option err)) :=
  if cmd =? 12 then Some (fun l => omap RFans (Fans_Unmarshal l))            (* 0x0C *)
  else if cmd =? 104 then Some (fun l => omap RBoot (BootInfo_Unmarshal l))  (* 0x68 *)
  else if cmd =? 106 then Some (fun l => omap RBoot (BootInfo_Unmarshal l))  (* 0x6A *)
  else if cmd =? 206 then Some (fun l => omap RProf (FanProfiles_Unmarshal l)) (* 0xCE *)
  else if cmd =? 210 then Some (fun l => omap RTemps (Temps_Unmarshal l))    (* 0xD2 *)
  else if cmd =? 218 then Some (fun l => omap RErrors (Errors_Unmarshal l))  (* 0xDA *)
  else if cmd =? 222 then Some (fun l => omap RHours (Hours_Unmarshal l))    (* 0xDE *)
  else if cmd =? 224 then Some (fun l => omap RBypass (Bypass_Unmarshal l))  (* 0xE0 *)
  else None.

(** message.go:65-85; the interface result is [None] for nil. *)
Definition DecodeResponse (p : packet) : outcome (option Response * option err) :=
  if p_cmd p =? 0 then Done (None, Some ErrDecodeNil)
  else match ResponseType (p_cmd p) with
       | None => Done (None, Some ErrResponseType)
       | Some f => let! (r, e) := f (p_data p) in Done (Some r, e)
       end.

(** ** request_types.go *)

(** 16-25 *)
Definition getFans : Z := 11.          (* 0x0B *)
Definition getBootloader : Z := 103.   (* 0x67 *)
Definition getFirmware : Z := 105.     (* 0x69 *)
Definition getFanProfiles : Z := 205.  (* 0xCD *)
Definition getTemps : Z := 209.        (* 0xD1 *)
Definition getErrors : Z := 217.       (* 0xD9 *)
Definition getBypass : Z := 223.       (* 0xDF *)
Definition getHours : Z := 221.        (* 0xDD *)
(** 32-36 *)
Definition setSpeed : Z := 153.        (* 0x99 *)
Definition setComfort : Z := 211.      (* 0xD3 *)
Definition setFanProfiles : Z := 207.  (* 0xCF *)

(** The SetRequest interface and its three implementations (38-91). *)
Inductive SetRequest :=
| SRSpeed (speed : Z)
| SRComfort (t : f32)
| SRProfiles (fp : FanProfiles).

(** 44, 61, 73 *)
Definition requestType (r : SetRequest) : Z :=
  match r with SRSpeed _ => setSpeed | SRComfort _ => setComfort | SRProfiles _ => setFanProfiles end.

(** 45-52, 62-70, 77-91 *)
Definition SetRequest_MarshalBinary (r : SetRequest) : list byte * option err :=
  match r with
  | SRSpeed s => if s >? 4 then ([], Some ErrTooHigh) else ([s], None)
  | SRComfort t =>
      match temperature_MarshalBinary t with
      | (_, Some e) => ([], Some e)
      | (b, None) => ([b], None)
      end
  | SRProfiles q =>
      ([OutAway q; OutLow q; OutMid q; InAway q; InLow q; InMid q; OutHigh q; InHigh q], None)
  end.

(** message.go:22-31 *)
Definition EncodeGetRequest (gr : Z) : packet := mkPacket gr [] true.

(** message.go:36-60 *)
Definition EncodeSetRequest (r : SetRequest) : packet * option err :=
  if requestType r =? 0 then (zero_packet, Some ErrRequestType)
  else match SetRequest_MarshalBinary r with
       | (_, Some e) => (zero_packet, Some e)
       | (bin, None) => (mkPacket (requestType r) bin false, None)
       end.

(** ** conn.go:126-200 *)
Section Procs.
Context {S : Type}.

(** 128-149.  [wr] is pktStart ++ pb ++ pktEnd (aliasing: see Slices.v). *)
Definition WritePacket (p : packet) : proc S (bool * option err) :=
  do (pb, e) <- lift (MarshalPacket p);
  match e with
  | Some e => Ret (false, Some e)
  | None =>
      WriteC (pktStart ++ pb ++ pktEnd) (fun r =>
        match w_err r with
        | Some e => Ret (false, Some e)
        | None => Ret (true, None)
        end)
  end.

(** 152-164.  The result [out] is never set to true by the code. *)
Definition WriteAck : proc S (bool * option err) :=
  WriteC pktAck (fun r =>
    match w_err r with
    | Some e => Ret (false, Some e)
    | None => if negb (w_n r =? len pktAck) then Ret (false, Some ErrAck)
              else Ret (false, None)
    end).

(** 170-200; the timer (182) is part of the connection model ([Expire]). *)
Definition QueryPacket (p : packet) : proc S (packet * option err) :=
  with_lock LPm (
    do (_, e) <- WritePacket p;
    match e with
    | Some e => Ret (zero_packet, Some e)
    | None =>
        ReadC (p_expect p) (fun out e =>
          match e with
          | Some e => Ret (out, Some e)
          | None =>
              if p_expect p && negb (p_cmd out =? u8 (p_cmd p + 1))
              then Ret (out, Some ErrInvalidResponse)
              else do (_, e) <- WriteAck; Ret (out, e)
          end)
    end).

(** ** message.go:87-115 *)
Definition setQuery (r : SetRequest) : proc S (option err) :=
  match EncodeSetRequest r with
  | (_, Some e) => Ret (Some e)
  | (sr, None) => do (_, e) <- QueryPacket sr; Ret e
  end.

Definition getQuery (gr : Z) : proc S (option Response * option err) :=
  do (qp, e) <- QueryPacket (EncodeGetRequest gr);
  match e with
  | Some e => Ret (None, Some e)
  | None => lift (DecodeResponse qp)
  end.

(** ** api.go *)

(** 14-17: temperature(val) converts the uint8 to float32. *)
Definition SetComfort (val : Z) : proc S (option err) := setQuery (SRComfort (f32_of_Z val)).
(** 20-23 *)
Definition SetSpeed (val : Z) : proc S (option err) := setQuery (SRSpeed val).

(** The common shape of the getters, 69-154: on error the zero value; otherwise
    the type assertion [resp.( *T)], which panics on another dynamic type. *)
Definition getter {T} (gr : Z) (zero : T) (assert : Response -> option T)
  : proc S (T * option err) :=
  do (resp, e) <- getQuery gr;
  match e with
  | Some e => Ret (zero, Some e)
  | None => match resp with
            | Some r => match assert r with Some v => Ret (v, None) | None => Crash end
            | None => Crash
            end
  end.
Definition GetTemperatures := getter getTemps zeroTemps (fun r => match r with RTemps v => Some v | _ => None end).
Definition GetBypass := getter getBypass zeroBypass (fun r => match r with RBypass v => Some v | _ => None end).
Definition GetFans := getter getFans zeroFans (fun r => match r with RFans v => Some v | _ => None end).
Definition GetHours := getter getHours zeroHours (fun r => match r with RHours v => Some v | _ => None end).
Definition GetBootloader := getter getBootloader zeroBoot (fun r => match r with RBoot v => Some v | _ => None end).
Definition GetFirmware := getter getFirmware zeroBoot (fun r => match r with RBoot v => Some v | _ => None end).
Definition GetFanProfiles := getter getFanProfiles zeroProf (fun r => match r with RProf v => Some v | _ => None end).
Definition GetErrors := getter getErrors zeroErrors (fun r => match r with RErrors v => Some v | _ => None end).

(** 47-56: the switch of SetFanProfile. *)
Definition change_profile (mode speed : Z) (c : FanProfiles) : FanProfiles :=
  if mode =? 0 then
    mkProf speed (OutLow c) (OutMid c) (OutHigh c) (InFanActive c) speed (InLow c) (InMid c) (InHigh c)
           (CurrentOut c) (CurrentIn c) (CurrentMode c)
  else if mode =? 1 then
    mkProf (OutAway c) speed (OutMid c) (OutHigh c) (InFanActive c) (InAway c) speed (InMid c) (InHigh c)
           (CurrentOut c) (CurrentIn c) (CurrentMode c)
  else if mode =? 2 then
    mkProf (OutAway c) (OutLow c) speed (OutHigh c) (InFanActive c) (InAway c) (InLow c) speed (InHigh c)
           (CurrentOut c) (CurrentIn c) (CurrentMode c)
  else if mode =? 3 then
    mkProf (OutAway c) (OutLow c) (OutMid c) speed (InFanActive c) (InAway c) (InLow c) (InMid c) speed
           (CurrentOut c) (CurrentIn c) (CurrentMode c)
  else c.

(** 26-59 *)
Definition SetFanProfile (mode speed : Z) : proc S (option err) :=
  if mode >? 3 then Ret (Some ErrUnknownMode)
  else if speed >? 100 then Ret (Some ErrTooHigh)
  else with_lock LAm (
    do (cfp, e) <- GetFanProfiles;
    match e with
    | Some e => Ret (Some e)
    | None => setQuery (SRProfiles (change_profile mode speed cfp))
    end).

(** 63-66 *)
Definition SetFanProfiles (fp : FanProfiles) : proc S (option err) := setQuery (SRProfiles fp).
End Procs.
