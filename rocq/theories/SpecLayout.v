(** Reply and request layouts, stated by offset. *)
From Coq Require Import SpecFloat.
From Verif Require Import GoBase Lib.

(** The values of float32: sign, significand, exponent in the range of binary32 and normalised. *)
Definition binary32 (f : f32) : Prop :=
  match f with
  | S754_finite _ m e => (Zpos m < 8388608 /\ e = -149) \/ (8388608 <= Zpos m < 16777216 /\ -149 <= e <= 104)
  | _ => True
  end.
(** [f] is the float with exactly the value [z] (for 0: positive zero). *)
Definition f32_is (f : f32) (z : Z) : Prop :=
  binary32 f /\
  match f with
  | S754_zero s => s = false /\ z = 0
  | S754_finite s m e =>
      let v := if s then Zneg m else Zpos m in
      (0 <= e /\ v * 2 ^ e = z) \/ (e < 0 /\ v = z * 2 ^ (- e))
  | _ => False
  end.

(** Big-endian number made of [n] bytes from offset [i]. *)
Fixpoint be_bytes (acc : Z) (l : list Z) : Z :=
  match l with [] => acc | b :: r => be_bytes (256 * acc + b) r end.
Definition be_at (l : list Z) (i n : nat) : Z := be_bytes 0 (firstn n (skipn i l)).
(** Byte at offset [i]. *)
Definition byte_at (l : list Z) (i : nat) : Z := be_at l i 1.

(** Temperature stored in half degrees above -20. *)
Definition temp_at (l : list Z) (i : nat) (f : f32) : Prop := f32_is f (byte_at l i / 2 - 20).

Definition temps_layout (l : list Z) (t : Temps) : Prop :=
  temp_at l 0 (Comfort t) /\ temp_at l 1 (OutsideAir t) /\ temp_at l 2 (SupplyAir t) /\
  temp_at l 3 (InsideAir t) /\ temp_at l 4 (ExhaustAir t) /\ temp_at l 6 (GeoHeat t) /\
  temp_at l 7 (Reheating t) /\ temp_at l 8 (KitchenHood t).
Definition bypass_layout (l : list Z) (b : Bypass) : Prop :=
  Factor b = byte_at l 2 /\ Level b = byte_at l 3 /\ Correction b = byte_at l 4 /\
  (SummerMode b = true <-> byte_at l 6 = 1).
Definition hours_layout (l : list Z) (h : Hours) : Prop :=
  FanAway h = be_at l 0 3 /\ FanLow h = be_at l 3 3 /\ FanMid h = be_at l 6 3 /\
  FrostProtect h = be_at l 9 2 /\ HReheating h = be_at l 11 2 /\ BypassOpen h = be_at l 13 2 /\
  Filter h = be_at l 15 2 /\ FanHigh h = be_at l 17 3.
Definition fans_layout (l : list Z) (f : Fans) : Prop :=
  InPercent f = byte_at l 0 /\ OutPercent f = byte_at l 1 /\
  InSpeed f = (1875000 / be_at l 2 2) mod 65536 /\ OutSpeed f = (1875000 / be_at l 4 2) mod 65536.
Definition profiles_layout (l : list Z) (p : FanProfiles) : Prop :=
  OutAway p = byte_at l 0 /\ OutLow p = byte_at l 1 /\ OutMid p = byte_at l 2 /\ OutHigh p = byte_at l 10 /\
  InAway p = byte_at l 3 /\ InLow p = byte_at l 4 /\ InMid p = byte_at l 5 /\ InHigh p = byte_at l 11 /\
  CurrentOut p = byte_at l 6 /\ CurrentIn p = byte_at l 7 /\ CurrentMode p = byte_at l 8 /\
  (InFanActive p = true <-> byte_at l 9 = 1).
Definition errors_layout (l : list Z) (e : Errors) : Prop :=
  EFilter e = true <-> byte_at l 8 = 1.

(** White space of the unit's text encoding (UTF-8): the code points U+0009-D, U+0020,
    U+0085, U+00A0, U+1680, U+2000-200A, U+2028, U+2029, U+202F, U+205F, U+3000. *)
Inductive ws : list Z -> Prop :=
| ws_tab b : 9 <= b <= 13 -> ws [b]
| ws_sp : ws [32]
| ws_nel : ws [194; 133]
| ws_nbsp : ws [194; 160]
| ws_ogham : ws [225; 154; 128]
| ws_quad b : 128 <= b <= 138 -> ws [226; 128; b]
| ws_line : ws [226; 128; 168]
| ws_par : ws [226; 128; 169]
| ws_nnbsp : ws [226; 128; 175]
| ws_mmsp : ws [226; 129; 159]
| ws_ideo : ws [227; 128; 128].
(** [t] is [s] without the white space at its ends. *)
Definition trimmed (s t : list Z) : Prop :=
  exists pre post, s = concat pre ++ t ++ concat post /\ Forall ws pre /\ Forall ws post /\
    (forall x r, ws x -> t <> x ++ r) /\ (forall x r, ws x -> t <> r ++ x).

Definition boot_layout (l : list Z) (b : BootInfo) : Prop :=
  MajorVersion b = byte_at l 0 /\ MinorVersion b = byte_at l 1 /\ BetaVersion b = byte_at l 2 /\
  trimmed (skipn 3 l) (DeviceName b).

(** The eight percentages of a profile reply, in the order of the set request, after
    both percentages of [mode] have been replaced by [speed]. *)
Definition profile_offsets : list nat := [0; 1; 2; 3; 4; 5; 10; 11]%nat.
Definition profile_request (payload : list Z) (mode speed : Z) : list Z :=
  map (fun i => if (mode =? match i with
                            | 0%nat | 3%nat => 0 | 1%nat | 4%nat => 1
                            | 2%nat | 5%nat => 2 | _ => 3 end)
                then speed else byte_at payload i) profile_offsets.
