(** What a JSON object says as a reply message (protobuf.dev/programming-guides/json; comfo.proto). *)
From Coq Require Import String.
From Verif Require Import GoBase Lib Server SpecLayout SpecWire Twirp SpecJson.

(** Values of fields: numbers of uint32, booleans, texts, temperatures. *)
Inductive shown := SUint (z : Z) | SBool (b : bool) | SText (s : list byte) | SFloat (f : f32).
Definition shows (x : shown) (v : jval) : Prop :=
  match x, v with
  | SUint z, JNum t => integer t z
  | SBool b, JBool b' => b' = b
  | SText s, JStr r => reads_str r s
  | SFloat f, JNum t => exists z, integer t z /\ f32_is f z
  | _, _ => False
  end.
(** The members of the object for a reply; [t] is ReqTime. *)
Definition reply_members (t : list byte) (r : resp) : list (string * shown) :=
  (match r with
   | RespBoot m => [("MajorVersion", SUint (pbMajor m)); ("MinorVersion", SUint (pbMinor m)); ("BetaVersion", SUint (pbBeta m));
       ("DeviceName", SText (pbName m))]
   | RespBypass m => [("Factor", SUint (pbFactor m)); ("Level", SUint (pbLevel m)); ("Correction", SUint (pbCorrection m));
       ("SummerMode", SBool (pbSummer m))]
   | RespTemps m => [("Comfort", SFloat (pbComfort m)); ("OutsideAir", SFloat (pbOutside m)); ("SupplyAir", SFloat (pbSupply m));
       ("InsideAir", SFloat (pbInside m)); ("ExhaustAir", SFloat (pbExhaust m)); ("GeoHeat", SFloat (pbGeo m));
       ("Reheating", SFloat (pbReheat m)); ("KitchenHood", SFloat (pbKitchen m))]
   | RespFans m => [("InPercent", SUint (pbInPct m)); ("OutPercent", SUint (pbOutPct m)); ("InSpeed", SUint (pbInSpeed m));
       ("OutSpeed", SUint (pbOutSpeed m))]
   | RespProf m => [("OutAway", SUint (pbOutAway m)); ("OutLow", SUint (pbOutLow m)); ("OutMid", SUint (pbOutMid m));
       ("OutHigh", SUint (pbOutHigh m)); ("InFanActive", SBool (pbInFanActive m)); ("InAway", SUint (pbInAway m));
       ("InLow", SUint (pbInLow m)); ("InMid", SUint (pbInMid m)); ("InHigh", SUint (pbInHigh m));
       ("CurrentOut", SUint (pbCurrentOut m)); ("CurrentIn", SUint (pbCurrentIn m)); ("CurrentMode", SUint (pbCurrentMode m))]
   | RespErrors m => [("Filter", SBool (pbFilter m))]
   | RespComfort b o g => [("Modified", SBool b); ("OriginalTemp", SUint o); ("TargetTemp", SUint g); ("ReqTime", SText t)]
   | RespSpeed b o g | RespProfile b o g =>
       [("Modified", SBool b); ("OriginalSpeed", SUint o); ("TargetSpeed", SUint g); ("ReqTime", SText t)]
   | RespFlush b => [("Success", SBool b); ("ReqTime", SText t)]
   | RespErr _ => []
   end)%string.
(** The object [l] has these members, in this order, and no others. *)
Definition json_reply (t : list byte) (r : resp) (l : list (list byte * jval)) : Prop :=
  Forall2 (fun m x => reads_str (fst x) (str (fst m)) /\ shows (snd m) (snd x)) (reply_members t r) l.
(** Temperatures in whole degrees. *)
Definition degrees (f : f32) : Prop := exists z, -1000 <= z <= 1000 /\ f32_is f z.
Definition in_degrees (r : resp) : Prop :=
  match r with
  | RespTemps m => Forall degrees [pbComfort m; pbOutside m; pbSupply m; pbInside m; pbExhaust m; pbGeo m; pbReheat m; pbKitchen m]
  | _ => True
  end.
