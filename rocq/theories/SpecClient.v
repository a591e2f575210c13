(** Vocabulary for statements about the Python client. *)
From Coq Require Import String.
From Verif Require Import GoBase Proto Conn Proc Lib Server SpecServer Client.

(** The method makes this request, and no other. *)
Definition sends {A} (m : method A) (q : rpc) : Prop := exists k, m = Asks q k.

(** What a caller of a set method gets for what the server says. *)
Definition passed_on (r : reply) (x : pyres bool) : Prop :=
  match r with
  | Lost => x = PyRaise Transport
  | Reply (RespErr e) => x = PyRaise (TwirpServer e)
  | Reply (RespComfort b _ _) | Reply (RespSpeed b _ _) | Reply (RespProfile b _ _) => x = PyRet b
  | Reply _ => False
  end.
(** The target mentioned in a reply. *)
Definition target (r : resp) : option Z :=
  match r with RespComfort _ _ t | RespSpeed _ _ t | RespProfile _ _ t => Some t | _ => None end.
Definition argument_error (r : resp) : Prop := exists a, r = RespErr (InvalidArgument a).

(** The speed next to [mode]. *)
Definition next (up : bool) (mode : Z) : Z := if up then mode + 1 else mode - 1.

(** The method that shows a cache. *)
Definition getter (c : cache) : method pyobj :=
  match c with
  | CBoot => get_bootinfo | CBypass => get_bypass | CTemp => get_temps
  | CFans => get_fans | CProf => get_fan_profiles | CErr => get_errors
  end.
Fixpoint attr (o : pyobj) (n : string) : option pyval :=
  match o with
  | nil => None
  | (m, v) :: r => if string_dec n m then Some v else attr r n
  end.
Open Scope string_scope.
(** The object has the fields of the record. *)
Definition shows (v : rec) (o : pyobj) : Prop :=
  let has n x := attr o n = Some x in
  match v with
  | VBoot b => has "MajorVersion" (PInt (MajorVersion b)) /\ has "MinorVersion" (PInt (MinorVersion b)) /\
      has "BetaVersion" (PInt (BetaVersion b)) /\ has "DeviceName" (PStr (DeviceName b))
  | VBypass b => has "Factor" (PInt (Factor b)) /\ has "Level" (PInt (Level b)) /\
      has "Correction" (PInt (Correction b)) /\ has "SummerMode" (PBool (SummerMode b))
  | VTemp t => has "Comfort" (PFloat (Comfort t)) /\ has "OutsideAir" (PFloat (OutsideAir t)) /\
      has "SupplyAir" (PFloat (SupplyAir t)) /\ has "InsideAir" (PFloat (InsideAir t)) /\
      has "ExhaustAir" (PFloat (ExhaustAir t)) /\ has "GeoHeat" (PFloat (GeoHeat t)) /\
      has "Reheating" (PFloat (Reheating t)) /\ has "KitchenHood" (PFloat (KitchenHood t))
  | VFans f => has "InPercent" (PInt (InPercent f)) /\ has "OutPercent" (PInt (OutPercent f)) /\
      has "InSpeed" (PInt (InSpeed f)) /\ has "OutSpeed" (PInt (OutSpeed f))
  | VProf p => has "OutAway" (PInt (OutAway p)) /\ has "OutLow" (PInt (OutLow p)) /\
      has "OutMid" (PInt (OutMid p)) /\ has "OutHigh" (PInt (OutHigh p)) /\ has "InFanActive" (PBool (InFanActive p)) /\
      has "InAway" (PInt (InAway p)) /\ has "InLow" (PInt (InLow p)) /\ has "InMid" (PInt (InMid p)) /\
      has "InHigh" (PInt (InHigh p)) /\ has "CurrentOut" (PInt (CurrentOut p)) /\
      has "CurrentIn" (PInt (CurrentIn p)) /\ has "CurrentMode" (PInt (CurrentMode p))
  | VErr e => has "Filter" (PBool (EFilter e))
  end.
Close Scope string_scope.

(** Calls of the set methods with a value, and that value. *)
Inductive call := Speed (n : Z) | Comfort_temp (t : Z) | Profile (p percent : Z).
Definition called (c : call) : method bool :=
  match c with
  | Speed n => set_fan_speed n
  | Comfort_temp t => set_comfort_temperature (Some t)
  | Profile p v => configure_fan_profile p v
  end.
Definition wanted (c : call) : Z := match c with Speed n => n | Comfort_temp t => t | Profile _ v => v end.
Definition step (up : bool) : method bool := if up then increase_fan_speed else decrease_fan_speed.
