(** Model of the Python client: python/comfo/client.py, types.py, exceptions.py.
    Integers are Python ints (unbounded).  The twirp and protobuf packages are not part of the
    repository; of them is assumed that a call of an RPC stub either returns the server's message,
    or raises TwirpServerException with the code the server gave, or raises something else. *)
From Coq Require Import String.
From Verif Require Import GoBase Proto Scanner Conn Proc Lib Server.

(** exceptions.py; TwirpServerException; whatever else twirp raises ([Transport]: no reply). *)
Inductive pyexc := InvalidFanSpeed | InvalidDutyPercent | InvalidTemperature
  | TwirpServer (e : rpc_err) | Transport | NoAttribute.
Inductive pyres (A : Type) := PyRet (a : A) | PyRaise (e : pyexc).
Arguments PyRet {A}. Arguments PyRaise {A}.

(** What comes back from the server, if anything. *)
Inductive reply := Reply (r : resp) | Lost.
(** A method of class Comfo: raises at once, or makes one request and continues with the reply. *)
Inductive method (A : Type) := Raises (e : pyexc) | Asks (q : rpc) (k : reply -> pyres A).
Arguments Raises {A}. Arguments Asks {A}.

(** The stub: error replies are raised. *)
Definition stub {A} (k : resp -> pyres A) (r : reply) : pyres A :=
  match r with
  | Reply (RespErr e) => PyRaise (TwirpServer e)
  | Reply m => k m
  | Lost => PyRaise Transport
  end.
(** [.Modified] of a reply message. *)
Definition Modified (m : resp) : pyres bool :=
  match m with
  | RespComfort b _ _ | RespSpeed b _ _ | RespProfile b _ _ => PyRet b
  | _ => PyRaise NoAttribute
  end.

(** types.py:70-75 *)
Definition VALID_SPEEDS : list Z := [1; 2; 3; 4].
(** [x in l] *)
Definition py_in (x : Z) (l : list Z) : bool := existsb (Z.eqb x) l.

(** client.py:124-141 *)
Definition set_fan_speed (speed : Z) : method bool :=
  if negb (py_in speed VALID_SPEEDS) then Raises InvalidFanSpeed
  else Asks (SetFanSpeedR speed false) (stub Modified).
(** client.py:150-165 and 171-188: [e.code is TwirpErrors.InvalidArgument]. *)
Definition step_fan_speed (up : bool) : method bool :=
  Asks (SetFanSpeedR 0 up) (fun r =>
    match stub Modified r with
    | PyRaise (TwirpServer (InvalidArgument _)) => PyRet false
    | x => x
    end).
Definition increase_fan_speed : method bool := step_fan_speed true.
Definition decrease_fan_speed : method bool := step_fan_speed false.
(** client.py:194-208; the default is None. *)
Definition set_comfort_temperature (temperature : option Z) : method bool :=
  match temperature with
  | None => Raises InvalidTemperature
  | Some t => if (t <? 0) || (t >? 255) then Raises InvalidTemperature
              else Asks (SetComfortTempR t) (stub Modified)
  end.
(** client.py:220-239 *)
Definition configure_fan_profile (profile percent : Z) : method bool :=
  if negb (py_in profile VALID_SPEEDS) then Raises InvalidFanSpeed
  else if (percent <? 15) || (percent >? 100) then Raises InvalidDutyPercent
  else Asks (SetFanProfileR profile percent) (stub Modified).

(** Objects of types.py: their attributes in the order of assignment. *)
Inductive pyval := PInt (z : Z) | PBool (b : bool) | PFloat (f : f32) | PStr (bs : list byte).
Definition pyobj := list (string * pyval).
Open Scope string_scope.
(** types.py:22-27 *)
Definition BootInfo_init (pb : pbBootInfo) : pyobj :=
  [("MajorVersion", PInt (pbMajor pb)); ("MinorVersion", PInt (pbMinor pb)); ("BetaVersion", PInt (pbBeta pb));
   ("DeviceName", PStr (pbName pb))].
(** types.py:33-38 *)
Definition Bypass_init (pb : pbBypass) : pyobj :=
  [("Factor", PInt (pbFactor pb)); ("Level", PInt (pbLevel pb)); ("Correction", PInt (pbCorrection pb));
   ("SummerMode", PBool (pbSummer pb))].
(** types.py:44-53 *)
Definition Temps_init (pb : pbTemps) : pyobj :=
  [("Comfort", PFloat (pbComfort pb)); ("OutsideAir", PFloat (pbOutside pb)); ("SupplyAir", PFloat (pbSupply pb));
   ("InsideAir", PFloat (pbInside pb)); ("ExhaustAir", PFloat (pbExhaust pb)); ("GeoHeat", PFloat (pbGeo pb));
   ("Reheating", PFloat (pbReheat pb)); ("KitchenHood", PFloat (pbKitchen pb))].
(** types.py:59-64 *)
Definition Fans_init (pb : pbFans) : pyobj :=
  [("InPercent", PInt (pbInPct pb)); ("OutPercent", PInt (pbOutPct pb)); ("InSpeed", PInt (pbInSpeed pb));
   ("OutSpeed", PInt (pbOutSpeed pb))].
(** types.py:77-92 *)
Definition FanProfiles_init (pb : pbProfiles) : pyobj :=
  [("OutAway", PInt (pbOutAway pb)); ("OutLow", PInt (pbOutLow pb)); ("OutMid", PInt (pbOutMid pb));
   ("OutHigh", PInt (pbOutHigh pb)); ("InFanActive", PBool (pbInFanActive pb)); ("InAway", PInt (pbInAway pb));
   ("InLow", PInt (pbInLow pb)); ("InMid", PInt (pbInMid pb)); ("InHigh", PInt (pbInHigh pb));
   ("CurrentOut", PInt (pbCurrentOut pb)); ("CurrentIn", PInt (pbCurrentIn pb)); ("CurrentMode", PInt (pbCurrentMode pb))].
(** types.py:98-100 *)
Definition Errors_init (pb : pbErrors) : pyobj := [("Filter", PBool (pbFilter pb))].
Close Scope string_scope.

(** client.py:42-53, 59-66, 72-79, 85-92, 98-105, 111-118.  The constructor of another type would
    fail on a missing attribute. *)
Definition get_bootinfo : method pyobj :=
  Asks GetBootInfo (stub (fun m => match m with RespBoot pb => PyRet (BootInfo_init pb) | _ => PyRaise NoAttribute end)).
Definition get_bypass : method pyobj :=
  Asks GetBypassRPC (stub (fun m => match m with RespBypass pb => PyRet (Bypass_init pb) | _ => PyRaise NoAttribute end)).
Definition get_temps : method pyobj :=
  Asks GetTempsRPC (stub (fun m => match m with RespTemps pb => PyRet (Temps_init pb) | _ => PyRaise NoAttribute end)).
Definition get_fans : method pyobj :=
  Asks GetFansRPC (stub (fun m => match m with RespFans pb => PyRet (Fans_init pb) | _ => PyRaise NoAttribute end)).
Definition get_fan_profiles : method pyobj :=
  Asks GetFanProfilesRPC (stub (fun m => match m with RespProf pb => PyRet (FanProfiles_init pb) | _ => PyRaise NoAttribute end)).
Definition get_errors : method pyobj :=
  Asks GetErrorsRPC (stub (fun m => match m with RespErrors pb => PyRet (Errors_init pb) | _ => PyRaise NoAttribute end)).

Definition then_ {A B} (m : method A) (f : A -> B) : method B :=
  match m with
  | Raises e => Raises e
  | Asks q k => Asks q (fun r => match k r with PyRet a => PyRet (f a) | PyRaise e => PyRaise e end)
  end.
(** client.py:33-36 *)
Definition ping : method bool := then_ get_bootinfo (fun _ => true).

(** client.py:22-31: the attribute [self.loop] after construction; [running] is the loop that
    asyncio.get_running_loop() finds (it raises RuntimeError if there is none).  Loops are numbered. *)
Definition init_loop (loop running : option nat) : option nat :=
  match loop with
  | None => match running with Some l => Some l | None => None end
  | Some _ => None
  end.
(** The async_ methods, e.g. client.py:38-40: [self.loop.run_in_executor(None, f)] evaluates [self.loop]
    first; the executor calls the method and the result is awaited. *)
Definition async {A} (self_loop : option nat) (m : method A) : method A :=
  match self_loop with
  | None => Raises NoAttribute
  | Some _ => m
  end.

(** A method against the server of Server.v, nothing else going on; the reply is
    subject to the write timeout of the HTTP server. *)
Definition reply_of (w w' : world shared) (r : resp) : reply :=
  match http_reply (w_clk w) (w_clk w') r with Some r => Reply r | None => Lost end.
Definition ask {A} (m : method A) (w : world shared) : option (pyres A) * world shared :=
  match m with
  | Raises e => (Some (PyRaise e), w)
  | Asks q k => match run (handle q) w with
                | (RDone r, w') => (Some (k (reply_of w w' r)), w')
                | (_, w') => (None, w')
                end
  end.
