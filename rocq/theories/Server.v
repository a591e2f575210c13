(** Model of comfoserver: caches.go, protobuf.go, helpers.go, timers.go, server.go. *)
From Verif Require Import GoBase Proto Scanner Conn Proc Lib.

(** ** Shared variables: the package-level caches (caches.go:15-66).
    The timestamps are time.Time in nanoseconds. *)
Record shared := mkShared {
  sh_boot : BootInfo; sh_boot_t : Z;
  sh_bypass : Bypass; sh_bypass_t : Z;
  sh_temp : Temps; sh_temp_t : Z;
  sh_fans : Fans; sh_fans_t : Z;
  sh_prof : FanProfiles; sh_prof_t : Z;
  sh_err : Errors; sh_err_t : Z }.

(** Go's zero time.Time: 1 January of year 1, here in ns relative to the Unix epoch. *)
Definition zeroTime : Z := -62135596800 * 1000000000.
(** Package variables start out as zero values. *)
Definition init_shared : shared :=
  mkShared zeroBoot zeroTime zeroBypass zeroTime zeroTemps zeroTime
           zeroFans zeroTime zeroProf zeroTime zeroErrors zeroTime.

Definition sproc := proc shared.

Definition on_boot (f : BootInfo -> BootInfo) (s : shared) : shared :=
  mkShared (f (sh_boot s)) (sh_boot_t s) (sh_bypass s) (sh_bypass_t s) (sh_temp s) (sh_temp_t s)
           (sh_fans s) (sh_fans_t s) (sh_prof s) (sh_prof_t s) (sh_err s) (sh_err_t s).
Definition on_boot_t (t : Z) (s : shared) : shared :=
  mkShared (sh_boot s) t (sh_bypass s) (sh_bypass_t s) (sh_temp s) (sh_temp_t s)
           (sh_fans s) (sh_fans_t s) (sh_prof s) (sh_prof_t s) (sh_err s) (sh_err_t s).
Definition on_bypass (f : Bypass -> Bypass) (s : shared) : shared :=
  mkShared (sh_boot s) (sh_boot_t s) (f (sh_bypass s)) (sh_bypass_t s) (sh_temp s) (sh_temp_t s)
           (sh_fans s) (sh_fans_t s) (sh_prof s) (sh_prof_t s) (sh_err s) (sh_err_t s).
Definition on_bypass_t (t : Z) (s : shared) : shared :=
  mkShared (sh_boot s) (sh_boot_t s) (sh_bypass s) t (sh_temp s) (sh_temp_t s)
           (sh_fans s) (sh_fans_t s) (sh_prof s) (sh_prof_t s) (sh_err s) (sh_err_t s).
Definition on_temp (f : Temps -> Temps) (s : shared) : shared :=
  mkShared (sh_boot s) (sh_boot_t s) (sh_bypass s) (sh_bypass_t s) (f (sh_temp s)) (sh_temp_t s)
           (sh_fans s) (sh_fans_t s) (sh_prof s) (sh_prof_t s) (sh_err s) (sh_err_t s).
Definition on_temp_t (t : Z) (s : shared) : shared :=
  mkShared (sh_boot s) (sh_boot_t s) (sh_bypass s) (sh_bypass_t s) (sh_temp s) t
           (sh_fans s) (sh_fans_t s) (sh_prof s) (sh_prof_t s) (sh_err s) (sh_err_t s).
Definition on_fans (f : Fans -> Fans) (s : shared) : shared :=
  mkShared (sh_boot s) (sh_boot_t s) (sh_bypass s) (sh_bypass_t s) (sh_temp s) (sh_temp_t s)
           (f (sh_fans s)) (sh_fans_t s) (sh_prof s) (sh_prof_t s) (sh_err s) (sh_err_t s).
Definition on_fans_t (t : Z) (s : shared) : shared :=
  mkShared (sh_boot s) (sh_boot_t s) (sh_bypass s) (sh_bypass_t s) (sh_temp s) (sh_temp_t s)
           (sh_fans s) t (sh_prof s) (sh_prof_t s) (sh_err s) (sh_err_t s).
Definition on_prof (f : FanProfiles -> FanProfiles) (s : shared) : shared :=
  mkShared (sh_boot s) (sh_boot_t s) (sh_bypass s) (sh_bypass_t s) (sh_temp s) (sh_temp_t s)
           (sh_fans s) (sh_fans_t s) (f (sh_prof s)) (sh_prof_t s) (sh_err s) (sh_err_t s).
Definition on_prof_t (t : Z) (s : shared) : shared :=
  mkShared (sh_boot s) (sh_boot_t s) (sh_bypass s) (sh_bypass_t s) (sh_temp s) (sh_temp_t s)
           (sh_fans s) (sh_fans_t s) (sh_prof s) t (sh_err s) (sh_err_t s).
Definition on_err (f : Errors -> Errors) (s : shared) : shared :=
  mkShared (sh_boot s) (sh_boot_t s) (sh_bypass s) (sh_bypass_t s) (sh_temp s) (sh_temp_t s)
           (sh_fans s) (sh_fans_t s) (sh_prof s) (sh_prof_t s) (f (sh_err s)) (sh_err_t s).
Definition on_err_t (t : Z) (s : shared) : shared :=
  mkShared (sh_boot s) (sh_boot_t s) (sh_bypass s) (sh_bypass_t s) (sh_temp s) (sh_temp_t s)
           (sh_fans s) (sh_fans_t s) (sh_prof s) (sh_prof_t s) (sh_err s) t.

(** Struct assignments, field by field in declaration order (Go does not make a
    struct assignment atomic). *)
Section Assign.
Context {A : Type}.
Definition assign_boot (v : BootInfo) (k : sproc A) : sproc A :=    (* caches.go:127 *)
  Put (on_boot (fun b => mkBoot (MajorVersion v) (MinorVersion b) (BetaVersion b) (DeviceName b))) (
  Put (on_boot (fun b => mkBoot (MajorVersion b) (MinorVersion v) (BetaVersion b) (DeviceName b))) (
  Put (on_boot (fun b => mkBoot (MajorVersion b) (MinorVersion b) (BetaVersion v) (DeviceName b))) (
  Put (on_boot (fun b => mkBoot (MajorVersion b) (MinorVersion b) (BetaVersion b) (DeviceName v))) k))).
Definition assign_bypass (v : Bypass) (k : sproc A) : sproc A :=    (* caches.go:154 *)
  Put (on_bypass (fun b => mkBypass (Factor v) (Level b) (Correction b) (SummerMode b))) (
  Put (on_bypass (fun b => mkBypass (Factor b) (Level v) (Correction b) (SummerMode b))) (
  Put (on_bypass (fun b => mkBypass (Factor b) (Level b) (Correction v) (SummerMode b))) (
  Put (on_bypass (fun b => mkBypass (Factor b) (Level b) (Correction b) (SummerMode v))) k))).
Definition assign_temp (v : Temps) (k : sproc A) : sproc A :=       (* caches.go:181 *)
  Put (on_temp (fun b => mkTemps (Comfort v) (OutsideAir b) (SupplyAir b) (InsideAir b) (ExhaustAir b) (GeoHeat b) (Reheating b) (KitchenHood b))) (
  Put (on_temp (fun b => mkTemps (Comfort b) (OutsideAir v) (SupplyAir b) (InsideAir b) (ExhaustAir b) (GeoHeat b) (Reheating b) (KitchenHood b))) (
  Put (on_temp (fun b => mkTemps (Comfort b) (OutsideAir b) (SupplyAir v) (InsideAir b) (ExhaustAir b) (GeoHeat b) (Reheating b) (KitchenHood b))) (
  Put (on_temp (fun b => mkTemps (Comfort b) (OutsideAir b) (SupplyAir b) (InsideAir v) (ExhaustAir b) (GeoHeat b) (Reheating b) (KitchenHood b))) (
  Put (on_temp (fun b => mkTemps (Comfort b) (OutsideAir b) (SupplyAir b) (InsideAir b) (ExhaustAir v) (GeoHeat b) (Reheating b) (KitchenHood b))) (
  Put (on_temp (fun b => mkTemps (Comfort b) (OutsideAir b) (SupplyAir b) (InsideAir b) (ExhaustAir b) (GeoHeat v) (Reheating b) (KitchenHood b))) (
  Put (on_temp (fun b => mkTemps (Comfort b) (OutsideAir b) (SupplyAir b) (InsideAir b) (ExhaustAir b) (GeoHeat b) (Reheating v) (KitchenHood b))) (
  Put (on_temp (fun b => mkTemps (Comfort b) (OutsideAir b) (SupplyAir b) (InsideAir b) (ExhaustAir b) (GeoHeat b) (Reheating b) (KitchenHood v))) k))))))).
Definition assign_fans (v : Fans) (k : sproc A) : sproc A :=        (* caches.go:208 *)
  Put (on_fans (fun b => mkFans (InPercent v) (OutPercent b) (InSpeed b) (OutSpeed b))) (
  Put (on_fans (fun b => mkFans (InPercent b) (OutPercent v) (InSpeed b) (OutSpeed b))) (
  Put (on_fans (fun b => mkFans (InPercent b) (OutPercent b) (InSpeed v) (OutSpeed b))) (
  Put (on_fans (fun b => mkFans (InPercent b) (OutPercent b) (InSpeed b) (OutSpeed v))) k))).
Definition assign_prof (v : FanProfiles) (k : sproc A) : sproc A := (* caches.go:267 *)
  Put (on_prof (fun b => mkProf (OutAway v) (OutLow b) (OutMid b) (OutHigh b) (InFanActive b) (InAway b) (InLow b) (InMid b) (InHigh b) (CurrentOut b) (CurrentIn b) (CurrentMode b))) (
  Put (on_prof (fun b => mkProf (OutAway b) (OutLow v) (OutMid b) (OutHigh b) (InFanActive b) (InAway b) (InLow b) (InMid b) (InHigh b) (CurrentOut b) (CurrentIn b) (CurrentMode b))) (
  Put (on_prof (fun b => mkProf (OutAway b) (OutLow b) (OutMid v) (OutHigh b) (InFanActive b) (InAway b) (InLow b) (InMid b) (InHigh b) (CurrentOut b) (CurrentIn b) (CurrentMode b))) (
  Put (on_prof (fun b => mkProf (OutAway b) (OutLow b) (OutMid b) (OutHigh v) (InFanActive b) (InAway b) (InLow b) (InMid b) (InHigh b) (CurrentOut b) (CurrentIn b) (CurrentMode b))) (
  Put (on_prof (fun b => mkProf (OutAway b) (OutLow b) (OutMid b) (OutHigh b) (InFanActive v) (InAway b) (InLow b) (InMid b) (InHigh b) (CurrentOut b) (CurrentIn b) (CurrentMode b))) (
  Put (on_prof (fun b => mkProf (OutAway b) (OutLow b) (OutMid b) (OutHigh b) (InFanActive b) (InAway v) (InLow b) (InMid b) (InHigh b) (CurrentOut b) (CurrentIn b) (CurrentMode b))) (
  Put (on_prof (fun b => mkProf (OutAway b) (OutLow b) (OutMid b) (OutHigh b) (InFanActive b) (InAway b) (InLow v) (InMid b) (InHigh b) (CurrentOut b) (CurrentIn b) (CurrentMode b))) (
  Put (on_prof (fun b => mkProf (OutAway b) (OutLow b) (OutMid b) (OutHigh b) (InFanActive b) (InAway b) (InLow b) (InMid v) (InHigh b) (CurrentOut b) (CurrentIn b) (CurrentMode b))) (
  Put (on_prof (fun b => mkProf (OutAway b) (OutLow b) (OutMid b) (OutHigh b) (InFanActive b) (InAway b) (InLow b) (InMid b) (InHigh v) (CurrentOut b) (CurrentIn b) (CurrentMode b))) (
  Put (on_prof (fun b => mkProf (OutAway b) (OutLow b) (OutMid b) (OutHigh b) (InFanActive b) (InAway b) (InLow b) (InMid b) (InHigh b) (CurrentOut v) (CurrentIn b) (CurrentMode b))) (
  Put (on_prof (fun b => mkProf (OutAway b) (OutLow b) (OutMid b) (OutHigh b) (InFanActive b) (InAway b) (InLow b) (InMid b) (InHigh b) (CurrentOut b) (CurrentIn v) (CurrentMode b))) (
  Put (on_prof (fun b => mkProf (OutAway b) (OutLow b) (OutMid b) (OutHigh b) (InFanActive b) (InAway b) (InLow b) (InMid b) (InHigh b) (CurrentOut b) (CurrentIn b) (CurrentMode v))) k))))))))))).
Definition assign_err (v : Errors) (k : sproc A) : sproc A :=       (* caches.go:294 *)
  Put (on_err (fun _ => mkErrors (EFilter v))) k.
End Assign.

(** timers.go:11-20, in nanoseconds *)
Definition second : Z := 1000000000.
Definition fastCacheStale : Z := 5 * second.
Definition slowCacheStale : Z := 300 * second.
Definition glacialCacheStale : Z := 3600 * second.

(** time.Time.Sub: saturates at the bounds of Duration (int64). *)
Definition time_sub (a b : Z) : Z :=
  Z.max (-9223372036854775808) (Z.min 9223372036854775807 (a - b)).

(** caches.go:303-312; Duration division truncates toward zero. *)
Definition isStale (last now : Z) : bool :=
  let errorMargin := Z.quot fastCacheStale 10 in
  (time_sub now last >? fastCacheStale) || (time_sub now last >? fastCacheStale - errorMargin).

(** The six Update methods.  For the slog calls see LogServer.v. *)

(** caches.go:110-132 *)
Definition boot_Update (force : bool) : sproc unit :=
  with_lock (LC CBoot) (Now (fun now => Get (fun s =>
    if negb force && negb (isStale (sh_boot_t s) now) then Ret tt
    else do (v, e) <- GetBootloader;
         match e with
         | None => assign_boot v (Put (on_boot_t now) (Ret tt))
         | Some _ => Ret tt
         end))).
(** caches.go:137-159 *)
Definition bypass_Update (force : bool) : sproc unit :=
  with_lock (LC CBypass) (Now (fun now => Get (fun s =>
    if negb force && negb (isStale (sh_bypass_t s) now) then Ret tt
    else do (v, e) <- GetBypass;
         match e with
         | None => assign_bypass v (Put (on_bypass_t now) (Ret tt))
         | Some _ => Ret tt
         end))).
(** caches.go:164-186 *)
Definition temp_Update (force : bool) : sproc unit :=
  with_lock (LC CTemp) (Now (fun now => Get (fun s =>
    if negb force && negb (isStale (sh_temp_t s) now) then Ret tt
    else do (v, e) <- GetTemperatures;
         match e with
         | None => assign_temp v (Put (on_temp_t now) (Ret tt))
         | Some _ => Ret tt
         end))).
(** caches.go:191-213 *)
Definition fans_Update (force : bool) : sproc unit :=
  with_lock (LC CFans) (Now (fun now => Get (fun s =>
    if negb force && negb (isStale (sh_fans_t s) now) then Ret tt
    else do (v, e) <- GetFans;
         match e with
         | None => assign_fans v (Put (on_fans_t now) (Ret tt))
         | Some _ => Ret tt
         end))).
(** caches.go:250-272 *)
Definition prof_Update (force : bool) : sproc unit :=
  with_lock (LC CProf) (Now (fun now => Get (fun s =>
    if negb force && negb (isStale (sh_prof_t s) now) then Ret tt
    else do (v, e) <- GetFanProfiles;
         match e with
         | None => assign_prof v (Put (on_prof_t now) (Ret tt))
         | Some _ => Ret tt
         end))).
(** caches.go:277-299 *)
Definition err_Update (force : bool) : sproc unit :=
  with_lock (LC CErr) (Now (fun now => Get (fun s =>
    if negb force && negb (isStale (sh_err_t s) now) then Ret tt
    else do (v, e) <- GetErrors;
         match e with
         | None => assign_err v (Put (on_err_t now) (Ret tt))
         | Some _ => Ret tt
         end))).

Definition Update (c : cache) (force : bool) : sproc unit :=
  match c with
  | CBoot => boot_Update force | CBypass => bypass_Update force | CTemp => temp_Update force
  | CFans => fans_Update force | CProf => prof_Update force | CErr => err_Update force
  end.

(** caches.go:71-78 *)
Definition UpdateCaches (force : bool) : sproc unit :=
  do _ <- Update CBoot force;
  do _ <- Update CBypass force;
  do _ <- Update CTemp force;
  do _ <- Update CFans force;
  do _ <- Update CProf force;
  Update CErr force.

(** Enum FlushCacheRequest_CacheType (rpc/comfo/comfo.pb.go:24-29, protobuf.go:9-16). *)
Definition TBootInfo : Z := 0.
Definition TFans : Z := 1.
Definition TTemps : Z := 2.
Definition TProfiles : Z := 3.
Definition TBypass : Z := 4.
Definition TAll : Z := 10.

(** caches.go:82-105, up to the final send: which caches are updated and what is sent. *)
Definition FlushCaches_body (c : Z) : sproc bool :=
  if c =? TBootInfo then do _ <- Update CBoot true; Ret true
  else if c =? TBypass then do _ <- Update CBypass true; Ret true
  else if c =? TFans then do _ <- Update CFans true; Ret true
  else if c =? TTemps then do _ <- Update CTemp true; Ret true
  else if c =? TProfiles then do _ <- Update CProf true; Ret true
  else if c =? TAll then do _ <- UpdateCaches true; Ret true
  else Ret false.
Definition FlushCaches (c : Z) : sproc unit :=
  do b <- FlushCaches_body c; SendSucc b (Ret tt).

(** Server errors: libcomfo errors, comfoserver/errors.go:6. *)
Inductive srv_err := LibErr (e : err) | ErrSetPollFailed.

(** caches.go:229-242: the poll loop, [n] iterations left. *)
Fixpoint poll_loop (n : nat) (inPct outPct : Z) : sproc (option srv_err) :=
  match n with
  | O => Ret (Some ErrSetPollFailed)
  | S m =>
      do _ <- Update CFans true;
      Get (fun s =>                                  (* fanCache.InPercent == inPct && *)
        if InPercent (sh_fans s) =? inPct then
          Get (fun s =>                              (* fanCache.OutPercent == outPct *)
            if OutPercent (sh_fans s) =? outPct then Ret None
            else Sleep (second / 2) (poll_loop m inPct outPct))
        else Sleep (second / 2) (poll_loop m inPct outPct))
  end.

(** caches.go:218-245.  Note: no RUnlock on the error path (223-225).  The receiver of
    Lookup is copied under the read lock; modelled as one read. *)
Definition UpdatePoll (count : nat) (tgtSpeed : Z) : sproc (option srv_err) :=
  RLock (LC CProf) (Get (fun s =>
    match Lookup (sh_prof s) tgtSpeed with
    | (_, _, Some e) => Ret (Some (LibErr e))
    | (inPct, outPct, None) => RUnlock (LC CProf) (poll_loop count inPct outPct)
    end)).

(** ** protobuf.go / rpc messages.  ReqTime strings are not modelled. *)
Record pbBootInfo := mkPbBoot { pbMajor : Z; pbMinor : Z; pbBeta : Z; pbName : list byte }.
Record pbBypass := mkPbBypass { pbFactor : Z; pbLevel : Z; pbCorrection : Z; pbSummer : bool }.
Record pbTemps := mkPbTemps {
  pbComfort : f32; pbOutside : f32; pbSupply : f32; pbInside : f32;
  pbExhaust : f32; pbGeo : f32; pbReheat : f32; pbKitchen : f32 }.
Record pbFans := mkPbFans { pbInPct : Z; pbOutPct : Z; pbInSpeed : Z; pbOutSpeed : Z }.
Record pbProfiles := mkPbProf {
  pbOutAway : Z; pbOutLow : Z; pbOutMid : Z; pbOutHigh : Z; pbInFanActive : bool;
  pbInAway : Z; pbInLow : Z; pbInMid : Z; pbInHigh : Z;
  pbCurrentOut : Z; pbCurrentIn : Z; pbCurrentMode : Z }.
Record pbErrors := mkPbErrors { pbFilter : bool }.

(** twirp.InvalidArgumentError names the argument (and helpers.go:37 the value); twirp.InternalError the cause. *)
Inductive arg := ArgAbsRel | ArgFanSpeed (v : Z) | ArgComfortTemp | ArgMode | ArgTargetSpeed.
Inductive rpc_err := InvalidArgument (a : arg) | Internal (e : srv_err).

Inductive resp :=
| RespBoot (m : pbBootInfo) | RespBypass (m : pbBypass) | RespTemps (m : pbTemps)
| RespFans (m : pbFans) | RespProf (m : pbProfiles) | RespErrors (m : pbErrors)
| RespComfort (modified : bool) (orig target : Z)     (* ComfortModified *)
| RespSpeed (modified : bool) (orig target : Z)       (* FanSpeedModified *)
| RespProfile (modified : bool) (orig target : Z)     (* FanProfileModified *)
| RespFlush (success : bool)
| RespErr (e : rpc_err).

(** The Protobuf methods read the fields one at a time under the cache lock;
    uint32(x) of a uint8/uint16 field is [u32 x]. *)

(** protobuf.go:20-31 *)
Definition boot_Protobuf : sproc pbBootInfo :=
  with_lock (LC CBoot)
    (Get (fun s => let beta := u32 (BetaVersion (sh_boot s)) in
     Get (fun s => let major := u32 (MajorVersion (sh_boot s)) in
     Get (fun s => let minor := u32 (MinorVersion (sh_boot s)) in
     Get (fun s => let name := DeviceName (sh_boot s) in
     Ret (mkPbBoot major minor beta name)))))).
(** protobuf.go:35-46 *)
Definition bypass_Protobuf : sproc pbBypass :=
  with_lock (LC CBypass)
    (Get (fun s => let c := u32 (Correction (sh_bypass s)) in
     Get (fun s => let f := u32 (Factor (sh_bypass s)) in
     Get (fun s => let l := u32 (Level (sh_bypass s)) in
     Get (fun s => let m := SummerMode (sh_bypass s) in
     Ret (mkPbBypass f l c m)))))).
(** protobuf.go:50-65 *)
Definition temp_Protobuf : sproc pbTemps :=
  with_lock (LC CTemp)
    (Get (fun s => let a := Comfort (sh_temp s) in
     Get (fun s => let b := OutsideAir (sh_temp s) in
     Get (fun s => let c := SupplyAir (sh_temp s) in
     Get (fun s => let d := InsideAir (sh_temp s) in
     Get (fun s => let e := ExhaustAir (sh_temp s) in
     Get (fun s => let f := GeoHeat (sh_temp s) in
     Get (fun s => let g := Reheating (sh_temp s) in
     Get (fun s => let h := KitchenHood (sh_temp s) in
     Ret (mkPbTemps a b c d e f g h)))))))))).
(** protobuf.go:69-80 *)
Definition fans_Protobuf : sproc pbFans :=
  with_lock (LC CFans)
    (Get (fun s => let a := u32 (InPercent (sh_fans s)) in
     Get (fun s => let b := u32 (OutPercent (sh_fans s)) in
     Get (fun s => let c := u32 (InSpeed (sh_fans s)) in
     Get (fun s => let d := u32 (OutSpeed (sh_fans s)) in
     Ret (mkPbFans a b c d)))))).
(** protobuf.go:84-105 *)
Definition prof_Protobuf : sproc pbProfiles :=
  with_lock (LC CProf)
    (Get (fun s => let a := u32 (OutAway (sh_prof s)) in
     Get (fun s => let b := u32 (OutLow (sh_prof s)) in
     Get (fun s => let c := u32 (OutMid (sh_prof s)) in
     Get (fun s => let d := u32 (OutHigh (sh_prof s)) in
     Get (fun s => let e := InFanActive (sh_prof s) in
     Get (fun s => let f := u32 (InAway (sh_prof s)) in
     Get (fun s => let g := u32 (InLow (sh_prof s)) in
     Get (fun s => let h := u32 (InMid (sh_prof s)) in
     Get (fun s => let i := u32 (InHigh (sh_prof s)) in
     Get (fun s => let j := u32 (CurrentOut (sh_prof s)) in
     Get (fun s => let k := u32 (CurrentIn (sh_prof s)) in
     Get (fun s => let l := u32 (CurrentMode (sh_prof s)) in
     Ret (mkPbProf a b c d e f g h i j k l)))))))))))))).
(** protobuf.go:109-117 *)
Definition err_Protobuf : sproc pbErrors :=
  with_lock (LC CErr) (Get (fun s => Ret (mkPbErrors (EFilter (sh_err s))))).

(** ** helpers.go:13-41.  [abs] is a uint32, [base] a uint8. *)
Definition modifySpeed (base abs : Z) (rel : bool) : Z * option rpc_err :=
  if negb (abs =? 0) && rel then (0, Some (InvalidArgument ArgAbsRel))
  else
    let tgt := if negb (abs =? 0) then u8 abs
               else if rel then u8 (base + 1)
               else u8 (base - 1) in
    if (tgt <? 1) || (tgt >? 4) then (base, Some (InvalidArgument (ArgFanSpeed tgt)))
    else (tgt, None).

(** ** server.go *)

(** 68-107.  tempLock is released when the function returns; nothing observable
    happens between the last statement and the release. *)
Definition SetComfortTemp (comfortTemp : Z) : sproc resp :=
  Get (fun s =>                                     (* 75: tempCache.Comfort, no lock *)
    let origTemp := Comfort (sh_temp s) in
    let targetTemp := u8 comfortTemp in
    if comfortTemp >? 255 then Ret (RespErr (InvalidArgument ArgComfortTemp))
    else if negb (f32_to_u8 origTemp =? targetTemp) then
      with_lock LTemp (
        do e <- SetComfort targetTemp;
        match e with
        | Some e => Ret (RespErr (Internal (LibErr e)))
        | None => do _ <- Update CTemp true;
                  Ret (RespComfort true (f32_to_u32 origTemp) comfortTemp)
        end)
    else Ret (RespComfort false (f32_to_u32 origTemp) comfortTemp)).

(** 111-160 *)
Definition SetFanSpeed (abs : Z) (rel : bool) : sproc resp :=
  with_lock LFan (
    Get (fun s =>                                   (* 123: CurrentMode, no cache lock *)
      let origSpeed := CurrentMode (sh_prof s) in
      match modifySpeed origSpeed abs rel with
      | (_, Some e) => Ret (RespErr e)
      | (tgtSpeed, None) =>
          if negb (u8 tgtSpeed =? origSpeed) then
            do e <- SetSpeed (u8 tgtSpeed);
            match e with
            | Some e => Ret (RespErr (Internal (LibErr e)))
            | None =>
                do e <- UpdatePoll 10 (u8 tgtSpeed);
                match e with
                | Some e => Ret (RespErr (Internal e))
                | None => do _ <- Update CProf true;
                          Ret (RespSpeed true (u32 origSpeed) (u32 tgtSpeed))
                end
            end
          else Ret (RespSpeed false (u32 origSpeed) (u32 tgtSpeed))
      end)).

(** 162-231 *)
Definition SetFanProfileRPC (modeArg targetSpeed : Z) : sproc resp :=
  let mode := u8 modeArg in
  let tgtSpeed := u8 targetSpeed in
  if (mode <? 1) || (mode >? 4) then Ret (RespErr (InvalidArgument ArgMode))
  else
    let mode := u8 (mode - 1) in
    if (tgtSpeed <? 15) || (tgtSpeed >? 100) then Ret (RespErr (InvalidArgument ArgTargetSpeed))
    else
      with_lock LFan (
        Get (fun s =>                               (* 197-208, no cache lock *)
          let orig :=
            if mode =? 0 then Some (InAway (sh_prof s))
            else if mode =? 1 then Some (InLow (sh_prof s))
            else if mode =? 2 then Some (InMid (sh_prof s))
            else if mode =? 3 then Some (InHigh (sh_prof s))
            else None in
          match orig with
          | None => Crash                           (* 207: panic *)
          | Some origSpeed =>
              if negb (origSpeed =? tgtSpeed) then
                do e <- SetFanProfile mode tgtSpeed;
                match e with
                | Some e => Ret (RespErr (Internal (LibErr e)))
                | None => do _ <- Update CProf true;
                          Ret (RespProfile true (u32 origSpeed) targetSpeed)
                end
              else Ret (RespProfile false (u32 origSpeed) targetSpeed)
          end)).

(** 234-246 *)
Definition FlushCache (c : Z) : sproc resp :=
  SendFlush c (RecvSucc (fun b => Ret (RespFlush b))).

(** The RPCs of the service (server.go:33-246). *)
Inductive rpc :=
| GetBootInfo | GetBypassRPC | GetErrorsRPC | GetFansRPC | GetFanProfilesRPC | GetTempsRPC
| SetComfortTempR (t : Z) | SetFanSpeedR (abs : Z) (rel : bool) | SetFanProfileR (mode tgt : Z)
| FlushCacheR (c : Z).

Definition handle (r : rpc) : sproc resp :=
  match r with
  | GetBootInfo => do m <- boot_Protobuf; Ret (RespBoot m)            (* 33-35 *)
  | GetBypassRPC => do m <- bypass_Protobuf; Ret (RespBypass m)       (* 38-40 *)
  | GetErrorsRPC => do m <- err_Protobuf; Ret (RespErrors m)          (* 43-45 *)
  | GetFansRPC => do m <- fans_Protobuf; Ret (RespFans m)             (* 48-50 *)
  | GetFanProfilesRPC => do m <- prof_Protobuf; Ret (RespProf m)      (* 53-55 *)
  | GetTempsRPC => do m <- temp_Protobuf; Ret (RespTemps m)           (* 58-60 *)
  | SetComfortTempR t => SetComfortTemp t
  | SetFanSpeedR a r => SetFanSpeed a r
  | SetFanProfileR m t => SetFanProfileRPC m t
  | FlushCacheR c => FlushCache c
  end.

(** ** timers.go:49-64: what the worker does for each kind of event in its select. *)
Inductive tick := TickFast | TickSlow | TickGlacial.
Definition on_tick (t : tick) : sproc unit :=
  match t with
  | TickFast => do _ <- Update CTemp false; Update CFans false
  | TickSlow => do _ <- Update CProf false; Update CBypass false
  | TickGlacial => do _ <- Update CBoot false; Update CErr false
  end.

(** timers.go:25-43: the part of StartCaches that talks to the unit. *)
Definition StartCaches : sproc unit := UpdateCaches true.

(** comfo.go:62-67: http.Server with WriteTimeout: 5s.  net/http sets the write deadline when
    it has read the request; a response produced later cannot be written and the
    connection is closed.  [start] and [finish] are the times the handler is called and returns. *)
Definition WriteTimeout : Z := 5 * second.
Definition http_reply (start finish : Z) (r : resp) : option resp :=
  if finish - start <? WriteTimeout then Some r else None.
