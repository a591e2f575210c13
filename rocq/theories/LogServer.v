(** What the server logs: the functions of Server.v that lead to a slog call, once more, with the list of the calls as
    (part of) their result.  caches.go:71-299, timers.go:25-64, server.go:68-231.  [io] gives the texts of errors of the connection. *)
From Coq Require Import String.
From Verif Require Import GoBase Proto Scanner Conn Proc Lib Server Twirp ErrorText Log.

(** caches.go:130, 157, 184, 211, 270, 297: slog.Error(..., "error", err). *)
Definition updateError (io : Z -> list byte) (m : list byte) (e : err) : list event := [mkEvent LError m [(str "error", VError (err_text io e))]].

Section Updates.
Variable io : Z -> list byte.
(** caches.go:110-132 *)
Definition boot_Update' (force : bool) : sproc (list event) :=
  with_lock (LC CBoot) (Now (fun now => Get (fun s =>
    if negb force && negb (isStale (sh_boot_t s) now) then Ret []
    else do (v, e) <- GetBootloader;
         match e with
         | None => assign_boot v (Put (on_boot_t now) (Ret []))
         | Some e => Ret (updateError io (str "BootInfoCache.Update() - Updating boot info cache") e)
         end))).
(** caches.go:137-159 *)
Definition bypass_Update' (force : bool) : sproc (list event) :=
  with_lock (LC CBypass) (Now (fun now => Get (fun s =>
    if negb force && negb (isStale (sh_bypass_t s) now) then Ret []
    else do (v, e) <- GetBypass;
         match e with
         | None => assign_bypass v (Put (on_bypass_t now) (Ret []))
         | Some e => Ret (updateError io (str "BypassCache.Update() - Updating bypass cache") e)
         end))).
(** caches.go:164-186 *)
Definition temp_Update' (force : bool) : sproc (list event) :=
  with_lock (LC CTemp) (Now (fun now => Get (fun s =>
    if negb force && negb (isStale (sh_temp_t s) now) then Ret []
    else do (v, e) <- GetTemperatures;
         match e with
         | None => assign_temp v (Put (on_temp_t now) (Ret []))
         | Some e => Ret (updateError io (str "TempCache.Update() - Updating temperature cache") e)
         end))).
(** caches.go:191-213 *)
Definition fans_Update' (force : bool) : sproc (list event) :=
  with_lock (LC CFans) (Now (fun now => Get (fun s =>
    if negb force && negb (isStale (sh_fans_t s) now) then Ret []
    else do (v, e) <- GetFans;
         match e with
         | None => assign_fans v (Put (on_fans_t now) (Ret []))
         | Some e => Ret (updateError io (str "FanCache.Update() - Updating fan cache") e)
         end))).
(** caches.go:250-272 *)
Definition prof_Update' (force : bool) : sproc (list event) :=
  with_lock (LC CProf) (Now (fun now => Get (fun s =>
    if negb force && negb (isStale (sh_prof_t s) now) then Ret []
    else do (v, e) <- GetFanProfiles;
         match e with
         | None => assign_prof v (Put (on_prof_t now) (Ret []))
         | Some e => Ret (updateError io (str "FanProfilesCache.Update() - Updating fan profiles cache") e)
         end))).
(** caches.go:277-299 *)
Definition err_Update' (force : bool) : sproc (list event) :=
  with_lock (LC CErr) (Now (fun now => Get (fun s =>
    if negb force && negb (isStale (sh_err_t s) now) then Ret []
    else do (v, e) <- GetErrors;
         match e with
         | None => assign_err v (Put (on_err_t now) (Ret []))
         | Some e => Ret (updateError io (str "Errors.Update() - Updating errors cache") e)
         end))).
Definition Update' (c : cache) (force : bool) : sproc (list event) :=
  match c with
  | CBoot => boot_Update' force | CBypass => bypass_Update' force | CTemp => temp_Update' force
  | CFans => fans_Update' force | CProf => prof_Update' force | CErr => err_Update' force
  end.

(** caches.go:71-78 *)
Definition UpdateCaches' (force : bool) : sproc (list event) :=
  do l1 <- Update' CBoot force;
  do l2 <- Update' CBypass force;
  do l3 <- Update' CTemp force;
  do l4 <- Update' CFans force;
  do l5 <- Update' CProf force;
  do l6 <- Update' CErr force;
  Ret (l1 ++ l2 ++ l3 ++ l4 ++ l5 ++ l6).
(** caches.go:82-105 *)
Definition FlushCaches_body' (c : Z) : sproc (bool * list event) :=
  if c =? TBootInfo then do l <- Update' CBoot true; Ret (true, l)
  else if c =? TBypass then do l <- Update' CBypass true; Ret (true, l)
  else if c =? TFans then do l <- Update' CFans true; Ret (true, l)
  else if c =? TTemps then do l <- Update' CTemp true; Ret (true, l)
  else if c =? TProfiles then do l <- Update' CProf true; Ret (true, l)
  else if c =? TAll then do l <- UpdateCaches' true; Ret (true, l)
  else Ret (false, []).
(** caches.go:229-242, [acc]: what has been logged. *)
Fixpoint poll_loop' (n : nat) (inPct outPct : Z) (acc : list event) : sproc (option srv_err * list event) :=
  match n with
  | O => Ret (Some ErrSetPollFailed, acc)
  | S m =>
      do l <- Update' CFans true;
      Get (fun s =>
        if InPercent (sh_fans s) =? inPct then
          Get (fun s =>
            if OutPercent (sh_fans s) =? outPct then Ret (None, acc ++ l)
            else Sleep (second / 2) (poll_loop' m inPct outPct (acc ++ l)))
        else Sleep (second / 2) (poll_loop' m inPct outPct (acc ++ l)))
  end.
(** caches.go:218-245 *)
Definition UpdatePoll' (count : nat) (tgtSpeed : Z) : sproc (option srv_err * list event) :=
  RLock (LC CProf) (Get (fun s =>
    match Lookup (sh_prof s) tgtSpeed with
    | (_, _, Some e) => Ret (Some (LibErr e), [])
    | (inPct, outPct, None) => RUnlock (LC CProf) (poll_loop' count inPct outPct [])
    end)).

(** server.go:68-107 *)
Definition SetComfortTemp' (comfortTemp : Z) : sproc (resp * list event) :=
  Get (fun s =>
    let origTemp := Comfort (sh_temp s) in
    let targetTemp := u8 comfortTemp in
    if comfortTemp >? 255 then Ret (RespErr (InvalidArgument ArgComfortTemp), [])
    else if negb (f32_to_u8 origTemp =? targetTemp) then
      with_lock LTemp (
        do e <- SetComfort targetTemp;
        match e with
        | Some e => Ret (RespErr (Internal (LibErr e)), [])
        | None => do l <- Update' CTemp true;
                  Ret (RespComfort true (f32_to_u32 origTemp) comfortTemp, l)
        end)
    else Ret (RespComfort false (f32_to_u32 origTemp) comfortTemp, [])).
(** server.go:111-160 *)
Definition SetFanSpeed' (abs : Z) (rel : bool) : sproc (resp * list event) :=
  with_lock LFan (
    Get (fun s =>
      let origSpeed := CurrentMode (sh_prof s) in
      match modifySpeed origSpeed abs rel with
      | (_, Some e) => Ret (RespErr e, [])
      | (tgtSpeed, None) =>
          if negb (u8 tgtSpeed =? origSpeed) then
            do e <- SetSpeed (u8 tgtSpeed);
            match e with
            | Some e => Ret (RespErr (Internal (LibErr e)), [])
            | None =>
                do (e, l) <- UpdatePoll' 10 (u8 tgtSpeed);
                match e with
                | Some e => Ret (RespErr (Internal e), l)
                | None => do l' <- Update' CProf true;
                          Ret (RespSpeed true (u32 origSpeed) (u32 tgtSpeed), l ++ l')
                end
            end
          else Ret (RespSpeed false (u32 origSpeed) (u32 tgtSpeed), [])
      end)).
(** server.go:162-231 *)
Definition SetFanProfileRPC' (modeArg targetSpeed : Z) : sproc (resp * list event) :=
  let mode := u8 modeArg in
  let tgtSpeed := u8 targetSpeed in
  if (mode <? 1) || (mode >? 4) then Ret (RespErr (InvalidArgument ArgMode), [])
  else
    let mode := u8 (mode - 1) in
    if (tgtSpeed <? 15) || (tgtSpeed >? 100) then Ret (RespErr (InvalidArgument ArgTargetSpeed), [])
    else
      with_lock LFan (
        Get (fun s =>
          let orig :=
            if mode =? 0 then Some (InAway (sh_prof s))
            else if mode =? 1 then Some (InLow (sh_prof s))
            else if mode =? 2 then Some (InMid (sh_prof s))
            else if mode =? 3 then Some (InHigh (sh_prof s))
            else None in
          match orig with
          | None => Crash
          | Some origSpeed =>
              if negb (origSpeed =? tgtSpeed) then
                do e <- SetFanProfile mode tgtSpeed;
                match e with
                | Some e => Ret (RespErr (Internal (LibErr e)), [])
                | None => do l <- Update' CProf true;
                          Ret (RespProfile true (u32 origSpeed) targetSpeed, l)
                end
              else Ret (RespProfile false (u32 origSpeed) targetSpeed, [])
          end)).
(** The getters and FlushCache log nothing. *)
Definition handle' (r : rpc) : sproc (resp * list event) :=
  match r with
  | SetComfortTempR t => SetComfortTemp' t
  | SetFanSpeedR a r => SetFanSpeed' a r
  | SetFanProfileR m t => SetFanProfileRPC' m t
  | r => do x <- handle r; Ret (x, [])
  end.
(** timers.go:49-64 *)
Definition on_tick' (t : tick) : sproc (list event) :=
  match t with
  | TickFast => do a <- Update' CTemp false; do b <- Update' CFans false; Ret (a ++ b)
  | TickSlow => do a <- Update' CProf false; do b <- Update' CBypass false; Ret (a ++ b)
  | TickGlacial => do a <- Update' CBoot false; do b <- Update' CErr false; Ret (a ++ b)
  end.
(** timers.go:25-43 *)
Definition StartCaches' : sproc (list event) :=
  do l <- UpdateCaches' true;
  Ret (mkEvent LInfo (str "Populating caches") [] :: l ++ [mkEvent LInfo (str "Cache worker started") []]).
End Updates.
