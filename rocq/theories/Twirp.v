(** Model of the HTTP front end: routes.go and the generated server rpc/comfo/comfo.twirp.go
    (and the HTTP side of python/comfo/comfo_twirp.py).
    Not modelled: HTTP itself (a request arrives complete), the hooks and interceptors (none are installed,
    routes.go:26), logging, the text of error messages (see ErrorText.v), the JSON codec (a parameter). *)
From Coq Require Import String Ascii.
From Verif Require Import GoBase GoStrings Proto Scanner Conn Proc Lib Server Wire.

Definition str (s : string) : list byte := map (fun a => Z.of_nat (nat_of_ascii a)) (list_ascii_of_string s).
Fixpoint beq (a b : list byte) : bool :=
  match a, b with
  | [], [] => true
  | x :: a, y :: b => (x =? y) && beq a b
  | _, _ => false
  end.
Definition slash : byte := 47.

(** net/http: the parts of a request that are looked at.  [h_path] is URL.Path, [h_ctype] the
    Content-Type header. *)
Record hreq := mkHreq { h_method : list byte; h_path : list byte; h_ctype : list byte; h_body : list byte }.

(** What a Twirp error says: its code, from which follows the status
    (twirp.ServerHTTPStatusFromErrorCode). *)
Inductive terr := TRpc (e : rpc_err) | TMalformed | TBadRoute | TMarshal.
Inductive tcode := CInvalidArgument | CInternal | CMalformed | CBadRoute.
Definition code_of (t : terr) : tcode :=
  match t with
  | TRpc (InvalidArgument _) => CInvalidArgument
  | TRpc (Internal _) => CInternal
  | TMalformed => CMalformed
  | TBadRoute => CBadRoute
  | TMarshal => CInternal
  end.
Definition status_of (c : tcode) : Z :=
  match c with CInvalidArgument => 400 | CInternal => 500 | CMalformed => 400 | CBadRoute => 404 end.
(** Bodies: protobuf, the JSON form of a message, the JSON form of an error, or text. *)
Inductive hbody := Protobuf (bs : list byte) | Json (r : resp) | ErrorJson (t : terr) | Text.
Record hresp := mkHresp { r_status : Z; r_body : hbody }.
(** comfo.twirp.go:3105-3142 writeError *)
Definition writeError (t : terr) : hresp := mkHresp (status_of (code_of t)) (ErrorJson t).

(** strings.Split(s, "/") *)
Fixpoint split (s : list byte) : list (list byte) :=
  match s with
  | [] => [[]]
  | c :: r => match split r with
              | p :: ps => if c =? slash then [] :: p :: ps else (c :: p) :: ps
              | [] => [[c]]
              end
  end.
(** strings.Join(ps, "/") *)
Fixpoint join (ps : list (list byte)) : list byte :=
  match ps with
  | [] => []
  | [p] => p
  | p :: ps => p ++ slash :: join ps
  end.
(** comfo.twirp.go:3176-3185 parseTwirpPath *)
Definition parseTwirpPath (path : list byte) : list byte * list byte * list byte :=
  let parts := split path in
  let n := List.length parts in
  if Nat.ltb n 2 then ([], [], [])
  else (join (firstn (n - 2) parts), nth (n - 2) parts [], nth (n - 1) parts []).

(** The part of a header before the first semicolon. *)
Fixpoint before_semi (s : list byte) : list byte :=
  match s with
  | [] => []
  | c :: r => if c =? 59 then [] else c :: before_semi r
  end.
(** strings.ToLower; [ulower] stands for the Unicode case mapping that is used when there are bytes
    outside ASCII. *)
Definition lower1 (c : byte) : byte := if (65 <=? c) && (c <=? 90) then c + 32 else c.
Definition toLower (ulower : list byte -> list byte) (s : list byte) : list byte :=
  if forallb (fun c => c <? 128) s then map lower1 s else ulower s.
(** comfo.twirp.go:1222-1236, the switch in serveGetBootInfo, and its nine copies: Some true is protobuf,
    Some false JSON. *)
Definition contentType (ulower : list byte -> list byte) (header : list byte) : option bool :=
  let t := trimSpace (toLower ulower (before_semi header)) in
  if beq t (str "application/json") then Some false
  else if beq t (str "application/protobuf") then Some true
  else None.

(** The request messages (comfo.proto:6, 38-40, 75-78, 90-93, 124-136). *)
Definition dNoop : desc := [].
Definition dComfortTarget : desc := [(1, KUint32)].
Definition dFanProfileTarget : desc := [(1, KUint32); (2, KUint32)].
Definition dFanSpeedTarget : desc := [(1, KUint32); (2, KBool)].
Definition dFlushCacheRequest : desc := [(1, KEnum)].
(** A method: its name, the type of its argument, the call of the handler. *)
Record route := mkRoute { rt_name : list byte; rt_desc : desc; rt_call : msg -> rpc }.
(** comfo.twirp.go:1184-1218, the switch in ServeHTTP. *)
Definition rt_routes : list route :=
  [mkRoute (str "GetBootInfo") dNoop (fun _ => GetBootInfo);
   mkRoute (str "GetTemps") dNoop (fun _ => GetTempsRPC);
   mkRoute (str "GetBypass") dNoop (fun _ => GetBypassRPC);
   mkRoute (str "GetFans") dNoop (fun _ => GetFansRPC);
   mkRoute (str "GetFanProfiles") dNoop (fun _ => GetFanProfilesRPC);
   mkRoute (str "GetErrors") dNoop (fun _ => GetErrorsRPC);
   mkRoute (str "SetFanSpeed") dFanSpeedTarget (fun m => SetFanSpeedR (getInt 1 m) (getBool 2 m));
   mkRoute (str "SetComfortTemp") dComfortTarget (fun m => SetComfortTempR (getInt 1 m));
   mkRoute (str "SetFanProfile") dFanProfileTarget (fun m => SetFanProfileR (getInt 1 m) (getInt 2 m));
   mkRoute (str "FlushCache") dFlushCacheRequest (fun m => FlushCacheR (getInt 1 m))].
Fixpoint find_route (name : list byte) (l : list route) : option route :=
  match l with
  | [] => None
  | r :: l => if beq name (rt_name r) then Some r else find_route name l
  end.

(** The fields of the reply messages; [t] is ReqTime (a time.Duration as a string). *)
Definition resp_fields (t : list byte) (r : resp) : msg :=
  match r with
  | RespBoot m => [(1, VInt (pbMajor m)); (2, VInt (pbMinor m)); (3, VInt (pbBeta m)); (4, VStr (pbName m))]
  | RespBypass m => [(1, VInt (pbFactor m)); (2, VInt (pbLevel m)); (3, VInt (pbCorrection m)); (4, VBool (pbSummer m))]
  | RespTemps m =>
      [(1, VFloat (f32_bits (pbComfort m))); (2, VFloat (f32_bits (pbOutside m))); (3, VFloat (f32_bits (pbSupply m)));
       (4, VFloat (f32_bits (pbInside m))); (5, VFloat (f32_bits (pbExhaust m))); (6, VFloat (f32_bits (pbGeo m)));
       (7, VFloat (f32_bits (pbReheat m))); (8, VFloat (f32_bits (pbKitchen m)))]
  | RespFans m => [(1, VInt (pbInPct m)); (2, VInt (pbOutPct m)); (3, VInt (pbInSpeed m)); (4, VInt (pbOutSpeed m))]
  | RespProf m =>
      [(1, VInt (pbOutAway m)); (2, VInt (pbOutLow m)); (3, VInt (pbOutMid m)); (4, VInt (pbOutHigh m));
       (5, VBool (pbInFanActive m)); (6, VInt (pbInAway m)); (7, VInt (pbInLow m)); (8, VInt (pbInMid m));
       (9, VInt (pbInHigh m)); (10, VInt (pbCurrentOut m)); (11, VInt (pbCurrentIn m)); (12, VInt (pbCurrentMode m))]
  | RespErrors m => [(1, VBool (pbFilter m))]
  | RespComfort b o g | RespSpeed b o g | RespProfile b o g => [(1, VBool b); (2, VInt o); (3, VInt g); (4, VStr t)]
  | RespFlush b => [(1, VBool b); (2, VStr t)]
  | RespErr _ => []
  end.

(** comfo.twirp.go:1279-1319 and 1366-1397, and copies: serve<Method>JSON and serve<Method>Protobuf
    after the request has been decoded.  protojson
    refuses the same strings as proto.Marshal.  The handler never panics, so ensurePanicResponses does
    nothing; it never returns nil without an error. *)
Definition respond (pb : bool) (t : list byte) (r : resp) : hresp :=
  match r with
  | RespErr e => writeError (TRpc e)
  | _ => match marshal (resp_fields t r) with
         | None => writeError TMarshal
         | Some bs => mkHresp 200 (if pb then Protobuf bs else Json r)
         end
  end.

(** What the front end does with a request before any handler is called. *)
Inductive routed := Answer (h : hresp) | Call (pb : bool) (q : rpc).

(** comfo.twirp.go:1151-1219 (ServeHTTP) and serve<Method> up to the call, e.g. 1221-1259, 1322-1341.
    [unjson] is the JSON decoder.  Every method has its own copy of this code. *)
Definition dispatch (ulower : list byte -> list byte) (unjson : desc -> list byte -> option msg) (h : hreq) : routed :=
  if negb (beq (h_method h) (str "POST")) then Answer (writeError TBadRoute)
  else
    let '(prefix, pkgService, method) := parseTwirpPath (h_path h) in
    if negb (beq pkgService (str "comfo.api.Comfo")) then Answer (writeError TBadRoute)
    else if negb (beq prefix (str "/twirp")) then Answer (writeError TBadRoute)
    else match find_route method rt_routes with
         | None => Answer (writeError TBadRoute)
         | Some r =>
             match contentType ulower (h_ctype h) with
             | None => Answer (writeError TBadRoute)
             | Some pb =>
                 match (if pb then unmarshal (rt_desc r) (h_body h) else unjson (rt_desc r) (h_body h)) with
                 | None => Answer (writeError TMalformed)
                 | Some m => Call pb (rt_call r m)
                 end
             end
         end.

(** path.Clean on a rooted path, by its elements. *)
Fixpoint clean_ (stack ps : list (list byte)) : list (list byte) :=
  match ps with
  | [] => rev stack
  | p :: ps => if beq p [] || beq p (str ".") then clean_ stack ps
               else if beq p (str "..") then clean_ (tl stack) ps
               else clean_ (p :: stack) ps
  end.
(** gorilla/mux v1.8.1 cleanPath *)
Definition cleanPath (p : list byte) : list byte :=
  let p := match p with c :: _ => if c =? slash then p else slash :: p | [] => [slash] end in
  let np := slash :: join (clean_ [] (split p)) in
  if (last p 0 =? slash) && negb (beq np [slash]) then np ++ [slash] else np.
(** comfo.twirp.go:1149 *)
Definition ComfoPathPrefix : list byte := str "/twirp/comfo.api.Comfo/".
Fixpoint hasPrefix (p s : list byte) : bool :=
  match p, s with
  | [], _ => true
  | x :: p, y :: s => (x =? y) && hasPrefix p s
  | _, [] => false
  end.
(** routes.go:20-45: gorilla/mux redirects to the clean path, hands what begins with the prefix to Twirp
    and answers "not found" to the rest; the list of other routes is empty (routes.go:49). *)
Definition front (ulower : list byte -> list byte) (unjson : desc -> list byte -> option msg) (h : hreq) : routed :=
  if negb (beq (cleanPath (h_path h)) (h_path h)) then Answer (mkHresp 301 Text)
  else if hasPrefix ComfoPathPrefix (h_path h) then dispatch ulower unjson h
  else Answer (mkHresp 404 Text).

(** A whole request. *)
Definition serveHTTP (ulower : list byte -> list byte) (unjson : desc -> list byte -> option msg)
    (t : list byte) (h : hreq) : sproc hresp :=
  match front ulower unjson h with
  | Answer a => Ret a
  | Call pb q => do r <- handle q; Ret (respond pb t r)
  end.

(** ** The client side: comfo_twirp.py:92-181 and twirp.client.TwirpClient._make_request. *)
Definition rpc_name (q : rpc) : string :=
  match q with
  | GetBootInfo => "GetBootInfo" | GetTempsRPC => "GetTemps" | GetBypassRPC => "GetBypass" | GetFansRPC => "GetFans"
  | GetFanProfilesRPC => "GetFanProfiles" | GetErrorsRPC => "GetErrors" | SetFanSpeedR _ _ => "SetFanSpeed"
  | SetComfortTempR _ => "SetComfortTemp" | SetFanProfileR _ _ => "SetFanProfile" | FlushCacheR _ => "FlushCache"
  end.
Definition rpc_fields (q : rpc) : msg :=
  match q with
  | SetFanSpeedR a r => [(1, VInt a); (2, VBool r)]
  | SetComfortTempR t => [(1, VInt t)]
  | SetFanProfileR m t => [(1, VInt m); (2, VInt t)]
  | FlushCacheR c => [(1, VInt c)]
  | _ => []
  end.
(** [requests.post(address + url, data=request.SerializeToString(), headers={"Content-Type": ...})] *)
Definition post (q : rpc) : option hreq :=
  match marshal (rpc_fields q) with
  | Some b => Some (mkHreq (str "POST") (str ("/twirp/comfo.api.Comfo/" ++ rpc_name q)) (str "application/protobuf") b)
  | None => None
  end.

(** The reply types: their fields and how the message is read off them. *)
Definition u32s (l : list Z) : desc := map (fun n => (n, KUint32)) l.
Definition dModified : desc := [(1, KBool); (2, KUint32); (3, KUint32); (4, KString)].
Definition reply_desc (q : rpc) : desc :=
  match q with
  | GetBootInfo => u32s [1; 2; 3] ++ [(4, KString)]
  | GetBypassRPC => u32s [1; 2; 3] ++ [(4, KBool)]
  | GetErrorsRPC => [(1, KBool)]
  | GetFansRPC => u32s [1; 2; 3; 4]
  | GetFanProfilesRPC => u32s [1; 2; 3; 4] ++ [(5, KBool)] ++ u32s [6; 7; 8; 9; 10; 11; 12]
  | GetTempsRPC => map (fun n => (n, KFloat)) [1; 2; 3; 4; 5; 6; 7; 8]
  | FlushCacheR _ => [(1, KBool); (2, KString)]
  | _ => dModified
  end.
Definition read_resp (q : rpc) (m : msg) : resp :=
  let i n := getInt n m in let b n := getBool n m in let f n := f32_of_bits (getFloat n m) in
  match q with
  | GetBootInfo => RespBoot (mkPbBoot (i 1) (i 2) (i 3) (getStr 4 m))
  | GetBypassRPC => RespBypass (mkPbBypass (i 1) (i 2) (i 3) (b 4))
  | GetErrorsRPC => RespErrors (mkPbErrors (b 1))
  | GetFansRPC => RespFans (mkPbFans (i 1) (i 2) (i 3) (i 4))
  | GetFanProfilesRPC => RespProf (mkPbProf (i 1) (i 2) (i 3) (i 4) (b 5) (i 6) (i 7) (i 8) (i 9) (i 10) (i 11) (i 12))
  | GetTempsRPC => RespTemps (mkPbTemps (f 1) (f 2) (f 3) (f 4) (f 5) (f 6) (f 7) (f 8))
  | SetComfortTempR _ => RespComfort (b 1) (i 2) (i 3)
  | SetFanSpeedR _ _ => RespSpeed (b 1) (i 2) (i 3)
  | SetFanProfileR _ _ => RespProfile (b 1) (i 2) (i 3)
  | FlushCacheR _ => RespFlush (b 1)
  end.
(** What the stub makes of a response: a message, a TwirpServerException, another exception. *)
Inductive stubres := Got (r : resp) | Twirp (t : terr) | OtherExc.
Definition stub_result (q : rpc) (h : hresp) : stubres :=
  if r_status h =? 200 then
    match r_body h with
    | Protobuf bs => match unmarshal (reply_desc q) bs with Some m => Got (read_resp q m) | None => OtherExc end
    | _ => OtherExc
    end
  else match r_body h with ErrorJson t => Twirp t | _ => OtherExc end.
