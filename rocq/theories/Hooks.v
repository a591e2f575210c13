(** Server hooks and interceptors: rpc/comfo/comfo.twirp.go:1103-1425 (and the copies for the other methods), 3069-3141,
    3352-3396, 3543-3582.  The repository's own server has none (routes.go:26 passes nil); this is the rest of what
    NewComfoServer accepts.  Hooks, interceptors and the service are arbitrary; what they do besides is not modelled.
    Not modelled: the JSON options of twirp (the encoders are a field), request bodies that break off (Failures.v), hooks
    that panic and statuses that net/http does not write (HooksPanic.v). *)
From Coq Require Import String.
From Verif Require Import GoBase Server Wire Twirp JsonWrite JsonError ErrorText.

(** context.Context, as far as Twirp sets values in it (ctxsetters); the latest first. *)
Inductive setting := SPackage (s : list byte) | SService (s : list byte) | SWriter | SMethod (s : list byte) | SStatus (n : Z) | SOwn (k : Z).
Definition ctx := list setting.

(** A Go error: a twirp.Error, another one with its text and type, or one that wraps a twirp.Error. *)
Inductive goerr := ETwirp (g : gerror) | EPlain (text type : list byte) | EWrap (text type : list byte) (g : gerror).
(** twirp.InternalErrorWith, twirp.InternalError *)
Definition internalErrorWith (text type : list byte) : gerror := mkGerror (str "internal") text [(str "cause", type)].
Definition internalError (text : list byte) : gerror := mkGerror (str "internal") text [].
(** 3107-3110: errors.As looks through wrappers. *)
Definition asTwirp (e : goerr) : gerror := match e with ETwirp g | EWrap _ _ g => g | EPlain t ty => internalErrorWith t ty end.

(** twirp.ServerHTTPStatusFromErrorCode (twirp v8.1.3); codes that are none of Twirp's get 0. *)
Definition httpStatus (code : list byte) : Z :=
  let is := beq code in
  if is (str "canceled") || is (str "deadline_exceeded") then 408
  else if is (str "unknown") || is (str "internal") || is (str "dataloss") then 500
  else if is (str "invalid_argument") || is (str "malformed") || is (str "out_of_range") then 400
  else if is (str "not_found") || is (str "bad_route") then 404
  else if is (str "already_exists") || is (str "aborted") then 409
  else if is (str "permission_denied") then 403
  else if is (str "unauthenticated") then 401
  else if is (str "resource_exhausted") then 429
  else if is (str "failed_precondition") then 412
  else if is (str "unimplemented") then 501
  else if is (str "unavailable") then 503
  else if is (str "") then 200
  else 0.

(** Request messages. *)
Inductive gomsg := MNoop | MSpeed (abs : Z) (rel : bool) | MComfort (t : Z) | MProfile (m t : Z) | MFlush (c : Z).
Definition message_of (q : rpc) : gomsg :=
  match q with
  | SetFanSpeedR a r => MSpeed a r | SetComfortTempR t => MComfort t | SetFanProfileR m t => MProfile m t | FlushCacheR c => MFlush c
  | _ => MNoop
  end.
(** [req.(T)] for the request type of the method, and the call it then is; e.g. 1270-1274. *)
Definition typedReq (method : list byte) (m : gomsg) : option rpc :=
  let is := beq method in
  match m with
  | MNoop =>
      if is (str "GetBootInfo") then Some GetBootInfo else if is (str "GetTemps") then Some GetTempsRPC else if is (str "GetBypass") then Some GetBypassRPC
      else if is (str "GetFans") then Some GetFansRPC else if is (str "GetFanProfiles") then Some GetFanProfilesRPC
      else if is (str "GetErrors") then Some GetErrorsRPC else None
  | MSpeed a r => if is (str "SetFanSpeed") then Some (SetFanSpeedR a r) else None
  | MComfort t => if is (str "SetComfortTemp") then Some (SetComfortTempR t) else None
  | MProfile a t => if is (str "SetFanProfile") then Some (SetFanProfileR a t) else None
  | MFlush c => if is (str "FlushCache") then Some (FlushCacheR c) else None
  end.
(** The request and reply types of the methods (comfo.proto:8-22). *)
Definition reqType (method : list byte) : list byte :=
  let is := beq method in
  if is (str "SetFanSpeed") then str "FanSpeedTarget" else if is (str "SetComfortTemp") then str "ComfortTarget"
  else if is (str "SetFanProfile") then str "FanProfileTarget" else if is (str "FlushCache") then str "FlushCacheRequest"
  else str "Noop".
Definition respType (method : list byte) : list byte :=
  let is := beq method in
  if is (str "GetBootInfo") then str "BootInfo" else if is (str "GetTemps") then str "Temps"
  else if is (str "GetBypass") then str "Bypass" else if is (str "GetFans") then str "Fans"
  else if is (str "GetFanProfiles") then str "FanProfiles" else if is (str "GetErrors") then str "Errors"
  else if is (str "SetFanSpeed") then str "FanSpeedModified" else if is (str "SetComfortTemp") then str "ComfortModified"
  else if is (str "SetFanProfile") then str "FanProfileModified" else str "FlushCacheResponse".
Definition type_of (r : resp) : list byte :=
  match r with
  | RespBoot _ => str "BootInfo" | RespBypass _ => str "Bypass" | RespTemps _ => str "Temps" | RespFans _ => str "Fans"
  | RespProf _ => str "FanProfiles" | RespErrors _ => str "Errors" | RespComfort _ _ _ => str "ComfortModified"
  | RespSpeed _ _ _ => str "FanSpeedModified" | RespProfile _ _ _ => str "FanProfileModified"
  | RespFlush _ => str "FlushCacheResponse" | RespErr _ => []
  end.
(** Values of type interface{}: nil, a request, a nil pointer or a pointer to a reply, anything else.  (No nil pointers
    to requests.) *)
Inductive any := ANil | ARequest (m : gomsg) | ANilReply (type : list byte) | AReply (r : resp) | AOther.

(** What the service does with a call: a pointer (nil or to a reply) and an error, or it panics. *)
Inductive sres := SReturn (r : option resp) (e : option goerr) | SPanic.
(** The code of an interceptor around [next]: it returns, calls next with some context and request, or panics.  A panic
    in next passes through it ([k None]: deferred functions run) and may be recovered. *)
Inductive icode :=
| IReturn (v : any) (e : option goerr)
| INext (c : ctx) (v : any) (k : option (any * option goerr) -> icode)
| IPanic.

Record hooks := mkHooks {
  hk_received : option (ctx -> ctx * option goerr);
  hk_routed : option (ctx -> ctx * option goerr);
  hk_prepared : option (ctx -> ctx);
  hk_sent : option (ctx -> unit);
  hk_error : option (ctx -> gerror -> ctx) }.
Definition no_hooks : hooks := mkHooks None None None None None.
(** 92: the server; the service is told how often it has been called for this request.  [sv_enc]: the encoders of
    replies (true: protobuf), or their error. *)
Record server := mkSrv {
  sv_hooks : option hooks;
  sv_icpt : option (ctx -> any -> icode);
  sv_prefix : list byte;
  sv_svc : nat -> ctx -> rpc -> sres;
  sv_enc : bool -> resp -> list byte + list byte }.

(** What is seen of the server's work: calls of hooks and of the service, and what is written. *)
Inductive wbody := WReply (pb : bool) (bs : list byte) | WError (g : gerror).
Inductive hevent :=
| HReceived (c : ctx) | HRouted (c : ctx) | HPrepared (c : ctx) | HError (c : ctx) (g : gerror) | HSent (c : ctx)
| HCall (c : ctx) (q : rpc) | HWrite (status : Z) (b : wbody) | HFlush | HPanic.

(** 3543-3582 *)
Definition hooks_of (s : server) : hooks := match sv_hooks s with Some h => h | None => no_hooks end.
Definition callRequestReceived (s : server) (c : ctx) : list hevent * (ctx * option goerr) :=
  match hk_received (hooks_of s) with Some f => ([HReceived c], f c) | None => ([], (c, None)) end.
Definition callRequestRouted (s : server) (c : ctx) : list hevent * (ctx * option goerr) :=
  match hk_routed (hooks_of s) with Some f => ([HRouted c], f c) | None => ([], (c, None)) end.
Definition callResponsePrepared (s : server) (c : ctx) : list hevent * ctx :=
  match hk_prepared (hooks_of s) with Some f => ([HPrepared c], f c) | None => ([], c) end.
Definition callResponseSent (s : server) (c : ctx) : list hevent :=
  match hk_sent (hooks_of s) with Some _ => [HSent c] | None => [] end.
Definition callError (s : server) (c : ctx) (g : gerror) : list hevent * ctx :=
  match hk_error (hooks_of s) with Some f => ([HError c g], f c g) | None => ([], c) end.

(** 3095-3141; that the write of an error fails is ignored. *)
Definition writeErr (s : server) (c : ctx) (e : goerr) : list hevent :=
  let g := asTwirp e in
  let n := httpStatus (ge_code g) in
  let (t, c) := callError s (SStatus n :: c) g in
  t ++ HWrite n (WError g) :: callResponseSent s c.

(** 1266-1281: the function handed to the interceptor.  [n]: calls of the service so far. *)
Definition assertion (x type : list byte) : goerr :=
  ETwirp (internalError (str "failed type assertion " ++ x ++ str ".(*" ++ type ++ str ") when calling interceptor")).
Definition nextMethod (s : server) (method : list byte) (n : nat) (c : ctx) (v : any) : list hevent * nat * option (any * option goerr) :=
  match (match v with ARequest m => typedReq method m | _ => None end) with
  | None => ([], n, Some (ANil, Some (assertion (str "req") (reqType method))))
  | Some q => ([HCall c q], S n, match sv_svc s n c q with
                                 | SReturn (Some r) e => Some (AReply r, e)
                                 | SReturn None e => Some (ANilReply (respType method), e)
                                 | SPanic => None
                                 end)
  end.
Fixpoint runInterceptor (s : server) (method : list byte) (n : nat) (i : icode) : list hevent * option (any * option goerr) :=
  match i with
  | IReturn v e => ([], Some (v, e))
  | INext c v k =>
      let '(t, n', r) := nextMethod s method n c v in
      let (t', x) := runInterceptor s method n' (k r) in (t ++ t', x)
  | IPanic => ([], None)
  end.
(** 1263-1288: [handler(ctx, reqContent)]. *)
Definition handler (s : server) (method : list byte) (c : ctx) (q : rpc) : list hevent * sres :=
  match sv_icpt s with
  | None => ([HCall c q], sv_svc s 0 c q)
  | Some f =>
      let wrong := SReturn None (Some (assertion (str "resp") (respType method))) in
      match runInterceptor s method 0 (f c (ARequest (message_of q))) with
      | (t, None) => (t, SPanic)
      | (t, Some (ANil, e)) => (t, SReturn None e)
      | (t, Some (ANilReply ty, e)) => if beq ty (respType method) then (t, SReturn None e) else (t, wrong)
      | (t, Some (AReply r, e)) => if beq (type_of r) (respType method) then (t, SReturn (Some r) e) else (t, wrong)
      | (t, Some (_, _)) => (t, wrong)
      end
  end.

(** 1291-1318 and 1368-1396, with ensurePanicResponses 3352-3370.  [fails]: the write of the reply fails, after so many bytes
    and with this text. *)
Definition finish (s : server) (method : list byte) (pb : bool) (fails : option (Z * list byte)) (c : ctx) (q : rpc) : list hevent :=
  let (t, r) := handler s method c q in
  t ++ match r with
       | SPanic => writeErr s c (ETwirp (internalError (str "Internal service panic"))) ++ [HFlush; HPanic]
       | SReturn _ (Some e) => writeErr s c e
       | SReturn None None => writeErr s c (ETwirp (internalError (str "received a nil *" ++ respType method ++ str " and nil error while calling " ++ method ++ str ". nil responses are not supported")))
       | SReturn (Some r) None =>
           let (t, c) := callResponsePrepared s c in
           t ++ match sv_enc s pb r with
                | inr text => writeErr s c (ETwirp (marshalError text pb))
                | inl bs =>
                    let c := SStatus 200 :: c in
                    HWrite 200 (WReply pb bs) ::
                    match fails with
                    | Some (n, text) => let (t, c) := callError s c (mkGerror (str "unknown") (str "failed to write response, " ++ itoa n ++ str " of " ++
                                        itoa (len bs) ++ str " bytes written: " ++ text) []) in t ++ callResponseSent s c
                    | None => callResponseSent s c
                    end
                end
       end.
(** 1239-1259 and 1322-1341: up to the call. *)
Definition serveMethod (s : server) (unjson : desc -> list byte -> option msg) (r : route) (pb : bool) (fails : option (Z * list byte))
    (c : ctx) (h : hreq) : list hevent :=
  let '(t, (c, e)) := callRequestRouted s (SMethod (rt_name r) :: c) in
  t ++ match e with
       | Some e => writeErr s c e
       | None =>
           match (if pb then unmarshal (rt_desc r) (h_body h) else unjson (rt_desc r) (h_body h)) with
           | None => writeErr s c (ETwirp (malformedRequestError pb))
           | Some m => finish s (rt_name r) pb fails c (rt_call r m)
           end
       end.
(** 1151-1236 *)
Definition serveHooked (s : server) (isPrint : Z -> bool) (ulower : list byte -> list byte) (unjson : desc -> list byte -> option msg)
    (fails : option (Z * list byte)) (c : ctx) (h : hreq) : list hevent :=
  let q := quote isPrint in
  let '(t, (c, e)) := callRequestReceived s (SWriter :: SService (str "Comfo") :: SPackage (str "comfo.api") :: c) in
  t ++ match e with
       | Some e => writeErr s c e
       | None =>
           if negb (beq (h_method h) (str "POST")) then
             writeErr s c (ETwirp (badRouteError (str "unsupported method " ++ q (h_method h) ++ str " (only POST is allowed)") h))
           else
             let '(prefix, pkgService, method) := parseTwirpPath (h_path h) in
             let noHandler := ETwirp (badRouteError (str "no handler for path " ++ q (h_path h)) h) in
             if negb (beq pkgService (str "comfo.api.Comfo")) then writeErr s c noHandler
             else if negb (beq prefix (sv_prefix s)) then
               writeErr s c (ETwirp (badRouteError (str "invalid path prefix " ++ q prefix ++ str ", expected " ++ q (sv_prefix s) ++
                 str ", on path " ++ q (h_path h)) h))
             else match find_route method rt_routes with
                  | None => writeErr s c noHandler
                  | Some r =>
                      match contentType ulower (h_ctype h) with
                      | None => writeErr s c (ETwirp (badRouteError (str "unexpected Content-Type: " ++ q (h_ctype h)) h))
                      | Some pb => serveMethod s unjson r pb fails c h
                      end
                  end
       end.
