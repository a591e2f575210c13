(** What errors say: libcomfo/errors.go, comfoserver/errors.go, the errors made by comfoserver/server.go and helpers.go,
    those of the generated server (rpc/comfo/comfo.twirp.go), and what the generated Go client makes of them, with
    twirp/errors.go (v8.1.3): NewError, WithMeta, InvalidArgumentError, InternalError, InternalErrorWith.
    Parameters: the texts and types of the errors of the connection ([io], [ioType]) and of proto.Marshal ([mtext]),
    strconv.IsPrint beyond ASCII ([isPrint]), http.StatusText. *)
From Coq Require Import String.
From Verif Require Import GoBase GoStrings Server Wire Twirp GoClient JsonWrite JsonError.

(** libcomfo/errors.go:5-23 *)
Definition err_text (io : Z -> list byte) (e : err) : list byte :=
  match e with
  | ErrPktLen => str "unexpected packet length"
  | ErrPayloadSize => str "detected payload size larger than packet allows"
  | ErrVerifyChecksum => str "error verifying checksum of the payload"
  | ErrTooShort => str "input was too short"
  | ErrTooLong => str "input was too long"
  | ErrTimeout => str "operation timed out"
  | ErrScanInput => str "unexpected input while scanning for token"
  | ErrAck => str "error writing ACK to connection"
  | ErrInvalidResponse => str "unexpected response type"
  | ErrTooHigh => str "value too high"
  | ErrTooLow => str "value is too low"
  | ErrRequestType => str "unknown request type"
  | ErrResponseType => str "unknown response type"
  | ErrDecodeNil => str "attempting to decode nil Packet"
  | ErrZeroValue => str "unexpected zero value (risk of dividing by zero)"
  | ErrNotExist => str "item does not exist"
  | ErrUnknownMode => str "unknown speed mode"
  | ErrIO n => io n
  end.
(** comfoserver/errors.go:6 *)
Definition srv_text (io : Z -> list byte) (e : srv_err) : list byte :=
  match e with
  | LibErr e => err_text io e
  | ErrSetPollFailed => str "failure polling result after set operation"
  end.
(** fmt's %T of an error: errors.New makes an *errors.errorString. *)
Definition srv_type (ioType : Z -> list byte) (e : srv_err) : list byte :=
  match e with
  | LibErr (ErrIO n) => ioType n
  | _ => str "*errors.errorString"
  end.

(** helpers.go:22, 37; server.go:80, 172, 186; comfoserver/errors.go:7: the argument and what is said of it. *)
Definition arg_name (a : arg) : list byte :=
  match a with
  | ArgAbsRel => str "Abs/Rel" | ArgFanSpeed _ => str "FanSpeed" | ArgComfortTemp => str "ComfortTemp"
  | ArgMode => str "Mode" | ArgTargetSpeed => str "TargetSpeed"
  end.
Definition arg_text (a : arg) : list byte :=
  match a with
  | ArgAbsRel => str "Abs and Rel are mutually exclusive"
  | ArgFanSpeed v => str "value '" ++ itoa v ++ str "' out of range"
  | ArgComfortTemp => str "is too large"
  | ArgMode => str "(profile) out of range, expected 1-4"
  | ArgTargetSpeed => str "out of range, expected 15-100 (percentage)"
  end.
(** twirp.InvalidArgumentError; twirp.InternalError, but InternalErrorWith in SetFanProfile (server.go:91, 138, 144, 215). *)
Definition rpc_error (io ioType : Z -> list byte) (q : rpc) (e : rpc_err) : gerror :=
  match e with
  | InvalidArgument a => mkGerror (str "invalid_argument") (arg_name a ++ 32 :: arg_text a) [(str "argument", arg_name a)]
  | Internal e =>
      mkGerror (str "internal") (srv_text io e)
        (match q with SetFanProfileR _ _ => [(str "cause", srv_type ioType e)] | _ => [] end)
  end.

(** ** strconv.Quote (Go 1.22), which fmt's %q uses *)
(** The last [n] hexadecimal digits. *)
Fixpoint hexes (n : nat) (r : Z) : list byte :=
  match n with
  | O => []
  | S n => hexes n (r / 16) ++ [hexlow (r mod 16)]
  end.
Definition printable (isPrint : Z -> bool) (r : Z) : bool := if r <? 128 then (32 <=? r) && (r <? 127) else isPrint r.
(** appendEscapedRune for a double quote, with neither ASCIIonly nor graphicOnly. *)
Definition escapedRune (isPrint : Z -> bool) (r : Z) (bs : list byte) : list byte :=
  if (r =? 34) || (r =? 92) then [92; r]
  else if printable isPrint r then bs
  else if r =? 7 then [92; 97]
  else if r =? 8 then [92; 98]
  else if r =? 12 then [92; 102]
  else if r =? 10 then [92; 110]
  else if r =? 13 then [92; 114]
  else if r =? 9 then [92; 116]
  else if r =? 11 then [92; 118]
  else if (r <? 32) || (r =? 127) then 92 :: 120 :: hexes 2 r
  else if r <? 65536 then 92 :: 117 :: hexes 4 r
  else 92 :: 85 :: hexes 8 r.
Fixpoint quote_ (isPrint : Z -> bool) (fuel : nat) (s : list byte) : list byte :=
  match fuel, s with
  | O, _ | _, [] => []
  | S f, b :: _ =>
      let (r, w) := if b <? 128 then (b, 1%nat) else decodeRune s in
      (if Nat.eqb w 1 && (r =? runeError) then 92 :: 120 :: hexes 2 b else escapedRune isPrint r (firstn w s)) ++
      quote_ isPrint f (skipn w s)
  end.
Definition quote (isPrint : Z -> bool) (s : list byte) : list byte := 34 :: quote_ isPrint (List.length s) s ++ [34].

(** ** The generated server *)
(** 3405-3409 badRouteError *)
Definition badRouteError (msg : list byte) (h : hreq) : gerror :=
  mkGerror (str "bad_route") msg [(str "twirp_invalid_route", h_method h ++ 32 :: h_path h)].
(** 1133-1143, 1251, 1257, 1338, 3400-3402: the request cannot be decoded.  ReadAll does not fail, and no context is
    cancelled. *)
Definition malformedRequestError (pb : bool) : gerror :=
  mkGerror (str "malformed") (if pb then str "the protobuf request could not be decoded" else str "the json request could not be decoded") [].
(** 1305, 1385, 3340-3349 *)
Definition marshalError (mtext : list byte) (pb : bool) : gerror :=
  mkGerror (str "internal")
    ((if pb then str "failed to marshal proto response" else str "failed to marshal json response") ++ str ": " ++ mtext)
    [(str "cause", str "*comfo.wrappedError")].
(** 1165-1219 and 1221-1236, as [dispatch]: the error for a request that is not handed to a handler. *)
Definition refusal_error (isPrint : Z -> bool) (ulower : list byte -> list byte) (unjson : desc -> list byte -> option msg)
    (h : hreq) : option gerror :=
  let q := quote isPrint in
  if negb (beq (h_method h) (str "POST")) then
    Some (badRouteError (str "unsupported method " ++ q (h_method h) ++ str " (only POST is allowed)") h)
  else
    let '(prefix, pkgService, method) := parseTwirpPath (h_path h) in
    let noHandler := badRouteError (str "no handler for path " ++ q (h_path h)) h in
    if negb (beq pkgService (str "comfo.api.Comfo")) then Some noHandler
    else if negb (beq prefix (str "/twirp")) then
      Some (badRouteError (str "invalid path prefix " ++ q prefix ++ str ", expected " ++ q (str "/twirp") ++ str ", on path " ++ q (h_path h)) h)
    else match find_route method rt_routes with
         | None => Some noHandler
         | Some r =>
             match contentType ulower (h_ctype h) with
             | None => Some (badRouteError (str "unexpected Content-Type: " ++ q (h_ctype h)) h)
             | Some pb =>
                 match (if pb then unmarshal (rt_desc r) (h_body h) else unjson (rt_desc r) (h_body h)) with
                 | None => Some (malformedRequestError pb)
                 | Some _ => None
                 end
             end
         end.
(** As [respond]: the error instead of a reply. *)
Definition reply_error (io ioType : Z -> list byte) (mtext : list byte) (pb : bool) (t : list byte) (q : rpc) (r : resp) : option gerror :=
  match r with
  | RespErr e => Some (rpc_error io ioType q e)
  | _ => match marshal (resp_fields t r) with
         | None => Some (marshalError mtext pb)
         | Some _ => None
         end
  end.
(** 3105-3121 writeError: status (twirp.ServerHTTPStatusFromErrorCode, for the codes the server uses) and body. *)
Definition http_status (code : list byte) : Z :=
  if beq code (str "bad_route") then 404
  else if beq code (str "internal") then 500
  else if beq code (str "canceled") || beq code (str "deadline_exceeded") then 408
  else 400.
Definition error_response (e : gerror) : Z * list byte := (http_status (ge_code e), marshalErrorToJSON e).

(** ** The generated client *)
(** 3300-3332 twirpErrorFromIntermediary *)
Definition intermediaryError (status : Z) (msg bodyOrLocation : list byte) : gerror :=
  let code := match twirpErrorFromIntermediary status with GErr c _ => c | GGot _ => [] end in
  mkGerror code msg
    [(str "http_error_from_intermediary", str "true"); (str "status_code", itoa status);
     (if isHTTPRedirect status then str "location" else str "body", bodyOrLocation)].
(** 3257-3295 errorFromResponse, with messages and metadata. *)
Definition error_of_response (isPrint : Z -> bool) (statusText : Z -> list byte) (status : Z) (location body : list byte) : gerror :=
  let st := itoa status ++ 32 :: quote isPrint (statusText status) in
  if isHTTPRedirect status then
    intermediaryError status (str "unexpected HTTP status code " ++ st ++ str " received, Location=" ++ quote isPrint location) location
  else
    match decodeError body with
    | Some e =>
        if beq (ge_code e) [] then intermediaryError status (str "Error from intermediary with HTTP status code " ++ st) body
        else if negb (isValidErrorCode (ge_code e)) then
          mkGerror (str "internal") (str "invalid type returned from server error response: " ++ ge_code e) [(str "body", body)]
        else e
    | None => intermediaryError status (str "Error from intermediary with HTTP status code " ++ st) body
    end.

(** What the Go client returns for the server's error [g], over a connection that works. *)
Definition client_error (isPrint : Z -> bool) (statusText : Z -> list byte) (g : gerror) : gerror :=
  let (status, body) := error_response g in error_of_response isPrint statusText status [] body.
