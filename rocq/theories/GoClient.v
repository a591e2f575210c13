(** Model of the generated Go client, rpc/comfo/comfo.twirp.go:60-575 (protobuf) with its helpers 3146-3175,
    3208-3221 and 3257-3483, and of the parts of net/url and net/http (Go 1.22) it needs.
    Not modelled: contexts (never cancelled), hooks, interceptors and custom headers (none by default), the texts
    and metadata of errors except "http_error_from_intermediary" and "status_code" (see ErrorText.v), TLS, redirect policies
    ([withoutRedirects], 3421-3434: no redirect is followed), escapes in URLs, user information, queries, fragments
    and IPv6 addresses: the URL functions are only meant for strings without the characters % @ ? # [ and without
    those that need escaping. *)
From Coq Require Import String Ascii.
From Verif Require Import GoBase GoStrings Proto Scanner Conn Proc Lib Server Client Wire Twirp.

(** ** net/url *)
Definition colon : byte := 58.
(** strings.Cut, strings.Contains for one byte. *)
Fixpoint cut (c : byte) (s : list byte) : list byte * list byte * bool :=
  match s with
  | [] => ([], [], false)
  | x :: r => if x =? c then ([], r, true) else let '(a, b, f) := cut c r in (x :: a, b, f)
  end.
Definition contains (c : byte) (s : list byte) : bool := existsb (Z.eqb c) s.
Definition isLetter (c : byte) : bool := ((97 <=? c) && (c <=? 122)) || ((65 <=? c) && (c <=? 90)).
Definition isDigit (c : byte) : bool := (48 <=? c) && (c <=? 57).

(** url.getScheme: [None] is the error "missing protocol scheme"; [n] counts the letters passed. *)
Fixpoint scheme_ (first : bool) (s : list byte) : option (option (list byte * list byte)) :=
  match s with
  | [] => Some None                                         (* no colon: no scheme *)
  | c :: r =>
      if isLetter c then
        match scheme_ false r with Some (Some (a, b)) => Some (Some (c :: a, b)) | x => x end
      else if isDigit c || (c =? 43) || (c =? 45) || (c =? 46) then      (* + - . *)
        if first then Some None
        else match scheme_ false r with Some (Some (a, b)) => Some (Some (c :: a, b)) | x => x end
      else if c =? colon then if first then None else Some (Some ([], r))
      else Some None
  end.
Definition getScheme (s : list byte) : option (list byte * list byte) :=
  match scheme_ true s with
  | None => None
  | Some None => Some ([], s)
  | Some (Some p) => Some p
  end.

Record url := mkUrl { u_scheme : list byte; u_opaque : list byte; u_host : list byte; u_path : list byte; u_omit : bool }.

(** url.validOptionalPort, url.parseHost (3 cases left out: see above).  shouldEscape(c, encodeHost) is false for
    the characters that may stand in a host. *)
Definition host_char (c : byte) : bool :=
  isLetter c || isDigit c || existsb (Z.eqb c) [45; 95; 46; 126; 33; 36; 38; 39; 40; 41; 42; 43; 44; 59; 61; 58; 91; 93; 60; 62; 34].
Definition validPort (s : list byte) : bool := forallb isDigit s.
(** What follows the last colon. *)
Fixpoint last_colon (s : list byte) : option (list byte) :=
  match s with
  | [] => None
  | c :: r => match last_colon r with
              | Some p => Some p
              | None => if c =? colon then Some r else None
              end
  end.
Definition parseHost (h : list byte) : bool :=
  match last_colon h with Some p => validPort p | None => true end && forallb (fun c => host_char c || (128 <=? c)) h.

(** url.parse: [None] is an error. *)
Definition parseUrl (s : list byte) : option url :=
  if existsb (fun c => (c <? 32) || (c =? 127)) s then None
  else match getScheme s with
       | None => None
       | Some (sch, rest) =>
           let sch := map lower1 sch in
           if negb (hasPrefix [slash] rest) then
             if negb (beq sch []) then Some (mkUrl sch rest [] [] false)
             else let '(seg, _, _) := cut slash rest in
                  if contains colon seg then None
                  else Some (mkUrl [] [] [] rest false)
           else if (negb (beq sch []) || negb (hasPrefix [slash; slash; slash] rest)) && hasPrefix [slash; slash] rest then
             let '(auth, after, found) := cut slash (skipn 2 rest) in
             if parseHost auth then Some (mkUrl sch [] auth (if found then slash :: after else []) false)
             else None
           else Some (mkUrl sch [] [] rest (negb (beq sch [])))
       end.

(** url.URL.String *)
Definition urlString (u : url) : list byte :=
  let s := if beq (u_scheme u) [] then [] else u_scheme u ++ [colon] in
  if negb (beq (u_opaque u) []) then s ++ u_opaque u
  else
    let s1 := if negb (beq (u_scheme u) []) || negb (beq (u_host u) []) then
                if u_omit u && beq (u_host u) [] then s
                else s ++ (if negb (beq (u_host u) []) || negb (beq (u_path u) []) then [slash; slash] else []) ++ u_host u
              else s in
    let s2 := if negb (beq (u_path u) []) && negb (hasPrefix [slash] (u_path u)) && negb (beq (u_host u) [])
              then s1 ++ [slash] else s1 in
    let s3 := if beq s2 [] && contains colon (fst (fst (cut slash (u_path u)))) then s2 ++ [46; slash] else s2 in
    s3 ++ u_path u.

(** ** comfo.twirp.go *)
(** 3146-3155 sanitizeBaseURL *)
Definition sanitizeBaseURL (base : list byte) : list byte :=
  match parseUrl base with
  | None => base
  | Some u => urlString (if beq (u_scheme u) [] then mkUrl (str "http") (u_opaque u) (u_host u) (u_path u) (u_omit u) else u)
  end.
(** 3165-3171 baseServicePath; path.Join drops empty elements, joins with slashes and cleans. *)
Definition baseServicePath (prefix pkg service : list byte) : list byte :=
  let full := if beq pkg [] then service else pkg ++ [46] ++ service in
  let elems := filter (fun e => negb (beq e [])) [[slash]; prefix; full] in
  slash :: join (clean_ [] (split (join elems))) ++ [slash].
(** 70-113 NewComfoProtobufClient: the ten URLs.  [prefix] is the option WithClientPathPrefix. *)
Definition client_urls (base : list byte) (prefix : option (list byte)) : list (list byte) :=
  let serviceURL := sanitizeBaseURL base ++
    baseServicePath (match prefix with Some p => p | None => str "/twirp" end) (str "comfo.api") (str "Comfo") in
  map (fun m => serviceURL ++ str m)
    ["GetBootInfo"; "GetTemps"; "GetBypass"; "GetFans"; "GetFanProfiles"; "GetErrors"; "SetFanSpeed"; "SetComfortTemp";
     "SetFanProfile"; "FlushCache"]%string.
(** 143, 189, 235, ..., 557: the URL used by each method. *)
Definition url_index (q : rpc) : nat :=
  match q with
  | GetBootInfo => 0 | GetTempsRPC => 1 | GetBypassRPC => 2 | GetFansRPC => 3 | GetFanProfilesRPC => 4
  | GetErrorsRPC => 5 | SetFanSpeedR _ _ => 6 | SetComfortTempR _ => 7 | SetFanProfileR _ _ => 8 | FlushCacheR _ => 9
  end.
Definition method_url (base : list byte) (prefix : option (list byte)) (q : rpc) : list byte :=
  nth (url_index q) (client_urls base prefix) [].

(** http.NewRequest and http.Client.Do, up to the sending of the request: the scheme has to be http or https,
    there has to be a host.  The server sees the path. *)
Inductive sending := NotSent | SentTo (scheme host : list byte) (h : hreq).
Definition newRequest (u ctype body : list byte) : sending :=
  match parseUrl u with
  | None => NotSent
  | Some u =>
      if negb (beq (u_scheme u) (str "http") || beq (u_scheme u) (str "https")) then NotSent
      else if beq (u_host u) [] then NotSent
      else SentTo (u_scheme u) (u_host u)
             (mkHreq (str "POST") (if beq (u_path u) [] then [slash] else u_path u) ctype body)
  end.
(** 3436-3459 doProtobufRequest, first half. *)
Definition go_send (base : list byte) (prefix : option (list byte)) (q : rpc) : sending :=
  match marshal (rpc_fields q) with
  | None => NotSent
  | Some b => newRequest (method_url base prefix q) (str "application/protobuf") b
  end.

(** A response, from the server or from anything in between: status, body, and what encoding/json makes of the
    body as a twerrJSON (3224-3228; unknown fields are errors): the field "code". *)
Record gresp := mkGresp { gr_status : Z; gr_body : list byte; gr_err : option (list byte) }.
(** twirp/errors.go: the codes; IsValidErrorCode. *)
Definition code_name (c : tcode) : list byte :=
  match c with
  | CInvalidArgument => str "invalid_argument"
  | CInternal => str "internal"
  | CMalformed => str "malformed"
  | CBadRoute => str "bad_route"
  end.
Definition isValidErrorCode (c : list byte) : bool :=
  existsb (fun s => beq c (str s))
    [""; "canceled"; "unknown"; "invalid_argument"; "malformed"; "deadline_exceeded"; "not_found"; "bad_route";
     "already_exists"; "permission_denied"; "unauthenticated"; "resource_exhausted"; "failed_precondition"; "aborted";
     "out_of_range"; "unimplemented"; "internal"; "unavailable"; "dataloss"]%string.
(** The response of the model of the server; the bodies of errors are looked at through [gr_err] only.
    Text ("404 page not found") is not the JSON of an error. *)
Definition of_server (h : hresp) : gresp :=
  match r_body h with
  | Protobuf bs => mkGresp (r_status h) bs None
  | ErrorJson t => mkGresp (r_status h) [] (Some (code_name (code_of t)))
  | Json _ | Text => mkGresp (r_status h) [] None
  end.

(** What a call returns: a message or a twirp.Error with its code; [Some status] if the metadata say that it
    came from an intermediary with that status. *)
Inductive gres := GGot (r : resp) | GErr (code : list byte) (inter : option Z).
(** 3334-3336 isHTTPRedirect *)
Definition isHTTPRedirect (s : Z) : bool := (s >=? 300) && (s <=? 399).
(** 3300-3332 twirpErrorFromIntermediary *)
Definition twirpErrorFromIntermediary (s : Z) : gres :=
  let code :=
    if isHTTPRedirect s then str "internal"
    else if s =? 400 then str "internal"
    else if s =? 401 then str "unauthenticated"
    else if s =? 403 then str "permission_denied"
    else if s =? 404 then str "bad_route"
    else if s =? 429 then str "resource_exhausted"
    else if (s =? 502) || (s =? 503) || (s =? 504) then str "unavailable"
    else str "unknown" in
  GErr code (Some s).
(** 3257-3295 errorFromResponse *)
Definition errorFromResponse (g : gresp) : gres :=
  if isHTTPRedirect (gr_status g) then twirpErrorFromIntermediary (gr_status g)
  else match gr_err g with
       | None => twirpErrorFromIntermediary (gr_status g)
       | Some c => if beq c [] then twirpErrorFromIntermediary (gr_status g)
                   else if negb (isValidErrorCode c) then GErr (str "internal") None
                   else GErr c None
       end.
(** 3460-3483 doProtobufRequest, second half, and call<Method> (e.g. 141-156). *)
Definition go_result (q : rpc) (g : gresp) : gres :=
  if negb (gr_status g =? 200) then errorFromResponse g
  else match unmarshal (reply_desc q) (gr_body g) with
       | Some m => GGot (read_resp q m)
       | None => GErr (str "internal") None
       end.

(** A call of the Go client against the server, alone, over a connection that works.  The server's write timeout
    makes client.Do fail. *)
Definition askGo (ulower : list byte -> list byte) (unjson : desc -> list byte -> option msg) (t : list byte)
    (base : list byte) (prefix : option (list byte)) (q : rpc) (w : world shared) : option gres * world shared :=
  match go_send base prefix q with
  | NotSent => (Some (GErr (str "internal") None), w)
  | SentTo _ _ h =>
      match run (serveHTTP ulower unjson t h) w with
      | (RDone a, w') =>
          (Some (if w_clk w' - w_clk w <? WriteTimeout then go_result q (of_server a) else GErr (str "internal") None), w')
      | (_, w') => (None, w')
      end
  end.
