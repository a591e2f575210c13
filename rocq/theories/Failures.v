(** What goes wrong between client and server: request and response bodies that break off, contexts that are done,
    connections that fail.  rpc/comfo/comfo.twirp.go:1132-1143, 1221-1259, 1322-1341 (and copies), 3257-3295, 3338-3349,
    3436-3540, and call<Method> (e.g. 141-156), with stream.go of encoding/json (Go 1.22).
    Not modelled: hooks, interceptors, custom headers (none by default). *)
From Coq Require Import String.
From Verif Require Import GoBase GoStrings Server Wire Twirp GoClient JsonScan JsonRead JsonWrite JsonError ErrorText.

(** context.Context.Err *)
Inductive ctxerr := Canceled | DeadlineExceeded.
Definition ctx_text (c : ctxerr) : list byte :=
  match c with Canceled => str "context canceled" | DeadlineExceeded => str "context deadline exceeded" end.

(** ** Request bodies that break off *)
(** stream.go readValue on a reader that returns these bytes and then an error other than io.EOF: only the end of an
    object or an array, or a byte after the value, ends a value. *)
Fixpoint readCut (st : sstate) (ps : list pstate) (b : list byte) : option (list byte) :=
  match b with
  | [] => None
  | c :: r =>
      match step st ps c with
      | (OEnd, _, _) => Some []
      | (OError, _, _) => None
      | (OEndObject, st', ps') | (OEndArray, st', ps') =>
          match ps' with
          | [] => Some [c]
          | _ => option_map (cons c) (readCut st' ps' r)
          end
      | (_, st', ps') => option_map (cons c) (readCut st' ps' r)
      end
  end.
Definition decodeCut (b : list byte) : option (list byte) := option_map skipSpace (readCut BeginValue [] b).

(** 1132-1143 handleRequestBodyError; [cx] is ctx.Err(). *)
Definition requestBodyError (cx : option ctxerr) (msg : list byte) : gerror :=
  match cx with
  | Some Canceled => mkGerror (str "canceled") (str "failed to read request: context canceled") []
  | Some DeadlineExceeded => mkGerror (str "deadline_exceeded") (str "failed to read request: deadline exceeded") []
  | None => mkGerror (str "malformed") msg []
  end.
(** As [dispatch], for a request of whose body only [h_body h] can be read. *)
Inductive incoming := Refused (g : gerror) | Passed (pb : bool) (q : rpc) | Elsewhere (a : hresp).
Definition dispatchCut (isPrint : Z -> bool) (ulower : list byte -> list byte) (cx : option ctxerr) (h : hreq) : incoming :=
  let q := quote isPrint in
  if negb (beq (h_method h) (str "POST")) then
    Refused (badRouteError (str "unsupported method " ++ q (h_method h) ++ str " (only POST is allowed)") h)
  else
    let '(prefix, pkgService, method) := parseTwirpPath (h_path h) in
    let noHandler := badRouteError (str "no handler for path " ++ q (h_path h)) h in
    if negb (beq pkgService (str "comfo.api.Comfo")) then Refused noHandler
    else if negb (beq prefix (str "/twirp")) then
      Refused (badRouteError (str "invalid path prefix " ++ q prefix ++ str ", expected " ++ q (str "/twirp") ++ str ", on path " ++ q (h_path h)) h)
    else match find_route method rt_routes with
         | None => Refused noHandler
         | Some r =>
             match contentType ulower (h_ctype h) with
             | None => Refused (badRouteError (str "unexpected Content-Type: " ++ q (h_ctype h)) h)
             | Some true => Refused (requestBodyError cx (str "failed to read request body"))
             | Some false =>
                 let bad := requestBodyError cx (str "the json request could not be decoded") in
                 match decodeCut (h_body h) with
                 | None => Refused bad
                 | Some raw =>
                     match unmarshalJSON (named (rt_desc r) (request_names (rt_desc r))) raw with
                     | None => Refused bad
                     | Some m => Passed false (rt_call r m)
                     end
                 end
             end
         end.
(** As [front]. *)
Definition frontCut (isPrint : Z -> bool) (ulower : list byte -> list byte) (cx : option ctxerr) (h : hreq) : incoming :=
  if negb (beq (cleanPath (h_path h)) (h_path h)) then Elsewhere (mkHresp 301 Text)
  else if hasPrefix ComfoPathPrefix (h_path h) then dispatchCut isPrint ulower cx h
  else Elsewhere (mkHresp 404 Text).

(** ** The Go clients *)
(** 3338-3349 *)
Definition wrapInternal (cause prefix : list byte) : gerror :=
  mkGerror (str "internal") (prefix ++ str ": " ++ cause) [(str "cause", str "*comfo.wrappedError")].
Definition aborted (c : ctxerr) : gerror := wrapInternal (ctx_text c) (str "aborted because context was done").
(** A response: [s_cut] is the error that reading its body ends with, after [s_body]. *)
Record response := mkResponse { s_status : Z; s_location : list byte; s_body : list byte; s_cut : option (list byte) }.
(** 3257-3295 errorFromResponse *)
Definition response_error (isPrint : Z -> bool) (statusText : Z -> list byte) (s : response) : gerror :=
  match s_cut s with
  | Some e => if isHTTPRedirect (s_status s) then error_of_response isPrint statusText (s_status s) (s_location s) (s_body s)
              else wrapInternal e (str "failed to read server error response body")
  | None => error_of_response isPrint statusText (s_status s) (s_location s) (s_body s)
  end.
Inductive callres := Returned (r : resp) | Failed (g : gerror).
(** client.Do: the error, or the response to the request it is given.  [refused]: what it says about a URL without a
    host or with another scheme. *)
Definition client_do := hreq -> list byte + response.
(** The texts of other packages' errors: of the marshaler, http.NewRequest, client.Do without a request, the unmarshaler. *)
Record texts := mkTexts { tx_marshal : list byte; tx_build : list byte; tx_refused : list byte; tx_unmarshal : list byte }.
(** newRequest and client.Do: the request that was sent, and what comes of it. *)
Definition send (tx : texts) (d : client_do) (url ctype body : list byte) : option hreq * (gerror + response) :=
  match parseUrl url with
  | None => (None, inl (wrapInternal (tx_build tx) (str "could not build request")))
  | Some _ =>
      match newRequest url ctype body with
      | NotSent => (None, inl (wrapInternal (tx_refused tx) (str "failed to do request")))
      | SentTo _ _ h =>
          (Some h, match d h with
                   | inl e => inl (wrapInternal e (str "failed to do request"))
                   | inr s => inr s
                   end)
      end
  end.
(** 3436-3483 doProtobufRequest and call<Method>; [cx1], [cx2], [cx3] are what ctx.Err() returns each time. *)
Definition callProtobuf (isPrint : Z -> bool) (statusText : Z -> list byte) (tx : texts) (d : client_do) (cx1 cx2 cx3 : option ctxerr)
    (base : list byte) (prefix : option (list byte)) (q : rpc) : option hreq * callres :=
  match marshal (rpc_fields q) with
  | None => (None, Failed (wrapInternal (tx_marshal tx) (str "failed to marshal proto request")))
  | Some b =>
      match cx1 with
      | Some c => (None, Failed (aborted c))
      | None =>
          let (sent, r) := send tx d (method_url base prefix q) (str "application/protobuf") b in
          (sent, match r with
                 | inl g => Failed g
                 | inr s =>
                     match cx2 with
                     | Some c => Failed (aborted c)
                     | None =>
                         if negb (s_status s =? 200) then Failed (response_error isPrint statusText s)
                         else match s_cut s with
                              | Some e => Failed (wrapInternal e (str "failed to read response body"))
                              | None =>
                                  match cx3 with
                                  | Some c => Failed (aborted c)
                                  | None =>
                                      match unmarshal (reply_desc q) (s_body s) with
                                      | None => Failed (wrapInternal (tx_unmarshal tx) (str "failed to unmarshal proto response"))
                                      | Some m => Returned (read_resp q m)
                                      end
                                  end
                              end
                     end
                 end)
      end
  end.
(** 3486-3540 doJSONRequest and call<Method>; [close] is the error of closing the body. *)
Definition callJson (isPrint : Z -> bool) (statusText : Z -> list byte) (tx : texts) (sp : bool) (d : client_do) (cx1 cx2 cx3 : option ctxerr)
    (close : option (list byte)) (base : list byte) (prefix : option (list byte)) (q : rpc) : option hreq * callres :=
  match request_json sp q with
  | None => (None, Failed (wrapInternal (tx_marshal tx) (str "failed to marshal json request")))
  | Some b =>
      match cx1 with
      | Some c => (None, Failed (aborted c))
      | None =>
          let (sent, r) := send tx d (method_url base prefix q) (str "application/json") b in
          (sent, match r with
                 | inl g => Failed g
                 | inr s =>
                     match cx2 with
                     | Some c => Failed (aborted c)
                     | None =>
                         let unreadable := Failed (wrapInternal (tx_unmarshal tx) (str "failed to unmarshal json response")) in
                         if negb (s_status s =? 200) then Failed (response_error isPrint statusText s)
                         else match (match s_cut s with Some _ => decodeCut (s_body s) | None => decodeRaw (s_body s) end) with
                              | None => unreadable
                              | Some raw =>
                                  match unmarshalJSON (named (reply_desc q) (reply_names q)) raw with
                                  | None => unreadable
                                  | Some m =>
                                      match cx3 with
                                      | Some c => Failed (aborted c)
                                      | None =>
                                          match close with
                                          | Some e => Failed (wrapInternal e (str "failed to close response body"))
                                          | None => Returned (read_resp q m)
                                          end
                                      end
                                  end
                              end
                     end
                 end)
      end
  end.
