(** Server hooks that panic, and statuses that net/http does not write: rpc/comfo/comfo.twirp.go:1151-1425 (and the copies
    for the other methods), 3095-3141, 3352-3380, 3543-3582 once more.  Only the call of the handler is inside
    ensurePanicResponses (1286-1289); a panic elsewhere ends ServeHTTP.  As in Hooks.v otherwise, whose [handler] and
    parameters are used; the hooks of the server there are not. *)
From Coq Require Import String.
From Verif Require Import GoBase Server Wire Twirp JsonWrite JsonError ErrorText Hooks.

(** Hooks; None: it panics. *)
Record phooks := mkPhooks {
  pk_received : option (ctx -> option (ctx * option goerr));
  pk_routed : option (ctx -> option (ctx * option goerr));
  pk_prepared : option (ctx -> option ctx);
  pk_sent : option (ctx -> option unit);
  pk_error : option (ctx -> gerror -> option ctx) }.
Definition no_phooks : phooks := mkPhooks None None None None None.
Definition phooks_of (p : option phooks) : phooks := match p with Some p => p | None => no_phooks end.

(** What has been done, and the result; None: a panic is on its way up. *)
Definition pbind {A B : Type} (x : list hevent * option A) (k : A -> list hevent * option B) : list hevent * option B :=
  match x with
  | (t, None) => (t, None)
  | (t, Some a) => let (t', r) := k a in (t ++ t', r)
  end.

(** 3543-3582 *)
Definition pReceived (p : option phooks) (c : ctx) : list hevent * option (ctx * option goerr) :=
  match pk_received (phooks_of p) with Some f => ([HReceived c], f c) | None => ([], Some (c, None)) end.
Definition pRouted (p : option phooks) (c : ctx) : list hevent * option (ctx * option goerr) :=
  match pk_routed (phooks_of p) with Some f => ([HRouted c], f c) | None => ([], Some (c, None)) end.
Definition pPrepared (p : option phooks) (c : ctx) : list hevent * option ctx :=
  match pk_prepared (phooks_of p) with Some f => ([HPrepared c], f c) | None => ([], Some c) end.
Definition pSent (p : option phooks) (c : ctx) : list hevent * option unit :=
  match pk_sent (phooks_of p) with Some f => ([HSent c], f c) | None => ([], Some tt) end.
Definition pError (p : option phooks) (c : ctx) (g : gerror) : list hevent * option ctx :=
  match pk_error (phooks_of p) with Some f => ([HError c g], f c g) | None => ([], Some c) end.

(** resp.WriteHeader and resp.Write, e.g. 1309-1310, 3119-3121; net/http's WriteHeader panics if the status has not three digits. *)
Definition pWrite (n : Z) (b : wbody) : list hevent * option unit :=
  if (n <? 100) || (999 <? n) then ([], None) else ([HWrite n b], Some tt).
(** 3105-3141 *)
Definition pWriteErr (p : option phooks) (c : ctx) (e : goerr) : list hevent * option unit :=
  let g := asTwirp e in
  let n := httpStatus (ge_code g) in
  pbind (pError p (SStatus n :: c) g) (fun c => pbind (pWrite n (WError g)) (fun _ => pSent p c)).

(** 1285-1318 and 1366-1396, with ensurePanicResponses 3352-3370: after the error is written and flushed the panic goes on. *)
Definition pFinish (p : option phooks) (s : server) (method : list byte) (pb : bool) (fails : option (Z * list byte)) (c : ctx) (q : rpc)
    : list hevent * option unit :=
  let (t, r) := handler s method c q in
  pbind (t, Some tt) (fun _ =>
    match r with
    | SPanic => pbind (pWriteErr p c (ETwirp (internalError (str "Internal service panic")))) (fun _ => ([HFlush], None))
    | SReturn _ (Some e) => pWriteErr p c e
    | SReturn None None => pWriteErr p c (ETwirp (internalError (str "received a nil *" ++ respType method ++ str " and nil error while calling " ++ method ++ str ". nil responses are not supported")))
    | SReturn (Some r) None =>
        pbind (pPrepared p c) (fun c =>
          match sv_enc s pb r with
          | inr text => pWriteErr p c (ETwirp (marshalError text pb))
          | inl bs =>
              let c := SStatus 200 :: c in
              pbind (pWrite 200 (WReply pb bs)) (fun _ =>
                match fails with
                | Some (n, text) => pbind (pError p c (mkGerror (str "unknown") (str "failed to write response, " ++ itoa n ++ str " of " ++
                                    itoa (len bs) ++ str " bytes written: " ++ text) [])) (fun c => pSent p c)
                | None => pSent p c
                end)
          end)
    end).
(** 1239-1259 and 1322-1341 *)
Definition pMethod (p : option phooks) (s : server) (unjson : desc -> list byte -> option msg) (r : route) (pb : bool)
    (fails : option (Z * list byte)) (c : ctx) (h : hreq) : list hevent * option unit :=
  pbind (pRouted p (SMethod (rt_name r) :: c)) (fun ce =>
    let (c, e) := ce : ctx * option goerr in
    match e with
    | Some e => pWriteErr p c e
    | None =>
        match (if pb then unmarshal (rt_desc r) (h_body h) else unjson (rt_desc r) (h_body h)) with
        | None => pWriteErr p c (ETwirp (malformedRequestError pb))
        | Some m => pFinish p s (rt_name r) pb fails c (rt_call r m)
        end
    end).
(** 1151-1236 *)
Definition pServe (p : option phooks) (s : server) (isPrint : Z -> bool) (ulower : list byte -> list byte) (unjson : desc -> list byte -> option msg)
    (fails : option (Z * list byte)) (c : ctx) (h : hreq) : list hevent * option unit :=
  let q := quote isPrint in
  pbind (pReceived p (SWriter :: SService (str "Comfo") :: SPackage (str "comfo.api") :: c)) (fun ce =>
    let (c, e) := ce : ctx * option goerr in
    match e with
    | Some e => pWriteErr p c e
    | None =>
        if negb (beq (h_method h) (str "POST")) then
          pWriteErr p c (ETwirp (badRouteError (str "unsupported method " ++ q (h_method h) ++ str " (only POST is allowed)") h))
        else
          let '(prefix, pkgService, method) := parseTwirpPath (h_path h) in
          let noHandler := ETwirp (badRouteError (str "no handler for path " ++ q (h_path h)) h) in
          if negb (beq pkgService (str "comfo.api.Comfo")) then pWriteErr p c noHandler
          else if negb (beq prefix (sv_prefix s)) then
            pWriteErr p c (ETwirp (badRouteError (str "invalid path prefix " ++ q prefix ++ str ", expected " ++ q (sv_prefix s) ++
              str ", on path " ++ q (h_path h)) h))
          else match find_route method rt_routes with
               | None => pWriteErr p c noHandler
               | Some r =>
                   match contentType ulower (h_ctype h) with
                   | None => pWriteErr p c (ETwirp (badRouteError (str "unexpected Content-Type: " ++ q (h_ctype h)) h))
                   | Some pb => pMethod p s unjson r pb fails c h
                   end
               end
    end).
(** All that is seen of a request; the panic leaves ServeHTTP. *)
Definition servePanicking (p : option phooks) (s : server) (isPrint : Z -> bool) (ulower : list byte -> list byte)
    (unjson : desc -> list byte -> option msg) (fails : option (Z * list byte)) (c : ctx) (h : hreq) : list hevent :=
  let (t, r) := pServe p s isPrint ulower unjson fails c h in
  t ++ match r with Some _ => [] | None => [HPanic] end.
(** 3095-3100: WriteError, for use outside of the server. *)
Definition writeErrorAlone (e : goerr) : list hevent :=
  let (t, r) := pWriteErr None [] e in t ++ match r with Some _ => [] | None => [HPanic] end.
