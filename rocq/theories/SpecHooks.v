(** Words for the statements about server hooks and interceptors. *)
From Coq Require Import String.
From Verif Require SpecErrorText.
From Verif Require Import GoBase Server Wire Twirp JsonWrite JsonError ErrorText Hooks.

(** The statuses of Twirp's error codes. *)
Definition statuses : list (list byte * Z) :=
  [(str "canceled", 408); (str "unknown", 500); (str "invalid_argument", 400); (str "malformed", 400); (str "deadline_exceeded", 408);
   (str "not_found", 404); (str "bad_route", 404); (str "already_exists", 409); (str "permission_denied", 403);
   (str "unauthenticated", 401); (str "resource_exhausted", 429); (str "failed_precondition", 412); (str "aborted", 409);
   (str "out_of_range", 400); (str "unimplemented", 501); (str "internal", 500); (str "unavailable", 503); (str "dataloss", 500);
   ([], 200)].
Definition status_for (g : gerror) : Z :=
  match find (fun p => beq (ge_code g) (fst p)) statuses with Some (_, n) => n | None => 0 end.

(** An error is handled: the Error hook sees it, with the status in its context; it is written; ResponseSent. *)
Inductive failure : list hevent -> Prop :=
| Failure c g c' :
    failure [HError (SStatus (status_for g) :: c) g; HWrite (status_for g) (WError g); HSent c'].
Definition all_calls (l : list hevent) : Prop := Forall (fun e => exists c q, e = HCall c q) l.
(** What is said of a reply that could not be written, of which [n] bytes were. *)
Definition unwritten (fails : option (Z * list byte)) (bs : list byte) (g : gerror) : Prop :=
  exists n text dn dl, fails = Some (n, text) /\ (0 <= n -> SpecErrorText.decimal dn n) /\ SpecErrorText.decimal dl (len bs) /\
    g = mkGerror (str "unknown") (str "failed to write response, " ++ dn ++ str " of " ++ dl ++ str " bytes written: " ++ text) [].
(** The life of a request, if all hooks are set; [fails]: how the write of a reply fails. *)
Inductive lifecycle (fails : option (Z * list byte)) : list hevent -> Prop :=
| Refused c f : failure f -> lifecycle fails (HReceived c :: f)
| Failed c c1 calls f : all_calls calls -> failure f -> lifecycle fails (HReceived c :: HRouted c1 :: calls ++ f)
| Panicked c c1 calls f : all_calls calls -> failure f -> lifecycle fails (HReceived c :: HRouted c1 :: calls ++ f ++ [HFlush; HPanic])
| Unencoded c c1 calls c2 f : all_calls calls -> failure f -> lifecycle fails (HReceived c :: HRouted c1 :: calls ++ HPrepared c2 :: f)
| Served c c1 calls c2 pb bs c3 : all_calls calls -> fails = None ->
    lifecycle fails (HReceived c :: HRouted c1 :: calls ++ [HPrepared c2; HWrite 200 (WReply pb bs); HSent (SStatus 200 :: c3)])
| Unsent c c1 calls c2 pb bs c3 g c4 : all_calls calls -> unwritten fails bs g ->
    lifecycle fails (HReceived c :: HRouted c1 :: calls ++ [HPrepared c2; HWrite 200 (WReply pb bs); HError (SStatus 200 :: c3) g; HSent c4]).

(** The hooks that are set. *)
Definition set_ {A : Type} (o : option A) : bool := match o with Some _ => true | None => false end.
Definition shown (hk : option hooks) (e : hevent) : bool :=
  match hk, e with
  | None, (HReceived _ | HRouted _ | HPrepared _ | HError _ _ | HSent _) => false
  | Some h, HReceived _ => set_ (hk_received h)
  | Some h, HRouted _ => set_ (hk_routed h)
  | Some h, HPrepared _ => set_ (hk_prepared h)
  | Some h, HError _ _ => set_ (hk_error h)
  | Some h, HSent _ => set_ (hk_sent h)
  | _, _ => true
  end.
(** What is seen without looking at the hooks: calls and what is written. *)
Definition outward (e : hevent) : bool := match e with HCall _ _ | HWrite _ _ | HFlush | HPanic => true | _ => false end.
(** Calls of the service. *)
Definition is_hcall (e : hevent) : bool := match e with HCall _ _ => true | _ => false end.

(** What a hook that may refuse does with a context, if it is set. *)
Definition lets_through (hk : option hooks) (f : hooks -> option (ctx -> ctx * option goerr)) (c c' : ctx) : Prop :=
  match hk with
  | Some h => match f h with Some k => k c = (c', None) | None => c' = c end
  | None => c' = c
  end.
Definition refuses (hk : option hooks) (f : hooks -> option (ctx -> ctx * option goerr)) (c : ctx) (e : goerr) : Prop :=
  exists h k c', hk = Some h /\ f h = Some k /\ k c = (c', Some e).
(** The contexts the first two hooks are given. *)
Definition arrival (c : ctx) : ctx := SWriter :: SService (str "Comfo") :: SPackage (str "comfo.api") :: c.
(** Errors as they are written. *)
Definition written_as (e : goerr) : gerror :=
  match e with ETwirp g | EWrap _ _ g => g | EPlain text type => mkGerror (str "internal") text [(str "cause", type)] end.
(** Where a request leads: the method, and whether it is protobuf. *)
Definition addresses (prefix : list byte) (ulower : list byte -> list byte) (h : hreq) (r : route) (pb : bool) : Prop :=
  h_method h = str "POST" /\
  (h_path h = prefix ++ str "/comfo.api.Comfo/" ++ rt_name r \/
   prefix = [] /\ h_path h = str "comfo.api.Comfo/" ++ rt_name r) /\
  In r rt_routes /\
  contentType ulower (h_ctype h) = Some pb.
Definition decodes (unjson : desc -> list byte -> option msg) (h : hreq) (r : route) (pb : bool) (q : rpc) : Prop :=
  exists m, (if pb then unmarshal (rt_desc r) (h_body h) else unjson (rt_desc r) (h_body h)) = Some m /\ q = rt_call r m.

(** The message types by the methods, and that a service keeps to them (Go's type checker sees to it). *)
Definition replies_to (q : rpc) (r : resp) : bool :=
  match q, r with
  | GetBootInfo, RespBoot _ | GetBypassRPC, RespBypass _ | GetErrorsRPC, RespErrors _ | GetFansRPC, RespFans _
  | GetFanProfilesRPC, RespProf _ | GetTempsRPC, RespTemps _ | SetComfortTempR _, RespComfort _ _ _
  | SetFanSpeedR _ _, RespSpeed _ _ _ | SetFanProfileR _ _, RespProfile _ _ _ | FlushCacheR _, RespFlush _ => true
  | _, _ => false
  end.
Definition well_typed (svc : nat -> ctx -> rpc -> sres) : Prop :=
  forall n c q r e, svc n c q = SReturn (Some r) e -> replies_to q r = true.

(** Hooks that do nothing to the context; an interceptor that only passes on. *)
Definition inert (hk : option hooks) : Prop :=
  match hk with
  | None => True
  | Some h =>
      (forall k c, hk_received h = Some k -> k c = (c, None)) /\ (forall k c, hk_routed h = Some k -> k c = (c, None)) /\
      (forall k c, hk_prepared h = Some k -> k c = c) /\ (forall k c g, hk_error h = Some k -> k c g = c)
  end.
Definition pass_on (c : ctx) (v : any) : icode :=
  INext c v (fun x => match x with Some (v, e) => IReturn v e | None => IPanic end).
(** An Error hook that leaves the status alone. *)
Fixpoint status_in (c : ctx) : option Z :=
  match c with [] => None | SStatus n :: _ => Some n | _ :: c => status_in c end.
Definition keeps_status (hk : option hooks) : Prop :=
  forall h k c g, hk = Some h -> hk_error h = Some k -> status_in (k c g) = status_in c.

(** The server of the repository (routes.go:26): no hooks, no interceptor, and handlers that never panic; [a] is what
    the handlers answer. *)
Definition own_server (io ioType : Z -> list byte) (mtext t : list byte) (json : resp -> list byte) (a : rpc -> resp) : server :=
  mkSrv None None (str "/twirp")
    (fun _ _ q => match a q with
                  | RespErr e => SReturn None (Some (ETwirp (rpc_error io ioType q e)))
                  | r => SReturn (Some r) None
                  end)
    (fun pb r => match marshal (resp_fields t r) with
                 | Some bs => inl (if pb then bs else json r)
                 | None => inr mtext
                 end).
Definition without_hooks (s : server) : server := mkSrv None (sv_icpt s) (sv_prefix s) (sv_svc s) (sv_enc s).
Definition without_interceptor (s : server) : server := mkSrv (sv_hooks s) None (sv_prefix s) (sv_svc s) (sv_enc s).
Definition refused_with (e : goerr) (tr : list hevent) : Prop :=
  filter outward tr = [HWrite (status_for (written_as e)) (WError (written_as e))].

(** What a pointer to a reply of the method of [q], or something else, can stand for as its result. *)
Definition fits (q : rpc) (v : any) : Prop :=
  match v with
  | ANil => True
  | AReply x => replies_to q x = true
  | ANilReply t => exists x, replies_to q x = true /\ type_of x = t
  | ARequest _ | AOther => False
  end.
(** What the service hands to an interceptor. *)
Definition handed (q : rpc) (r : sres) (x : option (any * option goerr)) : Prop :=
  match r with
  | SReturn (Some r) e => x = Some (AReply r, e)
  | SReturn None e => exists t y, replies_to q y = true /\ type_of y = t /\ x = Some (ANilReply t, e)
  | SPanic => x = None
  end.
(** The messages that the methods take and return (comfo.proto), and what is said when something else is handed on. *)
Definition takes (q : rpc) : string :=
  match q with
  | SetComfortTempR _ => "ComfortTarget" | SetFanSpeedR _ _ => "FanSpeedTarget" | SetFanProfileR _ _ => "FanProfileTarget"
  | FlushCacheR _ => "FlushCacheRequest" | _ => "Noop"
  end.
Definition gives (q : rpc) : string :=
  match q with
  | GetBootInfo => "BootInfo" | GetBypassRPC => "Bypass" | GetErrorsRPC => "Errors" | GetFansRPC => "Fans" | GetFanProfilesRPC => "FanProfiles"
  | GetTempsRPC => "Temps" | SetComfortTempR _ => "ComfortModified" | SetFanSpeedR _ _ => "FanSpeedModified"
  | SetFanProfileR _ _ => "FanProfileModified" | FlushCacheR _ => "FlushCacheResponse"
  end.
Definition internally (text : string) : gerror := mkGerror (str "internal") (str text) [].
Definition misfit_request (q : rpc) : gerror := internally ("failed type assertion req.(*" ++ takes q ++ ") when calling interceptor").
Definition misfit_reply (q : rpc) : gerror := internally ("failed type assertion resp.(*" ++ gives q ++ ") when calling interceptor").
Definition nil_reply (q : rpc) : gerror :=
  internally ("received a nil *" ++ gives q ++ " and nil error while calling " ++ rpc_name q ++ ". nil responses are not supported").
Definition unencodable (pb : bool) (text : list byte) : gerror :=
  mkGerror (str "internal") (str (if pb then "failed to marshal proto response: " else "failed to marshal json response: ") ++ text)%list
    [(str "cause", str "*comfo.wrappedError")].
(** The work of an interceptor of the method called [name]: the calls it makes, and how it ends.  [n] calls were made before. *)
Inductive works (svc : nat -> ctx -> rpc -> sres) (name : list byte) : nat -> icode -> list hevent -> option (any * option goerr) -> Prop :=
| wo_return n v e : works svc name n (IReturn v e) [] (Some (v, e))
| wo_panic n : works svc name n IPanic [] None
| wo_call n c q k r calls x : str (rpc_name q) = name -> handed q (svc n c q) r -> works svc name (S n) (k r) calls x ->
    works svc name n (INext c (ARequest (message_of q)) k) (HCall c q :: calls) x
| wo_wrong n c v k g calls x : (forall q, str (rpc_name q) = name -> v <> ARequest (message_of q)) -> (forall q, str (rpc_name q) = name -> g = misfit_request q) ->
    works svc name n (k (Some (ANil, Some (ETwirp g)))) calls x -> works svc name n (INext c v k) calls x.
(** What is written when it has ended like this. *)
Inductive closes (enc : bool -> resp -> list byte + list byte) (pb : bool) (q : rpc) : option (any * option goerr) -> list hevent -> Prop :=
| cl_panic : closes enc pb q None [HWrite 500 (WError (internally "Internal service panic")); HFlush; HPanic]
| cl_reply r bs : replies_to q r = true -> enc pb r = inl bs -> closes enc pb q (Some (AReply r, None)) [HWrite 200 (WReply pb bs)]
| cl_unencoded r text : replies_to q r = true -> enc pb r = inr text ->
    closes enc pb q (Some (AReply r, None)) [HWrite 500 (WError (unencodable pb text))]
| cl_error v e : fits q v -> closes enc pb q (Some (v, Some e)) [HWrite (status_for (written_as e)) (WError (written_as e))]
| cl_nil v : fits q v -> (forall r, v <> AReply r) -> closes enc pb q (Some (v, None)) [HWrite 500 (WError (nil_reply q))]
| cl_unfit v e : ~ fits q v -> closes enc pb q (Some (v, e)) [HWrite 500 (WError (misfit_reply q))].
