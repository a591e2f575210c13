(** Words for the statements about the hooks and interceptors of the Go clients. *)
From Coq Require Import String.
From Verif Require SpecHooks.
From Verif Require Import GoBase GoStrings Server Wire Twirp GoClient JsonWrite JsonError ErrorText Failures Hooks ClientHooks.

(** What the Error hook is told of an error: itself, if it is one of Twirp's; otherwise an internal one that names it. *)
Definition told_of (e : goerr) : gerror :=
  match e with
  | ETwirp g => g
  | EPlain text type | EWrap text type _ => mkGerror (str "internal") text [(str "cause", type)]
  end.
(** One request of a client and what comes of it, as seen if all hooks are set. *)
Inductive errand : list cevent -> resp + goerr -> Prop :=
| NoRequest c g : errand [CError c g] (inr (ETwirp g))
| NotToBeSent c s c' e : errand [CPrepared c s; CError c' (told_of e)] (inr e)
| InVain c s h c' g : errand [CPrepared c s; CSent h; CError c' g] (inr (ETwirp g))
| Fulfilled c s h c' r : errand [CPrepared c s; CSent h; CReceived c'] (inl r).
Definition isset {A : Type} (o : option A) : bool := match o with Some _ => true | None => false end.
Definition cshown (hk : option chooks) (e : cevent) : bool :=
  match hk, e with
  | _, CSent _ => true
  | None, _ => false
  | Some h, CPrepared _ _ => isset (ck_prepared h)
  | Some h, CReceived _ => isset (ck_received h)
  | Some h, CError _ _ => isset (ck_error h)
  end.
Definition sent_in (t : list cevent) : list hreq := flat_map (fun e => match e with CSent h => [h] | _ => [] end) t.

(** The HTTP request for a call. *)
Definition asks (k : client) (q : rpc) (h : hreq) : Prop :=
  exists b sch host,
    match cl_json k with Some sp => request_json sp q = Some b | None => marshal (rpc_fields q) = Some b end /\
    newRequest (method_url (cl_base k) (cl_prefix k) q) (match cl_json k with Some _ => str "application/json" | None => str "application/protobuf" end) b
      = SentTo sch host h.
(** Hooks that hand back what they are given. *)
Definition cinert (hk : option chooks) : Prop :=
  forall h f c s, hk = Some h -> ck_prepared h = Some f -> f c s = (c, s, None).
(** What the client of Failures.v does. *)
Definition plain_call (k : client) (w : world) (q : rpc) : option hreq * callres :=
  match cl_json k with
  | Some sp => callJson (cl_isPrint k) (cl_statusText k) (cl_texts k) sp (w_do w) (w_cx1 w) (w_cx2 w) (w_cx3 w) (w_close w) (cl_base k) (cl_prefix k) q
  | None => callProtobuf (cl_isPrint k) (cl_statusText k) (cl_texts k) (w_do w) (w_cx1 w) (w_cx2 w) (w_cx3 w) (cl_base k) (cl_prefix k) q
  end.
Definition outcome_of (r : callres) : sres :=
  match r with Returned r => SReturn (Some r) None | Failed g => SReturn None (Some (ETwirp g)) end.
Definition without_cinterceptor (k : client) : client :=
  mkCl (cl_hooks k) None (cl_json k) (cl_base k) (cl_prefix k) (cl_texts k) (cl_isPrint k) (cl_statusText k).

(** The request that RequestPrepared is given, and what it makes of it. *)
Definition drawn_up (k : client) (q : rpc) (s : sending) : Prop :=
  exists b, (match cl_json k with Some sp => request_json sp q | None => marshal (rpc_fields q) end) = Some b /\
    s = newRequest (method_url (cl_base k) (cl_prefix k) q) (match cl_json k with Some _ => str "application/json" | None => str "application/protobuf" end) b.
Definition prepares (k : client) (c : ctx) (s : sending) (c' : ctx) (s' : sending) (e : option goerr) : Prop :=
  match cl_hooks k with
  | Some h => match ck_prepared h with Some f => f c s = (c', s', e) | None => c' = c /\ s' = s /\ e = None end
  | None => c' = c /\ s' = s /\ e = None
  end.
(** One request in the context [c], as seen if all hooks are set. *)
Inductive asked (k : client) (w : world) (c : ctx) (q : rpc) : list cevent -> resp + goerr -> Prop :=
| as_early g : (match cl_json k with Some sp => request_json sp q | None => marshal (rpc_fields q) end) = None \/ w_cx1 w <> None \/
    parseUrl (method_url (cl_base k) (cl_prefix k) q) = None -> asked k w c q [CError c g] (inr (ETwirp g))
| as_refused s c' s' e : drawn_up k q s -> prepares k c s c' s' (Some e) -> asked k w c q [CPrepared c s; CError c' (told_of e)] (inr e)
| as_unsent s c' g : drawn_up k q s -> prepares k c s c' NotSent None -> asked k w c q [CPrepared c s; CError c' g] (inr (ETwirp g))
| as_failed s c' scheme host h g : drawn_up k q s -> prepares k c s c' (SentTo scheme host h) None ->
    asked k w c q [CPrepared c s; CSent h; CError c' g] (inr (ETwirp g))
| as_replied s c' scheme host h x r : drawn_up k q s -> prepares k c s c' (SentTo scheme host h) None ->
    w_do w h = inr x -> s_status x = 200 -> SpecHooks.replies_to q r = true ->
    asked k w c q [CPrepared c s; CSent h; CReceived c'] (inl r).
(** What an interceptor is handed. *)
Definition chanded (q : rpc) (r : resp + goerr) (v : any * option goerr) : Prop :=
  match r with
  | inl r => v = (AReply r, None)
  | inr e => exists y, SpecHooks.replies_to q y = true /\ v = (ANilReply (type_of y), Some e)
  end.
(** The work of an interceptor for the method called [name]; [ws n] is what its n-th request meets. *)
Inductive cworks (k : client) (ws : nat -> world) (name : list byte) : nat -> icode -> list cevent -> option (any * option goerr) -> Prop :=
| cw_return n v e : cworks k ws name n (IReturn v e) [] (Some (v, e))
| cw_panic n : cworks k ws name n IPanic [] None
| cw_call n c q i r v t t' x : str (rpc_name q) = name -> asked k (ws n) c q t r -> chanded q r v -> cworks k ws name (S n) (i (Some v)) t' x ->
    cworks k ws name n (INext c (ARequest (message_of q)) i) (t ++ t') x
| cw_wrong n c v i g t x : (forall q, str (rpc_name q) = name -> v <> ARequest (message_of q)) -> (forall q, str (rpc_name q) = name -> g = SpecHooks.misfit_request q) ->
    cworks k ws name n (i (Some (ANil, Some (ETwirp g)))) t x -> cworks k ws name n (INext c v i) t x.
(** What the method then returns. *)
Inductive creturns (q : rpc) : option (any * option goerr) -> sres -> Prop :=
| cr_panic : creturns q None SPanic
| cr_reply r e : SpecHooks.replies_to q r = true -> creturns q (Some (AReply r, e)) (SReturn (Some r) e)
| cr_nil v e : SpecHooks.fits q v -> (forall r, v <> AReply r) -> creturns q (Some (v, e)) (SReturn None e)
| cr_unfit v e : ~ SpecHooks.fits q v -> creturns q (Some (v, e)) (SReturn None (Some (ETwirp (SpecHooks.misfit_reply q)))).
(** The context a call starts in. *)
Definition named_ctx (q : rpc) (c : ctx) : ctx := SMethod (str (rpc_name q)) :: SService (str "Comfo") :: SPackage (str "comfo.api") :: c.
