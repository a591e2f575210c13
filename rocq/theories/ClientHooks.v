(** Hooks and interceptors of the generated Go clients: rpc/comfo/comfo.twirp.go:60-156 (and the copies for the other
    methods), 576-1085 (the JSON client), 3436-3540, 3580-3599.  As Failures.v, with what the options of
    NewComfoProtobufClient and NewComfoJSONClient allow.  Not modelled: request headers set by the caller. *)
From Coq Require Import String.
From Verif Require Import GoBase GoStrings Server Wire Twirp GoClient JsonScan JsonRead JsonWrite JsonError ErrorText Failures Hooks.

(** RequestPrepared is given the request and may alter it; [sending] is a request as client.Do will treat it. *)
Record chooks := mkCHooks {
  ck_prepared : option (ctx -> sending -> ctx * sending * option goerr);
  ck_received : option (ctx -> unit);
  ck_error : option (ctx -> gerror -> unit) }.
Definition no_chooks : chooks := mkCHooks None None None.
(** What a call meets: client.Do, what ctx.Err() returns each time, the error of closing the body. *)
Record world := mkWorld { w_do : client_do; w_cx1 : option ctxerr; w_cx2 : option ctxerr; w_cx3 : option ctxerr; w_close : option (list byte) }.
(** 61-66 and 576-581 (comfoJSONClient); [cl_json]: the JSON client, with the spaces its encoder puts. *)
Record client := mkCl {
  cl_hooks : option chooks;
  cl_icpt : option (ctx -> any -> icode);
  cl_json : option bool;
  cl_base : list byte;
  cl_prefix : option (list byte);
  cl_texts : texts;
  cl_isPrint : Z -> bool;
  cl_statusText : Z -> list byte }.

(** Calls of hooks, and requests that leave. *)
Inductive cevent := CPrepared (c : ctx) (s : sending) | CSent (h : hreq) | CReceived (c : ctx) | CError (c : ctx) (g : gerror).

Definition chooks_of (k : client) : chooks := match cl_hooks k with Some h => h | None => no_chooks end.
(** 3580-3599 *)
Definition callClientRequestPrepared (k : client) (c : ctx) (s : sending) : list cevent * (ctx * sending * option goerr) :=
  match ck_prepared (chooks_of k) with Some f => ([CPrepared c s], f c s) | None => ([], (c, s, None)) end.
Definition callClientResponseReceived (k : client) (c : ctx) : list cevent :=
  match ck_received (chooks_of k) with Some _ => [CReceived c] | None => [] end.
Definition callClientError (k : client) (c : ctx) (g : gerror) : list cevent :=
  match ck_error (chooks_of k) with Some _ => [CError c g] | None => [] end.

(** 3462-3483 doProtobufRequest after client.Do. *)
Definition readProtobuf (k : client) (w : world) (q : rpc) (s : response) : resp + gerror :=
  match w_cx2 w with
  | Some x => inr (aborted x)
  | None =>
      if negb (s_status s =? 200) then inr (response_error (cl_isPrint k) (cl_statusText k) s)
      else match s_cut s with
           | Some e => inr (wrapInternal e (str "failed to read response body"))
           | None =>
               match w_cx3 w with
               | Some x => inr (aborted x)
               | None => match unmarshal (reply_desc q) (s_body s) with
                         | None => inr (wrapInternal (tx_unmarshal (cl_texts k)) (str "failed to unmarshal proto response"))
                         | Some m => inl (read_resp q m)
                         end
               end
           end
  end.
(** 3512-3539 doJSONRequest after client.Do. *)
Definition readJson (k : client) (w : world) (q : rpc) (s : response) : resp + gerror :=
  match w_cx2 w with
  | Some x => inr (aborted x)
  | None =>
      let unreadable := inr (wrapInternal (tx_unmarshal (cl_texts k)) (str "failed to unmarshal json response")) in
      if negb (s_status s =? 200) then inr (response_error (cl_isPrint k) (cl_statusText k) s)
      else match (match s_cut s with Some _ => decodeCut (s_body s) | None => decodeRaw (s_body s) end) with
           | None => unreadable
           | Some raw =>
               match unmarshalJSON (named (reply_desc q) (reply_names q)) raw with
               | None => unreadable
               | Some m =>
                   match w_cx3 w with
                   | Some x => inr (aborted x)
                   | None => match w_close w with
                             | Some e => inr (wrapInternal e (str "failed to close response body"))
                             | None => inl (read_resp q m)
                             end
                   end
               end
           end
  end.
(** 3436-3540: the context it returns, and the reply or the error. *)
Definition doRequest (k : client) (w : world) (c : ctx) (q : rpc) : list cevent * ctx * (resp + goerr) :=
  let tx := cl_texts k in
  let fail g := ([], c, inr (ETwirp g)) in
  match (match cl_json k with Some sp => request_json sp q | None => marshal (rpc_fields q) end) with
  | None => fail (wrapInternal (tx_marshal tx) (match cl_json k with Some _ => str "failed to marshal json request" | None => str "failed to marshal proto request" end))
  | Some b =>
      match w_cx1 w with
      | Some x => fail (aborted x)
      | None =>
          let url := method_url (cl_base k) (cl_prefix k) q in
          match parseUrl url with
          | None => fail (wrapInternal (tx_build tx) (str "could not build request"))
          | Some _ =>
              let '(t, (c, s, e)) := callClientRequestPrepared k c
                (newRequest url (match cl_json k with Some _ => str "application/json" | None => str "application/protobuf" end) b) in
              match e with
              | Some e => (t, c, inr e)
              | None =>
                  match s with
                  | NotSent => (t, c, inr (ETwirp (wrapInternal (tx_refused tx) (str "failed to do request"))))
                  | SentTo _ _ h =>
                      (t ++ [CSent h], c,
                       match w_do w h with
                       | inl e => inr (ETwirp (wrapInternal e (str "failed to do request")))
                       | inr s => match (match cl_json k with Some _ => readJson k w q s | None => readProtobuf k w q s end) with
                                  | inl r => inl r
                                  | inr g => inr (ETwirp g)
                                  end
                       end)
                  end
              end
          end
      end
  end.
(** 144-147: err.(twirp.Error) does not look through wrappers, as errors.As in writeError does. *)
Definition assertTwirp (e : goerr) : gerror :=
  match e with ETwirp g => g | EPlain t ty | EWrap t ty _ => internalErrorWith t ty end.
(** 141-156 call<Method> *)
Definition callMethod (k : client) (w : world) (c : ctx) (q : rpc) : list cevent * (resp + goerr) :=
  let '(t, c, r) := doRequest k w c q in
  match r with
  | inr e => (t ++ callClientError k c (assertTwirp e), inr e)
  | inl r => (t ++ callClientResponseReceived k c, inl r)
  end.

(** 112-139: the function handed to the interceptor, and what is made of its result.  [ws n]: what the n-th request meets. *)
Definition nextCall (k : client) (ws : nat -> world) (method : list byte) (n : nat) (c : ctx) (v : any) : list cevent * nat * (any * option goerr) :=
  match (match v with ARequest m => typedReq method m | _ => None end) with
  | None => ([], n, (ANil, Some (assertion (str "req") (reqType method))))
  | Some q => let (t, r) := callMethod k (ws n) c q in
              (t, S n, match r with inl r => (AReply r, None) | inr e => (ANilReply (respType method), Some e) end)
  end.
Fixpoint runClient (k : client) (ws : nat -> world) (method : list byte) (n : nat) (i : icode) : list cevent * option (any * option goerr) :=
  match i with
  | IReturn v e => ([], Some (v, e))
  | INext c v f =>
      let '(t, n', r) := nextCall k ws method n c v in
      let (t', x) := runClient k ws method n' (f (Some r)) in (t ++ t', x)
  | IPanic => ([], None)
  end.
(** 112-139 <Method>: a pointer (nil or to a reply) and an error, or a panic of the interceptor's. *)
Definition clientCall (k : client) (ws : nat -> world) (c : ctx) (q : rpc) : list cevent * sres :=
  let method := str (rpc_name q) in
  let c := SMethod method :: SService (str "Comfo") :: SPackage (str "comfo.api") :: c in
  match cl_icpt k with
  | None => let (t, r) := callMethod k (ws 0%nat) c q in (t, match r with inl r => SReturn (Some r) None | inr e => SReturn None (Some e) end)
  | Some f =>
      let wrong := SReturn None (Some (assertion (str "resp") (respType method))) in
      match runClient k ws method 0 (f c (ARequest (message_of q))) with
      | (t, None) => (t, SPanic)
      | (t, Some (ANil, e)) => (t, SReturn None e)
      | (t, Some (ANilReply ty, e)) => if beq ty (respType method) then (t, SReturn None e) else (t, wrong)
      | (t, Some (AReply r, e)) => if beq (type_of r) (respType method) then (t, SReturn (Some r) e) else (t, wrong)
      | (t, Some (_, _)) => (t, wrong)
      end
  end.
