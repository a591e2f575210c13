(** Client hooks that panic: rpc/comfo/comfo.twirp.go:112-156 (and the copies for the other methods and for the JSON client),
    3436-3540, 3580-3599 once more.  The clients recover nothing; an interceptor can, from a panic of the function it is handed.
    As in ClientHooks.v otherwise, whose [client] is used; its hooks are not. *)
From Coq Require Import String.
From Verif Require Import GoBase GoStrings Server Wire Twirp GoClient JsonWrite JsonError ErrorText Failures Hooks ClientHooks.

(** Hooks; None: it panics. *)
Record pchooks := mkPchooks {
  pc_prepared : option (ctx -> sending -> option (ctx * sending * option goerr));
  pc_received : option (ctx -> option unit);
  pc_error : option (ctx -> gerror -> option unit) }.
Definition no_pchooks : pchooks := mkPchooks None None None.
Definition pchooks_of (p : option pchooks) : pchooks := match p with Some p => p | None => no_pchooks end.

(** What has been done, and the result; None: a panic is on its way up. *)
Definition cbind {A B : Type} (x : list cevent * option A) (f : A -> list cevent * option B) : list cevent * option B :=
  match x with
  | (t, None) => (t, None)
  | (t, Some a) => let (t', r) := f a in (t ++ t', r)
  end.
(** 3580-3599 *)
Definition pcPrepared (p : option pchooks) (c : ctx) (s : sending) : list cevent * option (ctx * sending * option goerr) :=
  match pc_prepared (pchooks_of p) with Some f => ([CPrepared c s], f c s) | None => ([], Some (c, s, None)) end.
Definition pcReceived (p : option pchooks) (c : ctx) : list cevent * option unit :=
  match pc_received (pchooks_of p) with Some f => ([CReceived c], f c) | None => ([], Some tt) end.
Definition pcError (p : option pchooks) (c : ctx) (g : gerror) : list cevent * option unit :=
  match pc_error (pchooks_of p) with Some f => ([CError c g], f c g) | None => ([], Some tt) end.

(** 3436-3540: the context it returns, and the reply or the error. *)
Definition pcRequest (p : option pchooks) (k : client) (w : world) (c : ctx) (q : rpc) : list cevent * option (ctx * (resp + goerr)) :=
  let tx := cl_texts k in
  let fail g := ([], Some (c, inr (ETwirp g))) in
  match (match cl_json k with Some sp => request_json sp q | None => marshal (rpc_fields q) end) with
  | None => fail (wrapInternal (tx_marshal tx) (match cl_json k with Some _ => str "failed to marshal json request" | None => str "failed to marshal proto request" end))
  | Some b =>
      match w_cx1 w with
      | Some x => fail (aborted x)
      | None =>
          let url := method_url (cl_base k) (cl_prefix k) q in
          match parseUrl url with
          | None => fail (wrapInternal (tx_build tx) (str "could not build request"))
          | Some _ =>
              cbind (pcPrepared p c (newRequest url (match cl_json k with Some _ => str "application/json" | None => str "application/protobuf" end) b))
                (fun x =>
                  let '(c, s, e) := x in
                  match e with
                  | Some e => ([], Some (c, inr e))
                  | None =>
                      match s with
                      | NotSent => ([], Some (c, inr (ETwirp (wrapInternal (tx_refused tx) (str "failed to do request")))))
                      | SentTo _ _ h =>
                          ([CSent h], Some (c,
                            match w_do w h with
                            | inl e => inr (ETwirp (wrapInternal e (str "failed to do request")))
                            | inr s => match (match cl_json k with Some _ => readJson k w q s | None => readProtobuf k w q s end) with
                                       | inl r => inl r
                                       | inr g => inr (ETwirp g)
                                       end
                            end))
                      end
                  end)
          end
      end
  end.
(** 141-156 call<Method> *)
Definition pcMethod (p : option pchooks) (k : client) (w : world) (c : ctx) (q : rpc) : list cevent * option (resp + goerr) :=
  cbind (pcRequest p k w c q) (fun x =>
    let (c, r) := x : ctx * (resp + goerr) in
    match r with
    | inr e => cbind (pcError p c (assertTwirp e)) (fun _ => ([], Some (inr e)))
    | inl r => cbind (pcReceived p c) (fun _ => ([], Some (inl r)))
    end).
(** 112-139: the function handed to the interceptor; None: it panics. *)
Definition pcNext (p : option pchooks) (k : client) (ws : nat -> world) (method : list byte) (n : nat) (c : ctx) (v : any)
    : list cevent * nat * option (any * option goerr) :=
  match (match v with ARequest m => typedReq method m | _ => None end) with
  | None => ([], n, Some (ANil, Some (assertion (str "req") (reqType method))))
  | Some q => let (t, r) := pcMethod p k (ws n) c q in
              (t, S n, match r with
                       | Some (inl r) => Some (AReply r, None)
                       | Some (inr e) => Some (ANilReply (respType method), Some e)
                       | None => None
                       end)
  end.
Fixpoint pcRun (p : option pchooks) (k : client) (ws : nat -> world) (method : list byte) (n : nat) (i : icode) : list cevent * option (any * option goerr) :=
  match i with
  | IReturn v e => ([], Some (v, e))
  | INext c v f =>
      let '(t, n', r) := pcNext p k ws method n c v in
      let (t', x) := pcRun p k ws method n' (f r) in (t ++ t', x)
  | IPanic => ([], None)
  end.
(** 112-139 <Method> *)
Definition pcCall (p : option pchooks) (k : client) (ws : nat -> world) (c : ctx) (q : rpc) : list cevent * sres :=
  let method := str (rpc_name q) in
  let c := SMethod method :: SService (str "Comfo") :: SPackage (str "comfo.api") :: c in
  match cl_icpt k with
  | None => let (t, r) := pcMethod p k (ws 0%nat) c q in
            (t, match r with Some (inl r) => SReturn (Some r) None | Some (inr e) => SReturn None (Some e) | None => SPanic end)
  | Some f =>
      let wrong := SReturn None (Some (assertion (str "resp") (respType method))) in
      match pcRun p k ws method 0 (f c (ARequest (message_of q))) with
      | (t, None) => (t, SPanic)
      | (t, Some (ANil, e)) => (t, SReturn None e)
      | (t, Some (ANilReply ty, e)) => if beq ty (respType method) then (t, SReturn None e) else (t, wrong)
      | (t, Some (AReply r, e)) => if beq (type_of r) (respType method) then (t, SReturn (Some r) e) else (t, wrong)
      | (t, Some (_, _)) => (t, wrong)
      end
  end.
