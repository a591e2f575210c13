(** C132: hooks and interceptors of the Go clients. *)
From Coq Require Import String.
From Verif Require Import GoBase GoStrings Server Wire Twirp GoClient JsonWrite JsonError ErrorText Hooks SpecHooks Failures ClientHooks SpecClientHooks
  ClientHooksProofs ClientHooksMore SamplesClientHooks.

(** Without an interceptor a call is one errand, and returns what it came to. *)
Theorem C132_errand : forall k ws c q, cl_icpt k = None ->
  exists f r, errand f r /\ fst (clientCall k ws c q) = filter (cshown (cl_hooks k)) f /\
    snd (clientCall k ws c q) = match r with inl r => SReturn (Some r) None | inr e => SReturn None (Some e) end.
Proof. exact one_errand. Qed.
Print Assumptions C132_errand.
Example C132_errand_here :
  map cglance_at (fst (clientCall (sample_client (Some client_hooks) None) late_world [] GetFansRPC)) = [KPrepared; KSent whole_path; KError (str "internal")] /\
  map cglance_at (fst (clientCall (sample_client (Some client_hooks) None) (fun n => late_world (S n)) [] GetFansRPC)) = [KPrepared; KSent whole_path; KReceived].
Proof. split; vm_compute; reflexivity. Qed.

(** With one, whatever it does, the hooks see errands one after the other. *)
Theorem C132_errands : forall k ws c q,
  exists fs, Forall (fun f => exists r, errand f r) fs /\ fst (clientCall k ws c q) = filter (cshown (cl_hooks k)) (concat fs).
Proof. exact all_errands. Qed.
Print Assumptions C132_errands.
Example C132_errands_here :
  map cglance_at (fst (clientCall (sample_client (Some client_hooks) (Some again)) late_world [] GetFansRPC)) =
    [KPrepared; KSent whole_path; KError (str "internal"); KPrepared; KSent whole_path; KReceived] /\
  snd (clientCall (sample_client (Some client_hooks) (Some again)) late_world [] GetFansRPC) = SReturn (Some (RespFans (mkPbFans 40 45 0 0))) None.
Proof. split; vm_compute; reflexivity. Qed.

(** More exactly: RequestPrepared is given the request drawn up for the call, in a context with the names of package, service
    and method; what it hands back is what is sent; the later hooks get its context; a reply is only returned for a status 200. *)
Theorem C132_asked : forall k ws c q, cl_icpt k = None ->
  exists t r, asked k (ws 0%nat) (named_ctx q c) q t r /\ fst (clientCall k ws c q) = filter (cshown (cl_hooks k)) t /\
    snd (clientCall k ws c q) = match r with inl r => SReturn (Some r) None | inr e => SReturn None (Some e) end.
Proof. exact unintercepted. Qed.
Print Assumptions C132_asked.
Example C132_asked_here :
  let t := fst (clientCall (sample_client (Some redirecting) None) (fun n => late_world (S n)) [] GetFansRPC) in
  map cglance_at t = [KPrepared; KSent (str "/elsewhere"); KReceived] /\
  In (CReceived (SOwn 7 :: named_ctx GetFansRPC [])) t.
Proof. split; [vm_compute; reflexivity|]. vm_compute. right. right. left. reflexivity. Qed.

(** An interceptor: its requests, one after the other, each in the context and with the message it passes on; a message of
    another method is not sent but gives it an error; what it returns is returned if it can be the method's result. *)
Theorem C132_intercepted : forall k ws c q f, cl_icpt k = Some f ->
  exists t x, cworks k ws (str (rpc_name q)) 0 (f (named_ctx q c) (ARequest (message_of q))) t x /\
    fst (clientCall k ws c q) = filter (cshown (cl_hooks k)) t /\ creturns q x (snd (clientCall k ws c q)).
Proof. exact cintercepted. Qed.
Print Assumptions C132_intercepted.
Example C132_intercepted_here :
  map cglance_at (fst (clientCall (sample_client (Some redirecting) (Some again)) late_world [] GetFansRPC)) =
    [KPrepared; KSent (str "/elsewhere"); KPrepared; KSent (str "/elsewhere"); KReceived] /\
  clientCall (sample_client None (Some (fun c _ => again c (ARequest (MFlush 1))))) late_world [] GetFansRPC =
    ([], SReturn None (Some (ETwirp (mkGerror (str "internal") (str "failed type assertion req.(*Noop) when calling interceptor") [])))).
Proof. split; vm_compute; reflexivity. Qed.

(** What RequestPrepared refuses is not sent, and its error is returned as it is. *)
Theorem C132_refused : forall k w c q h f c' s c2 s2 e, cl_hooks k = Some h -> ck_prepared h = Some f ->
  In (CPrepared c' s) (fst (callMethod k w c q)) -> f c' s = (c2, s2, Some e) ->
  sent_in (fst (callMethod k w c q)) = [] /\ snd (callMethod k w c q) = inr e.
Proof. exact refused_unsent. Qed.
Print Assumptions C132_refused.
Example C132_refused_here :
  map cglance_at (fst (callMethod (sample_client (Some client_hooks) None) (late_world 1) [] GetTempsRPC)) = [KPrepared; KError (str "internal")].
Proof. vm_compute. reflexivity. Qed.

(** If the hooks leave requests alone, then whatever an interceptor does only the method called is asked for. *)
Theorem C132_sent : forall k ws c q h, cinert (cl_hooks k) -> In h (sent_in (fst (clientCall k ws c q))) ->
  exists q', rpc_name q' = rpc_name q /\ asks k q' h.
Proof. exact sends_own. Qed.
Print Assumptions C132_sent.
Example C132_sent_here : cinert None /\
  sent_in (fst (clientCall (sample_client None (Some again)) late_world [] GetFansRPC)) =
    let h := mkHreq (str "POST") whole_path (str "application/protobuf") [] in [h; h].
Proof. split; [intros h f c s H; discriminate|vm_compute; reflexivity]. Qed.

(** A reply that is returned has the type of the method. *)
Theorem C132_typed : forall k ws c q r e, snd (clientCall k ws c q) = SReturn (Some r) e -> replies_to q r = true.
Proof. exact returns_typed. Qed.
Print Assumptions C132_typed.
Example C132_typed_here :
  snd (clientCall (sample_client None (Some (fun _ _ => IReturn (AReply (RespFlush true)) None))) late_world [] GetFansRPC) =
  SReturn None (Some (ETwirp (mkGerror (str "internal") (str "failed type assertion resp.(*Fans) when calling interceptor") []))).
Proof. vm_compute. reflexivity. Qed.

(** With hooks that leave requests alone and no interceptor it is the client of C108 to C111, protobuf or JSON; an
    interceptor that only passes on changes nothing. *)
Theorem C132_plain : forall k ws c q, cinert (cl_hooks k) -> cl_icpt k = None ->
  sent_in (fst (clientCall k ws c q)) = (match fst (plain_call k (ws 0%nat) q) with Some h => [h] | None => [] end) /\
  snd (clientCall k ws c q) = outcome_of (snd (plain_call k (ws 0%nat) q)).
Proof. exact plain. Qed.
Print Assumptions C132_plain.
Example C132_plain_here : plain_call (sample_client None None) (late_world 1) GetFansRPC =
  (Some (mkHreq (str "POST") whole_path (str "application/protobuf") []), Returned (RespFans (mkPbFans 40 45 0 0))).
Proof. vm_compute. reflexivity. Qed.

Theorem C132_pass_on : forall k ws c q, cl_icpt k = Some pass_on -> clientCall k ws c q = clientCall (without_cinterceptor k) ws c q.
Proof. exact passed. Qed.
Print Assumptions C132_pass_on.
Example C132_pass_on_here : snd (clientCall (sample_client None (Some pass_on)) (fun n => late_world (S n)) [] GetFansRPC) = SReturn (Some (RespFans (mkPbFans 40 45 0 0))) None.
Proof. vm_compute. reflexivity. Qed.

(** The Error hook of a client does not see the code of a Twirp error that is wrapped; that of a server does. *)
Theorem C132_wrapped : exists e g c q,
  written_as e = g /\ ge_code g = str "permission_denied" /\
  snd (callMethod (sample_client (Some client_hooks) None) (late_world 1) c q) = inr e /\
  map cglance_at (fst (callMethod (sample_client (Some client_hooks) None) (late_world 1) c q)) = [KPrepared; KError (str "internal")].
Proof.
  exists (EWrap (str "wary: no") (str "*main.waryError") (mkGerror (str "permission_denied") (str "no") [])), (mkGerror (str "permission_denied") (str "no") []), [], GetTempsRPC.
  repeat split; vm_compute; reflexivity.
Qed.
Print Assumptions C132_wrapped.
