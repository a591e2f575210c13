(** C141: hooks of a Go client that panic. *)
From Coq Require Import String.
From Verif Require Import GoBase ProofBase GoStrings Server Wire Twirp GoClient JsonWrite JsonError ErrorText Failures Hooks SpecHooks ClientHooks SpecClientHooks SamplesClientHooks
  ClientHooksPanic SpecClientHooksPanic ClientHooksPanicProofs SamplesClientHooksPanic.

(** Without an interceptor all goes on as with hooks that do not panic, up to the panic; then the call panics. *)
Theorem C141_cut : forall p k ws c q, calm_twin p (cl_hooks k) -> cl_icpt k = None ->
  let (t, r) := clientCall k ws c q in
  pcCall p k ws c q = (until_panic p t, if existsb (cthrows p) t then SPanic else r).
Proof. exact client_cut. Qed.
Print Assumptions C141_cut.
Example C141_cut_here : calm_twin (Some jumpy) (cl_hooks (jumpy_client None)) /\
  jumps None 1 23 = ([KPrepared], SPanic) /\
  jumps None 1 21 = ([KPrepared; KSent whole_path; KReceived], SPanic) /\
  jumps None 0 22 = ([KPrepared; KSent whole_path; KError (str "internal")], SPanic) /\
  jumps None 1 22 = ([KPrepared; KSent whole_path; KReceived], SReturn (Some (RespFans (mkPbFans 40 45 0 0))) None).
Proof.
  split; [|vm_compute; splits; reflexivity]. cbn. unfold ctamed. cbn. splits; auto. intros c s x. destruct (cmarked 23 c); congruence.
Qed.
(** (Hooks that panic somewhere can be compared with hooks that never do.) *)
Theorem C141_calm : forall p, exists hk, calm_twin p hk.
Proof. exact client_calm. Qed.
Print Assumptions C141_calm.

(** When RequestPrepared panics nothing has been sent; when ResponseReceived does, one request; when Error does, at most one.  It is
    always a hook that panics. *)
Theorem C141_before : forall p k ws c q t pre e, calm_twin p (cl_hooks k) -> cl_icpt k = None ->
  pcCall p k ws c q = (t, SPanic) -> t = pre ++ [e] -> sent_before e pre /\ cthrows p e = true.
Proof. exact client_before. Qed.
Print Assumptions C141_before.
Example C141_before_here : exists t c h,
  pcCall (Some jumpy) (jumpy_client None) (fun n => late_world (S n)) [SOwn 21] GetFansRPC = (t ++ [CReceived c], SPanic) /\ sent_in t = [h] /\ h_path h = whole_path.
Proof. do 3 eexists. split; [|split]; [vm_compute; instantiate (2 := [_; _]); reflexivity|vm_compute; reflexivity|reflexivity]. Qed.

(** An interceptor gets to know of the panic and may go on: its requests, one after the other, each up to its panic. *)
Theorem C141_intercepted : forall p k ws c q f, calm_twin p (cl_hooks k) -> cl_icpt k = Some f ->
  exists x, pcworks p k ws (str (rpc_name q)) 0 (f (named_ctx q c) (ARequest (message_of q))) (fst (pcCall p k ws c q)) x /\ creturns q x (snd (pcCall p k ws c q)).
Proof. exact client_works. Qed.
Print Assumptions C141_intercepted.
Example C141_intercepted_here :
  jumps (Some undeterred) 1 21 = ([KPrepared; KSent whole_path; KReceived; KPrepared; KSent whole_path; KReceived], SReturn (Some (RespFans (mkPbFans 40 45 0 0))) None) /\
  jumps (Some undeterred) 1 23 = ([KPrepared; KPrepared; KSent whole_path; KReceived], SReturn (Some (RespFans (mkPbFans 40 45 0 0))) None) /\
  jumps (Some again) 0 22 = ([KPrepared; KSent whole_path; KError (str "internal")], SPanic).
Proof. vm_compute. splits; reflexivity. Qed.
