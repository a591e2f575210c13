(** C131: hooks and interceptors of the Twirp server. *)
From Coq Require Import String.
From Verif Require Import GoBase Server Wire Twirp JsonWrite JsonError ErrorText Hooks SpecHooks HooksProofs HooksClaims HooksMore SamplesHooks.

(** Whatever hooks, interceptor and service there are, every request lives one of the lives of [lifecycle] as far as the
    hooks that are set can see. *)
Theorem C131_life : forall s isPrint ulower unjson fails c h,
  exists f, lifecycle fails f /\ serveHooked s isPrint ulower unjson fails c h = filter (shown (sv_hooks s)) f.
Proof. exact served_life. Qed.
Print Assumptions C131_life.
Example C131_life_here :
  let at_work := fun i m => map glance_at (run (sample_server (str "CA350") i) [] (to_method m)) in
  at_work None "GetBootInfo"%string = [GReceived; GRouted; GCall GetBootInfo; GPrepared; GWrite 200; GSent] /\
  at_work None "GetTemps"%string = [GReceived; GRouted; GCall GetTempsRPC; GError; GWrite 500; GSent] /\
  at_work None "GetFans"%string = [GReceived; GRouted; GCall GetFansRPC; GError; GWrite 500; GSent; GFlush; GPanic] /\
  at_work (Some twice) "GetBootInfo"%string = [GReceived; GRouted; GCall GetBootInfo; GCall GetBootInfo; GPrepared; GWrite 200; GSent] /\
  at_work (Some other_message) "GetBootInfo"%string = [GReceived; GRouted; GError; GWrite 500; GSent].
Proof. repeat split; vm_compute; reflexivity. Qed.

(** The service is called only if both hooks let the request through, it is addressed to a method and decodes; and then,
    whatever an interceptor does, only that method is called. *)
Theorem C131_guarded : forall s isPrint ulower unjson fails c h c' q,
  In (HCall c' q) (serveHooked s isPrint ulower unjson fails c h) ->
  exists c1 c2 r pb q0, lets_through (sv_hooks s) hk_received (arrival c) c1 /\ addresses (sv_prefix s) ulower h r pb /\
    lets_through (sv_hooks s) hk_routed (SMethod (rt_name r) :: c1) c2 /\ decodes unjson h r pb q0 /\ rt_name r = str (rpc_name q).
Proof. exact guarded. Qed.
Print Assumptions C131_guarded.
Example C131_guarded_here : In (GCall GetTempsRPC) (map glance_at (run (sample_server [] (Some twice)) [] (to_method "GetTemps"))).
Proof. vm_compute. auto. Qed.

(** Without an interceptor it is called exactly once, with the request that was sent and the context the hooks made. *)
Theorem C131_once : forall s isPrint ulower unjson fails c h c1 c2 r pb q, sv_icpt s = None ->
  lets_through (sv_hooks s) hk_received (arrival c) c1 -> addresses (sv_prefix s) ulower h r pb ->
  lets_through (sv_hooks s) hk_routed (SMethod (rt_name r) :: c1) c2 -> decodes unjson h r pb q ->
  filter is_hcall (serveHooked s isPrint ulower unjson fails c h) = [HCall c2 q].
Proof. exact called_once. Qed.
Print Assumptions C131_once.
Example C131_once_here :
  filter is_hcall (run (sample_server [] None) [SOwn 0] (to_method "GetFans")) =
  [HCall (SOwn 2 :: SMethod (str "GetFans") :: SOwn 1 :: arrival [SOwn 0]) GetFansRPC].
Proof. vm_compute. reflexivity. Qed.

(** With an interceptor: the calls it makes, in its order, each with the request and context it passes on; a message of
    another method it passes on is not called but gives it an error; what it returns in the end is what is written. *)
Theorem C131_intercepted : forall s isPrint ulower unjson fails c h c1 c2 r pb q f, sv_icpt s = Some f ->
  lets_through (sv_hooks s) hk_received (arrival c) c1 -> addresses (sv_prefix s) ulower h r pb ->
  lets_through (sv_hooks s) hk_routed (SMethod (rt_name r) :: c1) c2 -> decodes unjson h r pb q ->
  exists calls x out, works (sv_svc s) (rt_name r) 0 (f c2 (ARequest (message_of q))) calls x /\ closes (sv_enc s) pb q x out /\
    filter outward (serveHooked s isPrint ulower unjson fails c h) = calls ++ out.
Proof. exact intercepted. Qed.
Print Assumptions C131_intercepted.
Example C131_intercepted_here :
  map glance_at (filter outward (run (sample_server [65] (Some twice)) [] (to_method "GetBootInfo"))) =
    [GCall GetBootInfo; GCall GetBootInfo; GWrite 200] /\
  map glance_at (filter outward (run (sample_server [65] (Some other_message)) [] (to_method "GetBootInfo"))) = [GWrite 500] /\
  map glance_at (filter outward (run (sample_server [65] (Some twice)) [] (to_method "GetFans"))) =
    [GCall GetFansRPC; GCall GetFansRPC; GWrite 409].
Proof. vm_compute. repeat split; reflexivity. Qed.

(** A request that a hook refuses is answered with its error, and nothing is called. *)
Theorem C131_refused : forall s isPrint ulower unjson fails c h e, refuses (sv_hooks s) hk_received (arrival c) e ->
  refused_with e (serveHooked s isPrint ulower unjson fails c h).
Proof. exact refused_early. Qed.
Print Assumptions C131_refused.
Example C131_refused_here :
  refuses (sv_hooks (sample_server [] None)) hk_received (arrival [SOwn 13]) (ETwirp (mkGerror (str "unauthenticated") (str "who are you") [])) /\
  map glance_at (run (sample_server [] None) [SOwn 13] (to_method "GetBootInfo")) = [GReceived; GError; GWrite 401; GSent].
Proof. split; [eexists _, _, _; repeat split; vm_compute; reflexivity|vm_compute; reflexivity]. Qed.

Theorem C131_refused_routed : forall s isPrint ulower unjson fails c h e c1 r pb,
  lets_through (sv_hooks s) hk_received (arrival c) c1 -> addresses (sv_prefix s) ulower h r pb ->
  refuses (sv_hooks s) hk_routed (SMethod (rt_name r) :: c1) e ->
  refused_with e (serveHooked s isPrint ulower unjson fails c h).
Proof. exact refused_routed. Qed.
Print Assumptions C131_refused_routed.
Example C131_refused_routed_here :
  filter outward (run (sample_server [] None) [SOwn 14] (to_method "GetBootInfo")) =
  [HWrite 500 (WError (mkGerror (str "internal") (str "not now") [(str "cause", str "*main.busy")]))].
Proof. vm_compute. reflexivity. Qed.

(** A reply is sent with status 200, and it is an encoded message of the type that the method returns. *)
Theorem C131_reply : forall s isPrint ulower unjson fails c h n pb bs, well_typed (sv_svc s) ->
  In (HWrite n (WReply pb bs)) (serveHooked s isPrint ulower unjson fails c h) ->
  n = 200 /\ exists r q x, addresses (sv_prefix s) ulower h r pb /\ decodes unjson h r pb q /\ replies_to q x = true /\ sv_enc s pb x = inl bs.
Proof. exact reply_typed. Qed.
Print Assumptions C131_reply.
Example C131_reply_here : well_typed (sample_service (str "CA350")) /\
  In (HWrite 200 (WReply true [8; 3; 16; 1; 34; 5; 67; 65; 51; 53; 48])) (run (sample_server (str "CA350") None) [] (to_method "GetBootInfo")).
Proof. split; [intros n c q r e; destruct q; cbn; intros H; try discriminate; injection H as <- <-; reflexivity|vm_compute; tauto]. Qed.

(** The context given to ResponseSent holds the status that was sent, unless the Error hook hides it. *)
Theorem C131_status : forall s isPrint ulower unjson fails c h c' n b, keeps_status (sv_hooks s) ->
  In (HSent c') (serveHooked s isPrint ulower unjson fails c h) -> In (HWrite n b) (serveHooked s isPrint ulower unjson fails c h) ->
  status_in c' = Some n.
Proof. exact status_told. Qed.
Print Assumptions C131_status.
Example C131_status_here : keeps_status (Some sample_hooks) /\
  In (HSent (SOwn 4 :: SStatus 500 :: SOwn 2 :: SMethod (str "GetTemps") :: SOwn 1 :: arrival [])) (run (sample_server [] None) [] (to_method "GetTemps")).
Proof. split; [intros h k c g E; injection E as <-; intros K; injection K as <-; reflexivity|vm_compute; tauto]. Qed.

(** Hooks that hand back what they are given, and an interceptor that only passes on, change nothing. *)
Theorem C131_inert : forall s isPrint ulower unjson fails c h, inert (sv_hooks s) ->
  filter outward (serveHooked s isPrint ulower unjson fails c h) = serveHooked (without_hooks s) isPrint ulower unjson fails c h.
Proof. exact hooks_inert. Qed.
Print Assumptions C131_inert.
Example C131_inert_here : inert (Some marks_only).
Proof. cbn. repeat split; intros; match goal with H : _ = Some _ |- _ => first [discriminate | injection H as <-; reflexivity] end. Qed.

Theorem C131_pass_on : forall s isPrint ulower unjson fails c h, sv_icpt s = Some pass_on -> well_typed (sv_svc s) ->
  serveHooked s isPrint ulower unjson fails c h = serveHooked (without_interceptor s) isPrint ulower unjson fails c h.
Proof. exact passed_on. Qed.
Print Assumptions C131_pass_on.
Example C131_pass_on_here : map glance_at (run (sample_server (str "CA350") (Some pass_on)) [] (to_method "GetBootInfo")) =
  [GReceived; GRouted; GCall GetBootInfo; GPrepared; GWrite 200; GSent].
Proof. vm_compute. reflexivity. Qed.

(** Without any, it is the server of the other theorems, down to the texts of errors. *)
Theorem C131_own : forall io ioType mtext t json a isPrint ulower unjson fails c h,
  let s := own_server io ioType mtext t json a in
  match dispatch ulower unjson h with
  | Answer x => exists g, refusal_error isPrint ulower unjson h = Some g /\
      serveHooked s isPrint ulower unjson fails c h = [HWrite (r_status x) (WError g)]
  | Call pb q => refusal_error isPrint ulower unjson h = None /\ exists c',
      serveHooked s isPrint ulower unjson fails c h =
        [HCall c' q; HWrite (r_status (respond pb t (a q)))
                       (match reply_error io ioType mtext pb t q (a q) with
                        | Some g => WError g
                        | None => WReply pb (match r_body (respond pb t (a q)) with Protobuf bs => bs | _ => json (a q) end)
                        end)]
  end.
Proof. exact bare. Qed.
Print Assumptions C131_own.
Example C131_own_here :
  serveHooked (own_server (fun _ => []) (fun _ => []) [] [] (fun _ => []) (fun _ => RespFlush true)) no_print same no_json None []
    (mkHreq (str "POST") (str "/twirp/comfo.api.Comfo/FlushCache") (str "application/protobuf") [8; 2]) =
  [HCall (SMethod (str "FlushCache") :: arrival []) (FlushCacheR 2); HWrite 200 (WReply true [8; 1])].
Proof. vm_compute. reflexivity. Qed.

(** ResponsePrepared does not mean that the reply will be sent: a name from the unit that is not UTF-8 makes it an error. *)
Theorem C131_prepared_then_error : exists s c h,
  well_typed (sv_svc s) /\ map glance_at (run s c h) = [GReceived; GRouted; GCall GetBootInfo; GPrepared; GError; GWrite 500; GSent].
Proof.
  exists (sample_server [195; 40] None), [], (to_method "GetBootInfo"). split; [|vm_compute; reflexivity].
  intros n c q r e; destruct q; cbn; intros H; try discriminate; injection H as <- <-; reflexivity.
Qed.
Print Assumptions C131_prepared_then_error.
