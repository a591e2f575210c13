(** C138: panics while a request is served. *)
From Coq Require Import String.
From Verif Require Import GoBase ProofBase Server Wire Twirp JsonWrite JsonError ErrorText Hooks SpecHooks SamplesHooks HooksPanic SpecHooksPanic HooksPanicProofs SamplesHooksPanic.

(** A panic in the service or in an interceptor is answered: the client gets an internal error, which is flushed, and the panic
    goes on; if no hook panics and all errors have codes of Twirp. *)
Theorem C138_answered_partial : forall p s isPrint ulower unjson fails c h, alike_but_calm p (sv_hooks s) ->
  let tr := servePanicking p s isPrint ulower unjson fails c h in
  (forall e, In e tr -> throws p e = false) ->
  (forall n g, In (HWrite n (WError g)) (serveHooked s isPrint ulower unjson fails c h) -> twirp_code g) ->
  In HPanic tr -> answered_panic tr.
Proof. exact panic_answered. Qed.
Print Assumptions C138_answered_partial.
Example C138_answered_here : map glance_at (prun [] (to_method "GetFans")) = [GReceived; GRouted; GCall GetFansRPC; GError; GWrite 500; GSent; GFlush; GPanic] /\
  forallb (fun e => negb (throws (Some panicking_hooks) e)) (prun [] (to_method "GetFans")) = true.
Proof. vm_compute. auto. Qed.

(** With a hook that panics it need not be: here the speed has been set, and the caller gets no answer at all. *)
Theorem C138_answered_refuted : exists p s c h, alike_but_calm p (sv_hooks s) /\
  let tr := servePanicking p s no_print same no_json None c h in
  In HPanic tr /\ (exists c', In (HCall c' (SetFanSpeedR 3 false)) tr) /\ filter is_write tr = [].
Proof.
  exists (Some panicking_hooks), odd_server, [SOwn 15], set_speed. split.
  - cbn. unfold tamed, tame. cbn. splits; auto; intros c; [intros x|intros x|intros x|intros e x]; try (destruct (marked _ c); [discriminate|]); congruence.
  - split; [vm_compute; tauto|]. split; [|vm_compute; reflexivity]. eexists. vm_compute. right. right. left. reflexivity.
Qed.
Print Assumptions C138_answered_refuted.
(** Nor with an error of a code that Twirp does not know (of a type of one's own: twirp.NewError makes none). *)
Theorem C138_code_refuted : exists s h, well_typed (sv_svc s) /\
  let tr := servePanicking None s no_print same no_json None [] h in In HPanic tr /\ filter is_write tr = [].
Proof.
  exists odd_server, (to_method "GetTemps"). split; [|vm_compute; auto].
  intros n c q r e; destruct q; cbn; intros H; try discriminate; injection H as <- <-; reflexivity.
Qed.
Print Assumptions C138_code_refuted.

(** In general: all goes on as it would if the hook did not panic, up to the panic, and nothing happens after it. *)
Theorem C138_cut : forall p s, alike_but_calm p (sv_hooks s) -> forall isPrint ulower unjson fails c h,
  servePanicking p s isPrint ulower unjson fails c h = cut p (serveHooked s isPrint ulower unjson fails c h).
Proof. exact panics_cut. Qed.
Print Assumptions C138_cut.
Example C138_cut_here :
  map glance_at (prun [SOwn 16] set_speed) = [GReceived; GRouted; GPanic] /\
  map glance_at (prun [SOwn 15] set_speed) = [GReceived; GRouted; GCall (SetFanSpeedR 3 false); GPrepared; GPanic] /\
  map glance_at (prun [SOwn 17] (to_method "GetFans")) = [GReceived; GRouted; GCall GetFansRPC; GError; GPanic] /\
  map glance_at (prun [] (to_method "GetTemps")) = [GReceived; GRouted; GCall GetTempsRPC; GError; GPanic] /\
  map glance_at (prun [] set_speed) = [GReceived; GRouted; GCall (SetFanSpeedR 3 false); GPrepared; GWrite 200; GSent].
Proof. vm_compute. splits; reflexivity. Qed.
(** (Hooks that panic somewhere can be compared with hooks that never do.) *)
Theorem C138_calm : forall p, exists hk, alike_but_calm p hk.
Proof. exact some_calm. Qed.
Print Assumptions C138_calm.

(** What has been done when a hook panics: RequestReceived and RequestRouted, nothing; ResponsePrepared, the call, without an answer;
    Error, nothing is written (or the reply, if it is the write that failed); ResponseSent, one response is written. *)
Theorem C138_done : forall p s isPrint ulower unjson fails c h pre e, alike_but_calm p (sv_hooks s) ->
  servePanicking p s isPrint ulower unjson fails c h = pre ++ [e; HPanic] -> throws p e = true -> done_before e pre.
Proof. exact panic_before. Qed.
Print Assumptions C138_done.
Example C138_done_here : exists c, hd_error (rev (removelast (prun [SOwn 15] set_speed))) = Some (HPrepared c) /\
  throws (Some panicking_hooks) (HPrepared c) = true /\ last (prun [SOwn 15] set_speed) HFlush = HPanic.
Proof. eexists. vm_compute. auto. Qed.

(** WriteError, without a server: the error with its status; it panics at codes that Twirp does not know. *)
Theorem C138_alone : forall e, twirp_code (written_as e) -> writeErrorAlone e = [HWrite (status_for (written_as e)) (WError (written_as e))].
Proof. exact alone_known. Qed.
Print Assumptions C138_alone.
Theorem C138_alone_unknown : forall e, ~ twirp_code (written_as e) -> writeErrorAlone e = [HPanic].
Proof. exact alone_unknown. Qed.
Print Assumptions C138_alone_unknown.
Example C138_alone_here :
  writeErrorAlone (EPlain (str "broken") (str "*errors.errorString")) =
    [HWrite 500 (WError (mkGerror (str "internal") (str "broken") [(str "cause", str "*errors.errorString")]))] /\
  map glance_at (writeErrorAlone (ETwirp (mkGerror (str "not_found") [] []))) = [GWrite 404] /\
  writeErrorAlone (ETwirp (mkGerror (str "teapot") [] [])) = [HPanic].
Proof. vm_compute. auto. Qed.

(** The server of the repository, whose handlers do not panic (C57), never does: what is said of it elsewhere holds with panics in view. *)
Theorem C138_own : forall io ioType mtext t json a isPrint ulower unjson fails c h,
  let s := own_server io ioType mtext t json a in
  servePanicking None s isPrint ulower unjson fails c h = serveHooked s isPrint ulower unjson fails c h /\
  ~ In HPanic (servePanicking None s isPrint ulower unjson fails c h).
Proof. exact own_safe. Qed.
Print Assumptions C138_own.
Example C138_own_here :
  map glance_at (servePanicking None (own_server (fun _ => []) (fun _ => []) [] [] (fun _ => []) (fun _ => RespFlush true)) no_print same no_json None []
    (mkHreq (str "POST") (str "/twirp/comfo.api.Comfo/FlushCache") (str "application/protobuf") [8; 2])) = [GCall (FlushCacheR 2); GWrite 200] /\
  map glance_at (servePanicking None (own_server (fun _ => []) (fun _ => []) [] [] (fun _ => []) (fun _ => RespFlush true)) no_print same no_json None []
    (to_method "FlushCache")) = [GWrite 404].
Proof. vm_compute. auto. Qed.
