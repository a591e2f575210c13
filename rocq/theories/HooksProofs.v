(** Proofs about server hooks and interceptors. *)
From Coq Require Import String.
From Verif Require JsonWriteProofs.
From Verif Require Import GoBase GoStrings Server Wire Twirp JsonWrite JsonError ErrorText TwirpProofs DescriptorClaims ErrorTextClaims Hooks SpecHooks.

Lemma status_same g : httpStatus (ge_code g) = status_for g.
Proof.
  unfold httpStatus, status_for, statuses. change (str "") with (@nil byte). cbn [find fst].
  repeat match goal with |- context [beq (ge_code g) ?x] =>
    let E := fresh in destruct (beq (ge_code g) x) eqn:E; [apply beq_eq in E; try rewrite E; vm_compute; reflexivity|] end.
  reflexivity.
Qed.

Lemma failure_shape s c e : exists f, failure f /\ writeErr s c e = filter (shown (sv_hooks s)) f.
Proof.
  unfold writeErr, callError, callResponseSent, hooks_of. rewrite status_same. set (g := asTwirp e). destruct (sv_hooks s) as [h|].
  - destruct (hk_error h) as [k|] eqn:Ke, (hk_sent h) as [k'|] eqn:Ks;
      (exists [HError (SStatus (status_for g) :: c) g; HWrite (status_for g) (WError g);
               HSent (match hk_error h with Some k => k (SStatus (status_for g) :: c) g | None => SStatus (status_for g) :: c end)]; split; [constructor|cbn [filter shown]; rewrite Ke, Ks; cbn [set_ app filter shown]; rewrite ?Ke, ?Ks; reflexivity]).
  - eexists. split; [eapply (Failure c g c)|reflexivity].
Qed.
Lemma calls_shown hk l : all_calls l -> filter (shown hk) l = l.
Proof. unfold all_calls. induction 1 as [|e l (c & q & ->) _ IH]; [reflexivity|]. cbn [filter]. replace (shown hk (HCall c q)) with true by (destruct hk; reflexivity). congruence. Qed.
Lemma next_calls s m n c v : all_calls (fst (fst (nextMethod s m n c v))).
Proof. unfold nextMethod. destruct (match v with ARequest m0 => typedReq m m0 | _ => None end); cbn [fst]; [constructor; [eauto|constructor]|constructor]. Qed.
Lemma interceptor_calls s m : forall i n, all_calls (fst (runInterceptor s m n i)).
Proof.
  induction i as [v e|c v k IH|]; intros n; cbn [runInterceptor fst]; [constructor| |constructor].
  pose proof (next_calls s m n c v) as N. destruct (nextMethod s m n c v) as [[t n'] r]. cbn [fst] in N. specialize (IH r n').
  destruct (runInterceptor s m n' (k r)) as [t' x]. cbn [fst] in *. apply Forall_app. split; auto.
Qed.
Lemma handler_calls s m c q : all_calls (fst (handler s m c q)).
Proof.
  unfold handler. destruct (sv_icpt s) as [f|]; [|cbn; constructor; [eauto|constructor]].
  pose proof (interceptor_calls s m (f c (ARequest (message_of q))) 0) as H. destruct (runInterceptor _ _ _ _) as [t [[[| | | |] e]|]]; cbn [fst] in *; auto;
    destruct (beq _ _); auto.
Qed.

(** A trace, seen from the hooks: what is seen of a life. *)
Definition seen_of (hk : option hooks) (P : list hevent -> Prop) (tr : list hevent) : Prop := exists f, P f /\ tr = filter (shown hk) f.

Lemma write_failed n text bs : unwritten (Some (n, text)) bs
  (mkGerror (str "unknown") (str "failed to write response, " ++ itoa n ++ str " of " ++ itoa (len bs) ++ str " bytes written: " ++ text) []).
Proof.
  assert (D : forall z, 0 <= z -> SpecErrorText.decimal (itoa z) z) by (intros z H; left; split; [exact H|]; apply JsonWriteProofs.itoa_int; exact H).
  exists n, text, (itoa n), (itoa (len bs)). repeat split; auto. apply D. unfold len. lia.
Qed.
Lemma finish_shape s m pb fails c q c0 c1 :
  seen_of (sv_hooks s) (fun f => lifecycle fails (HReceived c0 :: HRouted c1 :: f)) (finish s m pb fails c q).
Proof.
  unfold finish. pose proof (handler_calls s m c q) as C. destruct (handler s m c q) as [t r]. cbn [fst] in C.
  assert (W : forall e, seen_of (sv_hooks s) (fun f => lifecycle fails (HReceived c0 :: HRouted c1 :: f)) (t ++ writeErr s c e)).
  { intros e. destruct (failure_shape s c e) as (f & F & ->). exists (t ++ f). split; [apply Failed; auto|]. rewrite filter_app, (calls_shown _ t C). reflexivity. }
  destruct r as [[r|] [e|]|]; auto.
  - unfold callResponsePrepared. set (hp := hk_prepared (hooks_of s)).
    assert (P : forall t1 c2, (let (t1', c2') := match hp with Some f => ([HPrepared c], f c) | None => ([], c) end in t1 = t1' /\ c2 = c2') ->
      forall f, filter (shown (sv_hooks s)) (HPrepared c :: f) = t1 ++ filter (shown (sv_hooks s)) f).
    { intros t1 c2 H f. subst hp. unfold hooks_of in H. destruct (sv_hooks s) as [h|]; cbn [filter shown].
      - destruct (hk_prepared h); destruct H as [-> ->]; reflexivity.
      - cbn in H. destruct H as [-> ->]. reflexivity. }
    destruct (match hp with Some f => ([HPrepared c], f c) | None => ([], c) end) as [t1 c2]. specialize (P t1 c2 (conj eq_refl eq_refl)).
    destruct (sv_enc s pb r) as [bs|text].
    + destruct fails as [[n text]|].
      * unfold callError, callResponseSent, hooks_of.
        match goal with |- context [mkGerror (str "unknown") ?x []] => set (g := mkGerror (str "unknown") x []) end.
        destruct (match hk_error match sv_hooks s with Some h => h | None => no_hooks end with Some f => ([HError (SStatus 200 :: c2) g], f (SStatus 200 :: c2) g) | None => ([], SStatus 200 :: c2) end) as [t2 c3] eqn:E2.
        exists (t ++ [HPrepared c; HWrite 200 (WReply pb bs); HError (SStatus 200 :: c2) g; HSent c3]). split; [apply Unsent; auto; apply write_failed|].
        rewrite filter_app, (calls_shown _ t C), P. f_equal. f_equal.
        destruct (sv_hooks s) as [h|]; cbn [filter shown].
        -- destruct (hk_error h); injection E2 as <- <-; cbn [set_ app]; destruct (hk_sent h); reflexivity.
        -- cbn in E2. injection E2 as <- <-. reflexivity.
      * exists (t ++ [HPrepared c; HWrite 200 (WReply pb bs); HSent (SStatus 200 :: c2)]). split; [apply Served; auto|].
        rewrite filter_app, (calls_shown _ t C), P. f_equal. f_equal. unfold callResponseSent, hooks_of.
        destruct (sv_hooks s) as [h|]; cbn [filter shown]; [destruct (hk_sent h)|]; reflexivity.
    + destruct (failure_shape s c2 (ETwirp (marshalError text pb))) as (f & F & ->). exists (t ++ HPrepared c :: f). split; [apply Unencoded; auto|].
      rewrite filter_app, (calls_shown _ t C), P. reflexivity.
  - destruct (failure_shape s c (ETwirp (internalError (str "Internal service panic")))) as (f & F & ->). exists (t ++ f ++ [HFlush; HPanic]).
    split; [apply Panicked; auto|]. rewrite !filter_app, (calls_shown _ t C). f_equal. f_equal. cbn [filter]. destruct (sv_hooks s); reflexivity.
Qed.
Lemma received_shape s c : forall f, filter (shown (sv_hooks s)) (HReceived c :: f) = fst (callRequestReceived s c) ++ filter (shown (sv_hooks s)) f.
Proof. intros f. unfold callRequestReceived, hooks_of. destruct (sv_hooks s) as [h|]; cbn [filter shown]; [destruct (hk_received h)|]; reflexivity. Qed.
Lemma routed_shape s c : forall f, filter (shown (sv_hooks s)) (HRouted c :: f) = fst (callRequestRouted s c) ++ filter (shown (sv_hooks s)) f.
Proof. intros f. unfold callRequestRouted, hooks_of. destruct (sv_hooks s) as [h|]; cbn [filter shown]; [destruct (hk_routed h)|]; reflexivity. Qed.

Lemma method_shape s uj r pb fails c h c0 :
  seen_of (sv_hooks s) (fun f => lifecycle fails (HReceived c0 :: f)) (serveMethod s uj r pb fails c h).
Proof.
  unfold serveMethod. pose proof (routed_shape s (SMethod (rt_name r) :: c)) as R. destruct (callRequestRouted _ _) as [t [c1 e]]. cbn [fst] in R.
  assert (W : forall e, seen_of (sv_hooks s) (fun f => lifecycle fails (HReceived c0 :: f)) (t ++ writeErr s c1 e)).
  { intros x. destruct (failure_shape s c1 x) as (f & F & ->). exists (HRouted (SMethod (rt_name r) :: c) :: f). split; [apply (Failed fails c0 _ [] f); [constructor|auto]|auto]. }
  destruct e as [e|]; auto.
  destruct (if pb then unmarshal (rt_desc r) (h_body h) else uj (rt_desc r) (h_body h)) as [m|]; auto.
  destruct (finish_shape s (rt_name r) pb fails c1 (rt_call r m) c0 (SMethod (rt_name r) :: c)) as (f & F & ->). eexists. split; [exact F|auto].
Qed.

(** ** Routing *)
Definition routing (s : server) (ip : Z -> bool) (ul : list byte -> list byte) (h : hreq) : goerr + (route * bool) :=
  let q := quote ip in
  if negb (beq (h_method h) (str "POST")) then
    inl (ETwirp (badRouteError (str "unsupported method " ++ q (h_method h) ++ str " (only POST is allowed)") h))
  else
    let '(prefix, pkgService, method) := parseTwirpPath (h_path h) in
    let noHandler := ETwirp (badRouteError (str "no handler for path " ++ q (h_path h)) h) in
    if negb (beq pkgService (str "comfo.api.Comfo")) then inl noHandler
    else if negb (beq prefix (sv_prefix s)) then
      inl (ETwirp (badRouteError (str "invalid path prefix " ++ q prefix ++ str ", expected " ++ q (sv_prefix s) ++ str ", on path " ++ q (h_path h)) h))
    else match find_route method rt_routes with
         | None => inl noHandler
         | Some r =>
             match contentType ul (h_ctype h) with
             | None => inl (ETwirp (badRouteError (str "unexpected Content-Type: " ++ q (h_ctype h)) h))
             | Some pb => inr (r, pb)
             end
         end.
Lemma serve_routing s ip ul uj fails c h : serveHooked s ip ul uj fails c h =
  let '(t, (c, e)) := callRequestReceived s (arrival c) in
  t ++ match e with
       | Some e => writeErr s c e
       | None => match routing s ip ul h with inl e => writeErr s c e | inr (r, pb) => serveMethod s uj r pb fails c h end
       end.
Proof.
  unfold serveHooked, routing, arrival. destruct (callRequestReceived _ _) as [t [c1 [e|]]]; [reflexivity|]. f_equal.
  destruct (negb (beq (h_method h) _)); [reflexivity|]. destruct (parseTwirpPath (h_path h)) as [[p sv] m]. destruct (negb (beq sv _)); [reflexivity|].
  destruct (negb (beq p _)); [reflexivity|]. destruct (find_route _ _); [|reflexivity]. destruct (contentType _ _); reflexivity.
Qed.

Lemma served_life s ip ul uj fails c h : exists f, lifecycle fails f /\ serveHooked s ip ul uj fails c h = filter (shown (sv_hooks s)) f.
Proof.
  rewrite serve_routing. pose proof (received_shape s (arrival c)) as R. destruct (callRequestReceived _ _) as [t [c1 e]]. cbn [fst] in R.
  assert (W : forall e, exists f, lifecycle fails f /\ t ++ writeErr s c1 e = filter (shown (sv_hooks s)) f).
  { intros x. destruct (failure_shape s c1 x) as (f & F & ->). exists (HReceived (arrival c) :: f). split; [constructor; auto|auto]. }
  destruct e as [e|]; auto. destruct (routing s ip ul h) as [e|[r pb]]; auto.
  destruct (method_shape s uj r pb fails c1 h (arrival c)) as (f & F & ->). eexists. split; [exact F|auto].
Qed.
