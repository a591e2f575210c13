(** What hooks and an interceptor make of a call of a Go client, exactly. *)
From Coq Require Import String.
From Verif Require Import ProofBase GoStrings Server Wire Twirp GoClient JsonWrite JsonError ErrorText TwirpProofs Hooks SpecHooks HooksProofs HooksClaims HooksMore
  Failures ClientHooks SpecClientHooks ClientHooksProofs.

Lemma protobuf_200 k w q s r : readProtobuf k w q s = inl r -> s_status s = 200.
Proof. unfold readProtobuf. destruct (w_cx2 w); [discriminate|]. destruct (s_status s =? 200) eqn:E; cbn [negb]; [|discriminate]. intros _. lia. Qed.
Lemma json_200 k w q s r : readJson k w q s = inl r -> s_status s = 200.
Proof. unfold readJson. destruct (w_cx2 w); [discriminate|]. destruct (s_status s =? 200) eqn:E; cbn [negb]; [|discriminate]. intros _. lia. Qed.
Lemma prepared_prepares k c s t c' s' e : callClientRequestPrepared k c s = (t, (c', s', e)) -> prepares k c s c' s' e.
Proof.
  unfold callClientRequestPrepared, chooks_of, prepares. destruct (cl_hooks k) as [h|]; [destruct (ck_prepared h)|]; intros H; injection H as _ H1; auto;
    try (injection H1); intros; subst; auto.
Qed.
Lemma call_asked k w c q : exists f, asked k w c q f (snd (callMethod k w c q)) /\ fst (callMethod k w c q) = filter (cshown (cl_hooks k)) f.
Proof.
  unfold callMethod, doRequest.
  destruct (match cl_json k with Some sp => request_json sp q | None => marshal (rpc_fields q) end) as [b|] eqn:B.
  2: { eexists. split; [apply as_early; auto|]. rewrite error_shown. reflexivity. }
  destruct (w_cx1 w) eqn:X1.
  { eexists. split; [apply as_early; right; left; congruence|]. rewrite error_shown. reflexivity. }
  destruct (parseUrl (method_url (cl_base k) (cl_prefix k) q)) eqn:U.
  2: { eexists. split; [apply as_early; auto|]. rewrite error_shown. reflexivity. }
  destruct (callClientRequestPrepared k c _) as [t [[c' s] e]] eqn:P. pose proof (prepared_prepares _ _ _ _ _ _ _ P) as Pr.
  assert (D : drawn_up k q (newRequest (method_url (cl_base k) (cl_prefix k) q) (match cl_json k with Some _ => str "application/json" | None => str "application/protobuf" end) b))
    by (exists b; auto).
  destruct e as [e|].
  { cbn [fst snd]. eexists. split; [eapply as_refused; eauto|]. rewrite (prepared_fst _ _ _ _ _ P), error_shown, told_same. reflexivity. }
  destruct s as [|a o h].
  { cbn [fst snd]. eexists. split; [eapply as_unsent; eauto|]. rewrite (prepared_fst _ _ _ _ _ P), error_shown. reflexivity. }
  destruct (w_do w h) as [e|s] eqn:W.
  { cbn [fst snd]. eexists. split; [eapply as_failed; eauto|]. rewrite (prepared_fst _ _ _ _ _ P), sent_shown, error_shown, <- app_assoc. reflexivity. }
  assert (R : match (match cl_json k with Some _ => readJson k w q s | None => readProtobuf k w q s end) with inl r => s_status s = 200 /\ replies_to q r = true | inr _ => True end).
  { destruct (cl_json k).
    - destruct (readJson k w q s) as [r|g] eqn:R; auto. split; [eapply json_200; eauto|]. destruct (json_reads _ _ _ _ _ R) as (m & ->). apply read_typed.
    - destruct (readProtobuf k w q s) as [r|g] eqn:R; auto. split; [eapply protobuf_200; eauto|]. destruct (protobuf_reads _ _ _ _ _ R) as (m & ->). apply read_typed. }
  destruct (match cl_json k with Some _ => readJson k w q s | None => readProtobuf k w q s end) as [r|g]; cbn [fst snd].
  - destruct R. eexists. split; [eapply as_replied; eauto|]. rewrite (prepared_fst _ _ _ _ _ P), sent_shown, received_shown, <- app_assoc. reflexivity.
  - eexists. split; [eapply as_failed; eauto|]. rewrite (prepared_fst _ _ _ _ _ P), sent_shown, error_shown, <- app_assoc. reflexivity.
Qed.
Lemma cworks_run k ws name : forall i n, exists f, cworks k ws name n i f (snd (runClient k ws name n i)) /\ fst (runClient k ws name n i) = filter (cshown (cl_hooks k)) f.
Proof.
  induction i as [v e|c v i IH|]; intros n; [exists []; split; [constructor|reflexivity]| |exists []; split; [constructor|reflexivity]].
  cbn [runClient]. unfold nextCall.
  assert (Wrong : (forall q, str (rpc_name q) = name -> v <> ARequest (message_of q)) -> exists f,
    cworks k ws name n (INext c v i) f (snd (let (t', x) := runClient k ws name n (i (Some (ANil, Some (assertion (str "req") (reqType name))))) in ([] ++ t', x))) /\
    fst (let (t', x) := runClient k ws name n (i (Some (ANil, Some (assertion (str "req") (reqType name))))) in ([] ++ t', x)) = filter (cshown (cl_hooks k)) f).
  { intros N. unfold assertion. match goal with |- context [ETwirp ?gg] => destruct (IH (Some (ANil, Some (ETwirp gg))) n) as (f & F & E); exists f end.
    match type of E with fst ?r = _ => destruct r as [t' x] end. cbn [fst snd app] in *. split; auto. eapply cw_wrong; [exact N| |exact F]. intros q Q. subst name. pose proof (req_misfit q) as M. unfold assertion in M. congruence. }
  destruct v as [|m| | |]; try (apply Wrong; intros q _; discriminate).
  destruct (typedReq name m) as [q|] eqn:T.
  - pose proof (typed_req _ _ _ T) as N. pose proof (typed_message _ _ _ T) as <-.
    destruct (call_asked k (ws n) c q) as (f & A & F). destruct (callMethod k (ws n) c q) as [t r]. cbn [fst snd] in A, F.
    set (v := match r with inl r => (AReply r, None) | inr e => (ANilReply (respType name), Some e) end).
    destruct (IH (Some v) (S n)) as (f' & W & E). destruct (runClient k ws name (S n) (i (Some v))) as [t' x]. cbn [fst snd] in *.
    exists (f ++ f'). split; [|rewrite filter_app; congruence]. eapply cw_call; eauto. unfold v, chanded. destruct r as [r|e]; auto.
    destruct (some_reply_to q) as (y & Y). exists y. split; auto. rewrite (type_own q y Y), N. reflexivity.
  - apply Wrong. intros q N. intros [= ->]. rewrite <- N, named_typed in T. discriminate.
Qed.
Lemma cintercepted k ws c q f : cl_icpt k = Some f ->
  exists t x, cworks k ws (str (rpc_name q)) 0 (f (named_ctx q c) (ARequest (message_of q))) t x /\
    fst (clientCall k ws c q) = filter (cshown (cl_hooks k)) t /\ creturns q x (snd (clientCall k ws c q)).
Proof.
  intros Ic. destruct (cworks_run k ws (str (rpc_name q)) (f (named_ctx q c) (ARequest (message_of q))) 0) as (t & W & E).
  exists t, (snd (runClient k ws (str (rpc_name q)) 0 (f (named_ctx q c) (ARequest (message_of q))))). split; [exact W|]. rewrite call_fst, Ic. split; [exact E|].
  unfold clientCall. rewrite Ic. fold (named_ctx q c). destruct (runClient _ _ _ _ _) as [t' x]. cbn [snd]. clear.
  assert (Un : forall v e, ~ fits q v -> creturns q (Some (v, e)) (SReturn None (Some (assertion (str "resp") (respType (str (rpc_name q))))))).
  { intros v e N. rewrite resp_misfit. apply cr_unfit; auto. }
  destruct x as [[[|g|ty|y|] e]|]; cbn [snd].
  - apply cr_nil; [exact I|discriminate].
  - apply Un. cbn. tauto.
  - destruct (beq ty (respType (str (rpc_name q)))) eqn:B; cbn [snd].
    + apply cr_nil; [|discriminate]. apply beq_eq in B. destruct (some_reply_to q) as (y & Y). exists y. split; auto. rewrite B. apply type_own; auto.
    + apply Un. intros (y & Y & <-). rewrite (type_own q y Y), beq_refl in B. discriminate.
  - destruct (beq (type_of y) (respType (str (rpc_name q)))) eqn:B; cbn [snd].
    + apply cr_reply. apply type_names. apply beq_eq. exact B.
    + apply Un. cbn [fits]. intros Y. rewrite (type_own q y Y), beq_refl in B. discriminate.
  - apply Un. cbn. tauto.
  - constructor.
Qed.
Lemma unintercepted k ws c q : cl_icpt k = None ->
  exists t r, asked k (ws 0%nat) (named_ctx q c) q t r /\ fst (clientCall k ws c q) = filter (cshown (cl_hooks k)) t /\
    snd (clientCall k ws c q) = match r with inl r => SReturn (Some r) None | inr e => SReturn None (Some e) end.
Proof.
  intros N. destruct (call_asked k (ws 0%nat) (named_ctx q c) q) as (f & A & F). unfold clientCall. rewrite N. fold (named_ctx q c).
  destruct (callMethod k (ws 0%nat) (named_ctx q c) q) as [t r]. cbn [fst snd] in *. eauto.
Qed.
