(** Proofs for C141. *)
From Coq Require Import String.
From Verif Require Import GoBase ProofBase GoStrings Server Wire Twirp TwirpProofs GoClient JsonWrite JsonError ErrorText Failures Hooks SpecHooks HooksProofs HooksClaims HooksMore
  SpecHooksPanic ClientHooks SpecClientHooks ClientHooksProofs ClientHooksMore ClientHooksPanic SpecClientHooksPanic.

(** [y] is what becomes of the events [l] and the result [b]. *)
Definition rel {A : Type} (p : option pchooks) (y : list cevent * option A) (l : list cevent) (b : A) : Prop :=
  y = (until_panic p l, if existsb (cthrows p) l then None else Some b).
Lemma until_whole p l : existsb (cthrows p) l = false -> until_panic p l = l.
Proof. induction l as [|e l IH]; cbn; [auto|]. intros H. apply orb_false_iff in H as [-> H]. now rewrite IH. Qed.
Lemma until_thrown p t l : existsb (cthrows p) t = true -> until_panic p (t ++ l) = until_panic p t.
Proof. induction t as [|e t IH]; cbn; [discriminate|]. destruct (cthrows p e); [auto|]. cbn. intros H. now rewrite IH. Qed.
Lemma until_app p t l : existsb (cthrows p) t = false -> until_panic p (t ++ l) = t ++ until_panic p l.
Proof. induction t as [|e t IH]; cbn; [auto|]. intros H. apply orb_false_iff in H as [-> H]. now rewrite IH. Qed.
Lemma rel_bind {A B} p (x : list cevent * option A) t a (f : A -> list cevent * option B) l b :
  rel p x t a -> rel p (f a) l b -> rel p (cbind x f) (t ++ l) b.
Proof.
  unfold rel. intros -> E. rewrite existsb_app. destruct (existsb (cthrows p) t) eqn:T; cbn [orb cbind].
  - now rewrite until_thrown.
  - rewrite E, until_app, (until_whole p t) by auto. reflexivity.
Qed.
Lemma rel_nil {A} p (b : A) : rel p ([], Some b) [] b.
Proof. reflexivity. Qed.

Section S.
Context (p : option pchooks) (k : client) (T : calm_twin p (cl_hooks k)).
Lemma prepared_rel c s : rel p (pcPrepared p c s) (fst (callClientRequestPrepared k c s)) (snd (callClientRequestPrepared k c s)).
Proof.
  unfold rel, pcPrepared, callClientRequestPrepared, chooks_of, pchooks_of; clear - T. destruct p as [q|], (cl_hooks k) as [h|]; cbn in T; try contradiction; [|reflexivity].
  destruct T as (R & _). destruct q as [f ? ?], h as [g ? ?]; cbn in *. destruct f as [f|], g as [g|]; cbn in R; try contradiction; [|reflexivity].
  cbn. destruct (f c s) as [x|] eqn:E; [rewrite (R _ _ _ E)|]; reflexivity.
Qed.
Lemma received_rel c : rel p (pcReceived p c) (callClientResponseReceived k c) tt.
Proof.
  unfold rel, pcReceived, callClientResponseReceived, chooks_of, pchooks_of; clear - T. destruct p as [q|], (cl_hooks k) as [h|]; cbn in T; try contradiction; [|reflexivity].
  destruct T as (_ & R & _). destruct q as [? f ?], h as [? g ?]; cbn in *. destruct f as [f|], g as [g|]; cbn in R; try contradiction; [|reflexivity].
  cbn. destruct (f c) as [[]|]; reflexivity.
Qed.
Lemma error_rel c g : rel p (pcError p c g) (callClientError k c g) tt.
Proof.
  unfold rel, pcError, callClientError, chooks_of, pchooks_of; clear - T. destruct p as [q|], (cl_hooks k) as [h|]; cbn in T; try contradiction; [|reflexivity].
  destruct T as (_ & _ & R). destruct q as [? ? f], h as [? ? j]; cbn in *. destruct f as [f|], j as [j|]; cbn in R; try contradiction; [|reflexivity].
  cbn. destruct (f c g) as [[]|]; reflexivity.
Qed.
Lemma sent_rel {A} h (b : A) : rel p ([CSent h], Some b) [CSent h] b.
Proof. unfold rel. cbn. destruct p; reflexivity. Qed.
Lemma request_rel w c q : rel p (pcRequest p k w c q) (fst (fst (doRequest k w c q))) (snd (fst (doRequest k w c q)), snd (doRequest k w c q)).
Proof.
  unfold pcRequest, doRequest. destruct (match cl_json k with Some sp => request_json sp q | None => marshal (rpc_fields q) end) as [b|]; [|apply rel_nil].
  destruct (w_cx1 w); [apply rel_nil|]. cbv zeta. destruct (parseUrl (method_url (cl_base k) (cl_prefix k) q)); [|apply rel_nil].
  match goal with |- context [pcPrepared p c ?s] => pose proof (prepared_rel c s) as P; destruct (callClientRequestPrepared k c s) as [t [[c' s'] e]] end. cbn [fst snd] in P.
  destruct e as [e|]; [cbn [fst snd]; rewrite <- (app_nil_r t); eapply rel_bind; [exact P|apply rel_nil]|].
  destruct s' as [|a o h]; [cbn [fst snd]; rewrite <- (app_nil_r t); eapply rel_bind; [exact P|apply rel_nil]|].
  cbn [fst snd]. eapply rel_bind; [exact P|]. cbv beta iota. apply sent_rel.
Qed.
Lemma method_rel w c q : rel p (pcMethod p k w c q) (fst (callMethod k w c q)) (snd (callMethod k w c q)).
Proof.
  unfold pcMethod, callMethod. pose proof (request_rel w c q) as R. destruct (doRequest k w c q) as [[t c'] r]. cbn [fst snd] in R.
  destruct r as [r|e]; cbn [fst snd]; (eapply rel_bind; [exact R|]); cbv beta iota.
  - rewrite <- (app_nil_r (callClientResponseReceived k c')). eapply rel_bind; [apply received_rel|apply rel_nil].
  - rewrite <- (app_nil_r (callClientError k c' (assertTwirp e))). eapply rel_bind; [apply error_rel|apply rel_nil].
Qed.

Lemma run_works ws name : forall i n, pcworks p k ws name n i (fst (pcRun p k ws name n i)) (snd (pcRun p k ws name n i)).
Proof.
  induction i as [v e|c v i IH|]; intros n; [constructor| |constructor]. cbn [pcRun]. unfold pcNext.
  assert (Wrong : (forall q, str (rpc_name q) = name -> v <> ARequest (message_of q)) ->
    pcworks p k ws name n (INext c v i)
      (fst (let (t', x) := pcRun p k ws name n (i (Some (ANil, Some (assertion (str "req") (reqType name))))) in ([] ++ t', x)))
      (snd (let (t', x) := pcRun p k ws name n (i (Some (ANil, Some (assertion (str "req") (reqType name))))) in ([] ++ t', x)))).
  { intros N. unfold assertion at 1 2. match goal with |- context [ETwirp ?gg] => specialize (IH (Some (ANil, Some (ETwirp gg))) n);
      apply (pw_wrong _ _ _ _ n c v i gg); [exact N|intros q E; subst name; pose proof (req_misfit q) as M; unfold assertion in M; congruence|] end.
    match type of IH with pcworks _ _ _ _ _ _ (fst ?r) _ => destruct r as [t' x] end. exact IH. }
  destruct v as [|m| | |]; try (apply Wrong; intros q _; discriminate).
  destruct (typedReq name m) as [q|] eqn:Ty.
  - pose proof (typed_req _ _ _ Ty) as N. pose proof (typed_message _ _ _ Ty) as <-.
    pose proof (method_rel (ws n) c q) as R. unfold rel in R. rewrite R. destruct (existsb (cthrows p) (fst (callMethod k (ws n) c q))) eqn:Th.
    + specialize (IH None (S n)). destruct (pcRun p k ws name (S n) (i None)) as [t' x]. cbn [fst snd] in *. apply pw_thrown; auto.
    + rewrite until_whole by auto. set (r := snd (callMethod k (ws n) c q)).
      set (v := match r with inl r => (AReply r, None) | inr e => (ANilReply (respType name), Some e) end).
      replace (match r with inl r => Some (AReply r, None) | inr e => Some (ANilReply (respType name), Some e) end) with (Some v) by (unfold v; destruct r; reflexivity).
      specialize (IH (Some v) (S n)). destruct (pcRun p k ws name (S n) (i (Some v))) as [t' x]. cbn [fst snd] in *.
      eapply pw_call with (r := r); eauto; [unfold r; now destruct (callMethod k (ws n) c q)|]. unfold v, chanded. destruct r as [r|e]; auto.
      destruct (some_reply_to q) as (y & Y). exists y. split; auto. rewrite (type_own q y Y), N. reflexivity.
  - apply Wrong. intros q N. intros [= ->]. rewrite <- N, named_typed in Ty. discriminate.
Qed.
End S.

Lemma client_cut p k ws c q : calm_twin p (cl_hooks k) -> cl_icpt k = None ->
  let (t, r) := clientCall k ws c q in
  pcCall p k ws c q = (until_panic p t, if existsb (cthrows p) t then SPanic else r).
Proof.
  intros T N. unfold clientCall, pcCall. rewrite N. cbv zeta. pose proof (method_rel p k T (ws 0%nat) (named_ctx q c) q) as R. unfold rel in R.
  unfold named_ctx in R. rewrite R. destruct (callMethod _ _ _ _) as [t r]. cbn [fst snd]. destruct (existsb (cthrows p) t); [reflexivity|]. destruct r; reflexivity.
Qed.
Lemma client_works p k ws c q f : calm_twin p (cl_hooks k) -> cl_icpt k = Some f ->
  exists x, pcworks p k ws (str (rpc_name q)) 0 (f (named_ctx q c) (ARequest (message_of q))) (fst (pcCall p k ws c q)) x /\ creturns q x (snd (pcCall p k ws c q)).
Proof.
  intros T Ic. pose proof (run_works p k T ws (str (rpc_name q)) (f (named_ctx q c) (ARequest (message_of q))) 0) as W.
  unfold pcCall. rewrite Ic. cbv zeta. fold (named_ctx q c). destruct (pcRun _ _ _ _ _ _) as [t x]. cbn [fst snd] in W. exists x.
  match goal with |- pcworks _ _ _ _ _ _ (fst ?z) _ /\ _ => assert (F : fst z = t) end.
  { destruct x as [[[|g|ty|y|] e]|]; try reflexivity; match goal with |- context [if ?b then _ else _] => destruct b end; reflexivity. }
  rewrite F. split; [exact W|]. clear.
  assert (Un : forall v e, ~ fits q v -> creturns q (Some (v, e)) (SReturn None (Some (assertion (str "resp") (respType (str (rpc_name q))))))).
  { intros v e N. rewrite resp_misfit. apply cr_unfit; auto. }
  destruct x as [[[|g|ty|y|] e]|]; cbn [snd].
  - apply cr_nil; [exact I|discriminate].
  - apply Un. cbn. tauto.
  - destruct (beq ty (respType (str (rpc_name q)))) eqn:B; cbn [snd].
    + apply cr_nil; [|discriminate]. apply beq_eq in B. destruct (some_reply_to q) as (y & Y). exists y. split; auto. rewrite B. apply type_own; auto.
    + apply Un. intros (y & Y & <-). rewrite (type_own q y Y), beq_refl in B. discriminate.
  - destruct (beq (type_of y) (respType (str (rpc_name q)))) eqn:B; cbn [snd].
    + apply cr_reply. apply type_names. apply beq_eq. exact B.
    + apply Un. cbn [fits]. intros Y. rewrite (type_own q y Y), beq_refl in B. discriminate.
  - apply Un. cbn. tauto.
  - constructor.
Qed.
Lemma client_calm p : exists hk, calm_twin p hk.
Proof.
  destruct p as [[f g h]|]; [|exists None; exact I].
  exists (Some (mkCHooks (option_map (fun f c s => match f c s with Some x => x | None => (c, s, None) end) f)
                         (option_map (fun _ _ => tt) g) (option_map (fun _ _ _ => tt) h))).
  repeat split; cbn; [destruct f as [f|]|destruct g|destruct h]; cbn; auto. intros c s x ->. reflexivity.
Qed.

(** Where the last event stands. *)
Lemma until_prefix p l pre e : until_panic p l = pre ++ [e] -> exists rest, l = pre ++ e :: rest.
Proof.
  revert pre. induction l as [|x l IH]; intros pre; cbn; [intros H; destruct pre; discriminate|].
  destruct (cthrows p x).
  - destruct pre as [|y pre]; cbn; intros H; [injection H as ->; eauto|]. injection H as _ H. destruct pre; discriminate.
  - destruct pre as [|y pre]; cbn; intros H; [injection H as -> H; eauto|]. injection H as -> H. destruct (IH _ H) as (rest & ->). eauto.
Qed.
Lemma errand_before f r hk pre e rest : errand f r -> filter (cshown hk) f = pre ++ e :: rest -> sent_before e pre.
Proof.
  intros E H. assert (Q : exists pf rf, f = pf ++ e :: rf /\ pre = filter (cshown hk) pf).
  { clear E. revert pre H. induction f as [|x f IH]; cbn; intros pre H; [destruct pre; discriminate|]. destruct (cshown hk x) eqn:S.
    - destruct pre as [|y pre]; cbn in H; [injection H as -> H; exists [], f; auto|]. injection H as -> H. destruct (IH _ H) as (pf & rf & -> & ->).
      exists (y :: pf), rf. cbn. rewrite S. auto.
    - destruct (IH _ H) as (pf & rf & -> & ->). exists (x :: pf), rf. cbn. rewrite S. auto. }
  destruct Q as (pf & rf & Ef & ->).
  assert (K : forall h l, filter (cshown hk) (CSent h :: l) = CSent h :: filter (cshown hk) l) by (intros; cbn; destruct hk; reflexivity).
  assert (K1 : forall c s, sent_in (filter (cshown hk) [CPrepared c s]) = []) by (intros c s; cbn; destruct hk as [[[]]|]; reflexivity).
  assert (K2 : forall c s h, sent_in (filter (cshown hk) [CPrepared c s; CSent h]) = [h]) by (intros c s h; cbn; destruct hk as [[[]]|]; reflexivity).
  destruct E; (destruct pf as [|a pf]; [|destruct pf as [|b pf]; [|destruct pf as [|d pf]; [|destruct pf; discriminate]]]); cbn in Ef; try discriminate;
    injection Ef; intros; subst; cbn [sent_before filter sent_in flat_map]; auto; try exact (K1 _ _); try (left; exact (K1 _ _)); try (right; eexists; exact (K2 _ _ _));
    try (eexists; exact (K2 _ _ _)).
Qed.
Lemma client_before p k ws c q t pre e : calm_twin p (cl_hooks k) -> cl_icpt k = None ->
  pcCall p k ws c q = (t, SPanic) -> t = pre ++ [e] -> sent_before e pre /\ cthrows p e = true.
Proof.
  intros T N E ->. pose proof (client_cut p k ws c q T N) as C. destruct (one_errand k ws c q N) as (f & r & Ef & F & R).
  destruct (clientCall k ws c q) as [l x]. cbn [fst snd] in *. rewrite E in C. injection C as C X.
  destruct (existsb (cthrows p) l) eqn:Th; [|subst x; destruct r; discriminate].
  destruct (until_prefix _ _ _ _ (eq_sym C)) as (rest & L). split.
  - eapply errand_before; [exact Ef|]. rewrite <- F. exact L.
  - clear - C Th. revert pre C. induction l as [|y l IH]; cbn in *; intros pre C; [discriminate|]. destruct (cthrows p y) eqn:Y.
    + destruct pre as [|z pre]; cbn in C; [injection C as ->; auto|]. injection C as _ C. destruct pre; discriminate.
    + destruct pre as [|z pre]; cbn in C; injection C as E C; [|now apply (IH Th pre)].
      destruct l as [|w l]; [discriminate|]. cbn in C. destruct (cthrows p w); discriminate.
Qed.
