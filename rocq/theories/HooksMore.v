(** What an interceptor makes of a request, exactly. *)
From Coq Require Import String.
From Verif Require Proc SpecServer.
From Verif Require Import ProofBase GoStrings Server Wire Twirp JsonWrite JsonError ErrorText TwirpProofs Hooks SpecHooks HooksProofs HooksClaims.

Lemma some_reply_to q : exists x, replies_to q x = true.
Proof.
  destruct q;
    first [exists (SpecServer.message (SpecServer.blank Proc.CBoot)); reflexivity|exists (SpecServer.message (SpecServer.blank Proc.CBypass)); reflexivity
          |exists (SpecServer.message (SpecServer.blank Proc.CErr)); reflexivity|exists (SpecServer.message (SpecServer.blank Proc.CFans)); reflexivity
          |exists (SpecServer.message (SpecServer.blank Proc.CProf)); reflexivity|exists (SpecServer.message (SpecServer.blank Proc.CTemp)); reflexivity
          |exists (RespComfort true 0 0); reflexivity|exists (RespSpeed true 0 0); reflexivity|exists (RespProfile true 0 0); reflexivity|exists (RespFlush true); reflexivity].
Qed.
Lemma typed_message name m q : typedReq name m = Some q -> message_of q = m.
Proof.
  unfold typedReq. cbn zeta. destruct m; intros H;
    repeat match type of H with (if ?b then _ else _) = _ => destruct b; [injection H as <-; reflexivity|] end; discriminate.
Qed.
Lemma named_typed q : typedReq (str (rpc_name q)) (message_of q) = Some q.
Proof. apply typed_own. Qed.
Lemma req_misfit q : assertion (str "req") (reqType (str (rpc_name q))) = ETwirp (misfit_request q).
Proof. destruct q; vm_compute; reflexivity. Qed.
Lemma resp_misfit q : assertion (str "resp") (respType (str (rpc_name q))) = ETwirp (misfit_reply q).
Proof. destruct q; vm_compute; reflexivity. Qed.
Lemma nil_text q : internalError (str "received a nil *" ++ respType (str (rpc_name q)) ++ str " and nil error while calling " ++ str (rpc_name q) ++
  str ". nil responses are not supported") = nil_reply q.
Proof. destruct q; vm_compute; reflexivity. Qed.
Lemma works_run s name : forall i n, works (sv_svc s) name n i (fst (runInterceptor s name n i)) (snd (runInterceptor s name n i)).
Proof.
  induction i as [v e|c v k IH|]; intros n; [constructor| |constructor]. cbn [runInterceptor]. unfold nextMethod.
  assert (Wrong : (forall q, str (rpc_name q) = name -> v <> ARequest (message_of q)) ->
    works (sv_svc s) name n (INext c v k)
      (fst (let (t', x) := runInterceptor s name n (k (Some (ANil, Some (assertion (str "req") (reqType name))))) in ([] ++ t', x)))
      (snd (let (t', x) := runInterceptor s name n (k (Some (ANil, Some (assertion (str "req") (reqType name))))) in ([] ++ t', x)))).
  { intros N. unfold assertion at 1 2. match goal with |- context [ETwirp ?gg] => specialize (IH (Some (ANil, Some (ETwirp gg))) n);
      apply (wo_wrong _ _ n c v k gg); [exact N|intros q E; subst name; pose proof (req_misfit q) as M; unfold assertion in M; congruence|] end.
    match type of IH with works _ _ _ _ (fst ?r) _ => destruct r as [t' x] end. exact IH. }
  destruct v as [|m| | |]; try (apply Wrong; intros q _; discriminate).
  destruct (typedReq name m) as [q|] eqn:T.
  - pose proof (typed_req _ _ _ T) as N. pose proof (typed_message _ _ _ T) as <-.
    set (r := match sv_svc s n c q with SReturn (Some r) e => Some (AReply r, e) | SReturn None e => Some (ANilReply (respType name), e) | SPanic => None end).
    specialize (IH r (S n)). destruct (runInterceptor s name (S n) (k r)) as [t' x]. cbn [fst snd app] in *.
    apply wo_call with (r := r); auto. unfold r, handed. destruct (sv_svc s n c q) as [[y|] e|]; auto.
    destruct (some_reply_to q) as (y & Y). exists (respType name), y. subst name. split; [auto|]. split; [apply type_own; auto|reflexivity].
  - apply Wrong. intros q N. intros [= ->]. rewrite <- N, named_typed in T. discriminate.
Qed.
Lemma outward_sent s c : filter outward (callResponseSent s c) = [].
Proof. unfold callResponseSent. destruct (hk_sent (hooks_of s)); reflexivity. Qed.
Lemma internal_written s c g : ge_code g = str "internal" -> filter outward (writeErr s c (ETwirp g)) = [HWrite 500 (WError g)].
Proof. intros E. rewrite error_outward. cbn [written_as]. unfold status_for. rewrite E. reflexivity. Qed.
(** After the handler. *)
Definition after_ (s : server) (method : list byte) (pb : bool) (fails : option (Z * list byte)) (c : ctx) (r : sres) : list hevent :=
  match r with
  | SPanic => writeErr s c (ETwirp (internalError (str "Internal service panic"))) ++ [HFlush; HPanic]
  | SReturn _ (Some e) => writeErr s c e
  | SReturn None None => writeErr s c (ETwirp (internalError (str "received a nil *" ++ respType method ++ str " and nil error while calling " ++ method ++ str ". nil responses are not supported")))
  | SReturn (Some r) None =>
      let (t, c) := callResponsePrepared s c in
      t ++ match sv_enc s pb r with
           | inr text => writeErr s c (ETwirp (marshalError text pb))
           | inl bs =>
               let c := SStatus 200 :: c in
               HWrite 200 (WReply pb bs) ::
               match fails with
               | Some (n, text) => let (t, c) := callError s c (mkGerror (str "unknown") (str "failed to write response, " ++ itoa n ++ str " of " ++
                                   itoa (len bs) ++ str " bytes written: " ++ text) []) in t ++ callResponseSent s c
               | None => callResponseSent s c
               end
           end
  end.
Lemma finish_after s m pb fails c q : finish s m pb fails c q = fst (handler s m c q) ++ after_ s m pb fails c (snd (handler s m c q)).
Proof. unfold finish. destruct (handler s m c q). reflexivity. Qed.
Lemma reply_after s m pb fails c r : exists x, filter outward (after_ s m pb fails c (SReturn (Some r) None)) = [x] /\
  match sv_enc s pb r with inl bs => x = HWrite 200 (WReply pb bs) | inr text => x = HWrite 500 (WError (unencodable pb text)) end.
Proof.
  cbn [after_]. unfold callResponsePrepared.
  assert (X : forall t cc, filter outward t = [] -> exists x, filter outward (t ++ match sv_enc s pb r with
           | inr text => writeErr s cc (ETwirp (marshalError text pb))
           | inl bs =>
               let c := SStatus 200 :: cc in
               HWrite 200 (WReply pb bs) ::
               match fails with
               | Some (n, text) => let (t, c) := callError s c (mkGerror (str "unknown") (str "failed to write response, " ++ itoa n ++ str " of " ++
                                   itoa (len bs) ++ str " bytes written: " ++ text) []) in t ++ callResponseSent s c
               | None => callResponseSent s c
               end
           end) = [x] /\ match sv_enc s pb r with inl bs => x = HWrite 200 (WReply pb bs) | inr text => x = HWrite 500 (WError (unencodable pb text)) end).
  { intros t cc E. rewrite filter_app, E. cbn [app]. destruct (sv_enc s pb r) as [bs|text].
    - eexists. split; [|reflexivity]. cbn [filter outward]. f_equal. destruct fails as [[n text]|]; [|apply outward_sent].
      unfold callError. destruct (hk_error (hooks_of s)); cbn [app filter outward]; apply outward_sent.
    - eexists. split; [apply internal_written; reflexivity|]. destruct pb; reflexivity. }
  destruct (hk_prepared (hooks_of s)); apply X; reflexivity.
Qed.
Lemma intercepted s ip ul uj fails c h c1 c2 r pb q f : sv_icpt s = Some f ->
  lets_through (sv_hooks s) hk_received (arrival c) c1 -> addresses (sv_prefix s) ul h r pb ->
  lets_through (sv_hooks s) hk_routed (SMethod (rt_name r) :: c1) c2 -> decodes uj h r pb q ->
  exists calls x out, works (sv_svc s) (rt_name r) 0 (f c2 (ARequest (message_of q))) calls x /\ closes (sv_enc s) pb q x out /\
    filter outward (serveHooked s ip ul uj fails c h) = calls ++ out.
Proof.
  intros Ic L1 A L2 D. assert (Ro : routing s ip ul h = inr (r, pb)) by (apply routed_addresses; auto).
  rewrite serve_routing. pose proof (received_cases s (arrival c)) as R. destruct (callRequestReceived s (arrival c)) as [t [c1' [e|]]]; destruct R as (_ & R1 & R3); [exfalso; exact (through_refuses _ _ _ _ _ L1 R3)|].
  rewrite (through_det _ _ _ _ _ R3 L1). rewrite Ro. unfold serveMethod. pose proof (routed_cases s (SMethod (rt_name r) :: c1)) as Q.
  destruct (callRequestRouted s (SMethod (rt_name r) :: c1)) as [t' [c2' [e|]]]; destruct Q as (_ & Q1 & Q3); [exfalso; exact (through_refuses _ _ _ _ _ L2 Q3)|].
  rewrite (through_det _ _ _ _ _ Q3 L2). destruct D as (m & -> & ->).
  assert (Nm : rt_name r = str (rpc_name (rt_call r m))) by (symmetry; apply route_props; apply A).
  set (q := rt_call r m) in *. rewrite !filter_app, R1, Q1, finish_after, filter_app, (calls_outward _ (handler_calls s (rt_name r) c2 q)), handler_fst, Ic. cbn [app].
  pose proof (works_run s (rt_name r) (f c2 (ARequest (message_of q))) 0) as W. unfold handler. rewrite Ic.
  destruct (runInterceptor s (rt_name r) 0 (f c2 (ARequest (message_of q)))) as [calls x] eqn:Rn. cbn [fst snd] in W. cbn [fst].
  exists calls, x.
  assert (Cl : exists out, closes (sv_enc s) pb q x out /\ filter outward (after_ s (rt_name r) pb fails c2 (snd
     match x with
     | None => (calls, SPanic)
     | Some (ANil, e) => (calls, SReturn None e)
     | Some (ANilReply ty, e) => if beq ty (respType (rt_name r)) then (calls, SReturn None e) else (calls, SReturn None (Some (assertion (str "resp") (respType (rt_name r)))))
     | Some (AReply y, e) => if beq (type_of y) (respType (rt_name r)) then (calls, SReturn (Some y) e) else (calls, SReturn None (Some (assertion (str "resp") (respType (rt_name r)))))
     | Some (_, _) => (calls, SReturn None (Some (assertion (str "resp") (respType (rt_name r)))))
     end)) = out).
  { assert (Un : forall v e, ~ fits q v -> exists out, closes (sv_enc s) pb q (Some (v, e)) out /\
      filter outward (after_ s (rt_name r) pb fails c2 (SReturn None (Some (assertion (str "resp") (respType (rt_name r)))))) = out).
    { intros v e N. eexists. split; [|reflexivity]. cbn [after_]. rewrite Nm, resp_misfit, internal_written by reflexivity. apply cl_unfit; auto. }
    assert (Er : forall v o e, fits q v -> exists out, closes (sv_enc s) pb q (Some (v, Some e)) out /\
      filter outward (after_ s (rt_name r) pb fails c2 (SReturn o (Some e))) = out).
    { intros v o e N. eexists. split; [|reflexivity]. replace (after_ s (rt_name r) pb fails c2 (SReturn o (Some e))) with (writeErr s c2 e) by (destruct o; reflexivity).
      rewrite error_outward. apply cl_error; auto. }
    assert (Ni : forall v, fits q v -> (forall y, v <> AReply y) -> exists out, closes (sv_enc s) pb q (Some (v, None)) out /\
      filter outward (after_ s (rt_name r) pb fails c2 (SReturn None None)) = out).
    { intros v F N. eexists. split; [|reflexivity]. cbn [after_]. rewrite Nm, nil_text, internal_written by reflexivity. apply cl_nil; auto. }
    destruct x as [[[|g|ty|y|] e]|].
    - cbn [snd]. destruct e as [e|]; [apply Er; exact I|apply Ni; [exact I|discriminate]].
    - cbn [snd]. apply Un. cbn. tauto.
    - destruct (beq ty (respType (rt_name r))) eqn:B; cbn [snd].
      + apply beq_eq in B. assert (F : fits q (ANilReply ty)).
        { destruct (some_reply_to q) as (y & Y). exists y. split; auto. rewrite B, Nm. apply type_own; auto. }
        destruct e as [e|]; [apply Er; exact F|apply Ni; [exact F|discriminate]].
      + apply Un. intros (y & Y & <-). rewrite (type_own q y Y), <- Nm in B. rewrite beq_refl in B. discriminate.
    - destruct (beq (type_of y) (respType (rt_name r))) eqn:B; cbn [snd].
      + apply beq_eq in B. rewrite Nm in B. apply type_names in B. destruct e as [e|]; [apply Er; exact B|].
        destruct (reply_after s (rt_name r) pb fails c2 y) as (o & Eo & Ho). exists [o]. split; auto.
        destruct (sv_enc s pb y) as [bs|text] eqn:En; [subst o; apply cl_reply; auto|]. subst o. eapply cl_unencoded; eauto.
      + apply Un. cbn [fits]. intros Y. rewrite (type_own q y Y), <- Nm, beq_refl in B. discriminate.
    - cbn [snd]. apply Un. cbn. tauto.
    - cbn [snd after_]. eexists. split; [|reflexivity]. rewrite filter_app, internal_written by reflexivity. apply cl_panic. }
  destruct Cl as (out & Cl & E). exists out. split; [exact W|]. split; [exact Cl|]. f_equal. rewrite <- E. reflexivity.
Qed.
