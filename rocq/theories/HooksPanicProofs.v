(** Proofs for C138. *)
From Coq Require Import String.
From Verif Require Import GoBase ProofBase Server Wire Twirp TwirpProofs JsonWrite JsonError ErrorText Hooks SpecHooks HooksProofs HooksClaims HooksPanic SpecHooksPanic.

Definition full {A} (x : list hevent * option A) : list hevent := fst x ++ match snd x with Some _ => [] | None => [HPanic] end.
(** One call of a hook. *)
Definition one {A} (p : option phooks) (x : list hevent * option A) (t : list hevent) (a : A) : Prop :=
  (x = (t, Some a) /\ Forall (fun e => unwritable e = false /\ throws p e = false) t) \/
  (x = (t, None) /\ exists e, t = [e] /\ unwritable e = false /\ throws p e = true).

Lemma cut_through p t l : Forall (fun e => unwritable e = false /\ throws p e = false) t -> cut p (t ++ l) = t ++ cut p l.
Proof. induction 1 as [|e t [U W] _ I]; cbn; [auto|]. now rewrite U, W, I. Qed.
Lemma full_bind {A B} p (x : list hevent * option A) t a (k : A -> list hevent * option B) l :
  one p x t a -> full (k a) = cut p l -> full (pbind x k) = cut p (t ++ l).
Proof.
  intros [[-> F]|[-> (e & -> & U & W)]] E.
  - rewrite cut_through, <- E by auto. unfold full, pbind. destruct (k a) as [t' r]. cbn. now rewrite app_assoc.
  - cbn. now rewrite U, W.
Qed.

Section S.
Context (p : option phooks) (s : server) (T : alike_but_calm p (sv_hooks s)).

Lemma received_one c : one p (pReceived p c) (fst (callRequestReceived s c)) (snd (callRequestReceived s c)).
Proof.
  unfold pReceived, callRequestReceived, hooks_of, phooks_of; clear - T. destruct p as [q|], (sv_hooks s) as [h|]; cbn in T; try contradiction; [|left; cbn; auto].
  destruct T as (R & _). destruct q as [f ? ? ? ?], h as [g ? ? ? ?]; cbn in *. destruct f as [f|], g as [g|]; cbn in R; try contradiction; [|left; cbn; auto].
  cbn. destruct (f c) as [x|] eqn:E.
  - left. rewrite (R _ _ E). split; [auto|]. constructor; [|auto]. cbn. now rewrite E.
  - right. split; [auto|]. eexists. split; [reflexivity|]. cbn. now rewrite E.
Qed.
Lemma routed_one c : one p (pRouted p c) (fst (callRequestRouted s c)) (snd (callRequestRouted s c)).
Proof.
  unfold pRouted, callRequestRouted, hooks_of, phooks_of; clear - T. destruct p as [q|], (sv_hooks s) as [h|]; cbn in T; try contradiction; [|left; cbn; auto].
  destruct T as (_ & R & _). destruct q as [? f ? ? ?], h as [? g ? ? ?]; cbn in *. destruct f as [f|], g as [g|]; cbn in R; try contradiction; [|left; cbn; auto].
  cbn. destruct (f c) as [x|] eqn:E.
  - left. rewrite (R _ _ E). split; [auto|]. constructor; [|auto]. cbn. now rewrite E.
  - right. split; [auto|]. eexists. split; [reflexivity|]. cbn. now rewrite E.
Qed.
Lemma prepared_one c : one p (pPrepared p c) (fst (callResponsePrepared s c)) (snd (callResponsePrepared s c)).
Proof.
  unfold pPrepared, callResponsePrepared, hooks_of, phooks_of; clear - T. destruct p as [q|], (sv_hooks s) as [h|]; cbn in T; try contradiction; [|left; cbn; auto].
  destruct T as (_ & _ & R & _). destruct q as [? ? f ? ?], h as [? ? g ? ?]; cbn in *. destruct f as [f|], g as [g|]; cbn in R; try contradiction; [|left; cbn; auto].
  cbn. destruct (f c) as [x|] eqn:E.
  - left. rewrite (R _ _ E). split; [auto|]. constructor; [|auto]. cbn. now rewrite E.
  - right. split; [auto|]. eexists. split; [reflexivity|]. cbn. now rewrite E.
Qed.
Lemma error_one c g : one p (pError p c g) (fst (callError s c g)) (snd (callError s c g)).
Proof.
  unfold pError, callError, hooks_of, phooks_of; clear - T. destruct p as [q|], (sv_hooks s) as [h|]; cbn in T; try contradiction; [|left; cbn; auto].
  destruct T as (_ & _ & _ & _ & R). destruct q as [? ? ? ? f], h as [? ? ? ? k]; cbn in *. destruct f as [f|], k as [k|]; cbn in R; try contradiction; [|left; cbn; auto].
  cbn. destruct (f c g) as [x|] eqn:E.
  - left. rewrite (R _ _ _ E). split; [auto|]. constructor; [|auto]. cbn. now rewrite E.
  - right. split; [auto|]. eexists. split; [reflexivity|]. cbn. now rewrite E.
Qed.
Lemma sent_one c : one p (pSent p c) (callResponseSent s c) tt.
Proof.
  unfold pSent, callResponseSent, hooks_of, phooks_of; clear - T. destruct p as [q|], (sv_hooks s) as [h|]; cbn in T; try contradiction; [|left; cbn; auto].
  destruct T as (_ & _ & _ & R & _). destruct q as [? ? ? f ?], h as [? ? ? k ?]; cbn in *. destruct f as [f|], k as [k|]; cbn in R; try contradiction; [|left; cbn; auto].
  cbn. destruct (f c) as [[]|] eqn:E.
  - left. split; [auto|]. constructor; [|auto]. cbn. now rewrite E.
  - right. split; [auto|]. eexists. split; [reflexivity|]. cbn. now rewrite E.
Qed.
Lemma bind_ret {A} (x : list hevent * option A) : pbind x (fun a => ([], Some a)) = x.
Proof. destruct x as [t [a|]]; cbn; [now rewrite app_nil_r|auto]. Qed.
Lemma sent_full c : full (pSent p c) = cut p (callResponseSent s c).
Proof.
  rewrite <- (bind_ret (pSent p c)), <- (app_nil_r (callResponseSent s c)). eapply full_bind; [apply sent_one|reflexivity].
Qed.
Lemma write_full {B} n b (k : unit -> list hevent * option B) l :
  full (k tt) = cut p l -> full (pbind (pWrite n b) k) = cut p (HWrite n b :: l).
Proof.
  intros E. unfold pWrite. cbn [cut unwritable].
  assert (throws p (HWrite n b) = false) as -> by (unfold throws; now destruct p).
  replace (negb ((100 <=? n) && (n <=? 999))) with ((n <? 100) || (999 <? n)) by (destruct (Z.ltb_spec n 100), (Z.ltb_spec 999 n), (Z.leb_spec 100 n), (Z.leb_spec n 999); cbn; auto; lia).
  destruct ((n <? 100) || (999 <? n)); [reflexivity|]. rewrite <- E. unfold full, pbind. now destruct (k tt).
Qed.
(** Writing an error, and going on. *)
Lemma error_then {B} c e (k : unit -> list hevent * option B) l : full (k tt) = cut p l -> full (pbind (pWriteErr p c e) k) = cut p (writeErr s c e ++ l).
Proof.
  intros E. unfold pWriteErr, writeErr. pose proof (error_one (SStatus (httpStatus (ge_code (asTwirp e))) :: c) (asTwirp e)) as O.
  destruct (callError s _ _) as [t c']. cbn [fst snd] in O. rewrite <- app_assoc. cbn [app].
  assert (forall {A B C} (x : list hevent * option A) (f : A -> list hevent * option B) (g : B -> list hevent * option C),
    pbind (pbind x f) g = pbind x (fun a => pbind (f a) g)) as Ass.
  { intros A B' C [u [a|]] f g; cbn; [|auto]. destruct (f a) as [v [b|]]; cbn; [|auto]. destruct (g b) as [w r]. now rewrite app_assoc. }
  rewrite Ass. eapply full_bind; [exact O|]. rewrite Ass. apply write_full. eapply full_bind; [apply sent_one|exact E].
Qed.
Lemma error_full c e : full (pWriteErr p c e) = cut p (writeErr s c e).
Proof.
  rewrite <- (bind_ret (pWriteErr p c e)), <- (app_nil_r (writeErr s c e)). now apply error_then.
Qed.
Lemma calls_calm t : all_calls t -> Forall (fun e => unwritable e = false /\ throws p e = false) t.
Proof. apply Forall_impl. intros e (c & q & ->). cbn. now destruct p. Qed.

Lemma finish_full m pb fails c q : full (pFinish p s m pb fails c q) = cut p (finish s m pb fails c q).
Proof.
  unfold pFinish, finish. pose proof (handler_calls s m c q) as C. destruct (handler s m c q) as [t r]. cbn [fst] in C.
  eapply full_bind; [left; split; [reflexivity|now apply calls_calm]|].
  destruct r as [[r|] [e|]|].
  - apply error_full.
  - pose proof (prepared_one c) as O. destruct (callResponsePrepared s c) as [t2 c2]. cbn [fst snd] in O.
    eapply full_bind; [exact O|]. destruct (sv_enc s pb r) as [bs|text]; [|apply error_full].
    apply write_full. destruct fails as [[n text]|]; [|apply sent_full].
    match goal with |- context [callError s ?c ?g] => pose proof (error_one c g) as Q; destruct (callError s c g) as [t3 c3] end. cbn [fst snd] in Q.
    eapply full_bind; [exact Q|]. apply sent_full.
  - apply error_full.
  - apply error_full.
  - apply error_then. cbn. now destruct p.
Qed.
Lemma method_full uj r pb fails c h : full (pMethod p s uj r pb fails c h) = cut p (serveMethod s uj r pb fails c h).
Proof.
  unfold pMethod, serveMethod. pose proof (routed_one (SMethod (rt_name r) :: c)) as O.
  destruct (callRequestRouted s _) as [t [c' e]]. cbn [fst snd] in O. eapply full_bind; [exact O|].
  destruct e; [apply error_full|]. destruct (if pb then _ else _); [apply finish_full|apply error_full].
Qed.
Lemma serve_full ip ul uj fails c h : full (pServe p s ip ul uj fails c h) = cut p (serveHooked s ip ul uj fails c h).
Proof.
  unfold pServe, serveHooked.
  pose proof (received_one (SWriter :: SService (str "Comfo") :: SPackage (str "comfo.api") :: c)) as O.
  destruct (callRequestReceived s _) as [t [c' e]]. cbn [fst snd] in O. eapply full_bind; [exact O|].
  destruct e; [apply error_full|]. destruct (negb (beq (h_method h) (str "POST"))); [apply error_full|].
  destruct (parseTwirpPath (h_path h)) as [[prefix pkg] m]. destruct (negb _); [apply error_full|]. destruct (negb _); [apply error_full|].
  destruct (find_route m rt_routes); [|apply error_full]. destruct (contentType ul (h_ctype h)); [apply method_full|apply error_full].
Qed.
Lemma panics_cut ip ul uj fails c h : servePanicking p s ip ul uj fails c h = cut p (serveHooked s ip ul uj fails c h).
Proof. rewrite <- serve_full. unfold servePanicking, full. now destruct (pServe _ _ _ _ _ _ _ _). Qed.
End S.

Lemma some_calm p : exists hk, alike_but_calm p hk.
Proof.
  destruct p as [[r o q t e]|]; [|exists None; exact I].
  exists (Some (mkHooks (option_map (fun f c => match f c with Some x => x | None => (c, None) end) r)
    (option_map (fun f c => match f c with Some x => x | None => (c, None) end) o)
    (option_map (fun f c => match f c with Some x => x | None => c end) q) (option_map (fun _ _ => tt) t)
    (option_map (fun f c g => match f c g with Some x => x | None => c end) e))).
  unfold alike_but_calm, tame, tamed; cbn. unfold tame. splits.
  - destruct r; cbn; [|auto]. intros c x ->. auto.
  - destruct o; cbn; [|auto]. intros c x ->. auto.
  - destruct q; cbn; [|auto]. intros c x ->. auto.
  - destruct t; cbn; auto.
  - destruct e; cbn; [|auto]. intros c g x ->. auto.
Qed.

(** What comes before a hook. *)
Lemma cut_split p l pre e : cut p l = pre ++ [e; HPanic] -> throws p e = true -> exists rest, l = pre ++ e :: rest.
Proof.
  revert pre. induction l as [|a l IH]; intros pre E W; [destruct pre; discriminate|]. cbn [cut] in E.
  destruct (unwritable a) eqn:U.
  { destruct pre as [|? [|? ?]]; cbn in E; discriminate. }
  destruct (throws p a) eqn:V.
  { destruct pre as [|b [|b' pre]]; cbn in E.
    - injection E as ->. exists l. reflexivity.
    - injection E as -> E. subst. cbn in W. destruct p; discriminate.
    - injection E as -> _ E. destruct pre; discriminate. }
  destruct pre as [|b pre]; cbn in E; injection E as -> E; [congruence|].
  destruct (IH _ E W) as [rest ->]. cbn. eauto.
Qed.
Lemma filter_split {A} (g : A -> bool) f pre e rest : filter g f = pre ++ e :: rest -> exists pre' rest', f = pre' ++ e :: rest' /\ filter g pre' = pre.
Proof.
  revert pre. induction f as [|a f IH]; intros pre E; [destruct pre; discriminate|]. cbn in E. destruct (g a) eqn:G.
  - destruct pre as [|b pre]; cbn in E; injection E as -> E; [exists [], f; auto|]. destruct (IH _ E) as (p' & r' & -> & <-).
    exists (b :: p'), r'. cbn. now rewrite G.
  - destruct (IH _ E) as (p' & r' & -> & <-). exists (a :: p'), r'. cbn. now rewrite G.
Qed.
Lemma filter_shown (g : hevent -> bool) hk l : (forall e, g e = true -> outward e = true) -> filter g (filter (shown hk) l) = filter g l.
Proof.
  intros G. induction l as [|e l IH]; [auto|]. cbn. destruct (shown hk e) eqn:S; cbn; rewrite IH; [auto|].
  destruct (g e) eqn:Ge; [|auto]. apply G in Ge. destruct hk, e; discriminate.
Qed.
Lemma write_outward e : is_write e = true -> outward e = true.
Proof. now destruct e. Qed.
Lemma done_shown hk e pre : done_before e (filter (shown hk) pre) <-> done_before e pre.
Proof. unfold done_before. destruct e; rewrite ?(filter_shown outward), ?(filter_shown is_write); auto using write_outward; tauto. Qed.

(** Decompositions of a life, hook by hook. *)
Definition orderly (pre0 l : list hevent) : Prop := forall pre e rest, l = pre ++ e :: rest -> done_before e (pre0 ++ pre).
Lemma orderly_nil pre0 : orderly pre0 [].
Proof. intros pre e rest E. destruct pre; discriminate. Qed.
Lemma orderly_cons pre0 e l : done_before e pre0 -> orderly (pre0 ++ [e]) l -> orderly pre0 (e :: l).
Proof.
  intros D O pre x rest E. destruct pre as [|y pre]; cbn in E; injection E as -> ->; [now rewrite app_nil_r|].
  specialize (O pre x rest eq_refl). now rewrite <- app_assoc in O.
Qed.
Lemma orderly_calls pre0 calls l : all_calls calls -> orderly (pre0 ++ calls) l -> orderly pre0 (calls ++ l).
Proof.
  intros C. revert pre0. induction C as [|e calls (c & q & ->) C IH]; intros pre0 O; [now rewrite app_nil_r in O|].
  cbn. apply orderly_cons; [exact I|]. apply IH. now rewrite <- app_assoc.
Qed.
Lemma calls_no_write calls : all_calls calls -> filter is_write calls = [].
Proof. induction 1 as [|e l (c & q & ->) _ IH]; auto. Qed.
Lemma life_orderly fails f : lifecycle fails f -> orderly [] f.
Proof.
  assert (F : forall pre0 f tail, filter is_write pre0 = [] -> failure f -> (forall pre1, filter is_write pre1 = filter is_write f -> orderly pre1 tail) -> orderly pre0 (f ++ tail)).
  { intros pre0 g tail N [c x c'] K. cbn. apply orderly_cons; [left; auto|]. apply orderly_cons; [exact I|]. apply orderly_cons.
    - cbn. rewrite <- app_assoc, filter_app, N. cbn. eauto.
    - apply K. rewrite <- !app_assoc, filter_app, N. reflexivity. }
  assert (F0 : forall pre0 f, filter is_write pre0 = [] -> failure f -> orderly pre0 f).
  { intros pre0 g N Fl. rewrite <- (app_nil_r g). apply F; auto. intros; apply orderly_nil. }
  destruct 1; repeat (apply orderly_cons; [reflexivity|]); cbn [app].
  - now apply F0.
  - apply orderly_calls; [auto|]. apply F0; [|auto]. cbn. now apply calls_no_write.
  - apply orderly_calls; [auto|]. apply F; [cbn; now apply calls_no_write|auto|]. intros pre1 _. repeat (apply orderly_cons; [exact I|]). apply orderly_nil.
  - apply orderly_calls; [auto|]. apply orderly_cons.
    + cbn. now rewrite calls_outward.
    + apply F0; [|auto]. rewrite filter_app. cbn. now rewrite calls_no_write.
  - apply orderly_calls; [auto|]. apply orderly_cons; [cbn; now rewrite calls_outward|]. apply orderly_cons; [exact I|].
    apply orderly_cons; [|apply orderly_nil]. cbn. rewrite !filter_app. cbn. rewrite calls_no_write by auto. cbn. eauto.
  - apply orderly_calls; [auto|]. apply orderly_cons; [cbn; now rewrite calls_outward|]. apply orderly_cons; [exact I|].
    apply orderly_cons; [|apply orderly_cons; [|apply orderly_nil]]; cbn; rewrite !filter_app; cbn; rewrite calls_no_write by auto; cbn; eauto.
Qed.
Lemma panic_before p s ip ul uj fails c h pre e : alike_but_calm p (sv_hooks s) ->
  servePanicking p s ip ul uj fails c h = pre ++ [e; HPanic] -> throws p e = true -> done_before e pre.
Proof.
  intros T E W. rewrite panics_cut in E by auto. destruct (cut_split _ _ _ _ E W) as [rest E2].
  destruct (served_life s ip ul uj fails c h) as (f & L & F). rewrite F in E2. destruct (filter_split _ _ _ _ _ E2) as (p' & r' & -> & <-).
  apply done_shown. exact (life_orderly _ _ L p' e r' eq_refl).
Qed.

(** Panics that are answered. *)
Lemma error_no_panic s c e : ~ In HPanic (writeErr s c e).
Proof.
  intros H. apply (outward_in HPanic) in H; [|reflexivity]. rewrite error_outward in H. destruct H as [H|[]]. discriminate.
Qed.
Lemma calls_not l e : all_calls l -> In e l -> exists c q, e = HCall c q.
Proof. intros C H. exact (proj1 (Forall_forall _ _) C e H). Qed.
Lemma finish_panic s m pb fails c q : In HPanic (finish s m pb fails c q) -> answered_panic (finish s m pb fails c q).
Proof.
  unfold finish. pose proof (handler_calls s m c q) as C. destruct (handler s m c q) as [t r]. cbn [fst] in C. intros H.
  apply in_app_iff in H as [H|H]; [destruct (calls_not _ _ C H) as (? & ? & ?); discriminate|].
  destruct r as [[r|] [e|]|]; try (exfalso; revert H; apply error_no_panic).
  - exfalso. unfold callResponsePrepared in H.
    assert (forall c, ~ In HPanic (callResponseSent s c)) as NS by (intros c' X; unfold callResponseSent in X; destruct (hk_sent _); cbn in X; intuition discriminate).
    assert (forall c g, ~ In HPanic (fst (callError s c g))) as NE by (intros c' g X; unfold callError in X; destruct (hk_error _); cbn in X; intuition discriminate).
    destruct (match hk_prepared (hooks_of s) with Some f => _ | None => _ end) as [t1 c1] eqn:P.
    apply in_app_iff in H as [H|H].
    { destruct (hk_prepared (hooks_of s)); injection P as <- <-; cbn in H; intuition discriminate. }
    destruct (sv_enc s pb r) as [bs|text]; [|now apply error_no_panic in H]. destruct H as [H|H]; [discriminate|].
    destruct fails as [[n text]|]; [|now apply NS in H].
    match goal with H : context [callError s ?a ?b] |- _ => specialize (NE a b); destruct (callError s a b) as [t2 c2] end. cbn [fst] in NE.
    apply in_app_iff in H as [H|H]; [auto|]. now apply NS in H.
  - clear H. exists t, (internalError (str "Internal service panic")). splits; [auto|reflexivity|].
    rewrite !filter_app, (calls_outward t C), error_outward. reflexivity.
Qed.
Lemma answered_after t tr : filter outward t = [] -> answered_panic tr -> answered_panic (t ++ tr).
Proof. intros F (calls & g & A & B & C). exists calls, g. splits; auto. now rewrite filter_app, F. Qed.
Lemma served_panic s ip ul uj fails c h : In HPanic (serveHooked s ip ul uj fails c h) -> answered_panic (serveHooked s ip ul uj fails c h).
Proof.
  rewrite serve_routing. intros H. pose proof (received_cases s (arrival c)) as R.
  destruct (callRequestReceived _ _) as [t [c1 e]]. destruct R as (_ & R & _).
  apply in_app_iff in H as [H|H].
  { apply (outward_in HPanic) in H; [|reflexivity]. rewrite R in H. destruct H. }
  apply answered_after; [auto|]. destruct e as [e|]; [now apply error_no_panic in H|].
  destruct (routing s ip ul h) as [e|[r pb]]; [now apply error_no_panic in H|]. unfold serveMethod in *.
  pose proof (routed_cases s (SMethod (rt_name r) :: c1)) as Q. destruct (callRequestRouted _ _) as [t2 [c2 e2]]. destruct Q as (_ & Q & _).
  apply in_app_iff in H as [H|H].
  { apply (outward_in HPanic) in H; [|reflexivity]. rewrite Q in H. destruct H. }
  apply answered_after; [auto|]. destruct e2 as [e2|]; [now apply error_no_panic in H|].
  destruct (if pb then _ else _); [|now apply error_no_panic in H]. now apply finish_panic.
Qed.
Lemma cut_whole p l : (forall e, In e (cut p l) -> throws p e = false) -> (forall e, In e l -> unwritable e = false) -> cut p l = l.
Proof.
  induction l as [|e l IH]; intros A B; [auto|]. cbn in *. rewrite (B e) in * by auto. destruct (throws p e) eqn:W.
  - rewrite (A e) in W by (cbn; auto). discriminate.
  - f_equal. apply IH; intros x H; [apply A|apply B]; cbn; auto.
Qed.
Lemma status_known g : twirp_code g -> 100 <= status_for g <= 999.
Proof.
  unfold twirp_code, status_for. intros H.
  assert (forall t, forallb (fun p => (100 <=? snd p) && (snd p <=? 999)) t = true -> In (ge_code g) (map fst t) ->
    100 <= match find (fun p => beq (ge_code g) (fst p)) t with Some (_, n) => n | None => 0 end <= 999) as K.
  { induction t as [|[a n] t IH]; intros F I; [destruct I|]. cbn in *. apply andb_true_iff in F as [F1 F2].
    destruct (beq (ge_code g) a) eqn:E; [lia|]. apply IH; [auto|]. destruct I as [I|I]; [|auto]. subst a. now rewrite (proj2 (beq_eq _ _) eq_refl) in E. }
  apply K; [reflexivity|exact H].
Qed.
Lemma status_unknown g : ~ twirp_code g -> status_for g = 0.
Proof.
  unfold twirp_code, status_for. generalize statuses as t. induction t as [|[a n] t IH]; intros H; [auto|]. cbn in *.
  destruct (beq (ge_code g) a) eqn:E; [|auto]. apply beq_eq in E. exfalso. apply H. auto.
Qed.
Lemma life_writes fails f n b : lifecycle fails f -> In (HWrite n b) f -> (exists g, b = WError g /\ n = status_for g) \/ n = 200.
Proof.
  assert (F : forall f, failure f -> In (HWrite n b) f -> (exists g, b = WError g /\ n = status_for g) \/ n = 200).
  { intros g [c x c'] H. cbn in H. destruct H as [H|[H|[H|[]]]]; try discriminate. injection H as <- <-. left. eauto. }
  assert (C : forall l, all_calls l -> ~ In (HWrite n b) l) by (intros l A H; destruct (calls_not _ _ A H) as (? & ? & ?); discriminate).
  destruct 1; intros X; repeat first [apply in_app_iff in X as [X|X] | destruct X as [X|X] | now destruct X];
    try discriminate; try (now apply C in X); eauto; try (injection X as <- <-; auto); now destruct X.
Qed.
Lemma panic_answered p s ip ul uj fails c h : alike_but_calm p (sv_hooks s) ->
  (forall e, In e (servePanicking p s ip ul uj fails c h) -> throws p e = false) ->
  (forall n g, In (HWrite n (WError g)) (serveHooked s ip ul uj fails c h) -> twirp_code g) ->
  In HPanic (servePanicking p s ip ul uj fails c h) -> answered_panic (servePanicking p s ip ul uj fails c h).
Proof.
  intros T A B. rewrite panics_cut in * by auto. rewrite cut_whole; auto using served_panic.
  intros e H. destruct e; auto. destruct (served_life s ip ul uj fails c h) as (f & L & F). cbn.
  assert (100 <= status <= 999) as K; [|destruct (Z.leb_spec 100 status), (Z.leb_spec status 999); cbn; auto; lia].
  pose proof H as H2. rewrite F in H2. apply filter_In in H2 as [H2 _]. destruct (life_writes _ _ _ _ L H2) as [(g & -> & ->)| ->]; [|lia].
  apply status_known. eauto.
Qed.
Lemma alone e : writeErrorAlone e = if in_dec (list_eq_dec Z.eq_dec) (ge_code (written_as e)) (map fst statuses)
  then [HWrite (status_for (written_as e)) (WError (written_as e))] else [HPanic].
Proof.
  unfold writeErrorAlone, pWriteErr. assert (asTwirp e = written_as e) as -> by now destruct e. cbn [pError phooks_of no_phooks pk_error pbind].
  rewrite status_same. unfold pWrite. destruct (in_dec _ _ _) as [K|K].
  - apply status_known in K. destruct (Z.ltb_spec (status_for (written_as e)) 100), (Z.ltb_spec 999 (status_for (written_as e))); try lia. reflexivity.
  - apply status_unknown in K. now rewrite K.
Qed.
Lemma alone_known e : twirp_code (written_as e) -> writeErrorAlone e = [HWrite (status_for (written_as e)) (WError (written_as e))].
Proof. intros K. rewrite alone. destruct (in_dec _ _ _); [auto|contradiction]. Qed.
Lemma alone_unknown e : ~ twirp_code (written_as e) -> writeErrorAlone e = [HPanic].
Proof. intros K. rewrite alone. destruct (in_dec _ _ _); [contradiction|auto]. Qed.

(** The server of the repository. *)
Lemma refusal_codes ip ul uj h g : refusal_error ip ul uj h = Some g -> ge_code g = str "bad_route" \/ ge_code g = str "malformed".
Proof.
  unfold refusal_error. destruct (negb _); [intros E; injection E as <-; auto|]. destruct (parseTwirpPath _) as [[a b] m].
  destruct (negb _); [intros E; injection E as <-; auto|]. destruct (negb _); [intros E; injection E as <-; auto|].
  destruct (find_route _ _); [|intros E; injection E as <-; auto]. destruct (contentType _ _) as [pb|]; [|intros E; injection E as <-; auto].
  destruct (if pb then _ else _); [discriminate|intros E; injection E as <-; auto].
Qed.
Lemma reply_codes io iot mt pb t q r g : reply_error io iot mt pb t q r = Some g -> ge_code g = str "invalid_argument" \/ ge_code g = str "internal".
Proof.
  unfold reply_error. intros E. assert (match marshal (resp_fields t r) with None => Some (marshalError mt pb) | Some _ => None end = Some g \/
    exists e, r = RespErr e /\ rpc_error io iot q e = g) as [K|(e & _ & <-)].
  { destruct r; auto. right. injection E as <-. eauto. }
  - destruct (marshal _); [discriminate|]. injection K as <-. auto.
  - destruct e; cbn; auto.
Qed.
Lemma code_known g : ge_code g = str "bad_route" \/ ge_code g = str "malformed" \/ ge_code g = str "invalid_argument" \/ ge_code g = str "internal" -> twirp_code g.
Proof. unfold twirp_code. intros [->|[->|[->| ->]]]; vm_compute; tauto. Qed.
Lemma own_safe io iot mt t json a ip ul uj fails c h : let s := own_server io iot mt t json a in
  servePanicking None s ip ul uj fails c h = serveHooked s ip ul uj fails c h /\ ~ In HPanic (servePanicking None s ip ul uj fails c h).
Proof.
  intros s. assert (alike_but_calm None (sv_hooks s)) as T by exact I. pose proof (bare io iot mt t json a ip ul uj fails c h) as B. cbn zeta in B. fold s in B.
  assert (forall n g, In (HWrite n (WError g)) (serveHooked s ip ul uj fails c h) -> twirp_code g) as K.
  { intros n g H. apply code_known. destruct (dispatch ul uj h) as [x|pb q].
    - destruct B as (g' & R & E). rewrite E in H. destruct H as [H|[]]. injection H as <- <-. apply refusal_codes in R. tauto.
    - destruct B as (_ & c' & E). rewrite E in H. destruct H as [H|[H|[]]]; [discriminate|]. injection H as <- H.
      destruct (reply_error _ _ _ _ _ _ _) eqn:R; [|discriminate]. injection H as ->. apply reply_codes in R. tauto. }
  assert (servePanicking None s ip ul uj fails c h = serveHooked s ip ul uj fails c h) as Eq.
  { rewrite panics_cut by auto. apply cut_whole; [auto|]. intros e H. destruct e; auto. destruct (served_life s ip ul uj fails c h) as (f & L & F). cbn.
    assert (100 <= status <= 999) as U; [|destruct (Z.leb_spec 100 status), (Z.leb_spec status 999); cbn; auto; lia].
    pose proof H as H2. rewrite F in H2. apply filter_In in H2 as [H2 _]. destruct (life_writes _ _ _ _ L H2) as [(g & -> & ->)| ->]; [|lia].
    apply status_known. eauto. }
  split; [auto|]. rewrite Eq. destruct (dispatch ul uj h).
  - destruct B as (g' & _ & ->). intros [H|[]]. discriminate.
  - destruct B as (_ & c' & ->). intros [H|[H|[]]]; discriminate.
Qed.
