(** Proofs about the hooks and interceptors of the Go clients. *)
From Coq Require Import String Ascii.
From Verif Require Import ProofBase GoStrings Server Wire Twirp GoClient JsonScan JsonRead JsonWrite JsonError ErrorText TwirpProofs Hooks SpecHooks HooksClaims Failures ClientHooks SpecClientHooks.

Lemma prepared_shown k c s f : filter (cshown (cl_hooks k)) (CPrepared c s :: f) = fst (callClientRequestPrepared k c s) ++ filter (cshown (cl_hooks k)) f.
Proof. unfold callClientRequestPrepared, chooks_of. destruct (cl_hooks k) as [h|]; cbn [filter cshown]; [destruct (ck_prepared h)|]; reflexivity. Qed.
Lemma error_shown k c g : filter (cshown (cl_hooks k)) [CError c g] = callClientError k c g.
Proof. unfold callClientError, chooks_of. destruct (cl_hooks k) as [h|]; cbn [filter cshown]; [destruct (ck_error h)|]; reflexivity. Qed.
Lemma received_shown k c : filter (cshown (cl_hooks k)) [CReceived c] = callClientResponseReceived k c.
Proof. unfold callClientResponseReceived, chooks_of. destruct (cl_hooks k) as [h|]; cbn [filter cshown]; [destruct (ck_received h)|]; reflexivity. Qed.
Lemma sent_shown k h f : filter (cshown (cl_hooks k)) (CSent h :: f) = CSent h :: filter (cshown (cl_hooks k)) f.
Proof. cbn [filter]. destruct (cl_hooks k); reflexivity. Qed.
Lemma told_same e : assertTwirp e = told_of e.
Proof. destruct e; reflexivity. Qed.

(** A request, by cases. *)
Inductive went (k : client) (w : world) (c : ctx) (q : rpc) : list cevent * ctx * (resp + goerr) -> Prop :=
| WEarly g : went k w c q ([], c, inr (ETwirp g))
| WRefused s t c' s' e : callClientRequestPrepared k c s = (t, (c', s', Some e)) -> went k w c q (t, c', inr e)
| WUnsent s t c' g : callClientRequestPrepared k c s = (t, (c', NotSent, None)) -> went k w c q (t, c', inr (ETwirp g))
| WSent b t c' a o h r :
    match cl_json k with Some sp => request_json sp q = Some b | None => marshal (rpc_fields q) = Some b end ->
    callClientRequestPrepared k c (newRequest (method_url (cl_base k) (cl_prefix k) q)
      (match cl_json k with Some _ => str "application/json" | None => str "application/protobuf" end) b) = (t, (c', SentTo a o h, None)) ->
    match r with inl r => exists m, r = read_resp q m | inr e => exists g, e = ETwirp g end ->
    went k w c q (t ++ [CSent h], c', r).
Lemma protobuf_reads k w q s r : readProtobuf k w q s = inl r -> exists m, r = read_resp q m.
Proof.
  unfold readProtobuf. destruct (w_cx2 w); [discriminate|]. destruct (negb _); [discriminate|]. destruct (s_cut s); [discriminate|]. destruct (w_cx3 w); [discriminate|].
  destruct (unmarshal _ _); [|discriminate]. intros H. injection H as <-. eauto.
Qed.
Lemma json_reads k w q s r : readJson k w q s = inl r -> exists m, r = read_resp q m.
Proof.
  unfold readJson. destruct (w_cx2 w); [discriminate|]. destruct (negb _); [discriminate|]. destruct (match s_cut s with Some _ => _ | None => _ end); [|discriminate].
  destruct (unmarshalJSON _ _); [|discriminate]. destruct (w_cx3 w); [discriminate|]. destruct (w_close w); [discriminate|]. intros H. injection H as <-. eauto.
Qed.
Lemma request_went k w c q : went k w c q (doRequest k w c q).
Proof.
  unfold doRequest. destruct (match cl_json k with Some sp => request_json sp q | None => marshal (rpc_fields q) end) as [b|] eqn:B; [|constructor].
  destruct (w_cx1 w); [constructor|]. destruct (parseUrl (method_url (cl_base k) (cl_prefix k) q)); [|constructor].
  destruct (callClientRequestPrepared k c _) as [t [[c' s] [e|]]] eqn:P; [eapply WRefused; eauto|]. destruct s as [|a o h]; [eapply WUnsent; eauto|].
  eapply WSent; [|exact P|]; [destruct (cl_json k); exact B|]. destruct (w_do w h) as [e|s]; [eauto|].
  destruct (cl_json k).
  - destruct (readJson k w q s) as [r|g] eqn:R; [eapply json_reads; eauto|eauto].
  - destruct (readProtobuf k w q s) as [r|g] eqn:R; [eapply protobuf_reads; eauto|eauto].
Qed.
Lemma prepared_fst k c s t x : callClientRequestPrepared k c s = (t, x) -> forall f, filter (cshown (cl_hooks k)) (CPrepared c s :: f) = t ++ filter (cshown (cl_hooks k)) f.
Proof. intros E f. rewrite prepared_shown, E. reflexivity. Qed.
Lemma call_errand k w c q : exists f, errand f (snd (callMethod k w c q)) /\ fst (callMethod k w c q) = filter (cshown (cl_hooks k)) f.
Proof.
  unfold callMethod. pose proof (request_went k w c q) as W. destruct (doRequest k w c q) as [[t c'] r]. inversion W as [g Eq1|s0 t0 c1 s1 e0 HP Eq1|s0 t0 c1 g HP Eq1|b0 t0 c1 a0 o0 h0 x0 HB HP HR Eq1]; subst; cbn [fst snd].
  - exists [CError c' g]. split; [constructor|]. rewrite error_shown. reflexivity.
  - exists [CPrepared c s0; CError c' (told_of e0)]. split; [constructor|]. rewrite (prepared_fst _ _ _ _ _ HP), error_shown, told_same. reflexivity.
  - exists [CPrepared c s0; CError c' (told_of (ETwirp g))]. split; [constructor|]. rewrite (prepared_fst _ _ _ _ _ HP), error_shown. reflexivity.
  - destruct r as [r|e]; cbn [fst snd].
    + eexists [CPrepared c _; CSent h0; CReceived c']. split; [constructor|]. rewrite (prepared_fst _ _ _ _ _ HP), sent_shown, received_shown, <- app_assoc. reflexivity.
    + destruct HR as (g & ->). cbn [assertTwirp]. eexists [CPrepared c _; CSent h0; CError c' g]. split; [constructor|]. rewrite (prepared_fst _ _ _ _ _ HP), sent_shown, error_shown, <- app_assoc. reflexivity.
Qed.

Definition errands (l : list cevent) : Prop := exists fs, Forall (fun f => exists r, errand f r) fs /\ l = concat fs.
Lemma errands_app a b : errands a -> errands b -> errands (a ++ b).
Proof. intros (x & X & ->) (y & Y & ->). exists (x ++ y). split; [apply Forall_app; auto|symmetry; apply concat_app]. Qed.
Lemma next_errands k ws m n c v : exists f, errands f /\ fst (fst (nextCall k ws m n c v)) = filter (cshown (cl_hooks k)) f.
Proof.
  unfold nextCall. destruct (match v with ARequest x => typedReq m x | _ => None end) as [q|].
  - destruct (call_errand k (ws n) c q) as (f & E & F). destruct (callMethod k (ws n) c q) as [t r]. cbn [fst snd] in *. exists f. split; auto.
    exists [f]. split; [constructor; eauto|]. cbn. rewrite app_nil_r. reflexivity.
  - exists []. split; [exists []; split; [constructor|reflexivity]|reflexivity].
Qed.
Lemma run_errands k ws m : forall i n, exists f, errands f /\ fst (runClient k ws m n i) = filter (cshown (cl_hooks k)) f.
Proof.
  induction i as [v e|c v g IH|]; intros n; cbn [runClient].
  - exists []. split; [exists []; split; [constructor|reflexivity]|reflexivity].
  - destruct (next_errands k ws m n c v) as (f & E & F). destruct (nextCall k ws m n c v) as [[t n'] r]. cbn [fst] in F. destruct (IH (Some r) n') as (f' & E' & F').
    destruct (runClient k ws m n' (g (Some r))) as [t' x]. cbn [fst] in *. exists (f ++ f'). split; [apply errands_app; auto|]. rewrite filter_app. congruence.
  - exists []. split; [exists []; split; [constructor|reflexivity]|reflexivity].
Qed.
Definition start_ctx (q : rpc) (c : ctx) : ctx := SMethod (str (rpc_name q)) :: SService (str "Comfo") :: SPackage (str "comfo.api") :: c.
Lemma call_fst k ws c q : fst (clientCall k ws c q) =
  match cl_icpt k with None => fst (callMethod k (ws 0%nat) (start_ctx q c) q) | Some f => fst (runClient k ws (str (rpc_name q)) 0 (f (start_ctx q c) (ARequest (message_of q)))) end.
Proof.
  unfold clientCall. fold (start_ctx q c). destruct (cl_icpt k) as [f|].
  - destruct (runClient _ _ _ _ _) as [t [[[| | | |] e]|]]; try reflexivity; destruct (beq _ _); reflexivity.
  - destruct (callMethod k (ws 0%nat) (start_ctx q c) q). reflexivity.
Qed.
Lemma all_errands k ws c q : exists fs, Forall (fun f => exists r, errand f r) fs /\ fst (clientCall k ws c q) = filter (cshown (cl_hooks k)) (concat fs).
Proof.
  rewrite call_fst. destruct (cl_icpt k) as [f|].
  - destruct (run_errands k ws (str (rpc_name q)) (f (start_ctx q c) (ARequest (message_of q))) 0) as (g & (fs & E & ->) & F). eauto.
  - destruct (call_errand k (ws 0%nat) (start_ctx q c) q) as (f & E & F). exists [f]. split; [constructor; eauto|]. cbn [concat]. rewrite app_nil_r. exact F.
Qed.
Lemma one_errand k ws c q : cl_icpt k = None -> exists f r, errand f r /\ fst (clientCall k ws c q) = filter (cshown (cl_hooks k)) f /\
  snd (clientCall k ws c q) = match r with inl r => SReturn (Some r) None | inr e => SReturn None (Some e) end.
Proof.
  intros N. destruct (call_errand k (ws 0%nat) (start_ctx q c) q) as (f & E & F). unfold clientCall. rewrite N. fold (start_ctx q c).
  destruct (callMethod k (ws 0%nat) (start_ctx q c) q) as [t r]. cbn [fst snd] in *. eauto.
Qed.

(** ** What is sent *)
Lemma sent_app a b : sent_in (a ++ b) = sent_in a ++ sent_in b.
Proof. apply flat_map_app. Qed.
Lemma prepared_sent k c s t x : callClientRequestPrepared k c s = (t, x) -> sent_in t = [].
Proof. unfold callClientRequestPrepared. destruct (ck_prepared _); intros H; injection H as <- _; reflexivity. Qed.
Lemma error_sent k c g : sent_in (callClientError k c g) = [].
Proof. unfold callClientError. destruct (ck_error _); reflexivity. Qed.
Lemma received_sent k c : sent_in (callClientResponseReceived k c) = [].
Proof. unfold callClientResponseReceived. destruct (ck_received _); reflexivity. Qed.
Lemma prepared_inert k c s : cinert (cl_hooks k) -> exists t, callClientRequestPrepared k c s = (t, (c, s, None)) /\ sent_in t = [].
Proof.
  intros I. unfold callClientRequestPrepared, chooks_of. destruct (cl_hooks k) as [h|]; [|eexists; split; reflexivity].
  destruct (ck_prepared h) as [f|] eqn:F; [|eexists; split; reflexivity]. rewrite (I h f c s eq_refl F). eexists. split; reflexivity.
Qed.
Lemma call_sends k w c q h : cinert (cl_hooks k) -> In h (sent_in (fst (callMethod k w c q))) -> asks k q h.
Proof.
  intros I. unfold callMethod. pose proof (request_went k w c q) as W. destruct (doRequest k w c q) as [[t c'] r]. inversion W as [g Eq1|s0 t0 c1 s1 e0 HP Eq1|s0 t0 c1 g HP Eq1|b0 t0 c1 a0 o0 h0 x0 HB HP HR Eq1]; subst; cbn [fst].
  - rewrite sent_app, error_sent. cbn. tauto.
  - rewrite sent_app, error_sent, (prepared_sent _ _ _ _ _ HP). cbn. tauto.
  - rewrite sent_app, error_sent, (prepared_sent _ _ _ _ _ HP). cbn. tauto.
  - intros J. assert (K : h = h0).
    { destruct r; cbn [fst] in J; rewrite !sent_app, ?error_sent, ?received_sent, (prepared_sent _ _ _ _ _ HP), app_nil_r in J; destruct J as [J|[]]; auto. }
    subst h0. destruct (prepared_inert k c (newRequest (method_url (cl_base k) (cl_prefix k) q) (match cl_json k with Some _ => str "application/json" | None => str "application/protobuf" end) b0) I) as (t' & E & _).
    rewrite E in HP. injection HP as _ _ N. exists b0, a0, o0. split; auto.
Qed.
Lemma next_sends k ws m n c v h : cinert (cl_hooks k) -> In h (sent_in (fst (fst (nextCall k ws m n c v)))) -> exists q, m = str (rpc_name q) /\ asks k q h.
Proof.
  intros I. unfold nextCall. destruct v as [|x| | |]; cbn [fst]; try (cbn; tauto). destruct (typedReq m x) as [q|] eqn:T; [|cbn; tauto].
  pose proof (call_sends k (ws n) c q h I) as S. destruct (callMethod k (ws n) c q) as [t r]. cbn [fst] in *. intros J. exists q. split; [eapply typed_req; eauto|auto].
Qed.
Lemma run_sends k ws m h : cinert (cl_hooks k) -> forall i n, In h (sent_in (fst (runClient k ws m n i))) -> exists q, m = str (rpc_name q) /\ asks k q h.
Proof.
  intros I. induction i as [v e|c v g IH|]; intros n; cbn [runClient]; [cbn; tauto| |cbn; tauto].
  pose proof (next_sends k ws m n c v h I) as N. destruct (nextCall k ws m n c v) as [[t n'] r]. cbn [fst] in N. specialize (IH (Some r) n').
  destruct (runClient k ws m n' (g (Some r))) as [t' x]. cbn [fst] in *. rewrite sent_app. intros J. apply in_app_or in J. tauto.
Qed.
Lemma str_inj a b : str a = str b -> a = b.
Proof.
  unfold str. revert b. induction a as [|x a IH]; intros [|y b]; cbn; intros H; try discriminate; auto. injection H as H1 HR. f_equal; auto.
  apply Nat2Z.inj in H1. rewrite <- (Ascii.ascii_nat_embedding x), <- (Ascii.ascii_nat_embedding y), H1. reflexivity.
Qed.
Lemma sends_own k ws c q h : cinert (cl_hooks k) -> In h (sent_in (fst (clientCall k ws c q))) -> exists q', rpc_name q' = rpc_name q /\ asks k q' h.
Proof.
  intros I J. rewrite call_fst in J. destruct (cl_icpt k) as [f|].
  - destruct (run_sends k ws _ h I _ _ J) as (q' & E & A). exists q'. split; auto. apply str_inj. auto.
  - exists q. split; auto. eapply call_sends; eauto.
Qed.
Lemma refused_unsent k w c q h f c' s c2 s2 e : cl_hooks k = Some h -> ck_prepared h = Some f ->
  In (CPrepared c' s) (fst (callMethod k w c q)) -> f c' s = (c2, s2, Some e) ->
  sent_in (fst (callMethod k w c q)) = [] /\ snd (callMethod k w c q) = inr e.
Proof.
  intros Hk Fk I R. unfold callMethod in *. pose proof (request_went k w c q) as W. destruct (doRequest k w c q) as [[t c0] r].
  assert (P : forall s t x, callClientRequestPrepared k c s = (t, x) -> t = [CPrepared c s] /\ x = f c s).
  { intros s0 t0 x. unfold callClientRequestPrepared, chooks_of. rewrite Hk, Fk. intros H. injection H as <- <-. auto. }
  assert (X : forall c g, ~ In (CPrepared c' s) (callClientError k c g)) by (intros; unfold callClientError; destruct (ck_error _); cbn; intuition discriminate).
  assert (Y : forall c, ~ In (CPrepared c' s) (callClientResponseReceived k c)) by (intros; unfold callClientResponseReceived; destruct (ck_received _); cbn; intuition discriminate).
  inversion W as [g Eq1|s0 t0 c1 s1 e0 HP Eq1|s0 t0 c1 g HP Eq1|b0 t0 c1 a0 o0 h0 x0 HB HP HR Eq1]; subst; cbn [fst snd] in *.
  - cbn [app] in I. exfalso. eapply X; eauto.
  - apply P in HP as [-> E]. rewrite sent_app, error_sent. split; [reflexivity|]. apply in_app_or in I as [I|I]; [|exfalso; eapply X; eauto].
    destruct I as [I|[]]. injection I as <- <-. congruence.
  - apply P in HP as [-> E]. apply in_app_or in I as [I|I]; [|exfalso; eapply X; eauto]. destruct I as [I|[]]. injection I as <- <-. congruence.
  - apply P in HP as [-> E]. exfalso. assert (J : In (CPrepared c' s) [CPrepared c (newRequest (method_url (cl_base k) (cl_prefix k) q) (match cl_json k with Some _ => str "application/json" | None => str "application/protobuf" end) b0)]).
    { destruct r; cbn [fst] in I; apply in_app_or in I as [I|I]; try (exfalso; first [eapply X; eauto; fail | eapply Y; eauto; fail]);
        apply in_app_or in I as [I|I]; auto; destruct I as [I|[]]; discriminate. }
    destruct J as [J|[]]. injection J as <- <-. congruence.
Qed.

(** ** Replies *)
Lemma read_typed q m : replies_to q (read_resp q m) = true.
Proof. destruct q; reflexivity. Qed.
Lemma call_typed k w c q r : snd (callMethod k w c q) = inl r -> replies_to q r = true.
Proof.
  unfold callMethod. pose proof (request_went k w c q) as W. destruct (doRequest k w c q) as [[t c'] x]. inversion W as [g Eq1|s0 t0 c1 s1 e0 HP Eq1|s0 t0 c1 g HP Eq1|b0 t0 c1 a0 o0 h0 x0 HB HP HR Eq1]; subst; cbn [snd]; try discriminate.
  destruct x as [x|e]; cbn [snd]; [|discriminate]. intros H. injection H as <-. destruct HR as (m & ->). apply read_typed.
Qed.
Lemma returns_typed k ws c q r e : snd (clientCall k ws c q) = SReturn (Some r) e -> replies_to q r = true.
Proof.
  unfold clientCall. fold (start_ctx q c). destruct (cl_icpt k) as [f|].
  - destruct (runClient _ _ _ _ _) as [t [[[| | | |] e']|]]; cbn [snd]; try discriminate; destruct (beq _ _) eqn:B; cbn [snd]; try discriminate.
    intros H. injection H as <- _. apply beq_eq in B. apply type_names. exact B.
  - pose proof (call_typed k (ws 0%nat) (start_ctx q c) q) as T. destruct (callMethod k (ws 0%nat) (start_ctx q c) q) as [t [x|x]]; cbn [snd] in *; [|discriminate].
    intros H. injection H as <- _. apply T. reflexivity.
Qed.

(** ** Without hooks *)
Lemma plain k ws c q : cinert (cl_hooks k) -> cl_icpt k = None ->
  sent_in (fst (clientCall k ws c q)) = (match fst (plain_call k (ws 0%nat) q) with Some h => [h] | None => [] end) /\
  snd (clientCall k ws c q) = outcome_of (snd (plain_call k (ws 0%nat) q)).
Proof.
  intros I N. unfold clientCall. rewrite N. fold (start_ctx q c). set (w := ws 0%nat). unfold plain_call, callMethod, doRequest, callJson, callProtobuf, send.
  destruct (cl_json k) as [sp|].
  - destruct (request_json sp q) as [b|]; [|cbn; rewrite error_sent; auto]. destruct (w_cx1 w); [cbn; rewrite error_sent; auto|].
    destruct (parseUrl (method_url (cl_base k) (cl_prefix k) q)) eqn:U; [|cbn; rewrite error_sent; auto].
    destruct (prepared_inert k (start_ctx q c) (newRequest (method_url (cl_base k) (cl_prefix k) q) (str "application/json") b) I) as (t & -> & St).
    destruct (newRequest _ _ b) as [|a o h]; [cbn [fst snd]; rewrite sent_app, St, error_sent; auto|].
    destruct (w_do w h) as [e|s]; [cbn [fst snd]; rewrite !sent_app, St, error_sent; auto|].
    unfold readJson. destruct (w_cx2 w); [cbn [fst snd]; rewrite !sent_app, St, error_sent; auto|].
    destruct (negb (s_status s =? 200)); [cbn [fst snd]; rewrite !sent_app, St, error_sent; auto|].
    destruct (match s_cut s with Some _ => _ | None => _ end); [|cbn [fst snd]; rewrite !sent_app, St, error_sent; auto].
    destruct (unmarshalJSON _ _); [|cbn [fst snd]; rewrite !sent_app, St, error_sent; auto].
    destruct (w_cx3 w); [cbn [fst snd]; rewrite !sent_app, St, error_sent; auto|].
    destruct (w_close w); [cbn [fst snd]; rewrite !sent_app, St, error_sent; auto|]. cbn [fst snd]. rewrite !sent_app, St, received_sent. auto.
  - destruct (marshal (rpc_fields q)) as [b|]; [|cbn; rewrite error_sent; auto]. destruct (w_cx1 w); [cbn; rewrite error_sent; auto|].
    destruct (parseUrl (method_url (cl_base k) (cl_prefix k) q)) eqn:U; [|cbn; rewrite error_sent; auto].
    destruct (prepared_inert k (start_ctx q c) (newRequest (method_url (cl_base k) (cl_prefix k) q) (str "application/protobuf") b) I) as (t & -> & St).
    destruct (newRequest _ _ b) as [|a o h]; [cbn [fst snd]; rewrite sent_app, St, error_sent; auto|].
    destruct (w_do w h) as [e|s]; [cbn [fst snd]; rewrite !sent_app, St, error_sent; auto|].
    unfold readProtobuf. destruct (w_cx2 w); [cbn [fst snd]; rewrite !sent_app, St, error_sent; auto|].
    destruct (negb (s_status s =? 200)); [cbn [fst snd]; rewrite !sent_app, St, error_sent; auto|].
    destruct (s_cut s); [cbn [fst snd]; rewrite !sent_app, St, error_sent; auto|].
    destruct (w_cx3 w); [cbn [fst snd]; rewrite !sent_app, St, error_sent; auto|].
    destruct (unmarshal _ _); [|cbn [fst snd]; rewrite !sent_app, St, error_sent; auto]. cbn [fst snd]. rewrite !sent_app, St, received_sent. auto.
Qed.
Lemma passed k ws c q : cl_icpt k = Some pass_on -> clientCall k ws c q = clientCall (without_cinterceptor k) ws c q.
Proof.
  intros P. unfold clientCall. rewrite P. cbn [cl_icpt without_cinterceptor]. fold (start_ctx q c). unfold pass_on. cbn [runClient].
  unfold nextCall. rewrite typed_own. change (callMethod (without_cinterceptor k)) with (callMethod k). pose proof (call_typed k (ws 0%nat) (start_ctx q c) q) as T.
  destruct (callMethod k (ws 0%nat) (start_ctx q c) q) as [t [r|e]]; cbn [runClient snd] in *.
  - rewrite app_nil_r. rewrite (type_own q r) by (apply T; reflexivity). replace (beq _ _) with true by (symmetry; apply beq_eq; reflexivity). reflexivity.
  - rewrite app_nil_r. replace (beq _ _) with true by (symmetry; apply beq_eq; reflexivity). reflexivity.
Qed.
