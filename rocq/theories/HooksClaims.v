(** The claims about server hooks and interceptors. *)
From Coq Require Import String.
From Verif Require Import ProofBase GoStrings Server Wire Twirp JsonWrite JsonError ErrorText TwirpProofs DescriptorClaims ErrorTextClaims Hooks SpecHooks HooksProofs.

(** ** Routing *)
Lemma route_props r : In r rt_routes -> find_route (rt_name r) rt_routes = Some r /\ ~ In slash (rt_name r) /\
  (forall m, str (rpc_name (rt_call r m)) = rt_name r).
Proof.
  unfold rt_routes. cbn [In]. intros H.
  repeat (destruct H as [<- | H]; [split; [reflexivity|split; [vm_compute; intros N; repeat (destruct N as [N|N]; [discriminate|]); exact N|intros m; reflexivity]]|]).
  contradiction.
Qed.
Lemma parse_general path p s m : s <> [] -> parseTwirpPath path = (p, s, m) ->
  path = p ++ slash :: s ++ slash :: m \/ p = [] /\ path = s ++ slash :: m.
Proof.
  intros Ne. unfold parseTwirpPath. destruct (Nat.ltb _ 2) eqn:L; [intros H; injection H as <- <- <-; congruence|]. intros H. injection H as H1 H2 H3.
  apply Nat.ltb_ge in L. pose proof (two_last (split path) [] L) as T. rewrite H2, H3 in T. pose proof (join_split path) as J. rewrite T in J.
  destruct (firstn (List.length (split path) - 2) (split path)) as [|x l] eqn:F.
  - right. cbn in H1. split; [congruence|]. rewrite <- J. cbn [app]. rewrite join_cons by discriminate. reflexivity.
  - left. rewrite <- J, join_app by discriminate. rewrite H1, join_cons by discriminate. reflexivity.
Qed.
Lemma routed_addresses s ip ul h r pb : routing s ip ul h = inr (r, pb) <-> addresses (sv_prefix s) ul h r pb.
Proof.
  unfold routing, addresses. split.
  - destruct (beq (h_method h) (str "POST")) eqn:M; cbn [negb]; [|discriminate]. apply beq_eq in M.
    destruct (parseTwirpPath (h_path h)) as [[p sv] m] eqn:P. destruct (beq sv (str "comfo.api.Comfo")) eqn:S; cbn [negb]; [|discriminate]. apply beq_eq in S.
    destruct (beq p (sv_prefix s)) eqn:X; cbn [negb]; [|discriminate]. apply beq_eq in X. destruct (find_route m rt_routes) as [r'|] eqn:F; [|discriminate].
    destruct (contentType ul (h_ctype h)) as [pb'|]; [|discriminate]. intros H. injection H as -> ->. apply route_in in F as [I N]. rewrite N.
    repeat split; auto. apply parse_general in P; [|subst sv; discriminate]. subst sv p. destruct P as [P|[P P']]; [left; exact P|right; split; [auto|exact P']].
  - intros (M & P & I & C). destruct (route_props r I) as (F & N & _). rewrite M. change (beq (str "POST") (str "POST")) with true. cbn [negb].
    assert (Pa : parseTwirpPath (h_path h) = (sv_prefix s, str "comfo.api.Comfo", rt_name r)).
    { assert (Z0 : ~ In slash (str "comfo.api.Comfo")) by (vm_compute; intros Z; repeat (destruct Z as [Z|Z]; [discriminate|]); exact Z).
      destruct P as [-> | [E ->]]; [exact (parse_two (sv_prefix s) (str "comfo.api.Comfo") (rt_name r) Z0 N)|].
      rewrite E. change (str "comfo.api.Comfo/" ++ rt_name r) with (str "comfo.api.Comfo" ++ slash :: rt_name r). unfold parseTwirpPath. rewrite split_slash, (split_free _ Z0), (split_free _ N). reflexivity. }
    rewrite Pa. change (beq (str "comfo.api.Comfo") (str "comfo.api.Comfo")) with true. cbn [negb].
    replace (beq (sv_prefix s) (sv_prefix s)) with true by (symmetry; apply beq_eq; reflexivity). cbn [negb]. rewrite F, C. reflexivity.
Qed.

(** ** Calls *)
Lemma typed_req m x q : typedReq m x = Some q -> m = str (rpc_name q).
Proof.
  unfold typedReq. cbn zeta. destruct x; intros H;
    repeat (match type of H with (if beq m ?y then _ else _) = _ => let E := fresh in destruct (beq m y) eqn:E; [apply beq_eq in E; injection H as <-; exact E|] end); discriminate.
Qed.
Lemma next_called s m n c v c' q : In (HCall c' q) (fst (fst (nextMethod s m n c v))) -> m = str (rpc_name q).
Proof.
  unfold nextMethod. destruct v as [|x| | |]; cbn [fst In]; try tauto. destruct (typedReq m x) as [q'|] eqn:T; cbn [fst In]; [|tauto].
  intros [H|[]]. injection H as _ <-. eapply typed_req; eauto.
Qed.
Lemma interceptor_called s m c' q : forall i n, In (HCall c' q) (fst (runInterceptor s m n i)) -> m = str (rpc_name q).
Proof.
  induction i as [v e|c v k IH|]; intros n; cbn [runInterceptor fst In]; try tauto.
  pose proof (next_called s m n c v c' q) as N. destruct (nextMethod s m n c v) as [[t n'] r]. cbn [fst] in N. specialize (IH r n').
  destruct (runInterceptor s m n' (k r)) as [t' x]. cbn [fst] in *. intros I. apply in_app_or in I. tauto.
Qed.
Lemma handler_fst s m c q : fst (handler s m c q) =
  match sv_icpt s with None => [HCall c q] | Some f => fst (runInterceptor s m 0 (f c (ARequest (message_of q)))) end.
Proof. unfold handler. destruct (sv_icpt s); [|reflexivity]. destruct (runInterceptor _ _ _ _) as [t [[[| | | |] e]|]]; try reflexivity; destruct (beq _ _); reflexivity. Qed.

Lemma error_no_call s c e c' q : ~ In (HCall c' q) (writeErr s c e).
Proof.
  unfold writeErr, callError, callResponseSent. destruct (hk_error (hooks_of s)), (hk_sent (hooks_of s)); cbn; intuition discriminate.
Qed.
Lemma not_call s c e : Forall (fun x => match x with HCall _ _ => False | _ => True end) (writeErr s c e).
Proof. unfold writeErr, callError, callResponseSent. destruct (hk_error (hooks_of s)), (hk_sent (hooks_of s)); cbn; repeat constructor. Qed.
Lemma finish_calls s m pb fails c q : filter is_hcall (finish s m pb fails c q) = fst (handler s m c q).
Proof.
  unfold finish. pose proof (handler_calls s m c q) as C. destruct (handler s m c q) as [t r]. cbn [fst] in *. rewrite filter_app.
  assert (E : filter is_hcall t = t) by (unfold all_calls in C; clear - C; induction C as [|e l (a & b & ->) _ IH]; [reflexivity|cbn; congruence]). rewrite E.
  assert (W : forall c e, filter is_hcall (writeErr s c e) = []).
  { intros c0 e. unfold writeErr, callError, callResponseSent. destruct (hk_error (hooks_of s)), (hk_sent (hooks_of s)); reflexivity. }
  destruct r as [[r|] [e|]|]; rewrite ?filter_app, ?W, ?app_nil_r; try reflexivity.
  unfold callResponsePrepared. destruct (hk_prepared (hooks_of s)); cbn [app filter is_hcall]; (destruct (sv_enc s pb r); [|rewrite W, ?app_nil_r; reflexivity]);
    unfold callError, callResponseSent; destruct fails as [[? ?]|]; destruct (hk_error (hooks_of s)), (hk_sent (hooks_of s)); cbn; rewrite ?app_nil_r; reflexivity.
Qed.
Lemma received_cases s c : let '(t, (c1, e)) := callRequestReceived s c in filter is_hcall t = [] /\ filter outward t = [] /\
  match e with None => lets_through (sv_hooks s) hk_received c c1 | Some e => refuses (sv_hooks s) hk_received c e end.
Proof.
  unfold callRequestReceived, hooks_of, lets_through, refuses. destruct (sv_hooks s) as [h|]; [|cbn; auto]. destruct (hk_received h) as [k|] eqn:K; [|cbn; auto].
  destruct (k c) as [c1 [e|]] eqn:E; cbn; repeat split; auto. exists h, k, c1. auto.
Qed.
Lemma routed_cases s c : let '(t, (c1, e)) := callRequestRouted s c in filter is_hcall t = [] /\ filter outward t = [] /\
  match e with None => lets_through (sv_hooks s) hk_routed c c1 | Some e => refuses (sv_hooks s) hk_routed c e end.
Proof.
  unfold callRequestRouted, hooks_of, lets_through, refuses. destruct (sv_hooks s) as [h|]; [|cbn; auto]. destruct (hk_routed h) as [k|] eqn:K; [|cbn; auto].
  destruct (k c) as [c1 [e|]] eqn:E; cbn; repeat split; auto. exists h, k, c1. auto.
Qed.
Lemma through_det hk f c a b : lets_through hk f c a -> lets_through hk f c b -> a = b.
Proof. unfold lets_through. destruct hk as [h|]; [destruct (f h) as [k|]|]; congruence. Qed.
Lemma through_refuses hk f c a e : lets_through hk f c a -> refuses hk f c e -> False.
Proof. unfold lets_through, refuses. intros L (h & k & c' & -> & K & E). rewrite K in L. congruence. Qed.
Lemma refuses_det hk f c e e' : refuses hk f c e -> refuses hk f c e' -> e = e'.
Proof. intros (h & k & c' & -> & K & E) (h' & k' & c'' & H & K' & E'). injection H as <-. congruence. Qed.
Lemma error_calls s c e : filter is_hcall (writeErr s c e) = [].
Proof. unfold writeErr, callError, callResponseSent. destruct (hk_error (hooks_of s)), (hk_sent (hooks_of s)); reflexivity. Qed.
Lemma error_outward s c e : filter outward (writeErr s c e) = [HWrite (status_for (written_as e)) (WError (written_as e))].
Proof.
  unfold writeErr, callError, callResponseSent. rewrite status_same. change (asTwirp e) with (written_as e). destruct (hk_error (hooks_of s)), (hk_sent (hooks_of s)); reflexivity.
Qed.

(** What happens to a request, by cases. *)
Lemma served_cases_ s ip ul uj fails c h : let tr := serveHooked s ip ul uj fails c h in
  (exists e t c1, tr = t ++ writeErr s c1 e /\ filter is_hcall t = [] /\ filter outward t = [] /\
     (refuses (sv_hooks s) hk_received (arrival c) e \/
      exists c2, lets_through (sv_hooks s) hk_received (arrival c) c2 /\
        ((forall r pb, ~ addresses (sv_prefix s) ul h r pb) \/
         exists r pb, addresses (sv_prefix s) ul h r pb /\
           (refuses (sv_hooks s) hk_routed (SMethod (rt_name r) :: c2) e \/ forall q, ~ decodes uj h r pb q)))) \/
  (exists t c1 c2 r pb q, tr = t ++ finish s (rt_name r) pb fails c2 q /\ filter is_hcall t = [] /\ filter outward t = [] /\
     lets_through (sv_hooks s) hk_received (arrival c) c1 /\ addresses (sv_prefix s) ul h r pb /\
     lets_through (sv_hooks s) hk_routed (SMethod (rt_name r) :: c1) c2 /\ decodes uj h r pb q).
Proof.
  cbn zeta. rewrite serve_routing. pose proof (received_cases s (arrival c)) as R. destruct (callRequestReceived s (arrival c)) as [t [c1 [e|]]]; destruct R as (R1 & R2 & R3).
  { left. exists e, t, c1. auto. }
  destruct (routing s ip ul h) as [e|[r pb]] eqn:Ro.
  { left. exists e, t, c1. splits; auto. right. exists c1. split; auto. left. intros r pb A. apply (routed_addresses s ip) in A. congruence. }
  apply routed_addresses in Ro. unfold serveMethod. pose proof (routed_cases s (SMethod (rt_name r) :: c1)) as Q.
  destruct (callRequestRouted s (SMethod (rt_name r) :: c1)) as [t' [c2 [e|]]]; destruct Q as (Q1 & Q2 & Q3).
  { left. exists e, (t ++ t'), c2. rewrite !filter_app, R1, R2, Q1, Q2, <- app_assoc. splits; auto. right. exists c1. split; auto. right. exists r, pb. auto. }
  destruct (if pb then unmarshal (rt_desc r) (h_body h) else uj (rt_desc r) (h_body h)) as [m|] eqn:D.
  - right. exists (t ++ t'), c1, c2, r, pb, (rt_call r m). rewrite !filter_app, R1, R2, Q1, Q2, <- app_assoc. splits; auto. exists m. auto.
  - left. exists (ETwirp (malformedRequestError pb)), (t ++ t'), c2. rewrite !filter_app, R1, R2, Q1, Q2, <- app_assoc. splits; auto. right. exists c1. split; auto.
    right. exists r, pb. split; auto. right. intros q (m & M & _). congruence.
Qed.

Lemma in_calls c q l : In (HCall c q) l <-> In (HCall c q) (filter is_hcall l).
Proof. rewrite filter_In. cbn. tauto. Qed.
Lemma guarded s ip ul uj fails c h c' q : In (HCall c' q) (serveHooked s ip ul uj fails c h) ->
  exists c1 c2 r pb q0, lets_through (sv_hooks s) hk_received (arrival c) c1 /\ addresses (sv_prefix s) ul h r pb /\
    lets_through (sv_hooks s) hk_routed (SMethod (rt_name r) :: c1) c2 /\ decodes uj h r pb q0 /\ rt_name r = str (rpc_name q).
Proof.
  intros I. apply in_calls in I. destruct (served_cases_ s ip ul uj fails c h) as [(e & t & c1 & E & T & _)|(t & c1 & c2 & r & pb & q0 & E & T & _ & L1 & A & L2 & D)];
    rewrite E, filter_app, T in I; cbn [app] in I.
  - rewrite error_calls in I. contradiction.
  - rewrite finish_calls, handler_fst in I. exists c1, c2, r, pb, q0. splits; auto. destruct (sv_icpt s) as [f|].
    + eapply interceptor_called; eauto.
    + destruct I as [I|[]]. injection I as _ <-. destruct D as (m & _ & ->). symmetry. apply route_props. apply A.
Qed.
Lemma called_once s ip ul uj fails c h c1 c2 r pb q : sv_icpt s = None ->
  lets_through (sv_hooks s) hk_received (arrival c) c1 -> addresses (sv_prefix s) ul h r pb ->
  lets_through (sv_hooks s) hk_routed (SMethod (rt_name r) :: c1) c2 -> decodes uj h r pb q ->
  filter is_hcall (serveHooked s ip ul uj fails c h) = [HCall c2 q].
Proof.
  intros Ic L1 A L2 D. assert (Ro : routing s ip ul h = inr (r, pb)) by (apply routed_addresses; auto).
  rewrite serve_routing. pose proof (received_cases s (arrival c)) as R. destruct (callRequestReceived s (arrival c)) as [t [c1' [e|]]]; destruct R as (R1 & _ & R3); [exfalso; exact (through_refuses _ _ _ _ _ L1 R3)|].
  rewrite (through_det _ _ _ _ _ R3 L1). rewrite Ro. unfold serveMethod. pose proof (routed_cases s (SMethod (rt_name r) :: c1)) as Q.
  destruct (callRequestRouted s (SMethod (rt_name r) :: c1)) as [t' [c2' [e|]]]; destruct Q as (Q1 & _ & Q3); [exfalso; exact (through_refuses _ _ _ _ _ L2 Q3)|].
  rewrite (through_det _ _ _ _ _ Q3 L2). destruct D as (m & -> & ->). rewrite !filter_app, R1, Q1, finish_calls, handler_fst, Ic. reflexivity.
Qed.
Lemma refused_early s ip ul uj fails c h e : refuses (sv_hooks s) hk_received (arrival c) e -> refused_with e (serveHooked s ip ul uj fails c h).
Proof.
  intros F. unfold refused_with. rewrite serve_routing. pose proof (received_cases s (arrival c)) as R.
  destruct (callRequestReceived s (arrival c)) as [t [c1 [e'|]]]; destruct R as (_ & R2 & R3); [|exfalso; exact (through_refuses _ _ _ _ _ R3 F)].
  rewrite (refuses_det _ _ _ _ _ R3 F), filter_app, R2, error_outward. reflexivity.
Qed.
Lemma refused_routed s ip ul uj fails c h e c1 r pb : lets_through (sv_hooks s) hk_received (arrival c) c1 -> addresses (sv_prefix s) ul h r pb ->
  refuses (sv_hooks s) hk_routed (SMethod (rt_name r) :: c1) e -> refused_with e (serveHooked s ip ul uj fails c h).
Proof.
  intros L1 A F. assert (Ro : routing s ip ul h = inr (r, pb)) by (apply routed_addresses; auto). unfold refused_with.
  rewrite serve_routing. pose proof (received_cases s (arrival c)) as R. destruct (callRequestReceived s (arrival c)) as [t [c1' [e'|]]]; destruct R as (_ & R1 & R3); [exfalso; exact (through_refuses _ _ _ _ _ L1 R3)|].
  rewrite (through_det _ _ _ _ _ R3 L1). rewrite Ro. unfold serveMethod. pose proof (routed_cases s (SMethod (rt_name r) :: c1)) as Q.
  destruct (callRequestRouted s (SMethod (rt_name r) :: c1)) as [t' [c2' [e'|]]]; destruct Q as (_ & Q1 & Q3); [|exfalso; exact (through_refuses _ _ _ _ _ Q3 F)].
  rewrite (refuses_det _ _ _ _ _ Q3 F), !filter_app, R1, Q1, error_outward. reflexivity.
Qed.

(** ** Replies *)
Lemma error_no_reply s c e n pb bs : ~ In (HWrite n (WReply pb bs)) (writeErr s c e).
Proof. unfold writeErr, callError, callResponseSent. destruct (hk_error (hooks_of s)), (hk_sent (hooks_of s)); cbn; intuition discriminate. Qed.
Lemma outward_in e l : outward e = true -> In e l -> In e (filter outward l).
Proof. intros O I. apply filter_In. auto. Qed.
Lemma type_names q r : type_of r = respType (str (rpc_name q)) -> replies_to q r = true.
Proof. destruct q, r; intros H; try reflexivity; vm_compute in H; discriminate. Qed.
Lemma handler_typed s m c q r t : well_typed (sv_svc s) -> m = str (rpc_name q) -> handler s m c q = (t, SReturn (Some r) None) -> replies_to q r = true.
Proof.
  intros W M. unfold handler. destruct (sv_icpt s) as [f|].
  - destruct (runInterceptor _ _ _ _) as [t' [[[| | | |] e]|]]; try discriminate; destruct (beq _ _) eqn:B; try discriminate.
    intros H. injection H as _ <- _. apply beq_eq in B. apply type_names. congruence.
  - intros H. injection H as _ H. eapply W; eauto.
Qed.
Lemma reply_typed s ip ul uj fails c h n pb bs : well_typed (sv_svc s) -> In (HWrite n (WReply pb bs)) (serveHooked s ip ul uj fails c h) ->
  n = 200 /\ exists r q x, addresses (sv_prefix s) ul h r pb /\ decodes uj h r pb q /\ replies_to q x = true /\ sv_enc s pb x = inl bs.
Proof.
  intros W I. apply (outward_in (HWrite n (WReply pb bs)) _ eq_refl) in I.
  destruct (served_cases_ s ip ul uj fails c h) as [(e & t & c1 & E & _ & T & _)|(t & c1 & c2 & r & pb' & q0 & E & _ & T & L1 & A & L2 & D)];
    rewrite E, filter_app, T in I; cbn [app] in I.
  { rewrite error_outward in I. destruct I as [I|[]]. discriminate. }
  apply filter_In in I as [I _]. unfold finish in I.
  pose proof (handler_calls s (rt_name r) c2 q0) as C. destruct (handler s (rt_name r) c2 q0) as [t' x] eqn:H. cbn [fst] in C.
  apply in_app_or in I as [I|I]; [unfold all_calls in C; rewrite Forall_forall in C; destruct (C _ I) as (? & ? & ?); discriminate|].
  destruct x as [[x|] [e|]|]; try (exfalso; eapply error_no_reply; eauto; fail).
  - assert (Ty : replies_to q0 x = true).
    { eapply handler_typed; [exact W| |exact H]. destruct D as (m & _ & ->). symmetry. apply route_props. apply A. }
    unfold callResponsePrepared in I.
    assert (J : forall cc, In (HWrite n (WReply pb bs)) (match sv_enc s pb' x with
      | inr text => writeErr s cc (ETwirp (marshalError text pb'))
      | inl bs => let c := SStatus 200 :: cc in HWrite 200 (WReply pb' bs) ::
          match fails with
          | Some (n, text) => let (t, c) := callError s c (mkGerror (str "unknown") (str "failed to write response, " ++ itoa n ++ str " of " ++
                                        itoa (len bs) ++ str " bytes written: " ++ text) []) in t ++ callResponseSent s c
          | None => callResponseSent s c end end) -> n = 200 /\ pb = pb' /\ sv_enc s pb' x = inl bs).
    { intros cc. destruct (sv_enc s pb' x) as [bs'|text]; [|intros Z; exfalso; eapply error_no_reply; eauto].
      intros [Z|Z]; [injection Z as <- <- <-; auto|]. exfalso. unfold callError, callResponseSent in Z. destruct fails as [[? ?]|]; destruct (hk_error (hooks_of s)), (hk_sent (hooks_of s)); cbn in Z; intuition discriminate. }
    assert (K : n = 200 /\ pb = pb' /\ sv_enc s pb' x = inl bs).
    { destruct (hk_prepared (hooks_of s)); cbn [app] in I; [destruct I as [I|I]; [discriminate|]|]; eapply J; exact I. }
    destruct K as (-> & -> & K). split; auto. exists r, q0, x. auto.
  - apply in_app_or in I as [I|I]; [exfalso; eapply error_no_reply; eauto|]. destruct I as [I|[I|[]]]; discriminate.
Qed.

(** ** The status that ResponseSent sees *)
Definition told (tr : list hevent) : Prop := forall c n b, In (HSent c) tr -> In (HWrite n b) tr -> status_in c = Some n.
Definition mute (t : list hevent) : Prop := (forall c, ~ In (HSent c) t) /\ (forall n b, ~ In (HWrite n b) t).
Lemma told_app t tr : mute t -> told tr -> told (t ++ tr).
Proof. intros [S W] T c n b I J. apply in_app_or in I as [I|I]; [exfalso; eapply S; eauto|]. apply in_app_or in J as [J|J]; [exfalso; eapply W; eauto|]. eapply T; eauto. Qed.
Lemma told_app_r t tr : mute t -> told tr -> told (tr ++ t).
Proof. intros [S W] T c n b I J. apply in_app_or in I as [I|I]; [|exfalso; eapply S; eauto]. apply in_app_or in J as [J|J]; [|exfalso; eapply W; eauto]. eapply T; eauto. Qed.
Lemma mute_app a b : mute a -> mute b -> mute (a ++ b).
Proof. intros [A A'] [B B']. split; intros; intros I; apply in_app_or in I as [I|I]; [eapply A|eapply B|eapply A'|eapply B']; eauto. Qed.
Ltac muted := split; intros; cbn; intuition discriminate.
Lemma calls_mute t : all_calls t -> mute t.
Proof. unfold all_calls. rewrite Forall_forall. intros C. split; intros; intros I; destruct (C _ I) as (? & ? & ?); discriminate. Qed.
Lemma kept s k : keeps_status (sv_hooks s) -> hk_error (hooks_of s) = Some k -> forall c g, status_in (k c g) = status_in c.
Proof. intros K E c g. unfold hooks_of in E. destruct (sv_hooks s) as [h|]; [eapply K; [reflexivity|exact E]|discriminate]. Qed.
Lemma error_told s c e : keeps_status (sv_hooks s) -> told (writeErr s c e).
Proof.
  intros K. unfold writeErr, callError, callResponseSent. destruct (hk_error (hooks_of s)) as [k|] eqn:E, (hk_sent (hooks_of s)); intros c' n b I J; cbn in I, J.
  - destruct I as [I|[I|[I|[]]]]; try discriminate. injection I as <-. destruct J as [J|[J|[J|[]]]]; try discriminate. injection J as <- _. rewrite (kept s k K E). reflexivity.
  - destruct I as [I|[I|[]]]; discriminate.
  - destruct I as [I|[I|[]]]; try discriminate. injection I as <-. destruct J as [J|[J|[]]]; try discriminate. injection J as <- _. reflexivity.
  - destruct I as [I|[]]; discriminate.
Qed.
Lemma finish_told s m pb fails c q : keeps_status (sv_hooks s) -> told (finish s m pb fails c q).
Proof.
  intros K. unfold finish. pose proof (handler_calls s m c q) as C. destruct (handler s m c q) as [t r]. cbn [fst] in C. apply told_app; [apply calls_mute; auto|].
  destruct r as [[r|] [e|]|]; try (apply error_told; auto).
  - unfold callResponsePrepared.
    assert (P : forall cc, told (match sv_enc s pb r with
      | inr text => writeErr s cc (ETwirp (marshalError text pb))
      | inl bs => let c := SStatus 200 :: cc in HWrite 200 (WReply pb bs) ::
          match fails with
          | Some (n, text) => let (t, c) := callError s c (mkGerror (str "unknown") (str "failed to write response, " ++ itoa n ++ str " of " ++
                                        itoa (len bs) ++ str " bytes written: " ++ text) []) in t ++ callResponseSent s c
          | None => callResponseSent s c end end)).
    { intros cc. destruct (sv_enc s pb r) as [bs|text]; [|apply error_told; auto]. cbn zeta. unfold callError, callResponseSent.
      destruct fails as [[n0 text]|].
      - set (g := mkGerror (str "unknown") _ []). destruct (hk_error (hooks_of s)) as [k|] eqn:E, (hk_sent (hooks_of s)); intros c' n b I J; cbn in I, J.
        + destruct I as [I|[I|[I|[]]]]; try discriminate. injection I as <-. destruct J as [J|[J|[J|[]]]]; try discriminate. injection J as <- _. rewrite (kept s k K E). reflexivity.
        + destruct I as [I|[I|[]]]; discriminate.
        + destruct I as [I|[I|[]]]; try discriminate. injection I as <-. destruct J as [J|[J|[]]]; try discriminate. injection J as <- _. reflexivity.
        + destruct I as [I|[]]; discriminate.
      - destruct (hk_sent (hooks_of s)); intros c' n b I J; cbn in I, J.
        + destruct I as [I|[I|[]]]; try discriminate. injection I as <-. destruct J as [J|[J|[]]]; try discriminate. injection J as <- _. reflexivity.
        + destruct I as [I|[]]; discriminate. }
    destruct (hk_prepared (hooks_of s)); apply told_app; try apply P; muted.
  - apply told_app_r; [muted|apply error_told; auto].
Qed.
Lemma received_mute s c : mute (fst (callRequestReceived s c)).
Proof. unfold callRequestReceived. destruct (hk_received (hooks_of s)); muted. Qed.
Lemma routed_mute s c : mute (fst (callRequestRouted s c)).
Proof. unfold callRequestRouted. destruct (hk_routed (hooks_of s)); muted. Qed.
Lemma status_told s ip ul uj fails c h c' n b : keeps_status (sv_hooks s) ->
  In (HSent c') (serveHooked s ip ul uj fails c h) -> In (HWrite n b) (serveHooked s ip ul uj fails c h) -> status_in c' = Some n.
Proof.
  intros K. cut (told (serveHooked s ip ul uj fails c h)); [intros T; apply T|]. rewrite serve_routing. pose proof (received_mute s (arrival c)) as R.
  destruct (callRequestReceived s (arrival c)) as [t [c1 [e|]]]; (apply told_app; [exact R|]); [apply error_told; auto|].
  destruct (routing s ip ul h) as [e|[r pb]]; [apply error_told; auto|]. unfold serveMethod. pose proof (routed_mute s (SMethod (rt_name r) :: c1)) as Q.
  destruct (callRequestRouted s (SMethod (rt_name r) :: c1)) as [t' [c2 [e|]]]; (apply told_app; [exact Q|]); [apply error_told; auto|].
  destruct (if pb then unmarshal (rt_desc r) (h_body h) else uj (rt_desc r) (h_body h)); [apply finish_told; auto|apply error_told; auto].
Qed.

(** ** Hooks that do nothing *)
Lemma error_inert s c e : inert (sv_hooks s) -> filter outward (writeErr s c e) = writeErr (without_hooks s) c e.
Proof. intros I. unfold writeErr, callError, callResponseSent. cbn [hooks_of without_hooks sv_hooks hk_error hk_sent no_hooks app]. destruct (hk_error (hooks_of s)), (hk_sent (hooks_of s)); reflexivity. Qed.
Lemma next_same s m n c v : nextMethod (without_hooks s) m n c v = nextMethod s m n c v.
Proof. reflexivity. Qed.
Lemma run_same s m : forall i n, runInterceptor (without_hooks s) m n i = runInterceptor s m n i.
Proof.
  induction i as [v e|c v k IH|]; intros n; cbn [runInterceptor]; auto. rewrite next_same. destruct (nextMethod s m n c v) as [[t n'] r]. rewrite IH. reflexivity.
Qed.
Lemma handler_same s m c q : handler (without_hooks s) m c q = handler s m c q.
Proof. unfold handler. change (sv_icpt (without_hooks s)) with (sv_icpt s). destruct (sv_icpt s); [|reflexivity]. rewrite run_same. reflexivity. Qed.
Lemma calls_outward t : all_calls t -> filter outward t = t.
Proof. unfold all_calls. induction 1 as [|e l (c & q & ->) _ IH]; [reflexivity|]. cbn. congruence. Qed.
Lemma finish_inert s m pb fails c q : inert (sv_hooks s) -> filter outward (finish s m pb fails c q) = finish (without_hooks s) m pb fails c q.
Proof.
  intros I. unfold finish. rewrite handler_same. pose proof (handler_calls s m c q) as C. destruct (handler s m c q) as [t r]. cbn [fst] in C.
  rewrite filter_app, (calls_outward t C). f_equal. destruct r as [[r|] [e|]|]; try (apply error_inert; auto).
  - unfold callResponsePrepared. cbn [hooks_of without_hooks sv_hooks hk_prepared no_hooks app]. change (sv_enc (without_hooks s)) with (sv_enc s).
    assert (E : (let (t0, c0) := match hk_prepared (hooks_of s) with Some f => ([HPrepared c], f c) | None => ([], c) end in filter outward t0 = [] /\ c0 = c)).
    { unfold hooks_of. destruct (sv_hooks s) as [h|]; [|cbn; auto]. destruct I as (_ & _ & P & _). destruct (hk_prepared h) as [k|] eqn:K; [split; [reflexivity|apply P; auto]|cbn; auto]. }
    destruct (match hk_prepared (hooks_of s) with Some f => ([HPrepared c], f c) | None => ([], c) end) as [t0 c0]. destruct E as [E ->]. rewrite filter_app, E. cbn [app].
    destruct (sv_enc s pb r) as [bs|text]; [|apply error_inert; auto]. cbn zeta. cbn [filter outward]. f_equal. unfold callError, callResponseSent.
    cbn [hooks_of without_hooks sv_hooks hk_error hk_sent no_hooks app]. destruct fails as [[n text]|]; destruct (hk_error (hooks_of s)), (hk_sent (hooks_of s)); reflexivity.
  - rewrite filter_app, error_inert by auto. reflexivity.
Qed.
Lemma hooks_inert s ip ul uj fails c h : inert (sv_hooks s) ->
  filter outward (serveHooked s ip ul uj fails c h) = serveHooked (without_hooks s) ip ul uj fails c h.
Proof.
  intros I. rewrite !serve_routing. change (routing (without_hooks s) ip ul h) with (routing s ip ul h).
  change (callRequestReceived (without_hooks s) (arrival c)) with (@nil hevent, (arrival c, @None goerr)).
  pose proof (received_cases s (arrival c)) as R. destruct (callRequestReceived s (arrival c)) as [t [c1 e]] eqn:E. destruct R as (_ & R & R').
  assert (X : e = None /\ c1 = arrival c).
  { unfold callRequestReceived, hooks_of in E. destruct (sv_hooks s) as [h0|]; [|injection E as _ <- <-; auto]. destruct I as (P & _). destruct (hk_received h0) as [k|] eqn:K; [|injection E as _ <- <-; auto].
    injection E as _ E. rewrite (P k _ eq_refl) in E. injection E as <- <-. auto. }
  destruct X as [-> ->]. rewrite filter_app, R. cbn [app]. destruct (routing s ip ul h) as [e|[r pb]]; [apply error_inert; auto|].
  unfold serveMethod. change (callRequestRouted (without_hooks s) (SMethod (rt_name r) :: arrival c)) with (@nil hevent, (SMethod (rt_name r) :: arrival c, @None goerr)).
  pose proof (routed_cases s (SMethod (rt_name r) :: arrival c)) as Q. destruct (callRequestRouted s (SMethod (rt_name r) :: arrival c)) as [t' [c2 e]] eqn:E2. destruct Q as (_ & Q & Q').
  assert (X : e = None /\ c2 = SMethod (rt_name r) :: arrival c).
  { unfold callRequestRouted, hooks_of in E2. destruct (sv_hooks s) as [h0|]; [|injection E2 as _ <- <-; auto]. destruct I as (_ & P & _). destruct (hk_routed h0) as [k|] eqn:K; [|injection E2 as _ <- <-; auto].
    injection E2 as _ E2. rewrite (P k _ eq_refl) in E2. injection E2 as <- <-. auto. }
  destruct X as [-> ->]. rewrite filter_app, Q. cbn [app].
  destruct (if pb then unmarshal (rt_desc r) (h_body h) else uj (rt_desc r) (h_body h)); [apply finish_inert; auto|apply error_inert; auto].
Qed.

(** ** An interceptor that only passes on *)
Lemma typed_own q : typedReq (str (rpc_name q)) (message_of q) = Some q.
Proof. destruct q; reflexivity. Qed.
Lemma type_own q r : replies_to q r = true -> type_of r = respType (str (rpc_name q)).
Proof. destruct q, r; cbn [replies_to]; intros H; try discriminate; reflexivity. Qed.
Lemma handler_pass s c q : sv_icpt s = Some pass_on -> well_typed (sv_svc s) ->
  handler s (str (rpc_name q)) c q = handler (without_interceptor s) (str (rpc_name q)) c q.
Proof.
  intros P W. unfold handler. rewrite P. cbn [sv_icpt without_interceptor sv_svc]. unfold pass_on. cbn [runInterceptor nextMethod].
  unfold nextMethod. rewrite typed_own. destruct (sv_svc s 0 c q) as [[r|] e|] eqn:S; cbn [runInterceptor app].
  - rewrite (type_own q r) by (eapply W; eauto). replace (beq _ _) with true by (symmetry; apply beq_eq; reflexivity). reflexivity.
  - replace (beq _ _) with true by (symmetry; apply beq_eq; reflexivity). reflexivity.
  - reflexivity.
Qed.
Lemma passed_on s ip ul uj fails c h : sv_icpt s = Some pass_on -> well_typed (sv_svc s) ->
  serveHooked s ip ul uj fails c h = serveHooked (without_interceptor s) ip ul uj fails c h.
Proof.
  intros P W. rewrite !serve_routing. change (callRequestReceived (without_interceptor s) (arrival c)) with (callRequestReceived s (arrival c)).
  destruct (callRequestReceived s (arrival c)) as [t [c1 [e|]]]; [reflexivity|]. f_equal.
  change (routing (without_interceptor s) ip ul h) with (routing s ip ul h). destruct (routing s ip ul h) as [e|[r pb]] eqn:Ro; [reflexivity|]. apply routed_addresses in Ro.
  unfold serveMethod. change (callRequestRouted (without_interceptor s) (SMethod (rt_name r) :: c1)) with (callRequestRouted s (SMethod (rt_name r) :: c1)).
  destruct (callRequestRouted s (SMethod (rt_name r) :: c1)) as [t' [c2 [e|]]]; [reflexivity|]. f_equal.
  destruct (if pb then unmarshal (rt_desc r) (h_body h) else uj (rt_desc r) (h_body h)) as [m|]; [|reflexivity].
  destruct (route_props r (proj1 (proj2 (proj2 Ro)))) as (_ & _ & N). unfold finish. rewrite <- (N m), handler_pass by auto. reflexivity.
Qed.

(** ** The repository's own server *)
Lemma bare io iot mt t json a ip ul uj fails c h :
  let s := own_server io iot mt t json a in
  match dispatch ul uj h with
  | Answer x => exists g, refusal_error ip ul uj h = Some g /\ serveHooked s ip ul uj fails c h = [HWrite (r_status x) (WError g)]
  | Call pb q => refusal_error ip ul uj h = None /\ exists c',
      serveHooked s ip ul uj fails c h =
        [HCall c' q; HWrite (r_status (respond pb t (a q)))
                       (match reply_error io iot mt pb t q (a q) with
                        | Some g => WError g
                        | None => WReply pb (match r_body (respond pb t (a q)) with Protobuf bs => bs | _ => json (a q) end)
                        end)]
  end.
Proof.
  cbn zeta. unfold dispatch, refusal_error, serveHooked.
  change (callRequestReceived (own_server io iot mt t json a) (SWriter :: SService (str "Comfo") :: SPackage (str "comfo.api") :: c))
    with (@nil hevent, (SWriter :: SService (str "Comfo") :: SPackage (str "comfo.api") :: c, @None goerr)). cbn [app].
  change (sv_prefix (own_server io iot mt t json a)) with (str "/twirp").
  destruct (negb (beq (h_method h) (str "POST"))); [eexists; split; reflexivity|].
  destruct (parseTwirpPath (h_path h)) as [[p sv] m]. destruct (negb (beq sv _)); [eexists; split; reflexivity|].
  destruct (negb (beq p _)); [eexists; split; reflexivity|]. destruct (find_route m rt_routes) as [r|]; [|eexists; split; reflexivity].
  destruct (contentType ul (h_ctype h)) as [pb|]; [|eexists; split; reflexivity].
  unfold serveMethod. match goal with |- context [callRequestRouted ?s ?c] => change (callRequestRouted s c) with (@nil hevent, (c, @None goerr)) end. cbn [app].
  destruct (if pb then unmarshal (rt_desc r) (h_body h) else uj (rt_desc r) (h_body h)) as [fs|]; [|eexists; split; reflexivity].
  split; [reflexivity|]. eexists. unfold finish, handler. cbn [own_server sv_icpt sv_svc sv_hooks]. unfold respond, reply_error.
  set (q := rt_call r fs). destruct (a q) as [x|x|x|x|x|x|b o g|b o g|b o g|b|e]; cbn [app callResponsePrepared hooks_of sv_hooks own_server no_hooks hk_prepared sv_enc];
    try (match goal with |- context [marshal ?m] => destruct (marshal m) as [bs|] end; [destruct pb; destruct fails as [[? ?]|]; reflexivity|destruct pb; reflexivity]).
  destruct e as [ar|se]; reflexivity.
Qed.
