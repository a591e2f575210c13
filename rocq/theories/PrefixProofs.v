(** Requests of clients with a path prefix, at servers with one. *)
From Coq Require Import String.
From Verif Require Import ProofBase GoStrings Server Wire Twirp SpecWire SpecTwirp TwirpProofs TwirpReply GoClient SpecGo GoProofs JsonRead JsonWrite JsonGoProofs JsonError ErrorText Hooks
  SpecHooks HooksProofs HooksClaims ClientHooks SpecClientHooks Prefix SpecPrefix.
From Verif Require DescriptorClaims.
From Verif Require Import GoUrl SamplesPrefix.

Lemma same_url u c b c' b' s h hr : newRequest u c b = SentTo s h hr ->
  hr = mkHreq (str "POST") (h_path hr) c b /\ newRequest u c' b' = SentTo s h (mkHreq (str "POST") (h_path hr) c' b').
Proof.
  unfold newRequest. destruct (parseUrl u) as [x|]; [|discriminate]. destruct (negb _); [discriminate|]. destruct (beq (u_host x) []); [discriminate|].
  intros H. injection H as <- <- <-. auto.
Qed.
Lemma front_decodes ul uj h pb q : front ul uj h = Call pb q -> exists r, In r rt_routes /\ rt_name r = str (rpc_name q) /\
  contentType ul (h_ctype h) = Some pb /\ decodes uj h r pb q.
Proof.
  unfold front. destruct (negb _); [discriminate|]. destruct (hasPrefix _ _); [|discriminate]. unfold dispatch.
  destruct (negb _); [discriminate|]. destruct (parseTwirpPath (h_path h)) as [[p sv] m]. destruct (negb _); [discriminate|]. destruct (negb _); [discriminate|].
  destruct (find_route m rt_routes) as [r|] eqn:F; [|discriminate]. destruct (contentType ul (h_ctype h)) as [pb'|]; [|discriminate].
  destruct (if pb' then unmarshal (rt_desc r) (h_body h) else uj (rt_desc r) (h_body h)) as [x|] eqn:D; [|discriminate].
  intros H. injection H as -> <-. apply DescriptorClaims.route_in in F as [I N]. exists r. split; auto. split; [symmetry; apply route_props; auto|]. split; auto. exists x. auto.
Qed.
Lemma routing_prefix s ip ul h x : routing s ip ul h = inr x -> fst (fst (parseTwirpPath (h_path h))) = sv_prefix s.
Proof.
  unfold routing. destruct (negb _); [discriminate|]. destruct (parseTwirpPath (h_path h)) as [[p sv] m]. destruct (negb _); [discriminate|].
  destruct (beq p (sv_prefix s)) eqn:E; [|discriminate]. intros _. apply beq_eq in E. exact E.
Qed.
Lemma routing_bad s ip ul h e : routing s ip ul h = inl e -> exists g, e = ETwirp g /\ ge_code g = str "bad_route".
Proof.
  unfold routing. destruct (negb _); [intros H; injection H as <-; eauto|]. destruct (parseTwirpPath (h_path h)) as [[p sv] m].
  destruct (negb _); [intros H; injection H as <-; eauto|]. destruct (negb _); [intros H; injection H as <-; eauto|].
  destruct (find_route _ _); [|intros H; injection H as <-; eauto]. destruct (contentType _ _); [discriminate|intros H; injection H as <-; eauto].
Qed.
(** The request, and what any server makes of its body. *)
Lemma asked_for k sc host q es p : base_for sc host (cl_base k) -> cl_prefix k = Some p -> prefix_of es p -> args_ok q ->
  exists h, asks k q h /\ h_method h = str "POST" /\ h_path h = written_out es ++ str "/comfo.api.Comfo/" ++ str (rpc_name q) /\
    forall ul, exists r, In r rt_routes /\ rt_name r = str (rpc_name q) /\ contentType ul (h_ctype h) = Some (is_pb k) /\ decodes unjson h r (is_pb k) q.
Proof.
  intros B P Pf A. destruct (prefixed _ _ _ _ _ q B Pf A) as (hr & G & Path & _).
  assert (Ep : h_path hr = written_out es ++ str "/comfo.api.Comfo/" ++ str (rpc_name q)).
  { rewrite Path, map_app, concat_app. unfold written_out. f_equal. cbn [map concat]. rewrite app_nil_r. reflexivity. }
  unfold go_send in G. destruct (marshal (rpc_fields q)) as [b|] eqn:M; [|discriminate]. unfold asks, is_pb. destruct (cl_json k) as [sp|] eqn:J.
  - destruct (go_json_sent sp _ _ _ q B A) as (h0 & G0 & _ & _ & _ & F0). unfold go_json_send in G0. destruct (request_json sp q) as [b'|] eqn:R; [|discriminate].
    destruct (same_url _ _ _ (str "application/json") b' _ _ _ G) as (_ & S). apply same_url with (c' := []) (b' := []) in G0 as (E0 & _).
    eexists. split; [exists b', (str sc), host; split; [reflexivity|]; rewrite P; exact S|]. split; [reflexivity|]. split; [exact Ep|].
    intros ul. destruct (front_decodes _ _ _ _ _ (F0 ul)) as (r & I & N & C & D). rewrite E0 in C, D. exists r. auto.
  - destruct (go_request _ _ _ q B A) as (h0 & G0 & _ & F0). unfold go_send in G0. rewrite M in G0. apply same_url with (c' := []) (b' := []) in G0 as (E0 & _).
    destruct (same_url _ _ _ (str "application/protobuf") b _ _ _ G) as (_ & S).
    eexists. split; [exists b, (str sc), host; split; [exact M|]; rewrite P; exact S|]. split; [reflexivity|]. split; [exact Ep|].
    intros ul. destruct (front_decodes _ _ _ _ _ (F0 ul unjson)) as (r & I & N & C & D). rewrite E0 in C, D. exists r. auto.
Qed.
Lemma prefixes_meet k sc host q es p s : base_for sc host (cl_base k) -> cl_prefix k = Some p -> prefix_of es p -> args_ok q ->
  exists h, asks k q h /\
    (sv_prefix s = written_out es -> forall ip ul fails c c1 c2, sv_icpt s = None ->
       lets_through (sv_hooks s) hk_received (arrival c) c1 -> lets_through (sv_hooks s) hk_routed (SMethod (str (rpc_name q)) :: c1) c2 ->
       filter is_hcall (serveHooked s ip ul unjson fails c h) = [HCall c2 q]) /\
    (sv_prefix s <> written_out es -> forall ip ul fails c c1, lets_through (sv_hooks s) hk_received (arrival c) c1 ->
       exists g, ge_code g = str "bad_route" /\ filter outward (serveHooked s ip ul unjson fails c h) = [HWrite 404 (WError g)]).
Proof.
  intros B P Pf A. destruct (asked_for k sc host q es p B P Pf A) as (h & Ak & Me & Pa & De). exists h. split; [exact Ak|]. split.
  - intros Ep ip ul fails c c1 c2 Ic L1 L2. destruct (De ul) as (r & I & N & C & D). rewrite <- N in L2. eapply called_once; eauto.
    split; [exact Me|]. split; [left; rewrite Ep, N; exact Pa|]. auto.
  - intros Np ip ul fails c c1 L1. rewrite serve_routing. pose proof (received_cases s (arrival c)) as R.
    destruct (callRequestReceived s (arrival c)) as [t [c1' [e|]]]; destruct R as (_ & R1 & R3); [exfalso; exact (through_refuses _ _ _ _ _ L1 R3)|].
    rewrite filter_app, R1. cbn [app]. destruct (routing s ip ul h) as [e|[r pb]] eqn:Ro.
    + destruct (routing_bad _ _ _ _ _ Ro) as (g & -> & Cg). exists g. split; auto. rewrite error_outward. cbn [written_as]. unfold status_for. rewrite Cg. reflexivity.
    + exfalso. apply Np. rewrite <- (routing_prefix _ _ _ _ _ Ro). destruct (De ul) as (r' & I & N & C & _).
      assert (X : routing (mkSrv (sv_hooks s) (sv_icpt s) (written_out es) (sv_svc s) (sv_enc s)) ip ul h = inr (r', is_pb k)).
      { apply routed_addresses. split; [exact Me|]. split; [left; cbn [sv_prefix]; rewrite N; exact Pa|]. auto. }
      exact (routing_prefix _ _ _ _ _ X).
Qed.
Lemma announced k sc host q es p s : base_for sc host (cl_base k) -> cl_prefix k = Some p -> prefix_of es p -> prefix_of es (sv_prefix s) -> args_ok q ->
  exists h, asks k q h /\ h_path h = PathPrefix s ++ str (rpc_name q).
Proof.
  intros B P Pf Ps A. destruct (asked_for k sc host q es p B P Pf A) as (h & Ak & _ & Pa & _). exists h. split; auto.
  unfold PathPrefix. rewrite (service_path es _ Ps), map_app, concat_app, Pa. unfold written_out. rewrite <- !app_assoc. f_equal. 
Qed.
(** An element, with and without slashes. *)
Lemma one_element e p : forallb (fun c => negb (c =? 47)) e = true -> e <> [] -> e <> str "." -> e <> str ".." -> Forall path_char e ->
  In p [e; 47 :: e; e ++ [47]; 47 :: e ++ [47]] -> prefix_of [e] p.
Proof.
  intros F N1 N2 N3 C I. assert (Sl : Forall path_char [47]) by (change [47] with (str "/"); apply chars_ok; reflexivity). split.
  - constructor; [|constructor]. split; [exact N1|]. split; [exact N2|]. split; [exact N3|]. rewrite forallb_forall in F. apply Forall_forall. intros x Ix. specialize (F x Ix). lia.
  - split; [cbn [In] in I; destruct I as [<-|[<-|[<-|[<-|[]]]]]; auto; try (apply Forall_app; auto); change (47 :: ?x) with ([47] ++ x); repeat (apply Forall_app; split); auto|].
    cbn [In map concat] in *. rewrite app_nil_r. destruct I as [<-|[<-|[<-|[<-|[]]]]].
    + exists []. split; auto. right. rewrite app_nil_r. split; [discriminate|reflexivity].
    + exists []. split; auto. left. rewrite app_nil_r. reflexivity.
    + exists [47]. split; auto. right. split; [discriminate|reflexivity].
    + exists [47]. split; auto.
Qed.
Lemma api_prefix p : In p [str "api"; str "/api"; str "api/"; str "/api/"] -> prefix_of [str "api"] p.
Proof. intros I. apply one_element; auto; try discriminate. apply chars_ok. reflexivity. Qed.
Lemma box_base : base_for "http" (str "box:8080") (str "http://box:8080").
Proof.
  apply (base_full "http" (str "box:8080") (str "http")).
  - split; auto. apply lower_same. reflexivity.
  - exists (str "box"), (str ":8080"). split; [reflexivity|]. split; [apply host_name_b; reflexivity|].
    right. exists (str "8080"). split; [reflexivity|]. apply digits_b. reflexivity.
Qed.
Lemma same_prefix_refuted : exists k h s p g, base_for "http" (str "box:8080") (cl_base k) /\ prefix_of [str "api"] p /\
  cl_prefix k = Some p /\ sv_prefix s = p /\ sv_hooks s = None /\ sv_icpt s = None /\ asks k GetBootInfo h /\
  h_path h = PathPrefix s ++ str "GetBootInfo" /\ taken s h = [HWrite 404 (WError g)] /\ ge_code g = str "bad_route".
Proof.
  exists (client_under "api"), under_api, (server_under "api"), (str "api"). eexists. split; [exact box_base|]. split; [apply api_prefix; cbn; auto|].
  split; [reflexivity|]. split; [reflexivity|]. split; [reflexivity|]. split; [reflexivity|]. split; [do 3 eexists; split; vm_compute; reflexivity|].
  split; [vm_compute; reflexivity|]. split; vm_compute; reflexivity.
Qed.
