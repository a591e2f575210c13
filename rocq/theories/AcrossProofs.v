(** Proofs about errors on their way from a server with hooks to a client with hooks. *)
From Coq Require Import String Sorting.Permutation.
From Verif Require Import ProofBase GoStrings SpecWire Server Wire Twirp GoClient SpecGo SpecJsonError JsonWrite JsonError JsonErrorStrings JsonErrorProofs Utf8Proofs JsonReplyProofs TwirpProofs ErrorText SpecErrorText ErrorTextProofs
  Failures SpecTwirp GoProofs JsonScan JsonRead SpecJsonReply JsonReplyProofs JsonGoProofs SpecFailures FailuresProofs Hooks SpecHooks HooksProofs ClientHooks SpecClientHooks ClientHooksProofs Across SpecAcross.

(** ** What the server answers *)
Lemma answer_shown hk f : answer (filter (shown hk) f) = answer f.
Proof.
  induction f as [|e f IH]; [reflexivity|]. cbn [filter]. destruct (shown hk e) eqn:E.
  - cbn [answer]. rewrite IH. reflexivity.
  - rewrite IH. destruct e; try reflexivity; destruct hk; discriminate E.
Qed.
Lemma write_shown hk f n b : In (HWrite n b) (filter (shown hk) f) -> In (HWrite n b) f.
Proof. intros H. apply filter_In in H. tauto. Qed.
Lemma answer_calls l f : all_calls l -> answer (l ++ f) = answer f.
Proof. induction 1 as [|e l (c & q & ->) _ IH]; [reflexivity|exact IH]. Qed.
Lemma write_calls l f n b : all_calls l -> In (HWrite n b) (l ++ f) -> In (HWrite n b) f.
Proof. intros A H. apply in_app_or in H. destruct H as [H|H]; auto. unfold all_calls in A. rewrite Forall_forall in A. destruct (A _ H) as (c & q & ?). discriminate. Qed.
Lemma failure_answer f r n g : failure f -> In (HWrite n (WError g)) (f ++ r) -> (forall m b, ~ In (HWrite m b) r) ->
  answer (f ++ r) = Some (mkResponse (status_for g) [] (marshalErrorToJSON g) None).
Proof.
  intros F H N. destruct F as [c g0 c']. cbn in H. destruct H as [H|[H|[H|H]]]; try discriminate; [|destruct (N _ _ H)].
  injection H as _ ->. reflexivity.
Qed.
Lemma failure_answer0 f n g : failure f -> In (HWrite n (WError g)) f -> answer f = Some (mkResponse (status_for g) [] (marshalErrorToJSON g) None).
Proof. intros F H. pose proof (failure_answer f [] n g F) as K. rewrite app_nil_r in K. apply K; auto. Qed.
Lemma answer_error s ip ul uj fails c h n g : In (HWrite n (WError g)) (serveHooked s ip ul uj fails c h) ->
  answer (serveHooked s ip ul uj fails c h) = Some (mkResponse (status_for g) [] (marshalErrorToJSON g) None).
Proof.
  destruct (served_life s ip ul uj fails c h) as (f & L & ->). rewrite answer_shown. intros H. apply write_shown in H.
  destruct L as [c0 f F|c0 c1 calls f A F|c0 c1 calls f A F|c0 c1 calls c2 f A F|c0 c1 calls c2 pb bs c3 A _|c0 c1 calls c2 pb bs c3 g0 c4 A _].
  - destruct H as [H|H]; [discriminate|]. exact (failure_answer0 _ _ _ F H).
  - destruct H as [H|[H|H]]; try discriminate. apply write_calls in H; auto. cbn [answer]. rewrite answer_calls by auto. exact (failure_answer0 _ _ _ F H).
  - destruct H as [H|[H|H]]; try discriminate. apply write_calls in H; auto. cbn [answer]. rewrite answer_calls by auto. apply (failure_answer _ _ _ _ F H).
    intros m b [K|[K|[]]]; discriminate.
  - destruct H as [H|[H|H]]; try discriminate. apply write_calls in H; auto. destruct H as [H|H]; [discriminate|]. cbn [answer]. rewrite answer_calls by auto. cbn [answer]. exact (failure_answer0 _ _ _ F H).
  - destruct H as [H|[H|H]]; try discriminate. apply write_calls in H; auto. destruct H as [H|[H|[H|[]]]]; discriminate.
  - destruct H as [H|[H|H]]; try discriminate. apply write_calls in H; auto. destruct H as [H|[H|[H|[H|[]]]]]; discriminate.
Qed.

Lemma failure_reply f n pb bs : failure f -> ~ In (HWrite n (WReply pb bs)) f.
Proof. intros F H. destruct F. cbn in H. destruct H as [H|[H|[H|[]]]]; discriminate. Qed.
Lemma answer_reply s ip ul uj fails c h n pb bs : In (HWrite n (WReply pb bs)) (serveHooked s ip ul uj fails c h) ->
  answer (serveHooked s ip ul uj fails c h) = Some (mkResponse 200 [] bs None).
Proof.
  destruct (served_life s ip ul uj fails c h) as (f & L & ->). rewrite answer_shown. intros H. apply write_shown in H.
  destruct L as [c0 f F|c0 c1 calls f A F|c0 c1 calls f A F|c0 c1 calls c2 f A F|c0 c1 calls c2 pb0 bs0 c3 A _|c0 c1 calls c2 pb0 bs0 c3 g0 c4 A _].
  - destruct H as [H|H]; [discriminate|]. destruct (failure_reply _ _ _ _ F H).
  - destruct H as [H|[H|H]]; try discriminate. apply write_calls in H; auto. destruct (failure_reply _ _ _ _ F H).
  - destruct H as [H|[H|H]]; try discriminate. apply write_calls in H; auto. apply in_app_or in H. destruct H as [H|[H|[H|[]]]]; try discriminate. destruct (failure_reply _ _ _ _ F H).
  - destruct H as [H|[H|H]]; try discriminate. apply write_calls in H; auto. destruct H as [H|H]; [discriminate|]. destruct (failure_reply _ _ _ _ F H).
  - destruct H as [H|[H|H]]; try discriminate. apply write_calls in H; auto. destruct H as [H|[H|[H|[]]]]; try discriminate. injection H as _ _ ->. cbn [answer]. rewrite answer_calls by auto. reflexivity.
  - destruct H as [H|[H|H]]; try discriminate. apply write_calls in H; auto. destruct H as [H|[H|[H|[H|[]]]]]; try discriminate. injection H as _ _ ->. cbn [answer]. rewrite answer_calls by auto. reflexivity.
Qed.

(** ** What the client makes of it *)
Lemma sent_of k c s t x h : callClientRequestPrepared k c s = (t, x) -> ~ In (CSent h) t.
Proof. unfold callClientRequestPrepared. destruct (ck_prepared _); intros E; injection E as <- _; intros H; [destruct H as [H|[]]; discriminate|destruct H]. Qed.
Lemma not_error k c g h : ~ In (CSent h) (callClientError k c g).
Proof. unfold callClientError. destruct (ck_error _); intros H; [destruct H as [H|[]]; discriminate|destruct H]. Qed.
Lemma not_received k c h : ~ In (CSent h) (callClientResponseReceived k c).
Proof. unfold callClientResponseReceived. destruct (ck_received _); intros H; [destruct H as [H|[]]; discriminate|destruct H]. Qed.
Definition reads (k : client) (w : world) (q : rpc) (x : response) : resp + gerror :=
  match cl_json k with Some _ => readJson k w q x | None => readProtobuf k w q x end.
Lemma client_result k w c q h x : In (CSent h) (fst (callMethod k w c q)) -> w_do w h = inr x ->
  exists t c', callMethod k w c q = match reads k w q x with
                                    | inl r => (t ++ callClientResponseReceived k c', inl r)
                                    | inr e => (t ++ callClientError k c' e, inr (ETwirp e))
                                    end.
Proof.
  intros H D. unfold callMethod, doRequest in *.
  destruct (match cl_json k with Some sp => request_json sp q | None => marshal (rpc_fields q) end) as [b|]; [|destruct (not_error _ _ _ _ H)].
  destruct (w_cx1 w); [destruct (not_error _ _ _ _ H)|].
  destruct (parseUrl _); [|destruct (not_error _ _ _ _ H)].
  destruct (callClientRequestPrepared k c _) as [t [[c' s] e]] eqn:P. pose proof (fun h => sent_of _ _ _ _ _ h P) as Q.
  destruct e as [e|].
  { cbn [fst] in H. apply in_app_or in H. destruct H as [H|H]; [destruct (Q _ H)|destruct (not_error _ _ _ _ H)]. }
  destruct s as [|a o h'].
  { cbn [fst] in H. apply in_app_or in H. destruct H as [H|H]; [destruct (Q _ H)|destruct (not_error _ _ _ _ H)]. }
  assert (h' = h) as ->.
  { destruct (match w_do w h' with inl e => _ | inr s => _ end) in H; cbn [fst] in H; rewrite <- app_assoc in H; apply in_app_or in H; destruct H as [H|[H|H]];
      [destruct (Q _ H)|congruence|destruct (not_received _ _ _ H)|destruct (Q _ H)|congruence|destruct (not_error _ _ _ _ H)]. }
  clear H. rewrite D. fold (reads k w q x). exists (t ++ [CSent h]), c'. destruct (reads k w q x); reflexivity.
Qed.
Lemma client_error_of k w c q h x : In (CSent h) (fst (callMethod k w c q)) -> w_do w h = inr x -> w_cx2 w = None -> s_status x <> 200 ->
  let e := response_error (cl_isPrint k) (cl_statusText k) x in
  snd (callMethod k w c q) = inr (ETwirp e) /\ exists t c', fst (callMethod k w c q) = t ++ callClientError k c' e.
Proof.
  intros H D X N. destruct (client_result k w c q h x H D) as (t & c' & ->).
  replace (reads k w q x) with (inr (A := resp) (response_error (cl_isPrint k) (cl_statusText k) x)).
  2: { unfold reads, readJson, readProtobuf. rewrite X. replace (s_status x =? 200) with false by lia. destruct (cl_json k); reflexivity. }
  cbn [fst snd]. split; [reflexivity|]. eexists _, _. reflexivity.
Qed.

(** ** Errors that are sendable *)
Lemma code_facts s : In s twirp_codes -> let c := str s in
  bytes_ok c /\ utf8 c /\ c <> [] /\ isValidErrorCode c = true /\ forall m d, isHTTPRedirect (status_for (mkGerror c m d)) = false /\ status_for (mkGerror c m d) <> 200.
Proof.
  intros H. assert (A : Forall (fun c => 0 <= c < 128) (str s) /\ str s <> [] /\ isValidErrorCode (str s) = true /\
    forall m d, isHTTPRedirect (status_for (mkGerror (str s) m d)) = false /\ status_for (mkGerror (str s) m d) <> 200).
  { unfold twirp_codes in H. cbn [In] in H.
    repeat (destruct H as [<-|H]; [split; [vm_compute; repeat (apply Forall_cons; [split; congruence|]); apply Forall_nil|]; split; [discriminate|]; split; [reflexivity|]; intros m d; split; [vm_compute; reflexivity|vm_compute; discriminate]|]).
    destruct H. }
  destruct A as (A & B & C & D). destruct (ascii_utf8s _ A). cbv zeta. auto.
Qed.
Lemma sendable_arrives ip st g : sendable g -> same_error g (response_error ip st (mkResponse (status_for g) [] (marshalErrorToJSON g) None)).
Proof.
  destruct g as [c m d]. unfold sendable. cbn [ge_code ge_msg ge_meta]. intros ((s & S & ->) & Bm & Um & Lm & F & ND).
  destruct (code_facts s S) as (Bc & Uc & Ne & V & R). destruct (R m d) as [R1 _].
  assert (Md : mends_pairs d d).
  { unfold mends_pairs. clear ND. induction F as [|p d ((_ & U1) & _ & U2) F IH]; constructor; auto. split; apply mends_same; auto. }
  assert (Bd : Forall pair_ok d) by (eapply Forall_impl; [|exact F]; intros p ((B1 & _) & B2 & _); split; auto).
  destruct (arrives (str s) m d (str s) m m d Bc Bm Bd (mends_same _ Uc)) as (d2 & A & P); auto using mends_same.
  { left. split; [lia|reflexivity]. }
  unfold response_error. cbn [s_cut s_status s_location s_body]. unfold error_of_response. rewrite R1, A. cbn [ge_code].
  replace (beq (str s) []) with false by (symmetry; apply beq_neq; exact Ne). rewrite V. cbn [negb].
  split; [reflexivity|]. split; [reflexivity|exact P].
Qed.

Section Across.
  Variables (s : server) (ip : Z -> bool) (ul : list byte -> list byte) (uj : desc -> list byte -> option msg) (c0 : ctx).
  Lemma method_across k w c q h n g : w_do w = connected s ip ul uj c0 -> w_cx2 w = None -> In (CSent h) (fst (callMethod k w c q)) ->
    In (HWrite n (WError g)) (serveHooked s ip ul uj None c0 h) -> sendable g ->
    exists e, same_error g e /\ snd (callMethod k w c q) = inr (ETwirp e) /\ hears k (fst (callMethod k w c q)) e.
  Proof.
    intros D X H W G.
    assert (Dh : w_do w h = inr (mkResponse (status_for g) [] (marshalErrorToJSON g) None)) by (rewrite D; unfold connected; rewrite (answer_error _ _ _ _ _ _ _ _ _ W); reflexivity).
    assert (N : status_for g <> 200). { destruct g as [cd m d], G as ((x & S & E) & _). cbn in E. subst cd. apply (code_facts x S). }
    destruct (client_error_of k w c q h _ H Dh X N) as (R & t & c' & T). eexists. split; [apply sendable_arrives; exact G|]. split; [exact R|].
    intros hk f K E. rewrite T. unfold callClientError, chooks_of. rewrite K, E. eauto.
  Qed.
  Lemma call_across k ws c q h n g : cl_icpt k = None -> w_do (ws 0%nat) = connected s ip ul uj c0 -> w_cx2 (ws 0%nat) = None ->
    In (CSent h) (fst (clientCall k ws c q)) -> In (HWrite n (WError g)) (serveHooked s ip ul uj None c0 h) -> sendable g ->
    exists e, same_error g e /\ snd (clientCall k ws c q) = SReturn None (Some (ETwirp e)) /\ hears k (fst (clientCall k ws c q)) e.
  Proof.
    unfold clientCall. intros I D X H W G. rewrite I in *.
    match type of H with context [callMethod k (ws 0%nat) ?c' q] => pose proof (method_across k (ws 0%nat) c' q h n g D X) as M; destruct (callMethod k (ws 0%nat) c' q) as [t r] end.
    cbn [fst snd] in *. destruct (M H W G) as (e & S & -> & T). eauto.
  Qed.
  (** A server hook that refuses is heard at the client. *)
  Lemma refusal_across k ws c q h e : cl_icpt k = None -> w_do (ws 0%nat) = connected s ip ul uj c0 -> w_cx2 (ws 0%nat) = None ->
    In (CSent h) (fst (clientCall k ws c q)) -> refuses (sv_hooks s) hk_received (arrival c0) e -> sendable (written_as e) ->
    exists g, same_error (written_as e) g /\ snd (clientCall k ws c q) = SReturn None (Some (ETwirp g)) /\ hears k (fst (clientCall k ws c q)) g.
  Proof.
    intros I D X H (hk & f & c' & K & E & F) G. eapply (call_across k ws c q h (httpStatus (ge_code (asTwirp e)))); eauto.
    unfold serveHooked, callRequestReceived, hooks_of. rewrite K, E. unfold arrival in F. rewrite F. apply in_or_app. right. unfold writeErr.
    destruct (callError s _ _) as [t c2]. apply in_or_app. right. left. destruct e; reflexivity.
  Qed.
  Lemma reply_across k ws c q h n pb bs r : cl_icpt k = None -> cl_json k = None -> w_do (ws 0%nat) = connected s ip ul uj c0 ->
    w_cx2 (ws 0%nat) = None -> w_cx3 (ws 0%nat) = None ->
    In (CSent h) (fst (clientCall k ws c q)) -> In (HWrite n (WReply pb bs)) (serveHooked s ip ul uj None c0 h) -> replied q bs r ->
    snd (clientCall k ws c q) = SReturn (Some r) None /\ hears_reply k (fst (clientCall k ws c q)).
  Proof.
    unfold clientCall. intros I J D X Y H W G. rewrite I in *.
    assert (Dh : w_do (ws 0%nat) h = inr (mkResponse 200 [] bs None)) by (rewrite D; unfold connected; rewrite (answer_reply _ _ _ _ _ _ _ _ _ _ W); reflexivity).
    match type of H with context [callMethod k (ws 0%nat) ?c' q] => pose proof (fun x => client_result k (ws 0%nat) c' q h x) as M; destruct (callMethod k (ws 0%nat) c' q) as [t a] end.
    cbn [fst snd] in *. destruct (M _ H Dh) as (t' & c' & E). unfold reads, readProtobuf in E. rewrite J, X, Y in E. cbn [s_status s_cut s_body negb Z.eqb Pos.eqb] in E.
    apply replied_is in G. destruct (unmarshal (reply_desc q) bs) as [m|]; [|discriminate]. injection G as G. rewrite G in E. injection E as -> ->.
    split; [reflexivity|]. intros hk f K E. unfold callClientResponseReceived, chooks_of. rewrite K, E. eauto.
  Qed.
  Lemma encoded_replied q t r bs : reply_to q r -> in_types r -> readable r -> time_string t -> marshal (resp_fields t r) = Some bs -> replied q bs r.
  Proof.
    intros P T R S M. pose proof (go_reply q t r P T R S) as G. unfold replied. unfold respond in G.
    destruct r; try (rewrite M in G; exact G). destruct q; contradiction.
  Qed.
  Lemma reply_back k ws c q h n pb bs t r : cl_icpt k = None -> cl_json k = None -> w_do (ws 0%nat) = connected s ip ul uj c0 ->
    w_cx2 (ws 0%nat) = None -> w_cx3 (ws 0%nat) = None ->
    In (CSent h) (fst (clientCall k ws c q)) -> In (HWrite n (WReply pb bs)) (serveHooked s ip ul uj None c0 h) ->
    reply_to q r -> in_types r -> readable r -> time_string t -> marshal (resp_fields t r) = Some bs ->
    snd (clientCall k ws c q) = SReturn (Some r) None /\ hears_reply k (fst (clientCall k ws c q)).
  Proof. intros. eapply reply_across; eauto. eapply encoded_replied; eauto. Qed.
  Lemma json_replied ftoa sp q t r bs : reply_to q r -> in_types r -> in_degrees r -> readable r -> time_string t -> resp_json ftoa sp t r = Some bs -> replied_json q bs r.
  Proof.
    intros P T D R S M. pose proof (go_json_reply ftoa sp q t r P T D R S) as G.
    assert (N : forall e, r <> RespErr e) by (intros e ->; destruct q; contradiction).
    assert (H : respond false t r = mkHresp 200 (Json r)).
    { pose proof (json_fails ftoa sp t r N T D S) as X. unfold respond. destruct (marshal (resp_fields t r)); [destruct r; auto; destruct (N e); reflexivity|].
      destruct X as [_ X]. rewrite M in X. specialize (X eq_refl). discriminate. }
    rewrite H in G. unfold of_json_server in G. cbn [r_body r_status] in G. rewrite M in G. exact G.
  Qed.
  Lemma json_reply_back k ws c q h n pb bs ftoa sp t r : cl_icpt k = None -> cl_json k <> None -> w_do (ws 0%nat) = connected s ip ul uj c0 ->
    w_cx2 (ws 0%nat) = None -> w_cx3 (ws 0%nat) = None -> w_close (ws 0%nat) = None ->
    In (CSent h) (fst (clientCall k ws c q)) -> In (HWrite n (WReply pb bs)) (serveHooked s ip ul uj None c0 h) ->
    reply_to q r -> in_types r -> in_degrees r -> readable r -> time_string t -> resp_json ftoa sp t r = Some bs ->
    snd (clientCall k ws c q) = SReturn (Some r) None /\ hears_reply k (fst (clientCall k ws c q)).
  Proof.
    unfold clientCall. intros I J D X Y Z H W P T Dg R S M0. pose proof (json_replied ftoa sp q t r bs P T Dg R S M0) as G. rewrite I in *.
    assert (Dh : w_do (ws 0%nat) h = inr (mkResponse 200 [] bs None)) by (rewrite D; unfold connected; rewrite (answer_reply _ _ _ _ _ _ _ _ _ _ W); reflexivity).
    match type of H with context [callMethod k (ws 0%nat) ?c' q] => pose proof (fun x => client_result k (ws 0%nat) c' q h x) as M; destruct (callMethod k (ws 0%nat) c' q) as [t0 a] end.
    cbn [fst snd] in *. destruct (M _ H Dh) as (t' & c' & E). unfold reads, readJson in E. destruct (cl_json k); [|congruence]. rewrite X in E. cbn [s_status s_cut s_body negb Z.eqb Pos.eqb] in E.
    apply replied_json_is in G. unfold decoded in G. destruct (decodeRaw bs) as [raw|]; [|discriminate]. destruct (unmarshalJSON _ raw) as [m|]; [|discriminate].
    rewrite Y, Z in E. injection G as G. rewrite G in E. injection E as -> ->.
    split; [reflexivity|]. intros hk f K E. unfold callClientResponseReceived, chooks_of. rewrite K, E. eauto.
  Qed.
End Across.
(** ASCII is sendable. *)
Lemma ascii_sendable s m : In s twirp_codes -> Forall (fun c => 0 <= c < 128) m -> len m <= 1000000 -> sendable (mkGerror (str s) m []).
Proof. intros S A L. destruct (ascii_utf8s _ A). unfold sendable. cbn [ge_code ge_msg ge_meta map]. repeat apply conj; eauto; constructor. Qed.
