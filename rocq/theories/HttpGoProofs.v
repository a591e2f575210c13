(** Proofs for PropertiesHttpGo.v: Go clients of both kinds among other requests. *)
From Coq Require Import String.
From Verif Require Import ProofBase Proto SpecProto SpecFrame SpecConn SpecLayout Conn Proc Lib Server SpecServer ServerLemmas
  Client Wire Twirp ClientHttp SpecWire SpecTwirp TwirpProofs TwirpReply TwirpServer Machine SpecMachine MachineClaims HttpMachine SpecHttp HttpProofs
  GoClient SpecGo GoUrl GoProofs SpecJson SpecJsonReply JsonRead JsonWrite JsonGoProofs.

Lemma seen_degrees (m : machine resp) k v : legal m -> seen m k v -> in_degrees (message v).
Proof.
  intros Lg [->|(pl & I & D)]; [apply blank_degrees|]. eapply layout_degrees; eauto. exact (proj1 (Forall_forall _ _) (Lg k) pl I).
Qed.
Lemma answer_degrees rs c clk xs m j q r : exec xs (serve rs c clk) = Some m -> legal m -> nth_error rs j = Some q -> args_ok q ->
  answered m j r -> in_degrees r.
Proof.
  intros E Lg N A An. destruct (answer_types (fun x => x) _ _ _ _ _ _ _ _ E Lg N A An) as (_ & [R|(e & ->)]); [|exact I].
  destruct (getter_of q) as [(k & ->)|S].
  - destruct (snapshot _ _ _ _ _ _ _ _ E Lg N An) as (v & -> & S). eapply seen_degrees; eauto.
  - destruct q; try contradiction; destruct r; try contradiction; exact I.
Qed.
Lemma go_pb_sees q t r : in_types r -> (reply_to q r \/ exists e, r = RespErr e) -> time_string t ->
  (readable r -> go_result q (of_server (respond true t r)) = returned r) /\
  (~ readable r -> go_result q (of_server (respond true t r)) = GErr (str "internal") None).
Proof.
  intros T [R|(e & ->)] Ti.
  - split; intros Rd; [rewrite go_reply, (returned_ok q); auto|rewrite reply_unreadable; auto].
  - split; intros Rd; [apply go_errors|destruct (Rd I)].
Qed.
Lemma go_json_sees ftoa sp q t r : in_types r -> in_degrees r -> (reply_to q r \/ exists e, r = RespErr e) -> time_string t ->
  (readable r -> go_json_result q (of_json_server ftoa sp t (respond false t r)) = returned r) /\
  (~ readable r -> go_json_result q (of_json_server ftoa sp t (respond false t r)) = GErr (str "internal") None).
Proof.
  intros T D [R|(e & ->)] Ti.
  - split; intros Rd; [rewrite go_json_reply, (returned_ok q); auto|rewrite go_json_unreadable; auto].
  - split; intros Rd; [apply go_json_errors|destruct (Rd I)].
Qed.
Lemma http_go ul ftoa sp' hs c clk xs mh : exec xs (serve_http ul unjson hs c clk) = Some mh -> legal mh ->
  exists m, exec (map (renumber ul unjson hs) xs) (serve (calls ul unjson hs) c clk) = Some m /\ m_g mh = m_g m /\
  forall i q h t s hst base, nth_error hs i = Some (h, t) -> base_for s hst base -> args_ok q -> time_string t ->
    (go_send base None q = SentTo (str s) hst h ->
     exists j, is_call ul unjson hs i j /\ nth_error (calls ul unjson hs) j = Some q /\
       forall a, answered mh i a -> exists r, answered m j r /\
         (readable r -> go_result q (of_server a) = returned r) /\ (~ readable r -> go_result q (of_server a) = GErr (str "internal") None)) /\
    forall sp, (go_json_send sp base None q = SentTo (str s) hst h ->
     exists j, is_call ul unjson hs i j /\ nth_error (calls ul unjson hs) j = Some q /\
       forall a, answered mh i a -> exists r, answered m j r /\
         (readable r -> go_json_result q (of_json_server ftoa sp' t a) = returned r) /\
         (~ readable r -> go_json_result q (of_json_server ftoa sp' t a) = GErr (str "internal") None)).
Proof.
  intros E Lg. destruct (http_refines ul unjson _ _ _ _ _ E) as (m & E' & G & H). exists m. split; auto. split; auto.
  intros i q h t s hst base N B A Ti. specialize (H _ _ _ N). assert (Lg' : legal m) by (unfold legal in *; rewrite <- G; exact Lg).
  split.
  - intros Sd. destruct (go_request s hst base q B A) as (h' & Sd' & _ & F). rewrite Sd in Sd'. injection Sd' as <-.
    rewrite F in H. destruct H as (j & Ic & Nj & Hj). exists j. splits; auto. intros a An. apply Hj in An. destruct An as (r & Ar & ->).
    exists r. split; auto. destruct (answer_types (fun x => x) _ _ _ _ _ _ _ _ E' Lg' Nj A Ar) as (T & R). apply go_pb_sees; auto.
  - intros sp Sd. destruct (go_json_sent sp s hst base q B A) as (h' & Sd' & _ & _ & _ & F). rewrite Sd in Sd'. injection Sd' as <-.
    rewrite F in H. destruct H as (j & Ic & Nj & Hj). exists j. splits; auto. intros a An. apply Hj in An. destruct An as (r & Ar & ->).
    exists r. split; auto. destruct (answer_types (fun x => x) _ _ _ _ _ _ _ _ E' Lg' Nj A Ar) as (T & R).
    apply go_json_sees; auto. eapply answer_degrees; eauto.
Qed.
