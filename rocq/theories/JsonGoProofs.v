(** Proofs for PropertiesJsonReply.v: the JSON client and the JSON replies of the server. *)
From Coq Require Import String SpecFloat.
From Verif Require Import ProofBase GoStrings Proto SpecConn Conn Proc Lib Server SpecLayout SpecServer ServerProofs ServerLemmas ServerOps
  Client Wire Twirp SpecWire SpecTwirp WireProofs Utf8Proofs WireOut LayoutProofs TwirpProofs TwirpReply TwirpServer GoClient SpecGo GoUrl GoProofs
  SpecJson SpecJsonReply JsonScan JsonRead JsonScanProofs JsonReadProofs JsonTokenProofs JsonFieldProofs JsonClaims JsonWrite JsonWriteProofs JsonReplyProofs.

(** ** Replies *)
Lemma some_reply r : (forall e, r <> RespErr e) -> exists q, reply_to q r.
Proof.
  intros N. destruct r; [exists GetBootInfo|exists GetBypassRPC|exists GetTempsRPC|exists GetFansRPC|exists GetFanProfilesRPC|exists GetErrorsRPC
    |exists (SetComfortTempR 0)|exists (SetFanSpeedR 0 false)|exists (SetFanProfileR 0 0)|exists (FlushCacheR 0)|destruct (N e); reflexivity]; exact I.
Qed.
Lemma json_said ftoa sp t r : (forall e, r <> RespErr e) -> in_types r -> in_degrees r -> readable r -> time_string t ->
  exists b l, resp_json ftoa sp t r = Some b /\ bytes_ok b /\ json_whole b l /\ json_reply t r l.
Proof.
  intros N T D R Ti. destruct (some_reply r N) as (q & P). destruct (reply_written ftoa sp q t r P T D R Ti) as (b & l & E & J & B & Dp & S & _).
  exists b, l. split; auto. split; auto. split; auto. exists [], b, []. rewrite app_nil_r. repeat split; auto; constructor.
Qed.
Lemma json_unreadable ftoa sp t r : in_types r -> ~ readable r -> resp_json ftoa sp t r = None.
Proof.
  intros T R. destruct r; try (destruct (R I)). cbn [readable in_types] in *.
  assert (E : appendString (pbName m) = None).
  { destruct (appendString (pbName m)) eqn:E; [|reflexivity]. apply append_only in E; [contradiction|tauto]. }
  unfold resp_json, marshalJSON. cbn [resp_names resp_fields boot_names combine map fst snd orb filter marshalFields marshalSingular]. rewrite E.
  destruct (appendString (str "MajorVersion")), (appendString (str "MinorVersion")), (appendString (str "BetaVersion")), (appendString (str "DeviceName")); reflexivity.
Qed.
Lemma utf8_dec r : in_types r -> readable r \/ ~ readable r.
Proof.
  intros T. destruct r; try (left; exact I). cbn [readable in_types] in *. destruct (validUTF8 (pbName m)) eqn:V; [left|right]; [apply valid_utf8; tauto|].
  intros U. apply valid_utf8 in U; [congruence|tauto].
Qed.
Lemma json_fails ftoa sp t r : (forall e, r <> RespErr e) -> in_types r -> in_degrees r -> time_string t ->
  (resp_json ftoa sp t r = None <-> marshal (resp_fields t r) = None).
Proof.
  intros N T D Ti. destruct (utf8_dec r T) as [R|R].
  - destruct (json_said ftoa sp t r N T D R Ti) as (b & l & -> & _). destruct (some_reply r N) as (q & P).
    pose proof (reply_read q t r P T R Ti) as H. unfold respond in H. destruct r; try (destruct (N e); reflexivity);
    (destruct (marshal _); [split; discriminate|vm_compute in H; discriminate]).
  - rewrite json_unreadable by auto. split; auto. intros _. destruct r; try (destruct (R I)).
    pose proof (reply_unreadable true t (RespBoot m) T R) as H. unfold respond in H. destruct (marshal _); [discriminate|reflexivity].
Qed.
Lemma go_json_reply ftoa sp q t r : reply_to q r -> in_types r -> in_degrees r -> readable r -> time_string t ->
  go_json_result q (of_json_server ftoa sp t (respond false t r)) = GGot r.
Proof.
  intros P T D R Ti. destruct (reply_written ftoa sp q t r P T D R Ti) as (b & l & E & J & B & Dp & _ & F).
  assert (N : forall e, r <> RespErr e) by (intros e ->; destruct q; contradiction).
  assert (H : respond false t r = mkHresp 200 (Json r)).
  { pose proof (json_fails ftoa sp t r N T D Ti) as X. unfold respond. destruct (marshal (resp_fields t r)); [destruct r; auto; destruct (N e); reflexivity|].
    destruct X as [_ X]. rewrite E in X. specialize (X eq_refl). discriminate. }
  rewrite H. unfold of_json_server, go_json_result. cbn [r_body r_status]. rewrite E. cbn [gr_status gr_body Z.eqb Pos.eqb negb].
  rewrite (decodeRaw_object b l b [] []); [|rewrite app_nil_r; reflexivity|constructor|exact J|exact Dp].
  rewrite (unmarshal_object _ l b J Dp B), F, read_back by auto. reflexivity.
Qed.
Lemma go_json_errors ftoa sp q t e : go_json_result q (of_json_server ftoa sp t (respond false t (RespErr e))) = returned (RespErr e).
Proof. destruct e; reflexivity. Qed.
Lemma go_json_unreadable ftoa sp q t r : in_types r -> ~ readable r ->
  go_json_result q (of_json_server ftoa sp t (respond false t r)) = GErr (str "internal") None.
Proof. intros T R. rewrite reply_unreadable; auto. Qed.

(** ** Requests *)
Lemma not_named m n f : reads_str (fst m) (str n) -> str n <> str f -> ~ named_by f m.
Proof. intros R N K. apply N. eapply reads_unique; eauto. Qed.
Lemma once_nil f : once [] f.
Proof. intros a n v b n' v' c E. destruct a; discriminate. Qed.
Lemma field_nil {A} (value : jval -> A -> Prop) zero f : field_is value zero [] f zero.
Proof. split; [apply once_nil|]. right. split; auto. intros v (n & [] & _). Qed.
Lemma field_one {A} (value : jval -> A -> Prop) zero m l f x : reads_str (fst m) (str f) -> value (snd m) x -> (forall y, In y l -> ~ named_by f y) ->
  field_is value zero (m :: l) f x.
Proof.
  intros R V N. split.
  - apply once_cons. split; auto. intros a n v b n' v' c E K. intros _. apply (N (n, v)); [rewrite E; apply in_app_iff; right; left; reflexivity|exact K].
  - left. exists (snd m). split; auto. exists (fst m). split; auto. left. destruct m; reflexivity.
Qed.
Lemma text_clear l ftoa fs : Forall2 (wrote ftoa) fs l -> Forall (fun m => exists s, reads_str (fst m) s) l -> Forall (fun m => clear (snd m)) l -> clear (JObj l).
Proof. intros _ A B. cbn [clear]. induction A as [|m l S A IH]; cbn [fold_right]; auto. inversion B; subst. auto. Qed.
Lemma uint_written n z : u32_ok z -> plain_name n = true -> exists m, wrote (fun _ => []) (n, KUint32, VInt z) m /\ reads_str (fst m) (str n) /\
  uint_value (snd m) z /\ clear (snd m).
Proof.
  intros U P. destruct (field_written (fun _ => []) KUint32 n (VInt z) (SUint z)) as (m & W & R & S & _); auto; [split; auto|].
  exists m. split; auto. split; auto. destruct m as [x [|b|t|r|a|o]]; try contradiction. cbn [snd shows] in *. split; [constructor; auto|exact I].
Qed.
Lemma bool_written n b : plain_name n = true -> exists m, wrote (fun _ => []) (n, KBool, VBool b) m /\ reads_str (fst m) (str n) /\
  snd m = JBool b /\ clear (snd m).
Proof.
  intros P. destruct (field_written (fun _ => []) KBool n (VBool b) (SBool b)) as (m & W & R & S & _); auto; [reflexivity|].
  exists m. split; auto. split; auto. destruct m as [x [|b'|t|r|a|o]]; try contradiction. cbn [snd shows] in *. subst b'. split; [reflexivity|exact I].
Qed.
Lemma cache_written c : -2147483648 <= c < 2147483648 -> exists m, wrote (fun _ => []) ("Cache"%string, KEnum, VInt c) m /\ reads_str (fst m) (str "Cache") /\
  cache_value (snd m) c /\ clear (snd m).
Proof.
  intros C. destruct (name_written "Cache" eq_refl) as (x & An & Rx & Bx & Sx).
  destruct (nameOf c cacheTypes) as [n|] eqn:E.
  - assert (K : exists s, n = str s /\ In (s, c) cache_names /\ plain_name s = true).
    { unfold cacheTypes, cache_names in *. cbn [nameOf] in E.
      repeat match type of E with (if ?a =? c then _ else _) = _ => destruct (a =? c) eqn:?; [injection E as <-; eexists; split; [reflexivity|]; split; [|vm_compute; reflexivity];
        match goal with H : (_ =? c) = true |- _ => apply Z.eqb_eq in H; subst c end; cbn; tauto|] end. discriminate. }
    destruct K as (s & -> & I & P). destruct (name_written s P) as (y & Ay & Ry & By & Sy).
    exists (x, JStr y). cbn [wrote fst snd marshalSingular]. rewrite E, Ay. split.
    + repeat (split; auto). eexists. split; [reflexivity|]. split; [constructor; auto|]. split; [|reflexivity]. constructor; [unfold byte_ok; lia|].
      apply bytes_app. split; auto. repeat constructor; lia.
    + split; auto. split; [econstructor; eauto|]. exists (str s). auto.
  - assert (S : signed c = written (c <? 0) (Z.abs c)) by (unfold signed, written; destruct (c <? 0) eqn:L; [replace (- c) with (Z.abs c) by lia|replace (Z.abs c) with c by lia]; reflexivity).
    exists (x, JNum (written (c <? 0) (Z.abs c))). cbn [wrote fst snd marshalSingular]. rewrite E, S. split.
    + repeat (split; auto). eexists. split; [reflexivity|]. split; [apply itoa_text; lia|]. split; [apply itoa_bytes; lia|reflexivity].
    + split; auto. split; [|exact I]. constructor; auto. pose proof (itoa_integer (c <? 0) (Z.abs c) ltac:(lia)) as Q.
      destruct (c <? 0) eqn:L; [replace c with (- Z.abs c) at 2 by lia|replace c with (Z.abs c) at 2 by lia]; exact Q.
Qed.
Ltac unlike := intros y [<- |[]]; eapply not_named; [eassumption|vm_compute; discriminate].
Lemma request_written sp q : args_ok q -> exists b l, request_json sp q = Some b /\ jtext (JObj l) b /\ bytes_ok b /\ depth (JObj l) <= 10000 /\
  json_meaning (rpc_name q) l q.
Proof.
  intros A. unfold request_json.
  match goal with |- context [marshalJSON ?fa sp false ?f] => set (fs := f) end.
  assert (K : exists l, Forall2 (wrote (fun _ => [])) (filter (fun f => false || populated (snd f)) fs) l /\ json_meaning (rpc_name q) l q).
  2:{ destruct K as (l & W & M). destruct (wrote_object (fun _ => []) sp false fs l W) as (b & E & J & B & D). exists b, l. auto. }
  unfold json_meaning, json_call.
  assert (Cl0 : clear (JObj [])) by exact I.
  assert (Cl1 : forall m s, reads_str (fst m) s -> clear (snd m) -> clear (JObj [m])) by (intros m s R C; cbn; repeat (split; auto); exists s; auto).
  assert (Cl2 : forall m m' s s', reads_str (fst m) s -> clear (snd m) -> reads_str (fst m') s' -> clear (snd m') -> clear (JObj [m; m']))
    by (intros m m' s s' R C R' C'; cbn; repeat (split; eauto)).
  destruct q; subst fs; cbn [args_ok] in A; cbn [filter snd orb populated]; try (exists []; split; [constructor|]; split; [exact I|left; cbn; tauto]).
  - (* SetComfortTemp *)
    destruct (t =? 0) eqn:E; cbn [negb].
    + apply Z.eqb_eq in E. subst t. exists []. split; [constructor|]. split; auto. do 2 right. left. split; auto. eexists. split; [reflexivity|]. apply field_nil.
    + destruct (uint_written "ComfortTemp" t A eq_refl) as (m & W & R & V & C). exists [m]. split; [constructor; [exact W|constructor]|]. split; [eauto|].
      do 2 right. left. split; auto. eexists. split; [reflexivity|]. apply field_one; auto.
  - (* SetFanSpeed *)
    destruct (uint_written "Abs" abs A eq_refl) as (m & W & R & V & C). destruct (bool_written "Rel" rel eq_refl) as (m' & W' & R' & V' & C').
    destruct (abs =? 0) eqn:E; cbn [negb]; destruct rel.
    + apply Z.eqb_eq in E. subst abs. exists [m']. split; [constructor; [exact W'|constructor]|]. split; [eauto|]. right. left. split; auto. eexists. eexists. split; [reflexivity|].
      split; [apply field_more; [eapply not_named; [eassumption|vm_compute; discriminate]|]; apply field_nil|apply field_one; auto].
    + apply Z.eqb_eq in E. subst abs. exists []. split; [constructor|]. split; auto. right. left. split; auto. eexists. eexists. split; [reflexivity|]. split; apply field_nil.
    + exists [m; m']. split; [constructor; [exact W|constructor; [exact W'|constructor]]|]. split; [eauto|]. right. left. split; auto. eexists. eexists. split; [reflexivity|].
      split; [apply field_one; auto; unlike|apply field_more; [eapply not_named; [eassumption|vm_compute; discriminate]|]; apply field_one; auto].
    + exists [m]. split; [constructor; [exact W|constructor]|]. split; [eauto|]. right. left. split; auto. eexists. eexists. split; [reflexivity|].
      split; [apply field_one; auto|apply field_more; [eapply not_named; [eassumption|vm_compute; discriminate]|]; apply field_nil].
  - (* SetFanProfile *)
    destruct A as [A1 A2]. destruct (uint_written "Mode" mode A1 eq_refl) as (m & W & R & V & C). destruct (uint_written "TargetSpeed" tgt A2 eq_refl) as (m' & W' & R' & V' & C').
    destruct (mode =? 0) eqn:E; cbn [negb]; destruct (tgt =? 0) eqn:E'; cbn [negb]; try (apply Z.eqb_eq in E; subst mode); try (apply Z.eqb_eq in E'; subst tgt).
    + exists []. split; [constructor|]. split; auto. do 3 right. left. split; auto. eexists. eexists. split; [reflexivity|]. split; apply field_nil.
    + exists [m']. split; [constructor; [exact W'|constructor]|]. split; [eauto|]. do 3 right. left. split; auto. eexists. eexists. split; [reflexivity|].
      split; [apply field_more; [eapply not_named; [eassumption|vm_compute; discriminate]|]; apply field_nil|apply field_one; auto].
    + exists [m]. split; [constructor; [exact W|constructor]|]. split; [eauto|]. do 3 right. left. split; auto. eexists. eexists. split; [reflexivity|].
      split; [apply field_one; auto|apply field_more; [eapply not_named; [eassumption|vm_compute; discriminate]|]; apply field_nil].
    + exists [m; m']. split; [constructor; [exact W|constructor; [exact W'|constructor]]|]. split; [eauto|]. do 3 right. left. split; auto. eexists. eexists. split; [reflexivity|].
      split; [apply field_one; auto; unlike|apply field_more; [eapply not_named; [eassumption|vm_compute; discriminate]|]; apply field_one; auto].
  - (* FlushCache *)
    destruct (c =? 0) eqn:E; cbn [negb].
    + apply Z.eqb_eq in E. subst c. exists []. split; [constructor|]. split; auto. do 4 right. split; auto. eexists. split; [reflexivity|]. left. apply field_nil.
    + destruct (cache_written c A) as (m & W & R & V & C). exists [m]. split; [constructor; [exact W|constructor]|]. split; [eauto|].
      do 4 right. split; auto. eexists. split; [reflexivity|]. left. apply field_one; auto.
Qed.
Lemma go_json_sent sp s h base q : base_for s h base -> args_ok q ->
  exists hr, go_json_send sp base None q = SentTo (str s) h hr /\ addressed hr (rpc_name q) /\ media "application/json" (h_ctype hr) /\
    (exists l, json_whole (h_body hr) l /\ json_meaning (rpc_name q) l q) /\ forall ul, front ul unjson hr = Call false q.
Proof.
  intros B A. destruct (sanitize_ok s h base B) as (S & W & H). destruct (request_written sp q A) as (b & l & E & J & Bb & D & M).
  set (p := str "/twirp/comfo.api.Comfo/" ++ str (rpc_name q)).
  exists (mkHreq (str "POST") p (str "application/json") b).
  assert (Ad : addressed (mkHreq (str "POST") p (str "application/json") b) (rpc_name q)).
  { split; [reflexivity|]. split; [destruct q; vm_compute; discriminate|]. unfold p. cbn [h_path]. rewrite str_app. reflexivity. }
  assert (Wh : json_whole b l) by (exists [], b, []; rewrite app_nil_r; repeat split; auto; constructor).
  split; [|split; [exact Ad|split; [exact json_type|split; [exists l; split; auto|]]]].
  - unfold go_json_send. rewrite E, method_url_is, S, default_path. rewrite <- !app_assoc. apply request_to; auto.
    + split; [apply Forall_app; split; [apply chars_ok; reflexivity|apply name_chars]|]. right. eexists. reflexivity.
    + discriminate.
  - intros ul. apply (front_json_call ul (mkHreq (str "POST") p (str "application/json") b) (rpc_name q) q); auto; [|exact json_type|exists l; split; [apply whole_object; exact Wh|exact M]].
    cbn [h_ctype]. unfold ascii. match goal with |- Forall _ ?x => let y := eval vm_compute in x in change x with y end. repeat (constructor; [lia|]). constructor.
Qed.

(** ** Calls *)
Lemma degrees_of z f : f32_is f z -> -20 <= z <= 107 -> degrees f.
Proof. intros F R. exists z. split; auto. lia. Qed.
Lemma layout_degrees c p v : bytes_ok p -> layout_of c p v -> in_degrees (message v).
Proof.
  intros B L. destruct c, v; try contradiction; try exact I. cbn [layout_of message in_degrees] in *.
  assert (K : forall i, -20 <= byte_at p i / 2 - 20 <= 107).
  { intros i. assert (0 <= byte_at p i <= 255); [|lia]. unfold byte_at, be_at. destruct (skipn i p) as [|x r] eqn:E; [cbn; lia|].
    assert (byte_ok x) by (rewrite <- (firstn_skipn i p), E in B; apply bytes_app in B; destruct B as [_ B]; inversion B; auto). unfold byte_ok in *. cbn. lia. }
  unfold temps_layout, temp_at in L.
  repeat match goal with H : _ /\ _ |- _ => destruct H end. repeat (constructor; [eapply degrees_of; [eassumption|apply K]|]). constructor.
Qed.
Lemma blank_degrees c : in_degrees (message (blank c)).
Proof. destruct c; try exact I. cbn. repeat (constructor; [exists 0; split; [lia|]; repeat split|]). constructor. Qed.
Lemma reach_degrees ops w0 h w : idle w0 -> w_sh w0 = init_shared -> history ops w0 = (h, w) ->
  (forall c, Forall bytes_ok (flat_map (op_fetches c) h)) -> forall c, in_degrees (message (cached (w_sh w) c)).
Proof.
  intros I S H B c. destruct (getters_serve_last w0 ops h w c I S H (B c)) as [L _]. unfold holds_last in L.
  destruct (rev (flat_map (op_fetches c) h)) as [|p r] eqn:E; [rewrite L; apply blank_degrees|].
  assert (Ip : In p (flat_map (op_fetches c) h)) by (rewrite in_rev, E; left; reflexivity).
  specialize (B c). rewrite Forall_forall in B. eapply layout_degrees; eauto.
Qed.
Lemma f_degrees q w : TwirpServer.good w -> args_ok q -> (forall c, in_degrees (message (cached (w_sh w) c))) -> in_degrees (fst (f_rpc q w)).
Proof.
  intros G A D. destruct (f_types q w G A) as [_ [T|(e & E)]]; [|rewrite E; exact I].
  destruct q; try (destruct (fst (f_rpc _ w)); try contradiction; exact I).
  cbn [f_rpc fst]. rewrite umsg_typed by apply G. apply D.
Qed.
Lemma go_json_same ops w0 h w : idle w0 -> w_sh w0 = init_shared -> history ops w0 = (h, w) ->
  (forall c, Forall bytes_ok (flat_map (op_fetches c) h)) ->
  forall ul ftoa sp sp' t s hst base q, base_for s hst base -> time_string t -> args_ok q -> (forall c, q <> FlushCacheR c) -> reads_well q w ->
  exists r w', run (handle q) w = (RDone r, w') /\
    askGoJson ul ftoa sp sp' t base None q w =
      (Some (if w_clk w' - w_clk w <? WriteTimeout then returned r else GErr (str "internal") None), w').
Proof.
  intros I S H By ul ftoa sp sp' t s hst base q B Ti A N R. destruct (reach_good ops w0 h w I S H By) as [I' G].
  pose proof (reach_degrees ops w0 h w I S H By) as Dg.
  destruct (run_rpc q w I' N) as [E _]. rewrite E. eexists. eexists. split; [reflexivity|].
  unfold askGoJson. destruct (go_json_sent sp s hst base q B A) as (hr & -> & _ & _ & _ & F).
  rewrite (serve_call ul unjson t hr false q w (F ul)), E.
  set (r := fst (f_rpc q w)). set (w' := snd (f_rpc q w)). do 2 f_equal. destruct (_ <? _); [|reflexivity].
  destruct (f_types q w G A) as [T [P|(e & Ee)]]; fold r in T.
  - fold r in P. rewrite (returned_ok q r P). apply go_json_reply; auto; [apply f_degrees; auto|apply f_readable; auto].
  - unfold r. rewrite Ee. apply go_json_errors.
Qed.
(** Both clients. *)
Lemma go_agree ops w0 h w : idle w0 -> w_sh w0 = init_shared -> history ops w0 = (h, w) ->
  (forall c, Forall bytes_ok (flat_map (op_fetches c) h)) ->
  forall ul uj ftoa sp sp' t s hst base q, base_for s hst base -> time_string t -> args_ok q -> (forall c, q <> FlushCacheR c) -> reads_well q w ->
  askGoJson ul ftoa sp sp' t base None q w = askGo ul uj t base None q w.
Proof.
  intros I S H By ul uj ftoa sp sp' t s hst base q B Ti A N R.
  destruct (go_json_same ops w0 h w I S H By ul ftoa sp sp' t s hst base q B Ti A N R) as (r & w' & E & ->).
  destruct (go_same ops w0 h w I S H By ul uj t s hst base q B Ti A N R) as (r2 & w2 & E2 & ->). rewrite E in E2. injection E2 as <- <-. reflexivity.
Qed.
(** The body that is served. *)
Lemma json_served ops w0 h w : idle w0 -> w_sh w0 = init_shared -> history ops w0 = (h, w) ->
  (forall c, Forall bytes_ok (flat_map (op_fetches c) h)) ->
  forall ul ftoa sp t hr q, time_string t -> front ul unjson hr = Call false q -> args_ok q -> (forall c, q <> FlushCacheR c) -> reads_well q w ->
  exists r a w', run (handle q) w = (RDone r, w') /\ run (serveHTTP ul unjson t hr) w = (RDone a, w') /\
    ((forall e, r <> RespErr e) -> gr_status (of_json_server ftoa sp t a) = 200 /\
       exists l, json_whole (gr_body (of_json_server ftoa sp t a)) l /\ json_reply t r l).
Proof.
  intros I S H By ul ftoa sp t hr q Ti F A N R. destruct (reach_good ops w0 h w I S H By) as [I' G].
  pose proof (reach_degrees ops w0 h w I S H By) as Dg.
  destruct (run_rpc q w I' N) as [E _]. rewrite E, (serve_call ul unjson t hr false q w F), E.
  eexists. eexists. eexists. split; [reflexivity|]. split; [reflexivity|]. intros Ne.
  set (r := fst (f_rpc q w)) in *. destruct (f_types q w G A) as [T P]. fold r in T, P.
  destruct P as [P|(e & Ee)]; [|destruct (Ne e Ee)].
  destruct (json_said ftoa sp t r Ne T (f_degrees q w G A Dg) (f_readable q w G A R) Ti) as (b & l & Eb & _ & W & J).
  assert (Er : respond false t r = mkHresp 200 (Json r)).
  { unfold respond. destruct (marshal (resp_fields t r)) eqn:M; [destruct r; try reflexivity; destruct (Ne e); reflexivity|].
    apply (json_fails ftoa sp t r Ne T (f_degrees q w G A Dg) Ti) in M. congruence. }
  rewrite Er. unfold of_json_server. cbn [r_body]. rewrite Eb. cbn [gr_status gr_body r_status]. split; auto. exists l. auto.
Qed.
