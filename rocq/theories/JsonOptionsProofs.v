(** Proofs for PropertiesJsonOptions.v. *)
From Coq Require Import String SpecFloat.
From Verif Require Import ProofBase GoStrings Proto SpecConn Conn Proc Lib Server SpecLayout SpecServer ServerProofs ServerLemmas ServerOps
  Client Wire Twirp SpecWire SpecTwirp WireProofs Utf8Proofs WireOut LayoutProofs TwirpProofs TwirpReply TwirpServer GoClient SpecGo GoUrl GoProofs
  SpecJson SpecJsonReply JsonScan JsonRead JsonScanProofs JsonReadProofs JsonTokenProofs JsonFieldProofs JsonClaims JsonWrite JsonWriteProofs JsonReplyProofs JsonGoProofs
  JsonOptions SpecJsonOptions.

(** The names have no underscores. *)
Lemma names_plain o r t :
  map (fun x => (if jsonCamelCase o then JSONCamelCase (fst x) else fst x, KUint32, snd (snd x))) (combine (resp_names r) (resp_fields t r)) =
  map (fun x => (fst x, KUint32, snd (snd x))) (combine (resp_names r) (resp_fields t r)).
Proof.
  destruct (jsonCamelCase o); [|reflexivity]. apply map_ext_in. intros [n f] I. cbn [fst snd]. do 2 f_equal. apply in_combine_l in I. revert n I. apply Forall_forall.
  destruct r; repeat (apply Forall_cons; [reflexivity|]); apply Forall_nil.
Qed.
Lemma pop_says k v s : agrees k v s -> populated v = negb (says_nothing s).
Proof.
  destruct k, v as [z|b|w|y], s as [z'|b'|y'|f]; cbn [agrees]; try contradiction.
  - intros [<- _]. reflexivity.
  - intros <-. cbn. rewrite negb_involutive. reflexivity.
  - intros (-> & z & _ & F). cbn [populated says_nothing]. f_equal. assert (B : binary32 f) by apply F.
    destruct (f32_bits f =? 0) eqn:E.
    + apply Z.eqb_eq in E. pose proof (bits_of f B) as Q. rewrite E in Q. rewrite <- Q. reflexivity.
    + destruct f as [sg| | |]; try reflexivity. destruct sg; [reflexivity|]. discriminate.
  - intros (<- & _). destruct y; reflexivity.
Qed.
Lemma filter_map {A B} (g : A -> B) (f : B -> bool) l : filter f (map g l) = map g (filter (fun x => f (g x)) l).
Proof. induction l as [|x l IH]; [reflexivity|]. cbn. rewrite IH. destruct (f (g x)); reflexivity. Qed.
Lemma filter_rev {A} (f : A -> bool) l : filter f (rev l) = rev (filter f l).
Proof. induction l as [|x l IH]; [reflexivity|]. cbn [rev filter]. rewrite filter_app, IH. cbn [filter]. destruct (f x); cbn [rev]; [reflexivity|apply app_nil_r]. Qed.
Lemma lookup_in {A} n (l : list (Z * A)) v : lookup n l = Some v -> In (n, v) l.
Proof. induction l as [|[m a] l IH]; cbn [lookup]; [discriminate|]. destruct (n =? m) eqn:E; [intros H; injection H as <-; apply Z.eqb_eq in E; subst; left; reflexivity|right; auto]. Qed.
Lemma lookup_filter (f : pval -> bool) n (l : msg) : NoDup (map fst l) ->
  lookup n (filter (fun x => f (snd x)) l) = match lookup n l with Some v => if f v then Some v else None | None => None end.
Proof.
  induction l as [|[m a] l IH]; intros N; [reflexivity|]. inversion N as [|? ? Nm Nl]; subst. cbn [filter snd lookup]. specialize (IH Nl). destruct (f a) eqn:F; cbn [lookup]; destruct (n =? m) eqn:E; auto.
  - rewrite F. reflexivity.
  - rewrite IH. apply Z.eqb_eq in E. subst m. destruct (lookup n l) as [v|] eqn:L; [|rewrite F; reflexivity]. exfalso. apply Nm. apply in_map_iff. exists (n, v). split; auto. apply lookup_in. exact L.
Qed.
Definition kept (skip : bool) (v : pval) : bool := negb skip || populated v.
Lemma same_read q skip (m : msg) : NoDup (map fst m) -> read_resp q (filter (fun x => kept skip (snd x)) m) = read_resp q m.
Proof.
  intros N. pose proof (fun n => lookup_filter (kept skip) n m N) as L. set (m' := filter _ m) in *.
  assert (I : forall n, getInt n m' = getInt n m).
  { intros n. unfold getInt. rewrite L. destruct (lookup n m) as [v|]; [|reflexivity]. unfold kept. destruct skip; [|reflexivity]. destruct v as [z|b|w|y]; cbn [negb orb populated]; try (destruct (negb _); reflexivity); try (destruct b; reflexivity).
    destruct (z =? 0) eqn:E; [apply Z.eqb_eq in E; subst; reflexivity|reflexivity]. }
  assert (B : forall n, getBool n m' = getBool n m).
  { intros n. unfold getBool. rewrite L. destruct (lookup n m) as [v|]; [|reflexivity]. unfold kept. destruct skip; [|reflexivity]. destruct v as [z|b|w|y]; cbn [negb orb populated]; try (destruct (negb _); reflexivity). destruct b; reflexivity. }
  assert (F : forall n, getFloat n m' = getFloat n m).
  { intros n. unfold getFloat. rewrite L. destruct (lookup n m) as [v|]; [|reflexivity]. unfold kept. destruct skip; [|reflexivity]. destruct v as [z|b|w|y]; cbn [negb orb populated]; try (destruct (negb _); reflexivity); try (destruct b; reflexivity).
    destruct (w =? 0) eqn:E; [apply Z.eqb_eq in E; subst; reflexivity|reflexivity]. }
  assert (S : forall n, getStr n m' = getStr n m).
  { intros n. unfold getStr. rewrite L. destruct (lookup n m) as [v|]; [|reflexivity]. unfold kept. destruct skip; [|reflexivity]. destruct v as [z|b|w|y]; cbn [negb orb populated]; try (destruct (negb _); reflexivity); try (destruct b; reflexivity). destruct y; reflexivity. }
  destruct q; unfold read_resp; rewrite ?I, ?B, ?F, ?S; reflexivity.
Qed.
(** ** Replies *)
Lemma with_written o ftoa sp q t r : reply_to q r -> in_types r -> in_degrees r -> readable r -> time_string t ->
  exists b l, resp_json_with o ftoa sp t r = Some b /\ jtext (JObj l) b /\ bytes_ok b /\ depth (JObj l) <= 10000 /\ json_reply_with (jsonSkipDefaults o) t r l /\
    fields (named (reply_desc q) (reply_names q)) [] [] l = Some (filter (fun x => kept (jsonSkipDefaults o) (snd x)) (rev (resp_fields t r))).
Proof.
  intros P T D R Ti. pose proof (rows_ok q t r P T D R Ti) as O. destruct (rows_are q t r P) as (E1 & E2 & E3 & E4). set (skip := jsonSkipDefaults o).
  set (rs := filter (fun x : row => let '(i, k, n, v, s) := x in kept skip v) (rows q t r)).
  assert (Or : Forall row_ok rs) by (apply Forall_forall; intros x I; apply filter_In in I; rewrite Forall_forall in O; apply O; apply I).
  destruct (rows_written ftoa _ Or) as (l & W & S & H).
  destruct (wrote_object ftoa sp (negb skip) (map (fun x => (fst x, KUint32, snd (snd x))) (combine (resp_names r) (resp_fields t r))) l) as (b & M & J & B & Dp).
  { rewrite E1, filter_map. unfold rs in W. erewrite filter_ext; [exact W|]. intros [[[[i k] n] v] s]. reflexivity. }
  exists b, l. split; [unfold resp_json_with; rewrite names_plain; exact M|]. split; auto. split; auto. split; auto. split.
  - unfold json_reply_with. fold skip. rewrite E2, filter_map. unfold rs in S.
    replace (filter (fun x : row => negb (skip && says_nothing (snd (let '(_, _, n, _, s) := x in (n, s))))) (rows q t r))
      with (filter (fun x : row => let '(i, k, n, v, s) := x in kept skip v) (rows q t r)); [exact S|].
    apply filter_ext_in. intros [[[[i k] n] v] s] I. rewrite Forall_forall in O. destruct (O _ I) as [_ A]. cbn [snd]. unfold kept. rewrite (pop_says _ _ _ A), negb_andb. reflexivity.
  - destruct (names_distinct q) as [N1 N2]. rewrite E4, filter_rev, filter_map.
    replace (filter (fun x : row => kept skip (snd (let '(i, _, _, v, _) := x in (i, v)))) (rows q t r)) with rs
      by (apply filter_ext; intros [[[[i k] n] v] s]; reflexivity).
    rewrite <- (app_nil_r (rev _)). apply fields_rows; auto.
    + intros i k n v s I. split; auto. rewrite E3. apply in_map_iff. exists (i, k, n, v, s). split; auto. apply filter_In in I. apply I.
    + rewrite E3 in N2. rewrite map_map in N2. assert (Nr : NoDup (map (fun x : row => let '(i, k, n, v, s) := x in i) (rows q t r))).
      { replace (map (fun x : row => let '(i, k, n, v, s) := x in i) (rows q t r)) with (map (fun x : row => fst (fst (let '(i, k, n, v, s) := x in (i, str n, k)))) (rows q t r)); auto.
        apply map_ext. intros [[[[i k] n] v] s]. reflexivity. }
      clear -Nr. unfold rs. induction (rows q t r) as [|[[[[i k] n] v] s] l IH]; [constructor|]. cbn [map filter] in *. inversion Nr as [|? ? Ni Nl]; subst. destruct (kept skip v); auto.
      cbn [map]. constructor; auto. intros I. apply Ni. apply in_map_iff in I as (x & E & I). apply filter_In in I. apply in_map_iff. exists x. split; [exact E|apply I].
Qed.
Lemma with_said o ftoa sp t r : (forall e, r <> RespErr e) -> in_types r -> in_degrees r -> readable r -> time_string t ->
  exists b l, resp_json_with o ftoa sp t r = Some b /\ bytes_ok b /\ json_whole b l /\ json_reply_with (jsonSkipDefaults o) t r l.
Proof.
  intros N T D R Ti. destruct (some_reply r N) as (q & P). destruct (with_written o ftoa sp q t r P T D R Ti) as (b & l & E & J & B & Dp & S & _).
  exists b, l. split; auto. split; auto. split; auto. exists [], b, []. rewrite app_nil_r. repeat split; auto; constructor.
Qed.
Lemma with_unreadable o ftoa sp t r : in_types r -> ~ readable r -> resp_json_with o ftoa sp t r = None.
Proof.
  intros T R. destruct r; try (destruct (R I)). cbn [readable in_types] in *.
  assert (E : appendString (pbName m) = None).
  { destruct (appendString (pbName m)) eqn:E; [|reflexivity]. apply append_only in E; [contradiction|tauto]. }
  assert (Pn : populated (VStr (pbName m)) = true) by (destruct (pbName m); [discriminate|reflexivity]).
  assert (X : forall a, marshalFields ftoa sp (a ++ [("DeviceName"%string, KUint32, VStr (pbName m))]) = None).
  { induction a as [|[[n k] v] a IH]; cbn [app marshalFields marshalSingular]; [rewrite E; destruct (appendString _); reflexivity|]. rewrite IH. destruct (appendString (str n)), (marshalSingular ftoa k v); reflexivity. }
  unfold resp_json_with. rewrite names_plain. unfold marshalJSON. cbn [resp_names resp_fields boot_names combine map fst snd].
  match goal with |- context [filter ?f [?a; ?b; ?c; ?d]] => change [a; b; c; d] with ([a; b; c] ++ [d]) end. rewrite filter_app. cbn [filter snd app]. rewrite Pn, orb_true_r, X. reflexivity.
Qed.
Lemma with_fails o ftoa sp t r : (forall e, r <> RespErr e) -> in_types r -> in_degrees r -> time_string t ->
  (resp_json_with o ftoa sp t r = None <-> marshal (resp_fields t r) = None).
Proof.
  intros N T D Ti. rewrite <- (json_fails ftoa sp t r N T D Ti). destruct (utf8_dec r T) as [R|R].
  - destruct (with_said o ftoa sp t r N T D R Ti) as (b & l & -> & _). destruct (json_said ftoa sp t r N T D R Ti) as (b' & l' & -> & _). split; discriminate.
  - rewrite with_unreadable, json_unreadable by auto. tauto.
Qed.
Lemma with_reply o ftoa sp q t r : reply_to q r -> in_types r -> in_degrees r -> readable r -> time_string t ->
  go_json_result q (of_json_server_with o ftoa sp t (respond false t r)) = GGot r.
Proof.
  intros P T D R Ti. destruct (with_written o ftoa sp q t r P T D R Ti) as (b & l & E & J & B & Dp & _ & F).
  assert (N : forall e, r <> RespErr e) by (intros e ->; destruct q; contradiction).
  assert (H : respond false t r = mkHresp 200 (Json r)).
  { pose proof (with_fails o ftoa sp t r N T D Ti) as X. unfold respond. destruct (marshal (resp_fields t r)); [destruct r; auto; destruct (N e); reflexivity|].
    destruct X as [_ X]. rewrite E in X. specialize (X eq_refl). discriminate. }
  rewrite H. unfold of_json_server_with, go_json_result. cbn [r_body r_status]. rewrite E. cbn [gr_status gr_body Z.eqb Pos.eqb negb].
  rewrite (decodeRaw_object b l b [] []); [|rewrite app_nil_r; reflexivity|constructor|exact J|exact Dp].
  assert (Nd : NoDup (map fst (rev (resp_fields t r)))).
  { destruct (rows_are q t r P) as (_ & _ & E3 & E4). destruct (names_distinct q) as [_ N2]. rewrite map_rev. apply NoDup_rev. rewrite E4, map_map. rewrite E3, map_map in N2.
    erewrite map_ext; [exact N2|]. intros [[[[i k] n] v] s]. reflexivity. }
  rewrite (unmarshal_object _ l b J Dp B), F, (same_read q _ _ Nd), read_back by auto. reflexivity.
Qed.
Lemma with_errors o ftoa sp q t e : go_json_result q (of_json_server_with o ftoa sp t (respond false t (RespErr e))) = returned (RespErr e).
Proof. destruct e; reflexivity. Qed.
Lemma with_same ops w0 h w : idle w0 -> w_sh w0 = init_shared -> history ops w0 = (h, w) ->
  (forall c, Forall bytes_ok (flat_map (op_fetches c) h)) ->
  forall o ul ftoa sp sp' t s hst base q, base_for s hst base -> time_string t -> args_ok q -> (forall c, q <> FlushCacheR c) -> reads_well q w ->
  askGoJsonWith o ul ftoa sp sp' t base None q w = askGoJson ul ftoa sp sp' t base None q w.
Proof.
  intros I S H By o ul ftoa sp sp' t s hst base q B Ti A N R. destruct (reach_good ops w0 h w I S H By) as [I' G].
  pose proof (reach_degrees ops w0 h w I S H By) as Dg.
  destruct (run_rpc q w I' N) as [E _]. 
  unfold askGoJson, askGoJsonWith. destruct (go_json_sent sp s hst base q B A) as (hr & -> & _ & _ & _ & F).
  rewrite (serve_call ul unjson t hr false q w (F ul)), E.
  set (r := fst (f_rpc q w)). set (w' := snd (f_rpc q w)). do 2 f_equal. destruct (_ <? _); [|reflexivity].
  destruct (f_types q w G A) as [T [P|(e & Ee)]]; fold r in T.
  - fold r in P. rewrite with_reply, go_json_reply; auto; try (apply f_degrees; auto); apply f_readable; auto.
  - unfold r. rewrite Ee, with_errors, go_json_errors. reflexivity.
Qed.
