(** Proofs for PropertiesGo.v. *)
From Coq Require Import String.
From Verif Require Import ProofBase GoStrings Proto SpecConn Conn Proc Lib Server SpecServer ServerProofs ServerLemmas ServerOps
  Client Wire Twirp SpecWire SpecTwirp WireProofs Utf8Proofs WireOut TwirpProofs TwirpReply TwirpServer GoClient SpecGo GoUrl.

(** C82: the request. *)
Lemma sent_path base s h p q : sanitizeBaseURL base = str s ++ str "://" ++ h -> (s = "http" \/ s = "https")%string -> host_port h ->
  abs_path p -> p <> [] ->
  (match q with (prefix, q) => baseServicePath (match prefix with Some p => p | None => str "/twirp" end) (str "comfo.api") (str "Comfo")
     ++ str (rpc_name q) end) = p ->
  exists b, marshal (rpc_fields (snd q)) = Some b /\
    go_send base (fst q) (snd q) = SentTo (str s) h (mkHreq (str "POST") p (str "application/protobuf") b).
Proof.
  destruct q as [prefix q]. cbn [fst snd]. intros S W H P N E.
  destruct (marshal_writable (rpc_fields q) (request_writable q)) as (b & M & _). exists b. split; auto.
  unfold go_send. rewrite M, method_url_is, S, E. rewrite <- !app_assoc. apply request_to; auto.
Qed.
Lemma go_sent s h base q : base_for s h base -> args_ok q ->
  exists hr, go_send base None q = SentTo (str s) h hr /\ post q = Some hr.
Proof.
  intros B A. destruct (sanitize_ok s h base B) as (S & W & H).
  destruct (sent_path base s h (str "/twirp/comfo.api.Comfo/" ++ str (rpc_name q)) (None, q) S W H) as (b & M & G).
  - split; [apply Forall_app; split; [apply chars_ok; reflexivity|apply name_chars]|]. right. eexists. reflexivity.
  - discriminate.
  - rewrite default_path. reflexivity.
  - cbn [fst snd] in *. eexists. split; [exact G|]. unfold post. rewrite M, str_app. reflexivity.
Qed.
Lemma go_request s h base q : base_for s h base -> args_ok q ->
  exists hr, go_send base None q = SentTo (str s) h hr /\ addressed hr (rpc_name q) /\ forall ul uj, front ul uj hr = Call true q.
Proof.
  intros B A. destruct (go_sent s h base q B A) as (hr & G & P). exists hr. split; auto.
  destruct (post_called q A) as (h' & P' & Ad & F). rewrite P in P'. injection P' as <-. auto.
Qed.
Lemma stub_go q h r : stub_result q h = Got r -> go_result q (of_server h) = GGot r.
Proof.
  unfold stub_result, go_result, of_server. destruct h as [st b]. cbn [r_status r_body].
  destruct (st =? 200) eqn:E; [|destruct b; discriminate]. destruct b; try discriminate. cbn [gr_status gr_body]. rewrite E. cbn [negb].
  destruct (unmarshal _ _); congruence.
Qed.
Lemma go_reply q t r : reply_to q r -> in_types r -> readable r -> time_string t ->
  go_result q (of_server (respond true t r)) = GGot r.
Proof. intros. apply stub_go, reply_read; auto. Qed.
Lemma go_errors q t e : go_result q (of_server (respond true t (RespErr e))) = returned (RespErr e).
Proof. destruct e; reflexivity. Qed.
Lemma go_unreadable q t r : in_types r -> ~ readable r ->
  go_result q (of_server (respond true t r)) = GErr (str "internal") None.
Proof. intros T R. rewrite reply_unreadable; auto. Qed.
Lemma returned_ok q r : reply_to q r -> returned r = GGot r.
Proof. destruct q, r; try contradiction; reflexivity. Qed.

Lemma go_same_at ul uj t s hst base q w : idle w -> good w -> base_for s hst base -> time_string t -> args_ok q ->
  (forall c, q <> FlushCacheR c) -> reads_well q w ->
  exists r w', run (handle q) w = (RDone r, w') /\
    askGo ul uj t base None q w =
      (Some (if w_clk w' - w_clk w <? WriteTimeout then returned r else GErr (str "internal") None), w').
Proof.
  intros I G B Ti A N R. destruct (run_rpc q w I N) as [E _]. rewrite E. eexists. eexists. split; [reflexivity|].
  unfold askGo. destruct (go_request s hst base q B A) as (hr & -> & _ & F).
  rewrite (serve_call ul uj t hr true q w (F ul uj)), E.
  set (r := fst (f_rpc q w)). set (w' := snd (f_rpc q w)). do 2 f_equal. destruct (_ <? _); [|reflexivity].
  destruct (f_types q w G A) as [T [P|(e & Ee)]]; fold r in T.
  - fold r in P. rewrite (returned_ok q r P). apply go_reply; auto. apply f_readable; auto.
  - unfold r. rewrite Ee. apply go_errors.
Qed.
Lemma go_same ops w0 h w : idle w0 -> w_sh w0 = init_shared -> history ops w0 = (h, w) ->
  (forall c, Forall bytes_ok (flat_map (op_fetches c) h)) ->
  forall ul uj t s hst base q, base_for s hst base -> time_string t -> args_ok q -> (forall c, q <> FlushCacheR c) -> reads_well q w ->
  exists r w', run (handle q) w = (RDone r, w') /\
    askGo ul uj t base None q w =
      (Some (if w_clk w' - w_clk w <? WriteTimeout then returned r else GErr (str "internal") None), w').
Proof.
  intros I S H By ul uj t s hst base q B Ti A N R. destruct (reach_good ops w0 h w I S H By) as [I' G].
  apply (go_same_at ul uj t s hst base q w I' G B Ti A N R).
Qed.

(** ** Refusals *)
Lemma refusal_go q h a : refusal h a -> refused_with (h_path h) (go_result q (of_server a)).
Proof.
  intros [U T]. split.
  - intros N. rewrite (U N). reflexivity.
  - intros Y. destruct (T Y) as (S & O & Inn). destruct a as [st bd]. cbn [r_status r_body] in *. subst st.
    destruct (hasPrefix (str "/twirp/comfo.api.Comfo/") (h_path h)) eqn:P.
    + apply has_prefix in P. destruct (Inn P) as (e & -> & C). unfold go_result, of_server. cbn [r_body r_status gr_status].
      rewrite C. exists None. reflexivity.
    + rewrite O; [exists (Some 404); reflexivity|]. intros X. apply has_prefix in X. congruence.
Qed.
Lemma unserved ul uj t base prefix q s hst hr w : go_send base prefix q = SentTo s hst hr ->
  (forall name, ~ addressed hr name) ->
  exists g, askGo ul uj t base prefix q w = (Some g, w) /\ refused_with (h_path hr) g.
Proof.
  intros G N. destruct (front_other ul uj hr N) as (a & F & R). exists (go_result q (of_server a)).
  split; [|apply refusal_go; auto]. unfold askGo. rewrite G, (serve_answer ul uj t hr a w F).
  replace (w_clk w - w_clk w <? WriteTimeout) with true; [reflexivity|]. symmetry. apply Z.ltb_lt.
  unfold WriteTimeout, second. lia.
Qed.
Lemma path_length hr name : addressed hr name -> exists q, h_path hr = str "/twirp/comfo.api.Comfo/" ++ str (rpc_name q).
Proof.
  intros (_ & S & P). rewrite P, str_app. apply served_cases in S. simpl in S.
  assert (K : exists q, rpc_name q = name).
  { each S; [exists GetBootInfo|exists GetTempsRPC|exists GetBypassRPC|exists GetFansRPC|exists GetFanProfilesRPC|exists GetErrorsRPC
      |exists (SetFanSpeedR 0 false)|exists (SetComfortTempR 0)|exists (SetFanProfileR 0 0)|exists (FlushCacheR 0)]; reflexivity. }
  destruct K as (q & <-). exists q. reflexivity.
Qed.
Lemma name_plain q : Forall (fun c => c <> 47) (str (rpc_name q)).
Proof.
  assert (E : forallb (fun c => negb (c =? 47)) (str (rpc_name q)) = true) by (destruct q; reflexivity).
  apply Forall_forall. intros x I. rewrite forallb_forall in E. specialize (E x I). lia.
Qed.
Lemma app_last_slash a : forall b x y, Forall (fun c : byte => c <> 47) x -> Forall (fun c => c <> 47) y ->
  a ++ 47 :: x = b ++ 47 :: y -> a = b /\ x = y.
Proof.
  induction a as [|c a IH]; intros [|d b] x y X Y E; cbn [app] in E.
  - injection E as ->. auto.
  - exfalso. injection E as <- E. subst x. apply Forall_app in X as [_ X]. inversion X. congruence.
  - exfalso. injection E as -> E. subst y. apply Forall_app in Y as [_ Y]. inversion Y. congruence.
  - injection E as <- E. destruct (IH b x y X Y E) as [-> ->]. auto.
Qed.
(** The path of a method, and something before it. *)
Lemma service_end p q q' : p ++ str "/twirp/comfo.api.Comfo/" ++ str (rpc_name q) = str "/twirp/comfo.api.Comfo/" ++ str (rpc_name q') -> p = [].
Proof.
  intros E. change (str "/twirp/comfo.api.Comfo/") with (str "/twirp/comfo.api.Comfo" ++ [47]) in E.
  rewrite <- !app_assoc in E. cbn [app] in E. rewrite app_assoc in E.
  apply app_last_slash in E; [|apply name_plain|apply name_plain]. destruct E as [E _].
  apply (f_equal (@List.length byte)) in E. rewrite app_length in E. destruct p; [reflexivity|cbn in E; lia].
Qed.
(** C83: a path in the base URL. *)
Lemma based_path s b hst p q : web_scheme s b -> host_port hst -> abs_path p -> p <> [] -> args_ok q ->
  exists hr, go_send (b ++ str "://" ++ hst ++ p) None q = SentTo (str s) hst hr /\
    h_path hr = p ++ str ("/twirp/comfo.api.Comfo/" ++ rpc_name q) /\
    forall ul uj t w, exists g, askGo ul uj t (b ++ str "://" ++ hst ++ p) None q w = (Some g, w) /\ refused_with (h_path hr) g.
Proof.
  intros W H P N A.
  destruct (marshal_writable (rpc_fields q) (request_writable q)) as (bs & M & _).
  assert (G : go_send (b ++ str "://" ++ hst ++ p) None q =
    SentTo (str s) hst (mkHreq (str "POST") (p ++ str "/twirp/comfo.api.Comfo/" ++ str (rpc_name q)) (str "application/protobuf") bs)).
  { unfold go_send. rewrite M, method_url_is, (sanitize_path s b hst p W H P), default_path. rewrite <- !app_assoc.
    apply request_to; auto; [apply W| |].
    - destruct P as [F P]. split; [repeat (apply Forall_app; split); auto; [apply chars_ok; reflexivity|apply name_chars]|].
      right. destruct P as [-> | (r & ->)]; [congruence|]. eexists. reflexivity.
    - destruct p; [congruence|discriminate]. }
  eexists. split; [exact G|]. cbn [h_path]. rewrite str_app. split; auto. intros ul uj t w.
  apply (unserved ul uj t _ None q _ _ _ w G). intros name Ad. destruct (path_length _ _ Ad) as (q' & E). cbn [h_path] in E.
  apply N. apply (service_end p q q' E).
Qed.
Lemma host_name_b h : negb (beq h []) && forallb (fun c => isLetter c || isDigit c || (c =? 45) || (c =? 46)) h = true -> hostname h.
Proof.
  intros E. apply andb_true_iff in E as [E1 E2]. split; [intros ->; discriminate|]. apply Forall_forall. intros x I.
  rewrite forallb_forall in E2. specialize (E2 x I). unfold isLetter, isDigit, letter, digit in *. lia.
Qed.
Lemma digits_b h : forallb isDigit h = true -> Forall digit h.
Proof.
  intros E. apply Forall_forall. intros x I. rewrite forallb_forall in E. specialize (E x I). unfold isDigit, digit in *. lia.
Qed.
Lemma trailing_slash : exists base hst, base = str "http://" ++ hst ++ str "/" /\ host_port hst /\
  forall ul uj t q w, args_ok q -> askGo ul uj t base None q w = (Some (GErr (str "internal") (Some 301)), w).
Proof.
  exists (str "http://localhost:3094/"), (str "localhost:3094"). split; [reflexivity|].
  assert (H : host_port (str "localhost:3094")).
  { exists (str "localhost"), (str ":3094"). split; [reflexivity|]. split.
    - apply host_name_b; reflexivity.
    - right. exists (str "3094"). split; [reflexivity|]. apply digits_b. reflexivity. }
  split; auto. intros ul uj t q w A.
  destruct (based_path "http" (str "http") (str "localhost:3094") (str "/") q) as (hr & _ & P & K); auto.
  - apply self_scheme; auto.
  - split; [apply chars_ok; reflexivity|right; exists []; reflexivity].
  - discriminate.
  - destruct (K ul uj t w) as (g & E & U & _). change (str "http://localhost:3094/") with (str "http" ++ str "://" ++ str "localhost:3094" ++ str "/").
    rewrite E. do 2 f_equal. apply U. rewrite P. intros T. apply tidy_clean in T. revert T. destruct q; vm_compute; discriminate.
Qed.
(** A host and a port without a scheme. *)
Lemma scheme_port n : forall f r, Forall (fun c => letter c \/ digit c \/ c = 45 \/ c = 46) n -> n <> [] \/ f = false ->
  scheme_ f (n ++ 58 :: r) = Some None \/ scheme_ f (n ++ 58 :: r) = Some (Some (n, r)).
Proof.
  induction n as [|c n IH]; intros f r F N.
  - destruct N as [N| ->]; [congruence|]. right. reflexivity.
  - inversion F; subst. cbn [app scheme_]. destruct (IH false r H2) as [-> | ->]; auto;
      destruct (isLetter c) eqn:L; auto; destruct (_ || _) eqn:D; auto; try (destruct f; auto);
      exfalso; unfold isLetter, isDigit, letter, digit, colon in *; lia.
Qed.
Lemma port_parse n r : hostname n -> Forall okc r -> r <> [] -> hasPrefix [slash] r = false ->
  parseUrl (n ++ 58 :: r) = None \/ parseUrl (n ++ 58 :: r) = Some (mkUrl (map lower1 n) r [] [] false).
Proof.
  intros H Fr Nr Pr. destruct (hostname_hc n H) as (F & N & C).
  assert (Fn : Forall okc n) by (apply hc_okc; auto).
  assert (O : existsb (fun c => (c <? 32) || (c =? 127)) (n ++ 58 :: r) = false).
  { apply no_ctl. apply Forall_app. split; auto. constructor; auto. unfold okc. lia. }
  assert (Sn : hasPrefix [slash] (n ++ 58 :: r) = false).
  { destruct n as [|c n0]; [congruence|]. inversion F as [|? ? Hc ?]; subst. destruct (hc_ok c Hc) as (_ & K & _).
    cbn [app hasPrefix]. replace (slash =? c) with false by lia. reflexivity. }
  assert (Cut : exists x y f, cut slash (n ++ 58 :: r) = (n ++ 58 :: x, y, f)).
  { clear - F. induction F as [|c n0 Hc F IH].
    - cbn [app cut]. change (58 =? slash) with false. cbv iota. destruct (cut slash r) as [[x y] f]. eauto.
    - destruct IH as (x & y & f & E). cbn [app cut]. rewrite E. destruct (hc_ok c Hc) as (_ & K & _).
      replace (c =? slash) with false by lia. eauto. }
  unfold parseUrl. rewrite O. unfold getScheme.
  destruct H as [_ Hc]. destruct (scheme_port n true r Hc (or_introl N)) as [E|E]; rewrite E.
  - left. cbn [map]. rewrite Sn. cbn [negb beq].
    destruct Cut as (x & y & f & ->). rewrite contains_in; [reflexivity|]. apply in_app_iff. right. left. reflexivity.
  - right. rewrite Pr. cbn [negb]. assert (M : map lower1 n <> []) by (destruct n; [congruence|discriminate]).
    rewrite (beq_ne _ M). reflexivity.
Qed.
Lemma lower_hostname n : hostname n -> hostname (map lower1 n).
Proof.
  intros [N F]. split; [destruct n; [congruence|discriminate]|]. clear N. induction F as [|c n C F IH]; [constructor|].
  constructor; auto. unfold lower1, letter, digit in *. destruct (_ && _) eqn:E; lia.
Qed.
Lemma bare_port n ds q : hostname n -> Forall digit ds -> ds <> [] -> go_send (n ++ 58 :: ds) None q = NotSent.
Proof.
  intros H D Nd. unfold go_send.
  destruct (marshal _) as [b|]; [|reflexivity]. rewrite method_url_is, default_path.
  set (tail := str "/twirp/comfo.api.Comfo/" ++ str (rpc_name q)).
  assert (Ft : Forall okc tail).
  { apply path_okc. apply Forall_app. split; [apply chars_ok; reflexivity|apply name_chars]. }
  assert (Fd : Forall okc ds) by (eapply Forall_impl; [|exact D]; cbn; unfold digit, okc; intros; lia).
  assert (Ds : hasPrefix [slash] ds = false /\ hasPrefix [slash] (ds ++ tail) = false).
  { destruct ds as [|c ds0]; [congruence|]. inversion D; subst. cbn [app hasPrefix]. unfold digit, slash in *. replace (47 =? c) with false by lia. auto. }
  assert (N2 : ds ++ tail <> []) by (destruct ds; [congruence|discriminate]).
  assert (F2 : Forall okc (ds ++ tail)) by (apply Forall_app; auto).
  assert (K : forall m, hostname m -> newRequest (m ++ 58 :: ds ++ tail) (str "application/protobuf") b = NotSent).
  { intros m Hm. unfold newRequest. destruct (port_parse m (ds ++ tail) Hm F2 N2 (proj2 Ds)) as [-> | ->]; [reflexivity|].
    cbn [u_scheme u_host]. destruct (negb _); reflexivity. }
  unfold sanitizeBaseURL. destruct (port_parse n ds H Fd Nd (proj1 Ds)) as [-> | ->].
  - rewrite <- app_assoc. cbn [app]. apply K. exact H.
  - cbn [u_scheme]. destruct (lower_hostname n H) as [M _]. rewrite (beq_ne _ M). unfold urlString. cbn [u_scheme u_opaque].
    rewrite (beq_ne _ M), (beq_ne ds Nd). cbn [negb]. rewrite <- !app_assoc. cbn [app]. apply K. apply lower_hostname. exact H.
Qed.
Lemma localhost_refuted : exists base, host_port base /\ forall q, go_send base None q = NotSent.
Proof.
  exists (str "localhost:3094"). split.
  - exists (str "localhost"), (str ":3094"). split; [reflexivity|]. split; [apply host_name_b; reflexivity|].
    right. exists (str "3094"). split; [reflexivity|]. apply digits_b. reflexivity.
  - intros q. apply (bare_port (str "localhost") (str "3094") q); [apply host_name_b; reflexivity|apply digits_b; reflexivity|discriminate].
Qed.

(** ** C84: prefixes *)
Lemma split_mid a b : split (a ++ slash :: b) = split a ++ split b.
Proof.
  induction a as [|c a IH].
  - cbn [app split]. pose proof (split_nonempty b). destruct (split b); [congruence|]. rewrite Z.eqb_refl. reflexivity.
  - cbn [app split]. rewrite IH. pose proof (split_nonempty a). destruct (split a) as [|p ps]; [congruence|]. cbn [app].
    destruct (c =? slash); reflexivity.
Qed.
Lemma clean_app x : forall st y, clean_ st (x ++ y) = clean_ (rev (clean_ st x)) y.
Proof.
  induction x as [|p x IH]; intros st y; cbn [app clean_]; [rewrite rev_involutive; reflexivity|].
  destruct (_ || _); [apply IH|]. destruct (beq p _); apply IH.
Qed.
Lemma prefix_clean es p : prefix_of es p -> clean_ [] (split p) = es.
Proof.
  intros (F & _ & tail & T & P).
  assert (S : split (concat (map (cons slash) es) ++ tail) = [] :: es ++ match tail with [] => [] | _ => [[]] end).
  { apply split_concat; auto. apply plain_free. exact F. }
  assert (C : clean_ [] (es ++ match tail with [] => [] | _ => [[]] end) = es).
  { destruct T as [-> | ->]; [rewrite app_nil_r; rewrite clean_id by auto|rewrite clean_id_slash by auto]; reflexivity. }
  fold slash in P. destruct P as [-> | (_ & E)]; [rewrite S; exact C|].
  rewrite <- E in S. cbn [split] in S. pose proof (split_nonempty p) as N. destruct (split p) as [|x xs] eqn:X; [congruence|].
  rewrite Z.eqb_refl in S. injection S as S. rewrite S. exact C.
Qed.
Definition full : list byte := str "comfo.api.Comfo".
Lemma full_plain : plain full.
Proof.
  split; [discriminate|]. split; [discriminate|]. split; [discriminate|].
  assert (E : forallb (fun c => negb (c =? 47)) full = true) by reflexivity.
  apply Forall_forall. intros x I. rewrite forallb_forall in E. specialize (E x I). lia.
Qed.
Lemma service_path es p : prefix_of es p -> baseServicePath p (str "comfo.api") (str "Comfo") =
  concat (map (cons slash) (es ++ [full])) ++ [slash].
Proof.
  intros P. pose proof (prefix_clean es p P) as C. unfold baseServicePath.
  change (beq (str "comfo.api") []) with false. cbv iota. change (str "comfo.api" ++ [46] ++ str "Comfo") with full.
  rewrite app_comm_cons.
  assert (E : clean_ [] (split (join (filter (fun e => negb (beq e [])) [[slash]; p; full]))) = es ++ [full]).
  { cbn [filter]. change (beq [slash] []) with false. change (beq full []) with false. cbn [negb].
    destruct p as [|c p].
    - cbn in C. subst es. reflexivity.
    - change (beq (c :: p) []) with false. cbn [negb]. rewrite join_cons by discriminate. rewrite join_cons by discriminate.
      cbn [join]. rewrite split_mid. rewrite split_mid. rewrite app_assoc. rewrite clean_app.
      change (split [slash]) with [@nil byte; []].
      rewrite (clean_app [[]; []] []). change (rev (clean_ [] [[]; []])) with (@nil (list byte)). rewrite C.
      assert (S : split full = [full]) by reflexivity. rewrite S, clean_id by (constructor; [apply full_plain|constructor]).
      rewrite rev_involutive. reflexivity. }
  rewrite E, join_concat; [reflexivity|]. destruct es; discriminate.
Qed.
Lemma concat_inj a : forall b, Forall (Forall (fun c => c <> slash)) a -> Forall (Forall (fun c => c <> slash)) b ->
  concat (map (cons slash) a) = concat (map (cons slash) b) -> a = b.
Proof.
  intros b A B E.
  pose proof (split_concat a [] A (or_introl eq_refl)) as Sa. pose proof (split_concat b [] B (or_introl eq_refl)) as Sb.
  rewrite !app_nil_r in Sa, Sb. rewrite E in Sa. rewrite Sa in Sb. injection Sb as Sb. exact Sb.
Qed.
Lemma app_inv_two {A} (a b : list A) x y x' y' : a ++ [x; y] = b ++ [x'; y'] -> a = b.
Proof.
  intros E. apply (f_equal (@rev A)) in E. rewrite !rev_app_distr in E. cbn in E. injection E as _ _ E.
  apply (f_equal (@rev A)) in E. rewrite !rev_involutive in E. exact E.
Qed.
Lemma prefixed s h base es p q : base_for s h base -> prefix_of es p -> args_ok q ->
  exists hr, go_send base (Some p) q = SentTo (str s) h hr /\
    h_path hr = concat (map (cons 47) (es ++ [str "comfo.api.Comfo"; str (rpc_name q)])) /\
    (es = [str "twirp"] -> forall ul uj, front ul uj hr = Call true q) /\
    (es <> [str "twirp"] -> forall ul uj t w, exists i, askGo ul uj t base (Some p) q w = (Some (GErr (str "bad_route") i), w)).
Proof.
  intros B P A. destruct (sanitize_ok s h base B) as (S & W & H). pose proof (service_path es p P) as Sp.
  set (path := concat (map (cons 47) (es ++ [full; str (rpc_name q)]))).
  assert (Ep : baseServicePath p (str "comfo.api") (str "Comfo") ++ str (rpc_name q) = path).
  { rewrite Sp. unfold path. fold slash. change [full; str (rpc_name q)] with ([full] ++ [str (rpc_name q)]).
    rewrite app_assoc, (map_app _ (es ++ [full])), concat_app. cbn [map concat]. rewrite app_nil_r, <- app_assoc. reflexivity. }
  assert (Np : plain (str (rpc_name q))).
  { split; [destruct q; discriminate|]. split; [destruct q; discriminate|]. split; [destruct q; discriminate|]. apply name_plain. }
  assert (Fp : Forall plain (es ++ [full; str (rpc_name q)])).
  { apply Forall_app. split; [apply P|]. constructor; [apply full_plain|]. constructor; auto. }
  assert (Pc : Forall path_char path).
  { unfold path. rewrite map_app, concat_app. apply Forall_app. split.
    - destruct P as (_ & Fc & tail & T & [E|(_ & E)]).
      + rewrite E in Fc. apply Forall_app in Fc. apply Fc.
      + assert (K : Forall path_char (47 :: p)) by (constructor; auto; unfold path_char; cbn [In]; tauto).
        rewrite E in K. apply Forall_app in K. apply K.
    - cbn [map concat]. rewrite app_nil_r. assert (Sl : path_char 47) by (unfold path_char; cbn [In]; tauto).
      apply Forall_app. split; [constructor; auto; apply chars_ok; reflexivity|]. constructor; auto. apply name_chars. }
  assert (Ab : abs_path path).
  { split; auto. right. unfold path. destruct es; cbn; eauto. }
  destruct (sent_path base s h path (Some p, q) S W H Ab) as (b & M & G); [unfold path; destruct es; discriminate|exact Ep|].
  cbn [fst snd] in *. eexists. split; [exact G|]. split; [reflexivity|]. split.
  - intros ->. intros ul uj. destruct (post_called q A) as (h' & P' & _ & F'). unfold post in P'. rewrite M in P'. injection P' as <-.
    rewrite <- F' with (ul := ul) (uj := uj). f_equal. f_equal. destruct q; reflexivity.
  - intros N ul uj t w. edestruct (unserved ul uj t base (Some p) q _ _ _ w G) as (g & E & _ & Td).
    + intros name Ad. destruct (path_length _ _ Ad) as (q' & E). cbn [h_path] in E. apply N.
      assert (E' : concat (map (cons slash) (es ++ [full; str (rpc_name q)])) = concat (map (cons slash) [str "twirp"; full; str (rpc_name q')])).
      { etransitivity; [exact E|]. cbn [map concat]. rewrite app_nil_r. reflexivity. }
      apply concat_inj in E'.
      * change [str "twirp"; full; str (rpc_name q')] with ([str "twirp"] ++ [full; str (rpc_name q')]) in E'.
        apply (app_inv_two es [str "twirp"]) in E'. exact E'.
      * apply plain_free. exact Fp.
      * assert (Tw : forallb (fun c => negb (c =? 47)) (str "twirp") = true) by reflexivity.
        constructor; [apply Forall_forall; intros x I; rewrite forallb_forall in Tw; specialize (Tw x I); unfold slash; lia|].
        constructor; [apply full_plain|]. constructor; [apply name_plain|constructor].
    + destruct Td as (i & ->); [|exists i; exact E]. cbn [h_path]. exists (es ++ [full; str (rpc_name q)]). split; auto.
      left. split; [destruct es; discriminate|reflexivity].
Qed.

(** ** C85: all responses *)
Lemma words_bytes d mx fs b : wire_fields d mx fs b -> bytes_ok b -> forall n w, In w (words n fs) -> List.length w = 4%nat /\ bytes_ok w.
Proof.
  induction 1 as [|d mx m v fs t b r M T V W IH]; intros B n w I; [destruct I|].
  apply Forall_app in B as [_ B]. apply Forall_app in B as [Bv Br].
  destruct v; cbn [words] in I; try (apply (IH Br n w I)). inversion V; subst.
  destruct (Z.eq_dec n m); [destruct I as [<-|I]; [auto|]|]; apply (IH Br n w I).
Qed.
Lemma word_bytes fs b n : encodes fs b -> bytes_ok b -> List.length (word_field n fs) = 4%nat /\ bytes_ok (word_field n fs).
Proof.
  intros W B. unfold word_field. destruct (words n fs) as [|w ws] eqn:E; [split; [reflexivity|]; cbn [last]; repeat (apply Forall_cons; [red; lia|]); apply Forall_nil|].
  apply (words_bytes _ _ _ _ W B n). rewrite E. destruct (@exists_last _ (w :: ws)) as (l & x & Ex); [discriminate|].
  rewrite Ex, last_last. apply in_app_iff. right. left. reflexivity.
Qed.
Lemma strings_texts q fs b : encodes fs b -> bytes_ok b -> (strings_ok q fs <-> texts (reply_desc q) fs).
Proof.
  intros W B.
  assert (K : forall n s, In (n, WBytes s) fs -> bytes_ok s).
  { clear - W B. unfold encodes in W. revert B. induction W as [|d mx m v fs t b r M T V W IH]; intros B n s I; [destruct I|].
    apply Forall_app in B as [_ B]. apply Forall_app in B as [Bv Br]. destruct I as [E|I]; [|apply (IH Br n s I)].
    injection E as -> ->. inversion V; subst. apply Forall_app in Bv. apply Bv. }
  assert (L : forall n, lookup n (reply_desc q) = Some KString <->
    match q, n with GetBootInfo, 4 | SetComfortTempR _, 4 | SetFanSpeedR _ _, 4 | SetFanProfileR _ _, 4 | FlushCacheR _, 2 => True | _, _ => False end).
  { intros n. destruct q; cbn [reply_desc u32s map app lookup dModified];
      repeat (match goal with |- context [?a =? ?b] => destruct (Z.eqb_spec a b); [subst; split; intros X; try exact Logic.I; try discriminate X; try destruct X; reflexivity|] end);
      (split; [discriminate|]); destruct n as [|[[|[]|]|[[]|[]|]|]|]; try contradiction; intros _; exfalso; lia. }
  split.
  - intros S n s I Q. apply L in Q. specialize (S n s I). apply valid_utf8; [apply (K n s I)|].
    destruct q; try contradiction; destruct n as [|[[[]|[]|]|[[]|[]|]|]|]; try contradiction; exact S.
  - intros S n s I. specialize (S n s I). specialize (L n).
    assert (U : lookup n (reply_desc q) = Some KString -> utf8 s) by (intros Q; apply valid_utf8; [apply (K n s I)|auto]).
    destruct q; try exact Logic.I; destruct n as [|[[[]|[]|]|[[]|[]|]|]|]; try exact Logic.I; apply U; reflexivity.
Qed.
Lemma read_carries q fs b : encodes fs b -> bytes_ok b ->
  exists t, reply_to q (read_resp q (after (reply_desc q) [] fs)) /\ carries t (read_resp q (after (reply_desc q) [] fs)) fs.
Proof.
  intros W B. exists (string_field (match q with FlushCacheR _ => 2 | _ => 4 end) fs).
  split; [destruct q; exact Logic.I|].
  assert (U : forall n, lookup n (reply_desc q) = Some KUint32 -> uint_field n fs = getInt n (after (reply_desc q) [] fs)) by (intros; rewrite get_uint; auto).
  assert (Bo : forall n, lookup n (reply_desc q) = Some KBool -> bool_field n fs = getBool n (after (reply_desc q) [] fs)) by (intros; rewrite get_bool; auto).
  assert (S : forall n, lookup n (reply_desc q) = Some KString -> string_field n fs = getStr n (after (reply_desc q) [] fs)) by (intros; rewrite get_str; auto).
  assert (F : forall n, lookup n (reply_desc q) = Some KFloat -> float_field n fs = f32_of_bits (getFloat n (after (reply_desc q) [] fs))).
  { intros n L. rewrite get_float by auto. destruct (word_bytes fs b n W B). rewrite read_float by auto. reflexivity. }
  set (m := after _ _ _) in *. clearbody m. destruct q; unfold read_resp, carries; cbv beta iota zeta;
    repeat match goal with |- _ /\ _ => split end; try reflexivity;
    try (apply U; reflexivity); try (apply Bo; reflexivity); try (apply S; reflexivity); try (apply F; reflexivity).
Qed.
Lemma carries_unique q t t' r r' fs : reply_to q r -> reply_to q r' -> carries t r fs -> carries t' r' fs -> r = r'.
Proof.
  intros P P' C C'. destruct q, r; try contradiction; destruct r'; try contradiction; unfold carries in C, C'; cbv zeta in C, C';
    repeat match goal with m : pbBootInfo |- _ => destruct m | m : pbBypass |- _ => destruct m | m : pbTemps |- _ => destruct m
      | m : pbFans |- _ => destruct m | m : pbProfiles |- _ => destruct m | m : pbErrors |- _ => destruct m end;
    cbn in C, C';
    repeat match goal with H : _ /\ _ |- _ => destruct H end; subst; reflexivity.
Qed.
Lemma valid_code c : isValidErrorCode c = true <-> c = [] \/ exists k, In k twirp_codes /\ c = str k.
Proof.
  unfold isValidErrorCode. rewrite existsb_exists. split.
  - intros (k & I & E). apply beq_eq in E. destruct I as [<- | I]; [left; exact E|]. right. exists k. split; auto.
  - intros [-> | (k & I & ->)]; [exists ""%string; split; [left; reflexivity|reflexivity]|]. exists k. split; [right; exact I|apply beq_refl].
Qed.
Lemma proxy_is s c : proxy_code s c -> twirpErrorFromIntermediary s = GErr (str c) (Some s).
Proof.
  unfold twirpErrorFromIntermediary, isHTTPRedirect. intros [I|[(R & ->)|(R & N & ->)]].
  - cbn [In] in I. repeat (destruct I as [I|I]; [injection I as <- <-; reflexivity|]). destruct I.
  - replace ((s >=? 300) && (s <=? 399)) with true by lia. reflexivity.
  - replace ((s >=? 300) && (s <=? 399)) with false by lia. cbn [In] in N.
    assert (E : forall k, In k [400; 401; 403; 404; 429; 502; 503; 504] -> (s =? k) = false) by (intros k I; apply Z.eqb_neq; intros ->; apply N; exact I).
    rewrite !E by (cbn [In]; auto 10). reflexivity.
Qed.
Lemma proxy_some s : exists c, proxy_code s c.
Proof.
  destruct (Z_le_dec 300 s) as [A|A]; [destruct (Z_lt_dec s 400) as [B|B]; [exists "internal"%string; right; left; split; [lia|reflexivity]|]|].
  all: destruct (In_dec Z.eq_dec s [400; 401; 403; 404; 429; 502; 503; 504]) as [I|N];
    [|exists "unknown"%string; right; right; split; [lia|auto]].
  all: cbn [In] in I; repeat (destruct I as [<-|I]; [eexists; left; cbn [In]; eauto 12|]); destruct I.
Qed.
Lemma go_response q g x : bytes_ok (gr_body g) -> (go_result q g = x <-> understood q g x).
Proof.
  intros B.
  assert (Red : 300 <= gr_status g < 400 <-> isHTTPRedirect (gr_status g) = true) by (unfold isHTTPRedirect; lia).
  assert (D : understood q g (go_result q g)).
  { unfold go_result. destruct (gr_status g =? 200) eqn:S; cbn [negb].
    - apply Z.eqb_eq in S. destruct (unmarshal (reply_desc q) (gr_body g)) as [m|] eqn:U.
      + apply unmarshal_sound in U as (fs & W & T & ->); auto. destruct (read_carries q fs _ W B) as (t & R & C).
        apply (und_message q g _ fs t); auto. apply (strings_texts q fs _ W B). exact T.
      + apply und_garbage; auto. intros fs W T. apply (strings_texts q fs _ W B) in T.
        assert (U' : unmarshal (reply_desc q) (gr_body g) = Some (after (reply_desc q) [] fs)) by (apply unmarshal_complete; auto).
        congruence.
    - apply Z.eqb_neq in S. unfold errorFromResponse. destruct (proxy_some (gr_status g)) as (pc & Pc). pose proof (proxy_is _ _ Pc) as Pi.
      destruct (isHTTPRedirect (gr_status g)) eqn:R.
      + rewrite Pi. apply und_proxy; auto. left. apply Red. reflexivity.
      + assert (NR : ~ 300 <= gr_status g < 400) by (intros X; apply Red in X; congruence).
        destruct (gr_err g) as [c|] eqn:E; [|rewrite Pi; apply und_proxy; auto].
        destruct (beq c []) eqn:Z; [apply beq_eq in Z; subst c; rewrite Pi; apply und_proxy; auto|]. apply beq_neq in Z.
        destruct (isValidErrorCode c) eqn:V; cbn [negb].
        * apply valid_code in V. destruct V as [V|(k & I & ->)]; [congruence|]. apply und_error; auto.
        * apply (und_odd q g c); auto. intros k I ->. assert (isValidErrorCode (str k) = true) by (apply valid_code; eauto). congruence. }
  split; [intros <-; exact D|]. intros H.
  assert (Nn : forall k, In k twirp_codes -> str k <> []).
  { intros k I. unfold twirp_codes in I. cbn [In] in I. repeat (destruct I as [<-|I]; [discriminate|]). destruct I. }
  destruct H as [r fs t S W T P C|S N|c S R E I|c S R E Z N|c S O P].
  - apply (strings_texts q fs _ W B) in T. unfold go_result. rewrite S. change (negb (200 =? 200)) with false. cbv iota.
    assert (U' : unmarshal (reply_desc q) (gr_body g) = Some (after (reply_desc q) [] fs)) by (apply unmarshal_complete; auto).
    rewrite U'. f_equal. destruct (read_carries q fs _ W B) as (t' & R & C'). apply (carries_unique q t' t _ _ fs); auto.
  - unfold go_result. rewrite S. change (negb (200 =? 200)) with false. cbv iota.
    destruct (unmarshal _ _) as [m|] eqn:U; [|reflexivity]. exfalso. apply unmarshal_sound in U as (fs & W & T & ->); auto.
    apply (N fs W). apply (strings_texts q fs _ W B). exact T.
  - unfold go_result. replace (gr_status g =? 200) with false by lia. cbn [negb]. unfold errorFromResponse.
    destruct (isHTTPRedirect _); [exfalso; apply R; apply Red; reflexivity|]. rewrite E, (beq_ne _ (Nn c I)).
    replace (isValidErrorCode (str c)) with true; [reflexivity|]. symmetry. apply valid_code. eauto.
  - unfold go_result. replace (gr_status g =? 200) with false by lia. cbn [negb]. unfold errorFromResponse.
    destruct (isHTTPRedirect _); [exfalso; apply R; apply Red; reflexivity|]. rewrite E, (beq_ne _ Z).
    destruct (isValidErrorCode c) eqn:V; [|reflexivity]. exfalso. apply valid_code in V as [V|(k & I & Ek)]; [congruence|].
    apply (N k I Ek).
  - unfold go_result. replace (gr_status g =? 200) with false by lia. cbn [negb]. unfold errorFromResponse.
    rewrite (proxy_is _ _ P). destruct (isHTTPRedirect (gr_status g)) eqn:R; [reflexivity|].
    destruct O as [O|[-> | ->]]; [apply Red in O; congruence|reflexivity|reflexivity].
Qed.
