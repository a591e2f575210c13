(** The claims about what errors say. *)
From Coq Require Import String Permutation.
From Verif Require Import ProofBase GoStrings Proc Lib SpecServer SpecWire Server Wire Twirp SpecTwirp GoClient SpecGo SpecJson SpecJsonError
  JsonReadProofs JsonWrite JsonWriteProofs JsonReplyProofs JsonError JsonErrorStrings JsonErrorProofs DurationProofs TwirpProofs GoProofs
  DescriptorProofs QueryProofs ServerProofs ServerLemmas ServerOps Samples SamplesServer ErrorText SpecErrorText ErrorTextProofs.

(** ** The errors that are sent *)
Definition ascii_text (s : list byte) : Prop := Forall (fun c => 0 <= c < 128) s.
Lemma arg_ascii a : ascii_text (arg_name a).
Proof. unfold ascii_text. destruct a; vm_compute; repeat (apply Forall_cons; [split; congruence|]); apply Forall_nil. Qed.
Ltac ascii := unfold ascii_text; vm_compute; repeat (apply Forall_cons; [split; congruence|]); apply Forall_nil.
Lemma itoa_ascii n : 0 <= n -> ascii_text (itoa n).
Proof. intros N. apply dig_ascii. apply int_digits. apply itoa_int. exact N. Qed.
Definition arg_fine (a : arg) : Prop := match a with ArgFanSpeed v => 0 <= v < 256 | _ => True end.
Lemma arg_text_ascii a : arg_fine a -> ascii_text (arg_text a).
Proof.
  intros F. destruct a as [|v| | |]; try ascii. cbn [arg_text arg_fine] in *. apply Forall_app. split; [ascii|]. apply Forall_app. split; [apply itoa_ascii; lia|ascii].
Qed.
Lemma invalid_good io ty q a : arg_fine a -> let g := rpc_error io ty q (InvalidArgument a) in
  good g /\ utf8 (ge_msg g) /\ len (ge_msg g) <= 1000000 /\ Forall (fun p => utf8 (fst p) /\ utf8 (snd p)) (ge_meta g).
Proof.
  intros F. cbv zeta. cbn [rpc_error]. unfold good. cbn [ge_code ge_msg ge_meta].
  assert (A : ascii_text (arg_name a ++ 32 :: arg_text a)) by (apply Forall_app; split; [apply arg_ascii|constructor; [lia|apply arg_text_ascii; exact F]]).
  destruct (ascii_utf8s _ A) as [B U]. destruct (ascii_utf8s _ (arg_ascii a)) as [B' U']. assert (A2 : ascii_text (str "argument")) by ascii. destruct (ascii_utf8s _ A2) as [B2 U2].
  splits; auto.
  - exists CInvalidArgument. reflexivity.
  - constructor; [split; auto|constructor].
  - assert (L : len (arg_text a) <= 100).
    { destruct a as [|v| | |]; try (vm_compute; congruence). cbn [arg_text arg_fine] in *. rewrite !len_app. destruct (tame_itoa v ltac:(lia)) as (_ & _ & L).
      change (len (str "value '")) with 7. change (len (str "' out of range")) with 14. lia. }
    rewrite len_app. assert (len (arg_name a) <= 100) by (destruct a; vm_compute; congruence). unfold len in *. cbn [List.length]. lia.
Qed.
Lemma invalid_client ip st io ty q a : arg_fine a -> client_error ip st (rpc_error io ty q (InvalidArgument a)) = rpc_error io ty q (InvalidArgument a).
Proof. intros F. destruct (invalid_good io ty q a F) as (G & U & L & M). apply delivered_same; auto. apply client_delivered. exact G. Qed.

(** ** Whose fault *)
Lemma reply_faults w q : 0 <= CurrentMode (sh_prof (w_sh w)) < 256 -> args_ok q -> (forall c, q <> FlushCacheR c) ->
  (forall a, fst (f_rpc q w) = RespErr (InvalidArgument a) ->
     exists n, arg_name a = str n /\ arg_fine a /\ at_fault (CurrentMode (sh_prof (w_sh w))) q n) /\
  (forall n, at_fault (CurrentMode (sh_prof (w_sh w))) q n ->
     exists a, f_rpc q w = (RespErr (InvalidArgument a), w) /\ arg_name a = str n /\ arg_fine a /\
       (forall v abs rel, a = ArgFanSpeed v -> q = SetFanSpeedR abs rel -> v = asked (CurrentMode (sh_prof (w_sh w))) abs rel mod 256)).
Proof.
  intros M A NF. destruct q as [ | | | | | |t|abs rel|m t|c]; cbn [f_rpc] in *; try (destruct (NF _ eq_refl));
    try (split; [intros a E; exfalso; unfold umsg in E; cbn in E; discriminate|intros n X; inversion X]).
  - unfold f_comfort. cbv zeta. destruct (t >? 255) eqn:T.
    + split; [intros a E; cbn in E; injection E as <-; exists "ComfortTemp"%string; splits; cbn; auto; constructor; lia|].
      intros n X. inversion X; subst. exists ArgComfortTemp. splits; cbn; auto. discriminate.
    + split; [|intros n X; inversion X; subst; lia].
      intros a E. destruct (negb _); [destruct (setq _ _) as [[e|] cn]|]; discriminate.
  - unfold f_speed, modifySpeed. cbn [args_ok] in A. unfold u32_ok in A. set (o := CurrentMode (sh_prof (w_sh w))) in *. unfold asked.
    destruct (abs =? 0) eqn:Z0; cbn [negb andb].
    + assert (abs = 0) as -> by lia.
      assert (V : (if rel then u8 (o + 1) else u8 (o - 1)) = (if rel then o + 1 else o - 1) mod 256) by (destruct rel; reflexivity). rewrite V. clear V.
      set (v := if rel then o + 1 else o - 1). assert (Rv : -1 <= v <= 256) by (subst v; destruct rel; lia).
      assert (Sp : speed_target o 0 rel = Some v) by (subst v; unfold speed_target; cbn; destruct rel; reflexivity).
      destruct ((v mod 256 <? 1) || (v mod 256 >? 4)) eqn:B.
      * assert (~ 1 <= v <= 4) by (intros X; rewrite Z.mod_small in B by lia; lia).
        split; [intros a E; cbn in E; injection E as <-; exists "FanSpeed"%string; splits; cbn; auto; [lia|eapply af_speed; eauto]|].
        intros n X. inversion X; subst; [congruence|]. eexists. splits; [reflexivity|reflexivity|cbn; lia|]. intros v9 a9 r9 E1 E2. injection E1 as <-. injection E2 as <- <-. reflexivity.
      * split; [intros a E; destruct (negb _); [destruct (setq _ _) as [[e|] cn]; [|destruct (f_updpoll _ _ _) as [[e|] w2]]|]; discriminate|].
        intros n X. inversion X as [| |a r v0 S0 V0| |]; subst; [congruence|]. exfalso. rewrite Sp in S0. injection S0 as <-.
        assert (v = -1 \/ v = 256 \/ v mod 256 = v) as [Y|[Y|Y]] by (destruct (Z.eq_dec v (-1)); [auto|]; destruct (Z.eq_dec v 256); [auto|]; right; right; apply Z.mod_small; lia); rewrite Y in B; [discriminate|discriminate|lia].
    + destruct rel.
      * split; [intros a E; cbn in E; injection E as <-; exists "Abs/Rel"%string; splits; cbn; auto; constructor; lia|].
        intros n X. inversion X as [|a0 Na| a0 r v S0 V0| |]; subst; [|exfalso; unfold speed_target in S0; rewrite Z0 in S0; discriminate].
        exists ArgAbsRel. splits; cbn; auto. discriminate.
      * fold (u8 abs). destruct ((u8 abs <? 1) || (u8 abs >? 4)) eqn:B.
        -- split; [intros a E; cbn in E; injection E as <-; exists "FanSpeed"%string; splits; cbn; auto; [unfold u8; lia|]|].
           { apply af_speed with (v := u8 abs); [unfold speed_target; rewrite Z0; reflexivity|lia]. }
           intros n X. inversion X; subst. eexists. splits; [reflexivity|reflexivity|cbn; unfold u8; lia|]. intros v9 a9 r9 E1 E2. injection E1 as <-. injection E2 as <- <-. rewrite Z0. reflexivity.
        -- split; [intros a E; destruct (negb _); [destruct (setq _ _) as [[e|] cn]; [|destruct (f_updpoll _ _ _) as [[e|] w2]]|]; discriminate|].
           intros n X. inversion X as [| |a r v0 S0 V0| |]; subst. exfalso. unfold speed_target in S0. rewrite Z0 in S0. injection S0 as <-. fold (u8 abs) in V0. lia.
  - unfold f_profile. fold (u8 m). destruct ((u8 m <? 1) || (u8 m >? 4)) eqn:B.
    + split; [intros a E; cbn in E; injection E as <-; exists "Mode"%string; splits; cbn; auto; constructor; fold (u8 m); lia|].
      intros n X. inversion X as [| | |m0 t0 H0|m0 t0 H0 H1]; subst; fold (u8 m) in *; [|lia]. exists ArgMode. splits; cbn; auto. discriminate.
    + fold (u8 t). destruct ((u8 t <? 15) || (u8 t >? 100)) eqn:C.
      * split; [intros a E; cbn in E; injection E as <-; exists "TargetSpeed"%string; splits; cbn; auto; constructor; fold (u8 m) (u8 t); lia|].
        intros n X. inversion X as [| | |m0 t0 H0|m0 t0 H0 H1]; subst; fold (u8 m) (u8 t) in *; [lia|]. exists ArgTargetSpeed. splits; cbn; auto. discriminate.
      * split; [|intros n X; inversion X as [| | |m0 t0 H0|m0 t0 H0 H1]; subst; fold (u8 m) (u8 t) in *; lia].
        intros a E. assert (P : exists o, profile_in (sh_prof (w_sh w)) (u8 m - 1) = Some o).
        { assert (D : u8 m = 1 \/ u8 m = 2 \/ u8 m = 3 \/ u8 m = 4) by lia. destruct D as [-> |[-> |[-> | ->]]]; eexists; reflexivity. }
        destruct P as (o & P). rewrite P in E. destruct (negb _); [destruct (fprofile _ _ _) as [[e|] cn]|]; discriminate.
Qed.

(** C102 *)
Lemma type_ok io e : texts_ok io -> bytes_ok (srv_type io e).
Proof.
  intros T. assert (A : ascii_text (str "*errors.errorString")) by ascii. destruct (ascii_utf8s _ A) as [B _]. destruct e as [[]|]; cbn [srv_type]; auto.
Qed.
Lemma text_bytes io e : texts_ok io -> bytes_ok (srv_text io e).
Proof.
  intros T. destruct e as [[]|]; cbn [srv_text err_text]; auto; match goal with |- bytes_ok ?s => assert (A : ascii_text s) by ascii; apply (ascii_utf8s _ A) end.
Qed.
Lemma internal_good io ty q e : texts_ok io -> texts_ok ty -> good (rpc_error io ty q (Internal e)).
Proof.
  intros T T'. cbn [rpc_error]. unfold good. cbn [ge_code ge_msg ge_meta]. splits.
  - exists CInternal. reflexivity.
  - apply text_bytes. exact T.
  - destruct q; constructor; [|constructor]. split; [|apply type_ok; exact T']. cbn [fst]. assert (A : ascii_text (str "cause")) by ascii. apply (ascii_utf8s _ A).
  - destruct q; cbn; lia.
Qed.
Lemma marshal_good m pb : bytes_ok m -> good (marshalError m pb).
Proof.
  intros B. unfold marshalError, good. cbn [ge_code ge_msg ge_meta].
  assert (X : forall s, ascii_text s -> bytes_ok s) by (intros s A; apply (ascii_utf8s _ A)). splits.
  - exists CInternal. reflexivity.
  - apply bytes_app. split; [destruct pb; apply X; ascii|]. apply bytes_app. split; [apply X; ascii|exact B].
  - constructor; [|constructor]. split; apply X; ascii.
  - cbn. lia.
Qed.
Lemma fault_named ip st io ty mt pb t w q : texts_ok io -> texts_ok ty -> bytes_ok mt -> idle w ->
  0 <= CurrentMode (sh_prof (w_sh w)) < 256 -> args_ok q -> (forall c, q <> FlushCacheR c) ->
  exists r w', run (handle q) w = (RDone r, w') /\
    let seen := option_map (client_error ip st) (reply_error io ty mt pb t q r) in
    forall n,
      (at_fault (CurrentMode (sh_prof (w_sh w))) q n ->
         w' = w /\ exists m, seen = Some (mkGerror (str "invalid_argument") (str n ++ str " " ++ m) [(str "argument", str n)])) /\
      (forall m d, seen = Some (mkGerror (str "invalid_argument") m ((str "argument", str n) :: d)) ->
         at_fault (CurrentMode (sh_prof (w_sh w))) q n).
Proof.
  intros T T' B I M A NF. destruct (run_rpc q w I NF) as [R _]. destruct (reply_faults w q M A NF) as [F1 F2].
  exists (fst (f_rpc q w)), (snd (f_rpc q w)). split; [exact R|]. cbv zeta. intros n. split.
  - intros X. destruct (F2 n X) as (a & E & N & Fi & _). rewrite E. cbn [fst snd reply_error option_map]. split; [reflexivity|].
    rewrite invalid_client by exact Fi. cbn [rpc_error]. rewrite N. exists (arg_text a). reflexivity.
  - intros m d S.
    assert (K : forall g, good g -> ge_code g = str "internal" -> Some (client_error ip st g) <> Some (mkGerror (str "invalid_argument") m ((str "argument", str n) :: d))).
    { intros g G C E. injection E as E. pose proof (delivered_code _ _ (client_delivered ip st g G)) as D. rewrite E, C in D. discriminate. }
    destruct (fst (f_rpc q w)) as [ | | | | | | | | | |[a|e]] eqn:Er; cbn [reply_error option_map] in S;
      try (destruct (marshal _); cbn [option_map] in S; [discriminate|]; destruct (K (marshalError mt pb) (marshal_good mt pb B) eq_refl S)).
    + destruct (F1 a eq_refl) as (k & N & Fi & X). rewrite invalid_client in S by exact Fi. cbn [rpc_error] in S. injection S as _ S _.
      rewrite N in S. assert (k = n) as <-; [|exact X]. apply str_inj in S. exact S.
    + destruct (K _ (internal_good io ty q e T T') eq_refl S).
Qed.

(** C103 *)
Lemma speed_named ip st io ty mt pb t w abs rel : idle w -> 0 <= CurrentMode (sh_prof (w_sh w)) < 256 -> u32_ok abs ->
  at_fault (CurrentMode (sh_prof (w_sh w))) (SetFanSpeedR abs rel) "FanSpeed" ->
  0 <= asked (CurrentMode (sh_prof (w_sh w))) abs rel <= 255 ->
  exists r n, run (handle (SetFanSpeedR abs rel)) w = (RDone r, w) /\ decimal n (asked (CurrentMode (sh_prof (w_sh w))) abs rel) /\
    option_map (client_error ip st) (reply_error io ty mt pb t (SetFanSpeedR abs rel) r) =
      Some (mkGerror (str "invalid_argument") (str "FanSpeed value '" ++ n ++ str "' out of range") [(str "argument", str "FanSpeed")]).
Proof.
  intros I M A X V. assert (NF : forall c, SetFanSpeedR abs rel <> FlushCacheR c) by discriminate.
  destruct (run_rpc _ w I NF) as [R _]. destruct (reply_faults w (SetFanSpeedR abs rel) M A NF) as [_ F2]. destruct (F2 _ X) as (a & E & N & Fi & Ev). rewrite E in R.
  assert (K : exists v, a = ArgFanSpeed v) by (destruct a; try discriminate N; eauto). destruct K as (v & ->).
  rewrite (Ev v abs rel eq_refl eq_refl) in *. rewrite Z.mod_small in * by lia.
  exists (RespErr (InvalidArgument (ArgFanSpeed (asked (CurrentMode (sh_prof (w_sh w))) abs rel)))), (itoa (asked (CurrentMode (sh_prof (w_sh w))) abs rel)).
  split; [exact R|]. split; [left; split; [lia|]; apply itoa_int; lia|]. cbn [reply_error option_map]. rewrite invalid_client by exact Fi.
  cbn [rpc_error arg_name arg_text]. f_equal.
Qed.

Lemma speed_quoted ip st io ty mt pb t w abs rel : idle w -> 0 <= CurrentMode (sh_prof (w_sh w)) < 256 -> u32_ok abs ->
  at_fault (CurrentMode (sh_prof (w_sh w))) (SetFanSpeedR abs rel) "FanSpeed" ->
  exists r n, run (handle (SetFanSpeedR abs rel)) w = (RDone r, w) /\ decimal n (asked (CurrentMode (sh_prof (w_sh w))) abs rel mod 256) /\
    option_map (client_error ip st) (reply_error io ty mt pb t (SetFanSpeedR abs rel) r) =
      Some (mkGerror (str "invalid_argument") (str "FanSpeed value '" ++ n ++ str "' out of range") [(str "argument", str "FanSpeed")]).
Proof.
  intros I M A X. assert (NF : forall c, SetFanSpeedR abs rel <> FlushCacheR c) by discriminate.
  destruct (run_rpc _ w I NF) as [R _]. destruct (reply_faults w (SetFanSpeedR abs rel) M A NF) as [_ F2]. destruct (F2 _ X) as (a & E & N & Fi & Ev). rewrite E in R.
  assert (K : exists v, a = ArgFanSpeed v) by (destruct a; try discriminate N; eauto). destruct K as (v & ->).
  rewrite (Ev v abs rel eq_refl eq_refl) in *. pose proof (Z.mod_pos_bound (asked (CurrentMode (sh_prof (w_sh w))) abs rel) 256 ltac:(lia)) as B.
  exists (RespErr (InvalidArgument (ArgFanSpeed (asked (CurrentMode (sh_prof (w_sh w))) abs rel mod 256)))), (itoa (asked (CurrentMode (sh_prof (w_sh w))) abs rel mod 256)).
  split; [exact R|]. split; [left; split; [lia|]; apply itoa_int; lia|]. cbn [reply_error option_map]. rewrite invalid_client by exact Fi.
  cbn [rpc_error arg_name arg_text]. f_equal.
Qed.

(** C104 *)
Lemma known_text io e n : In (e, n) known_errors -> srv_text io e = str n /\ (forall ty, srv_type ty e = str "*errors.errorString").
Proof.
  unfold known_errors. cbn [In]. intros I. repeat (destruct I as [I|I]; [injection I as <- <-; split; reflexivity|]). destruct I.
Qed.
Lemma known_ascii e n : In (e, n) known_errors -> ascii_text (str n) /\ len (str n) <= 100.
Proof.
  unfold known_errors. cbn [In]. intros I. repeat (destruct I as [I|I]; [injection I as _ <-; split; [ascii|vm_compute; congruence]|]). destruct I.
Qed.
Lemma known_or_io e : (exists n, In (e, n) known_errors) \/ exists k, e = LibErr (ErrIO k).
Proof. destruct e as [[]|]; try (left; eexists; cbn; tauto). right. eauto. Qed.
Lemma cause_all (P : list byte * list byte -> Prop) q s : P (str "cause", s) -> Forall P (cause_meta q s).
Proof. intros H. destruct q; cbn [cause_meta]; auto. Qed.
Lemma internal_known ip st io ty q e n : In (e, n) known_errors ->
  client_error ip st (rpc_error io ty q (Internal e)) = mkGerror (str "internal") (str n) (cause_meta q (str "*errors.errorString")).
Proof.
  intros I. destruct (known_text io e n I) as [Ht Hy]. destruct (known_ascii e n I) as [A L]. destruct (ascii_utf8s _ A) as [B U].
  assert (E : rpc_error io ty q (Internal e) = mkGerror (str "internal") (str n) (cause_meta q (str "*errors.errorString"))) by (cbn [rpc_error]; rewrite Ht, Hy; reflexivity).
  rewrite E.
  assert (X : forall s, ascii_text s -> bytes_ok s /\ utf8 s) by (intros s As; apply (ascii_utf8s _ As)).
  apply delivered_same; [|exact U|cbn; lia| |apply client_delivered].
  1,3: unfold good; cbn [ge_code ge_msg ge_meta]; splits; auto; [exists CInternal; reflexivity|apply cause_all; split; apply X; ascii|destruct q; cbn; lia].
  cbn [ge_meta]. apply cause_all. split; apply X; ascii.
Qed.
Lemma known_distinct : forall e n e', In (e, n) known_errors -> In (e', n) known_errors -> e = e'.
Proof.
  intros e n e' I J. unfold known_errors in *. cbn [In] in I, J.
  repeat (destruct I as [I|I]; [injection I as <- <-; repeat (destruct J as [J|J]; [try discriminate J; injection J as <-; reflexivity|]); destruct J|]). destruct I.
Qed.
Lemma internal_distinct ip st io ty q e e' n n' : In (e, n) known_errors -> In (e', n') known_errors ->
  client_error ip st (rpc_error io ty q (Internal e)) = client_error ip st (rpc_error io ty q (Internal e')) -> e = e'.
Proof.
  intros I J E. rewrite (internal_known _ _ _ _ _ _ _ I), (internal_known _ _ _ _ _ _ _ J) in E. injection E as E. apply str_inj in E. subst n'.
  exact (known_distinct e n e' I J).
Qed.
Lemma internal_io ip st io ty q k : texts_ok io -> texts_ok ty ->
  delivered (mkGerror (str "internal") (io k) (cause_meta q (ty k))) (client_error ip st (rpc_error io ty q (Internal (LibErr (ErrIO k))))).
Proof. intros T T'. exact (client_delivered ip st _ (internal_good io ty q (LibErr (ErrIO k)) T T')). Qed.

(** C105 *)
Lemma split_slash a b : split (a ++ slash :: b) = split a ++ split b.
Proof.
  induction a as [|c a IH]; cbn [app split].
  - pose proof (split_nonempty b). destruct (split b); [congruence|]. rewrite Z.eqb_refl. reflexivity.
  - rewrite IH. pose proof (split_nonempty a). destruct (split a) as [|p ps]; [congruence|]. cbn [app]. destruct (c =? slash); reflexivity.
Qed.
Lemma split_free m : ~ In slash m -> split m = [m].
Proof.
  induction m as [|c m IH]; intros N; [reflexivity|]. cbn [split]. rewrite IH by (intros I; apply N; right; exact I).
  replace (c =? slash) with false; [reflexivity|]. symmetry. apply Z.eqb_neq. intros ->. apply N. left. reflexivity.
Qed.
Lemma parse_two p s m : ~ In slash s -> ~ In slash m -> parseTwirpPath (p ++ slash :: s ++ slash :: m) = (p, s, m).
Proof.
  intros Ss M. unfold parseTwirpPath. rewrite !split_slash, (split_free s Ss), (split_free m M). cbn [app]. pose proof (join_split p) as J.
  rewrite app_length. cbn [List.length]. set (n := List.length (split p)) in *. replace (Nat.ltb (n + 2) 2) with false.
  - replace (n + 2 - 2)%nat with n by lia. replace (n + 2 - 1)%nat with (S n) by lia.
    rewrite firstn_app, !app_nth2 by (fold n; lia). fold n. rewrite Nat.sub_diag. replace (S n - n)%nat with 1%nat by lia. subst n. rewrite firstn_all. cbn [firstn nth]. rewrite app_nil_r, J. reflexivity.
  - symmetry. apply Nat.ltb_ge. lia.
Qed.
Lemma parse_only r p s m : s <> [] -> parseTwirpPath (slash :: r) = (p, s, m) -> slash :: r = p ++ slash :: s ++ slash :: m /\ ~ In slash s /\ ~ In slash m.
Proof.
  intros Ne. remember (slash :: r) as path eqn:Ep. unfold parseTwirpPath. destruct (Nat.ltb _ 2) eqn:L; [intros H; injection H as <- <- <-; congruence|]. intros H. injection H as H1 H2 H3.
  apply Nat.ltb_ge in L. pose proof (two_last (split path) [] L) as T. rewrite H2, H3 in T.
  pose proof (split_slash_free path) as F. rewrite T in F. apply Forall_app in F as [_ F].
  assert (X : forall l, Forall (fun c => c <> slash) l -> ~ In slash l) by (intros l Fl I; rewrite Forall_forall in Fl; exact (Fl slash I eq_refl)).
  pose proof (Forall_inv F) as Fs. pose proof (Forall_inv (Forall_inv_tail F)) as Fm. split; [|split; auto].
  assert (J := join_split path). rewrite T, join_app in J; [|intros E0|discriminate].
  - rewrite H1 in J. symmetry. rewrite join_cons in J by discriminate. exact J.
  - rewrite E0 in T. cbn [app] in T. rewrite Ep in T. cbn [split] in T. pose proof (split_nonempty r). destruct (split r); [congruence|]. rewrite Z.eqb_refl in T. injection T as T _ _. subst s. congruence.
Qed.

Lemma refused_explained ip ul uj h a t : bytes_ok (h_method h) -> bytes_ok (h_path h) -> bytes_ok (h_ctype h) -> ascii (h_ctype h) ->
  front ul uj h = Answer a -> r_body a = ErrorJson t ->
  exists g, refusal_error ip ul uj h = Some g /\ explains h t g /\ good g /\ utf8 (ge_msg g) /\ http_status (ge_code g) = r_status a.
Proof.
  intros Bm Bp Bc As F Bt. pose proof (content_type ul _ As) as C. unfold pb_type, js_type in C.
  assert (X : forall s, ascii_text s -> utf8 s /\ bytes_ok s) by (intros s A; destruct (ascii_utf8s _ A); auto).
  assert (Y : forall a b, utf8 a /\ bytes_ok a -> utf8 b /\ bytes_ok b -> utf8 (a ++ b) /\ bytes_ok (a ++ b)).
  { intros x y [? ?] [? ?]. split; [apply utf8_app; auto|apply bytes_app; auto]. }
  unfold front in F. destruct (beq (cleanPath (h_path h)) (h_path h)) eqn:Cl; cbn [negb] in F; [|injection F as <-; discriminate].
  destruct (hasPrefix ComfoPathPrefix (h_path h)) eqn:Pr; [|injection F as <-; discriminate].
  apply has_prefix in Pr. destruct Pr as (rest & Pr).
  assert (Ro : exists r, h_path h = slash :: r) by (rewrite Pr; eexists; reflexivity). destruct Ro as (r & Ro).
  assert (BR : forall msg, utf8 msg /\ bytes_ok msg -> route_fault h msg -> a = writeError TBadRoute ->
    exists g, Some (badRouteError msg h) = Some g /\ explains h t g /\ good g /\ utf8 (ge_msg g) /\ http_status (ge_code g) = r_status a).
  { intros msg [U O] RF ->. cbn in Bt. injection Bt as <-. eexists. split; [reflexivity|]. unfold badRouteError. split; [|split; [|split; auto]].
    - split; [reflexivity|]. cbn [ge_msg ge_meta]. split; [exact RF|reflexivity].
    - unfold good. cbn [ge_code ge_msg ge_meta]. splits; auto; [exists CBadRoute; reflexivity|]. constructor; [|constructor].
      split; cbn [fst snd]; [apply X; ascii|]. apply bytes_app. split; auto. apply bytes_cons; [unfold byte_ok; lia|auto]. }
  assert (Q : forall s, bytes_ok s -> literal (quote ip s) s /\ utf8 (quote ip s) /\ bytes_ok (quote ip s)).
  { intros s B. split; [apply quote_literal; auto|apply quote_text; auto]. }
  unfold dispatch in F. unfold refusal_error.
  destruct (beq (h_method h) (str "POST")) eqn:M; cbn [negb] in *.
  2:{ injection F as F. apply BR; [|apply rf_method; [apply beq_neq; exact M|apply Q; exact Bm]|congruence].
      apply Y; [apply X; ascii|]. apply Y; [apply Q; exact Bm|apply X; ascii]. }
  apply beq_eq in M. destruct (parseTwirpPath (h_path h)) as [[p s] m] eqn:P.
  assert (NoPath : (forall p0 m0, h_path h = p0 ++ str "/comfo.api.Comfo/" ++ m0 -> ~ In 47 m0 -> (p0, str "comfo.api.Comfo", m0) = (p, s, m))).
  { intros p0 m0 E N. rewrite <- P, E. symmetry. apply (parse_two p0 (str "comfo.api.Comfo") m0); [|exact N].
    intros I. vm_compute in I. repeat (destruct I as [I|I]; [discriminate|]). destruct I. }
  assert (Un : forall n, addressed h n -> p = str "/twirp" /\ s = str "comfo.api.Comfo" /\ m = str n).
  { intros n (_ & Sv & E). destruct (path_of n Sv) as (_ & _ & T). rewrite <- E, P in T. injection T as -> -> ->. auto. }
  assert (NH : forall n, utf8 (str "no handler for path " ++ quote ip n) /\ bytes_ok (str "no handler for path " ++ quote ip n) \/ ~ bytes_ok n).
  { intros n. destruct (Forall_dec byte_ok (fun x => ltac:(unfold byte_ok; destruct (Z_le_dec 0 x); destruct (Z_lt_dec x 256); [left|right|right|right]; lia)) n); [|right; auto].
    left. apply Y; [apply X; ascii|apply Q; auto]. }
  destruct (NH (h_path h)) as [NH'|NH']; [|destruct (NH' Bp)]. clear NH.
  destruct (beq s (str "comfo.api.Comfo")) eqn:S0; cbn [negb] in *.
  2:{ injection F as F. apply beq_neq in S0. apply BR; [exact NH'| |congruence]. apply rf_path; auto; [| |apply Q; exact Bp].
      - intros n A. apply Un in A. tauto.
      - intros p0 m0 E N. apply NoPath in E; auto. congruence. }
  apply beq_eq in S0. subst s.
  destruct (beq p (str "/twirp")) eqn:P0; cbn [negb] in *.
  2:{ injection F as F. apply beq_neq in P0. rewrite Ro in P. apply parse_only in P; [|discriminate]. rewrite <- Ro in P. destruct P as (E & _ & N).
      assert (Bq : bytes_ok p) by (rewrite E in Bp; apply bytes_app in Bp; apply Bp).
      rewrite (quote_plain ip (str "/twirp")) by (vm_compute; repeat (apply Forall_cons; [repeat split; congruence|]); apply Forall_nil).
      change (34 :: str "/twirp" ++ [34]) with (str """/twirp"""). 
      replace (str ", expected " ++ str """/twirp""" ++ str ", on path " ++ quote ip (h_path h)) with (str ", expected ""/twirp"", on path " ++ quote ip (h_path h)) by reflexivity.
      apply BR; [|apply (rf_prefix h p m); [exact M|exact E|exact P0|exact N|apply Q; exact Bq|apply Q; exact Bp]|congruence].
      apply Y; [apply X; ascii|]. apply Y; [apply Q; exact Bq|]. apply Y; [apply X; ascii|apply Q; exact Bp]. }
  apply beq_eq in P0. subst p.
  destruct (find_route m rt_routes) as [ro|] eqn:Fr.
  2:{ injection F as F. apply BR; [exact NH'| |congruence]. apply rf_path; auto; [| |apply Q; exact Bp].
      - intros n A. pose proof A as (_ & Sv & _). apply Un in A. destruct A as (_ & _ & ->). destruct (route_of n Sv) as (ro & R & _). congruence.
      - intros p0 m0 E N. apply NoPath in E; auto. congruence. }
  destruct (find_route_served _ _ Fr) as (n & Sv & ->).
  assert (Ad : addressed h n) by (split; auto; split; auto; rewrite str_app; apply parse_path; exact P).
  destruct (contentType ul (h_ctype h)) as [pb|] eqn:Ct.
  2:{ injection F as F. apply BR; [| |congruence].
      - apply Y; [apply X; ascii|apply Q; exact Bc].
      - destruct C. eapply rf_type; eauto. apply Q. exact Bc. }
  destruct (if pb then _ else _) eqn:D; [discriminate|]. injection F as <-. cbn in Bt. injection Bt as <-.
  eexists. split; [reflexivity|]. split; [|split; [|split; [|reflexivity]]].
  - split; [reflexivity|]. unfold malformedRequestError. cbn [ge_msg ge_meta]. split; [reflexivity|]. destruct pb; destruct C; [left|right]; auto.
  - unfold malformedRequestError, good. cbn [ge_code ge_msg ge_meta]. splits; auto; [exists CMalformed; reflexivity|destruct pb; apply X; ascii].
  - cbn [malformedRequestError ge_msg]. destruct pb; apply X; ascii.
Qed.
Lemma not_refused ip ul uj h pb q : front ul uj h = Call pb q -> refusal_error ip ul uj h = None.
Proof.
  unfold front, dispatch, refusal_error. intros F. destruct (negb (beq (cleanPath _) _)); [discriminate|]. destruct (hasPrefix _ _); [|discriminate].
  destruct (negb _); [discriminate|]. destruct (parseTwirpPath _) as [[p s] m]. destruct (negb _); [discriminate|]. destruct (negb _); [discriminate|].
  destruct (find_route _ _); [|discriminate]. destruct (contentType _ _); [|discriminate]. destruct (if b then _ else _); [reflexivity|discriminate].
Qed.
Lemma refused_told ip st ul uj h a t : bytes_ok (h_method h) -> bytes_ok (h_path h) -> bytes_ok (h_ctype h) -> ascii (h_ctype h) ->
  front ul uj h = Answer a -> r_body a = ErrorJson t ->
  exists g, refusal_error ip ul uj h = Some g /\ fst (error_response g) = r_status a /\ explains h t g /\ delivered g (client_error ip st g) /\
    (len (ge_msg g) <= 1000000 -> ge_msg (client_error ip st g) = ge_msg g).
Proof.
  intros Bm Bp Bc As F Bt. destruct (refused_explained ip ul uj h a t Bm Bp Bc As F Bt) as (g & R & E & G & U & H). exists g.
  pose proof (client_delivered ip st g G) as D. splits; auto. intros L. destruct D as (_ & (m & Cm & Mm) & _).
  assert (m = ge_msg g) as ->; [|apply (mends_only _ _ U Mm)].
  destruct Cm as [[_ ->]|(r & Er & Ln & Nr)]; [reflexivity|]. rewrite Er, len_app in L. destruct r; [congruence|]. unfold len in L, Ln. cbn [List.length] in L. lia.
Qed.

(** C107 *)
Lemma response_told ip st status location body : 100 <= status <= 999 -> bytes_ok (st status) -> bytes_ok location -> bytes_ok body ->
  told status (st status) location body (error_of_response ip st status location body).
Proof.
  intros Rs Bs Bl Bb. unfold error_of_response. cbv zeta.
  assert (IR : isHTTPRedirect status = (300 <=? status) && (status <? 400)) by (unfold isHTTPRedirect; lia).
  destruct (proxy_some status) as (c & Pc). pose proof (proxy_is _ _ Pc) as Pi.
  assert (De : decimal (itoa status) status) by (left; split; [lia|]; apply itoa_int; lia).
  assert (Pm : forall m, proxy_text status (st status) location m -> (300 <= status < 400 \/ forall k, ~ error_body body k) ->
    told status (st status) location body (intermediaryError status m (if isHTTPRedirect status then location else body))).
  { intros m T Hs. unfold intermediaryError. rewrite Pi. apply to_proxy; auto. exists (itoa status). split; [exact De|]. rewrite IR.
    destruct ((300 <=? status) && (status <? 400)); apply Permutation_refl. }
  assert (Tx : proxy_text status (st status) location
    (if isHTTPRedirect status then str "unexpected HTTP status code " ++ (itoa status ++ 32 :: quote ip (st status)) ++ str " received, Location=" ++ quote ip location
     else str "Error from intermediary with HTTP status code " ++ itoa status ++ 32 :: quote ip (st status))).
  { exists (itoa status), (quote ip (st status)), (quote ip location). splits; auto using quote_literal. rewrite IR.
    destruct ((300 <=? status) && (status <? 400)); [|reflexivity]. rewrite <- !app_assoc. reflexivity. }
  destruct (isHTTPRedirect status) eqn:Re; [apply Pm; [exact Tx|left; lia]|].
  assert (NB : (forall e, decodeError body = Some e -> ge_code e = []) -> forall k, ~ error_body body k).
  { intros Hn k K. apply error_decodes in K; auto. destruct K as [K1 K2]. destruct (decodeError body) as [e|] eqn:D; [|discriminate]. cbn in K2. injection K2 as <-. apply K1. apply Hn. reflexivity. }
  destruct (decodeError body) as [e|] eqn:D; [|apply Pm; [exact Tx|right; apply NB; discriminate]].
  destruct (beq (ge_code e) []) eqn:Z; [apply Pm; [exact Tx|right; apply NB; intros e' E; injection E as <-; apply beq_eq; exact Z]|].
  apply beq_neq in Z. destruct e as [k m d]. cbn [ge_code] in *. destruct (proj1 (reads_error body k m d Bb) (conj D Z)) as (_ & l & O & S).
  assert (NR : ~ 300 <= status < 400) by lia.
  destruct (isValidErrorCode k) eqn:V; cbn [negb].
  - apply valid_code in V. destruct V as [V|(k' & I & ->)]; [congruence|]. eapply to_error; eauto.
  - eapply to_odd; eauto. intros k' I ->. assert (isValidErrorCode (str k') = true) by (apply valid_code; eauto). congruence.
Qed.
Lemma response_code ip st status location body q : status <> 200 ->
  exists i, go_result q (of_http status body) = GErr (ge_code (error_of_response ip st status location body)) i.
Proof.
  intros N. unfold go_result, errorFromResponse, of_http, error_of_response, intermediaryError. cbn [gr_status gr_err]. apply Z.eqb_neq in N. rewrite N. cbn [negb].
  destruct (proxy_some status) as (c & Pc). rewrite (proxy_is _ _ Pc).
  destruct (isHTTPRedirect status); [eexists; reflexivity|]. destruct (decodeError body) as [e|]; cbn [option_map]; [|eexists; reflexivity].
  destruct (beq (ge_code e) []); [eexists; reflexivity|]. destruct (negb _); eexists; reflexivity.
Qed.

(** C102: [reply_error] is the error of [respond]. *)
Lemma reply_sent io ty mt pb t q r :
  match reply_error io ty mt pb t q r with
  | Some g => exists e, respond pb t r = writeError e /\ ge_code g = code_name (code_of e) /\ fst (error_response g) = r_status (respond pb t r)
  | None => r_status (respond pb t r) = 200
  end.
Proof.
  destruct r as [ | | | | | | | | | |e]; unfold reply_error, respond;
    try (destruct (marshal _); [reflexivity|exists TMarshal; splits; reflexivity]).
  exists (TRpc e). destruct e; splits; reflexivity.
Qed.

(** C103: speeds that do not fit a byte *)
Lemma misquoted_speed ip st io ty mt pb t : exists w r n, idle w /\ CurrentMode (sh_prof (w_sh w)) = 2 /\
  at_fault 2 (SetFanSpeedR 261 false) "FanSpeed" /\ run (handle (SetFanSpeedR 261 false)) w = (RDone r, w) /\
  option_map (client_error ip st) (reply_error io ty mt pb t (SetFanSpeedR 261 false) r) =
    Some (mkGerror (str "invalid_argument") (str "FanSpeed value '" ++ n ++ str "' out of range") [(str "argument", str "FanSpeed")]) /\
  decimal n 5 /\ ~ decimal n (asked 2 261 false).
Proof.
  exists (started []), (RespErr (InvalidArgument (ArgFanSpeed 5))), [53].
  assert (I : idle (started [])) by (vm_compute; reflexivity).
  split; [exact I|]. split; [vm_compute; reflexivity|]. splits.
  - apply (af_speed 2 261 false 5); [reflexivity|lia].
  - destruct (run_rpc (SetFanSpeedR 261 false) (started []) I ltac:(discriminate)) as [R _]. rewrite R. vm_compute. reflexivity.
  - cbn [reply_error option_map]. rewrite invalid_client by (cbn; lia). reflexivity.
  - left. split; [lia|]. split; [right; exists 53, []; split; [reflexivity|]; split; [lia|constructor]|reflexivity].
  - intros [(_ & _ & E)|(E & _)]; vm_compute in E; discriminate.
Qed.
Lemma misquoted_down ip st io ty mt pb t : exists w r n, idle w /\ CurrentMode (sh_prof (w_sh w)) = 0 /\
  at_fault 0 (SetFanSpeedR 0 false) "FanSpeed" /\ run (handle (SetFanSpeedR 0 false)) w = (RDone r, w) /\
  option_map (client_error ip st) (reply_error io ty mt pb t (SetFanSpeedR 0 false) r) =
    Some (mkGerror (str "invalid_argument") (str "FanSpeed value '" ++ n ++ str "' out of range") [(str "argument", str "FanSpeed")]) /\
  decimal n 255 /\ ~ decimal n (asked 0 0 false).
Proof.
  exists (server (script []) init_shared), (RespErr (InvalidArgument (ArgFanSpeed 255))), [50; 53; 53].
  assert (I : idle (server (script []) init_shared)) by (vm_compute; reflexivity).
  split; [exact I|]. split; [vm_compute; reflexivity|]. splits.
  - apply (af_speed 0 0 false (-1)); [reflexivity|lia].
  - destruct (run_rpc (SetFanSpeedR 0 false) (server (script []) init_shared) I ltac:(discriminate)) as [R _]. rewrite R. vm_compute. reflexivity.
  - cbn [reply_error option_map]. rewrite invalid_client by (cbn; lia). reflexivity.
  - left. split; [lia|]. split; [right; exists 50, [53; 53]; split; [reflexivity|]; split; [lia|repeat constructor; unfold dig; lia]|reflexivity].
  - intros [(E & _)|(_ & i & E & _)]; [vm_compute in E; congruence|discriminate].
Qed.
