(** From clients of any kind to the unit. *)
From Coq Require Import String.
From Verif Require Import ProofBase Proto SpecProto SpecFrame SpecConn SpecLayout SpecUnit Conn Proc Lib Server SpecServer ServerLemmas
  Client Wire Twirp ClientHttp SpecWire SpecTwirp TwirpProofs TwirpReply TwirpServer Machine SpecMachine MachineBase MachineInv MachineLive
  MachineFlush MachineClaims HttpMachine SpecHttp HttpProofs SpecFresh SpecTrack TrackClaims StartClaims HttpSplit EveryRet SpecClient SpecEnd EndProofs
  GoClient SpecGo GoUrl GoProofs SpecJson SpecJsonReply JsonRead JsonWrite JsonGoProofs HttpGoProofs SpecAny.

Section Any.
Variables (ul : list byte -> list byte) (ftoa : f32 -> list byte) (sp : bool).
Notation C := (calls ul unjson).
Notation nm := (HttpProofs.num ul unjson).

(** The code for an error of the server. *)
Definition code_for (e : rpc_err) : list byte := match e with InvalidArgument _ => str "invalid_argument" | Internal _ => str "internal" end.
(** What is heard of a reply. *)
Definition hearing (r : resp) (x : heard) : Prop :=
  (readable r -> match r with RespErr e => x = Error (code_for e) | _ => x = Told r end) /\ (~ readable r -> x = Error (str "internal")).
Lemma hearing_told r x : readable r \/ ~ readable r -> hearing r x -> match x with Told r' => r' = r /\ readable r /\ forall e, r <> RespErr e
  | Error c => (exists e, r = RespErr e /\ c = code_for e) \/ (~ readable r /\ c = str "internal") end.
Proof.
  intros [R|R] (H1 & H2).
  - specialize (H1 R). destruct r; subst x; splits; auto; try discriminate; eauto.
  - specialize (H2 R). subst x. auto.
Qed.
Lemma wrote_down hs c clk xs mh m i k q : exec xs (serve_http ul unjson hs c clk) = Some mh -> legal mh -> sim ul unjson hs mh m ->
  exec (map (renumber ul unjson hs) xs) (serve (C hs) c clk) = Some m -> wrote hs i k q ->
  is_call ul unjson hs i (nm hs i) /\ nth_error (C hs) (nm hs i) = Some q /\ args_ok q /\
  forall x, ended ftoa sp hs mh i k q x -> exists r, answered m (nm hs i) r /\ hearing r x.
Proof.
  intros E Lg S E' (h & t & N & Ar & Ti & Wr).
  assert (G : forall s hst base, base_for s hst base ->
    (go_send base None q = SentTo (str s) hst h -> k = GoPb -> is_call ul unjson hs i (nm hs i) /\ nth_error (C hs) (nm hs i) = Some q /\ args_ok q /\
       forall x, ended ftoa sp hs mh i k q x -> exists r, answered m (nm hs i) r /\ hearing r x) /\
    (forall sp0, go_json_send sp0 base None q = SentTo (str s) hst h -> k = GoJson sp0 ->
       is_call ul unjson hs i (nm hs i) /\ nth_error (C hs) (nm hs i) = Some q /\ args_ok q /\
       forall x, ended ftoa sp hs mh i k q x -> exists r, answered m (nm hs i) r /\ hearing r x)).
  { intros s hst base B. destruct (http_go ul ftoa sp hs c clk xs mh E Lg) as (m' & E'' & _ & H). rewrite E' in E''. injection E'' as <-.
    destruct (H i q h t s hst base N B Ar Ti) as (H1 & H2). clear H. split.
    - intros Sd ->. destruct (H1 Sd) as (j & Ic & Nj & Hj). pose proof Ic as (Ej & _). fold (nm hs i) in Ej. subst j. splits; auto.
      intros x (h' & t' & a & N' & An & He). rewrite N in N'. injection N' as <- <-. destruct (Hj a An) as (r & Ax & R1 & R2).
      exists r. split; auto. split; intros R; [specialize (R1 R); clear R2|specialize (R2 R); clear R1]; inversion He as [r0 Hr|c0 n0 Hr|s0 r0 Hr|s0 c0 n0 Hr| | |]; subst.
      + rewrite Hr in R1. destruct r as [ | | | | | | | | | |[]]; try discriminate; injection R1 as ->; reflexivity.
      + rewrite Hr in R1. destruct r as [ | | | | | | | | | |[]]; try discriminate; injection R1 as -> ->; reflexivity.
      + congruence.
      + congruence.
    - intros sp0 Sd ->. destruct (H2 sp0 Sd) as (j & Ic & Nj & Hj). pose proof Ic as (Ej & _). fold (nm hs i) in Ej. subst j. splits; auto.
      intros x (h' & t' & a & N' & An & He). rewrite N in N'. injection N' as <- <-. destruct (Hj a An) as (r & Ax & R1 & R2).
      exists r. split; auto. split; intros R; [specialize (R1 R); clear R2|specialize (R2 R); clear R1]; inversion He as [r0 Hr|c0 n0 Hr|s0 r0 Hr|s0 c0 n0 Hr| | |]; subst.
      + rewrite Hr in R1. destruct r as [ | | | | | | | | | |[]]; try discriminate; injection R1 as ->; reflexivity.
      + rewrite Hr in R1. destruct r as [ | | | | | | | | | |[]]; try discriminate; injection R1 as -> ->; reflexivity.
      + congruence.
      + congruence. }
  destruct k as [|sp0|].
  - destruct Wr as (s & hst & base & B & Sd). destruct (G _ _ _ B) as (G1 & _). auto.
  - destruct Wr as (s & hst & base & B & Sd). destruct (G _ _ _ B) as (_ & G2). eauto.
  - clear G. destruct (sim_client ul unjson hs c clk xs mh m i q h t E Lg S E' N Wr Ar Ti) as (Ic & Nq & H). splits; auto.
    intros x (h' & t' & a & N' & An & He). rewrite N in N'. injection N' as <- <-. destruct (H a An) as (r & Ax & R1 & R2).
    exists r. split; auto. split; intros R; [specialize (R1 R); clear R2|specialize (R2 R); clear R1]; inversion He as [| | | |r0 Hr|e0 Hr|Hr]; subst.
    + rewrite Hr in R1. destruct r; cbn in R1; congruence.
    + rewrite Hr in R1. destruct r as [ | | | | | | | | | |[]]; cbn in R1; try discriminate; injection R1 as ->; reflexivity.
    + rewrite Hr in R1. destruct r; discriminate.
    + congruence.
    + rewrite Hr in R2. injection R2 as ->. reflexivity.
    + congruence.
Qed.

(** What the handlers refuse. *)
Definition only_bad (q : rpc) (a : resp) : Prop :=
  (forall x, a = RespErr (InvalidArgument x) -> bad_args q \/ exists b, q = SetFanSpeedR 0 b) /\
  (bad_args q -> exists x, a = RespErr (InvalidArgument x)).
Lemma refusals q : args_ok q -> every_ret (only_bad q) (handle q).
Proof.
  assert (K : forall r, (forall x, r <> RespErr (InvalidArgument x)) -> ~ bad_args q -> only_bad q r)
    by (intros r N B; split; [intros x ->; destruct (N x); reflexivity|tauto]).
  assert (B0 : match q with SetComfortTempR _ | SetFanSpeedR _ _ | SetFanProfileR _ _ => True | _ => ~ bad_args q end)
    by (destruct q; auto; intros H; inversion H).
  intros Ar. destruct q as [| | | | | |t|a b|p v|c]; cbn [handle].
  1-6: apply every_bind; intros m; apply K; [discriminate|exact B0].
  - unfold SetComfortTemp. intros s. cbv zeta. destruct (t >? 255) eqn:T.
    + split; [intros _ _; left; constructor; lia|intros _; eauto].
    + assert (~ bad_args (SetComfortTempR t)) by (intros H; inversion H; lia).
      destruct (negb _); [|apply K; [discriminate|auto]]. apply every_lock, every_bind. intros [e|]; [apply K; [discriminate|auto]|].
      apply every_bind. intros _. apply K; [discriminate|auto].
  - unfold SetFanSpeed. apply every_lock. intros s. cbn [every_ret]. unfold modifySpeed.
    destruct (a =? 0) eqn:A0; cbn [negb andb].
    + assert (a = 0) as -> by lia.
      assert (~ bad_args (SetFanSpeedR 0 b)) by (intros H; inversion H; lia).
      assert (F : forall tgt, every_ret (only_bad (SetFanSpeedR 0 b)) (if negb (u8 tgt =? CurrentMode (sh_prof s)) then
        do e <- SetSpeed (u8 tgt); match e with Some e => Ret (RespErr (Internal (LibErr e))) | None =>
          do e <- UpdatePoll 10 (u8 tgt); match e with Some e => Ret (RespErr (Internal e)) | None => do _ <- Update CProf true;
            Ret (RespSpeed true (u32 (CurrentMode (sh_prof s))) (u32 tgt)) end end
        else Ret (RespSpeed false (u32 (CurrentMode (sh_prof s))) (u32 tgt)))).
      { intros tgt. destruct (negb _); [|apply K; [discriminate|auto]]. apply every_bind. intros [e|]; [apply K; [discriminate|auto]|].
        apply every_bind. intros [e|]; [apply K; [discriminate|auto]|]. apply every_bind. intros _. apply K; [discriminate|auto]. }
      destruct b; (destruct (_ || _); [split; [eauto|tauto]|apply F]).
    + destruct b; [split; [intros _ _; left; apply ba_both; lia|eauto]|].
      destruct ((u8 a <? 1) || (u8 a >? 4)) eqn:R; [split; [intros _ _; left; apply ba_speed; unfold u8 in *; lia|eauto]|].
      assert (~ bad_args (SetFanSpeedR a false)) by (intros H; inversion H; unfold u8 in *; lia).
      destruct (negb _); [|apply K; [discriminate|auto]]. apply every_bind. intros [e|]; [apply K; [discriminate|auto]|].
      apply every_bind. intros [e|]; [apply K; [discriminate|auto]|]. apply every_bind. intros _. apply K; [discriminate|auto].
  - unfold SetFanProfileRPC. cbv zeta. destruct ((u8 p <? 1) || (u8 p >? 4)) eqn:P.
    { split; [intros _ _; left; constructor; unfold acceptable, u8 in *; lia|eauto]. }
    destruct ((u8 v <? 15) || (u8 v >? 100)) eqn:V.
    { split; [intros _ _; left; constructor; unfold acceptable, u8 in *; lia|eauto]. }
    assert (~ bad_args (SetFanProfileR p v)) by (intros H; inversion H; unfold acceptable, u8 in *; lia).
    apply every_lock. intros s. match goal with |- every_ret _ (match ?o with _ => _ end) => destruct o; [|exact I] end.
    destruct (negb _); [|apply K; [discriminate|auto]]. apply every_bind. intros [e|]; [apply K; [discriminate|auto]|].
    apply every_bind. intros _. apply K; [discriminate|auto].
  - unfold FlushCache. intros b. apply K; [discriminate|exact B0].
Qed.

(** Both halves of an execution, with a call in it. *)
Lemma down hs c clk lo u xs mh0 ys mh i k q x : lo <= 15 -> lined lo c u -> c_log c = [] ->
  exec xs (serve_http ul unjson hs c clk) = Some mh0 -> waits i xs -> exec ys mh0 = Some mh -> wrote hs i k q -> ended ftoa sp hs mh i k q x ->
  exists m0 m r, exec (map (renumber ul unjson hs) xs) (serve (C hs) c clk) = Some m0 /\ sim ul unjson hs mh0 m0 /\
    exec (map (renumber ul unjson hs) ys) m0 = Some m /\ legal m /\ waits (nm hs i) (map (renumber ul unjson hs) xs) /\
    exec (map (renumber ul unjson hs) (xs ++ ys)) (serve (C hs) c clk) = Some m /\
    nth_error (C hs) (nm hs i) = Some q /\ args_ok q /\ answered m (nm hs i) r /\
    match x with Told r' => r' = r /\ readable r /\ forall e, r <> RespErr e
    | Error co => (exists e, r = RespErr e /\ co = code_for e) \/ (~ readable r /\ co = str "internal") end.
Proof.
  intros Lo L Z E1 W E2 Wr En. destruct (halves _ _ _ _ _ _ _ _ _ E1 E2) as (m0 & m & E1' & S0 & E2' & S).
  pose proof (exec_both _ _ _ _ _ E1 E2) as E. pose proof (legal_http _ _ _ _ _ _ _ _ _ Lo L Z E) as Lg.
  pose proof (exec_both _ _ _ _ _ E1' E2') as E'. rewrite <- map_app in E'.
  destruct (wrote_down hs c clk _ mh m i k q E Lg S E' Wr) as (Ic & Nq & A & H). destruct (H _ En) as (r & An & He).
  assert (Lg' : legal m) by (unfold legal in *; destruct S as (G & _); rewrite <- G; exact Lg).
  pose proof (waits_renumber _ _ _ _ _ Ic _ _ _ _ (sim_start ul unjson hs c clk) E1 W) as W'.
  exists m0, m, r. splits; auto. apply hearing_told; auto.
  destruct (answer_types ul _ _ _ _ _ _ _ _ E' Lg' Nq A An) as (T & _). apply utf8_dec; auto.
Qed.

Lemma any_set hs c clk lo u xs mh0 ys mh i k q r : lo <= 15 -> lined lo c u -> c_log c = [] ->
  exec xs (serve_http ul unjson hs c clk) = Some mh0 -> waits i xs -> exec ys mh0 = Some mh ->
  wrote hs i k q -> ended ftoa sp hs mh i k q (Told r) -> modified r ->
  exists ys1 ys2 mh1 u1, ys = ys1 ++ ys2 /\ exec ys1 mh0 = Some mh1 /\ unit_in lo mh1 u1 /\ achieved u1 q r.
Proof.
  intros Lo L Z E1 W E2 Wr En Mo.
  destruct (down _ _ _ _ _ _ _ _ _ _ _ _ _ Lo L Z E1 W E2 Wr En) as (m0 & m & r' & E1' & S0 & E2' & Lg & W' & E' & Nq & A & An & -> & _).
  destruct (change_takes_effect lo _ c clk u _ m0 _ m _ q r' Lo L E1' W' E2' Nq An Mo) as (y1 & y2 & m1 & u1 & Sp & Ey & U & Ac).
  destruct (moment_up _ _ _ _ _ _ _ _ _ _ S0 E2 Sp Ey) as (z1 & z2 & mh1 & -> & _ & _ & Ez & _ & (G & _)).
  exists z1, z2, mh1, u1. splits; auto. unfold unit_in in *. rewrite G. exact U.
Qed.
Lemma any_fails hs c clk lo u xs mh0 ys mh i k q co : lo <= 15 -> lined lo c u -> c_log c = [] ->
  exec xs (serve_http ul unjson hs c clk) = Some mh0 -> waits i xs -> exec ys mh0 = Some mh ->
  wrote hs i k q -> ended ftoa sp hs mh i k q (Error co) ->
  (co = str "invalid_argument" /\ (bad_args q \/ exists b, q = SetFanSpeedR 0 b)) \/
  (co = str "internal" /\ ~ bad_args q /\ ((exists a b, q = SetFanSpeedR a b) \/ (exists t, q = SetComfortTempR t /\ 107 < t) \/ q = GetBootInfo)).
Proof.
  intros Lo L Z E1 W E2 Wr En.
  destruct (down _ _ _ _ _ _ _ _ _ _ _ _ _ Lo L Z E1 W E2 Wr En) as (m0 & m & r & E1' & S0 & E2' & Lg & W' & E' & Nq & A & An & D).
  pose proof (every_answer _ _ _ _ _ _ _ _ _ E' Nq (refusals q A) An) as (B1 & B2).
  destruct D as [(e & -> & ->)|(R & ->)].
  - destruct e as [x|x]; [left; split; eauto|right]. split; [reflexivity|]. split; [intros B; destruct (B2 B); discriminate|].
    destruct (setter_errors lo _ c clk u _ m0 _ m _ q x Lo L E1' W' E2' Nq An) as [(a & b & -> & _)|(t & -> & T1 & T2 & _)]; [eauto|].
    right. left. exists t. split; auto. cbn in A. unfold u32_ok in A. rewrite Z.mod_small in T2 by lia. auto.
  - right. split; auto. destruct r; try (destruct (R I)). split; [intros B; destruct (B2 B); discriminate|].
    destruct (answer_types ul _ _ _ _ _ _ _ _ E' Lg Nq A An) as (_ & [Rt|(e & Rt)]); [|discriminate].
    right. right. destruct q; try contradiction. reflexivity.
Qed.
Lemma any_bad hs c clk lo u xs mh0 ys mh i k q x : lo <= 15 -> lined lo c u -> c_log c = [] ->
  exec xs (serve_http ul unjson hs c clk) = Some mh0 -> waits i xs -> exec ys mh0 = Some mh ->
  wrote hs i k q -> bad_args q -> ended ftoa sp hs mh i k q x -> x = Error (str "invalid_argument").
Proof.
  intros Lo L Z E1 W E2 Wr B En.
  destruct (down _ _ _ _ _ _ _ _ _ _ _ _ _ Lo L Z E1 W E2 Wr En) as (m0 & m & r & E1' & S0 & E2' & Lg & W' & E' & Nq & A & An & D).
  pose proof (every_answer _ _ _ _ _ _ _ _ _ E' Nq (refusals q A) An) as (_ & B2). destruct (B2 B) as (y & ->).
  destruct x as [r'|co]; [destruct D as (_ & _ & D); destruct (D _ eq_refl)|].
  destruct D as [(e & [= <-] & ->)|(R & _)]; [reflexivity|destruct (R I)].
Qed.
Lemma any_get hs c clk lo u xs mh0 ys mh i k kk x : lo <= 15 -> lined lo c u -> c_log c = [] ->
  exec xs (serve_http ul unjson hs c clk) = Some mh0 -> m_wk mh0 = None -> waits i xs -> exec ys mh0 = Some mh -> telling kk ->
  wrote hs i k (getter_rpc kk) -> ended ftoa sp hs mh i k (getter_rpc kk) x ->
  exists s1 s2 n1 u1 r, xs ++ ys = s1 ++ s2 /\ exec s1 (serve_http ul unjson hs c clk) = Some n1 /\ unit_in lo n1 u1 /\ x = Told r /\ SpecTrack.shown u1 kk r.
Proof.
  intros Lo L Z E1 Wk W E2 Tk Wr En. pose proof (exec_both _ _ _ _ _ E1 E2) as E.
  destruct (down _ _ _ _ _ _ _ _ _ _ _ _ _ Lo L Z E1 W E2 Wr En) as (m0 & m & r & E1' & S0 & E2' & Lg & W' & E' & Nq & A & An & D).
  assert (Wk' : m_wk m0 = None) by (destruct S0 as (_ & Y & _); congruence).
  destruct (shows_started lo kk _ c clk u _ m0 _ m _ r Lo L Z E1' Wk' W' E2' Tk Nq An) as (s1 & s2 & n1 & u1 & Sp & Es & U & Sh).
  rewrite <- map_app in Sp.
  destruct (moment_up _ _ _ _ _ _ _ _ _ _ (sim_start ul unjson hs c clk) E Sp Es) as (z1 & z2 & mh1 & Ez0 & _ & _ & Ez & _ & (G & _)).
  exists z1, z2, mh1, u1, r. splits; auto.
  - unfold unit_in in *. rewrite G. exact U.
  - destruct x as [r'|co]; [destruct D as (-> & _); reflexivity|]. exfalso.
    destruct D as [(e & -> & _)|(R & _)]; inversion Sh; subst; destruct (R I).
Qed.

(** Read your writes, whoever writes and whoever reads. *)
Lemma any_two hs c clk lo u xs mh1 ys mh2 zs mh i j k k' q q' x y : lo <= 15 -> lined lo c u -> c_log c = [] ->
  exec xs (serve_http ul unjson hs c clk) = Some mh1 -> waits j xs -> exec ys mh1 = Some mh2 -> waits i (xs ++ ys) -> exec zs mh2 = Some mh ->
  wrote hs j k q -> ended ftoa sp hs mh2 j k q (Told y) -> wrote hs i k' q' -> ended ftoa sp hs mh i k' q' x ->
  exists xs' m1 ys' m2 zs' m i' j' r, exec xs' (serve (C hs) c clk) = Some m1 /\ waits j' xs' /\ exec ys' m1 = Some m2 /\
    waits i' (xs' ++ ys') /\ exec zs' m2 = Some m /\ nth_error (C hs) j' = Some q /\ args_ok q /\ answered m2 j' y /\
    nth_error (C hs) i' = Some q' /\ answered m i' r /\
    match x with Told r' => r' = r | Error co => (exists e, r = RespErr e) \/ ~ readable r end.
Proof.
  intros Lo L Z E1 W1 E2 W2 E3 Wj Ej Wi Ei. pose proof (exec_both _ _ _ _ _ E1 E2) as E12.
  destruct (down _ _ _ _ _ _ _ _ _ _ _ _ _ Lo L Z E1 W1 E2 Wj Ej) as (m1 & m2 & b & E1' & S1 & E2' & _ & W1' & E12' & Nj & A & Ab & -> & _).
  destruct (down _ _ _ _ _ _ _ _ _ _ _ _ _ Lo L Z E12 W2 E3 Wi Ei) as (m2' & m & r & E12'' & S2 & E3' & _ & W2' & _ & Ni & _ & Ar & D).
  rewrite E12' in E12''. injection E12'' as <-. rewrite map_app in W2'.
  exists (map (renumber ul unjson hs) xs), m1, (map (renumber ul unjson hs) ys), m2, (map (renumber ul unjson hs) zs), m, (nm hs i), (nm hs j), r.
  splits; auto. destruct x; [tauto|]. destruct D as [(e & D & _)|(D & _)]; eauto.
Qed.
Lemma any_comfort hs c clk lo u xs mh1 ys mh2 zs mh i j k k' t o t' x : lo <= 15 -> lined lo c u -> c_log c = [] ->
  exec xs (serve_http ul unjson hs c clk) = Some mh1 -> waits j xs -> exec ys mh1 = Some mh2 -> waits i (xs ++ ys) -> exec zs mh2 = Some mh ->
  wrote hs j k (SetComfortTempR t) -> ended ftoa sp hs mh2 j k (SetComfortTempR t) (Told (RespComfort true o t')) ->
  (forall t0, In (SetComfortTempR t0) (C hs) -> t0 <= 107 -> t0 = t) ->
  wrote hs i k' GetTempsRPC -> ended ftoa sp hs mh i k' GetTempsRPC x ->
  exists p, x = Told (RespTemps p) /\ f32_is (pbComfort p) t.
Proof.
  intros Lo L Z E1 W1 E2 W2 E3 Wj Ej Only Wi Ei.
  destruct (any_two _ _ _ _ _ _ _ _ _ _ _ _ _ _ _ _ _ _ _ Lo L Z E1 W1 E2 W2 E3 Wj Ej Wi Ei)
    as (xs' & m1 & ys' & m2 & zs' & m & i' & j' & r & X1 & X2 & X3 & X4 & X5 & X6 & A & X7 & X8 & X9 & D). cbn in A. unfold u32_ok in A.
  destruct (comfort_shown lo _ c clk u _ m1 _ m2 _ m _ _ t o t' r Lo L Z X1 X2 X3 X4 X5 X6 ltac:(lia) X7 ltac:(intros t0 I0 T0 T1; apply Only; auto; lia) X8 X9) as (p & -> & F).
  exists p. split; auto. destruct x; [congruence|]. destruct D as [(e & D)|D]; [discriminate|destruct (D I)].
Qed.
Lemma any_profile hs c clk lo u xs mh1 ys mh2 zs mh i j k k' p v o t' x : lo <= 15 -> lined lo c u -> c_log c = [] ->
  exec xs (serve_http ul unjson hs c clk) = Some mh1 -> waits j xs -> exec ys mh1 = Some mh2 -> waits i (xs ++ ys) -> exec zs mh2 = Some mh ->
  1 <= p <= 4 -> 15 <= v <= 100 ->
  wrote hs j k (SetFanProfileR p v) -> ended ftoa sp hs mh2 j k (SetFanProfileR p v) (Told (RespProfile true o t')) ->
  (forall p0 t0, In (SetFanProfileR p0 t0) (C hs) -> p0 mod 256 = p -> t0 mod 256 = v) ->
  wrote hs i k' GetFanProfilesRPC -> ended ftoa sp hs mh i k' GetFanProfilesRPC x ->
  exists q, x = Told (RespProf q) /\ nth (Z.to_nat (p - 1)) [pbOutAway q; pbOutLow q; pbOutMid q; pbOutHigh q] 0 = v /\
    nth (Z.to_nat (p - 1)) [pbInAway q; pbInLow q; pbInMid q; pbInHigh q] 0 = v.
Proof.
  intros Lo L Z E1 W1 E2 W2 E3 P V Wj Ej Only Wi Ei.
  destruct (any_two _ _ _ _ _ _ _ _ _ _ _ _ _ _ _ _ _ _ _ Lo L Z E1 W1 E2 W2 E3 Wj Ej Wi Ei)
    as (xs' & m1 & ys' & m2 & zs' & m & i' & j' & r & X1 & X2 & X3 & X4 & X5 & X6 & A & X7 & X8 & X9 & D).
  destruct (profile_shown lo _ c clk u _ m1 _ m2 _ m _ _ p v o t' r Lo L Z X1 X2 X3 X4 X5 X6 P V X7 Only X8 X9) as (pb & -> & F1 & F2).
  exists pb. split; auto. destruct x; [congruence|]. destruct D as [(e & D)|D]; [discriminate|destruct (D I)].
Qed.
Lemma any_speed hs c clk lo u xs mh1 ys mh2 zs mh i j k k' n b o t' x : lo <= 15 -> lined lo c u -> c_log c = [] ->
  exec xs (serve_http ul unjson hs c clk) = Some mh1 -> waits j xs -> exec ys mh1 = Some mh2 -> waits i (xs ++ ys) -> exec zs mh2 = Some mh ->
  1 <= n <= 4 ->
  wrote hs j k (SetFanSpeedR n b) -> ended ftoa sp hs mh2 j k (SetFanSpeedR n b) (Told (RespSpeed true o t')) ->
  (forall v0 b0, In (SetFanSpeedR v0 b0) (C hs) -> v0 = n) ->
  wrote hs i k' GetFanProfilesRPC -> ended ftoa sp hs mh i k' GetFanProfilesRPC x ->
  exists q, x = Told (RespProf q) /\ pbCurrentMode q = n.
Proof.
  intros Lo L Z E1 W1 E2 W2 E3 P Wj Ej Only Wi Ei.
  destruct (any_two _ _ _ _ _ _ _ _ _ _ _ _ _ _ _ _ _ _ _ Lo L Z E1 W1 E2 W2 E3 Wj Ej Wi Ei)
    as (xs' & m1 & ys' & m2 & zs' & m & i' & j' & r & X1 & X2 & X3 & X4 & X5 & X6 & A & X7 & X8 & X9 & D).
  destruct (speed_shown lo _ c clk u _ m1 _ m2 _ m _ _ n b o t' r Lo L Z X1 X2 X3 X4 X5 X6 X7 Only ltac:(lia) X8 X9) as (pb & -> & F).
  exists pb. rewrite Z.mod_small in F by lia. split; auto. destruct x; [congruence|]. destruct D as [(e & D)|D]; [discriminate|destruct (D I)].
Qed.
(** After a flush. *)
Lemma any_flush hs c clk lo u xs mh1 ys mh2 zs mh i j k k' kk t b x : lo <= 15 -> lined lo c u -> c_log c = [] ->
  exec xs (serve_http ul unjson hs c clk) = Some mh1 -> waits j xs -> exec ys mh1 = Some mh2 -> waits i (xs ++ ys) -> exec zs mh2 = Some mh ->
  wrote hs j k (FlushCacheR t) -> ended ftoa sp hs mh2 j k (FlushCacheR t) (Told b) -> In kk (flushes t) -> telling kk ->
  wrote hs i k' (getter_rpc kk) -> ended ftoa sp hs mh i k' (getter_rpc kk) x ->
  exists s1 s2 n1 u1 r, ys ++ zs = s1 ++ s2 /\ exec s1 mh1 = Some n1 /\ unit_in lo n1 u1 /\ x = Told r /\ SpecTrack.shown u1 kk r.
Proof.
  intros Lo L Z E1 W1 E2 W2 E3 Wj Ej Fl Tk Wi Ei. pose proof (exec_both _ _ _ _ _ E1 E2) as E12. pose proof (exec_both _ _ _ _ _ E2 E3) as E23.
  destruct (down _ _ _ _ _ _ _ _ _ _ _ _ _ Lo L Z E1 W1 E2 Wj Ej) as (m1 & m2 & b' & E1' & S1 & E2' & _ & W1' & E12' & Nj & A & Ab & -> & _).
  destruct (down _ _ _ _ _ _ _ _ _ _ _ _ _ Lo L Z E12 W2 E3 Wi Ei) as (m2' & m & r & E12'' & S2 & E3' & _ & W2' & _ & Ni & _ & Ar & D).
  rewrite E12' in E12''. injection E12'' as <-. rewrite map_app in W2'.
  destruct (shows_flushed lo kk _ c clk u _ m1 _ m2 _ m _ _ t _ r Lo L Z E1' W1' E2' W2' E3' Nj Ab Fl Tk Ni Ar) as (s1 & s2 & n1 & u1 & Sp & Es & U & Sh).
  rewrite <- map_app in Sp.
  destruct (moment_up _ _ _ _ _ _ _ _ _ _ S1 E23 Sp Es) as (z1 & z2 & n & Ez0 & _ & _ & Ez & _ & (G & _)).
  exists z1, z2, n, u1, r. splits; auto.
  - unfold unit_in in *. rewrite G. exact U.
  - destruct x as [r'|co]; [destruct D as (-> & _); reflexivity|]. exfalso.
    destruct D as [(e & -> & _)|(R & _)]; inversion Sh; subst; destruct (R I).
Qed.
End Any.
