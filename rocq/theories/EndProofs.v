(** From the Python client to the unit: what a client is told holds of the unit, with any number of requests at a time. *)
From Coq Require Import String.
From Verif Require Import ProofBase Proto SpecProto SpecFrame SpecConn SpecLayout SpecUnit Conn Proc Lib Server SpecServer ServerLemmas
  Client Wire Twirp ClientHttp SpecWire SpecTwirp TwirpProofs TwirpReply TwirpServer Machine SpecMachine MachineBase MachineInv MachineLive
  MachineFlush MachineClaims HttpMachine SpecHttp HttpProofs SpecFresh SpecTrack TrackClaims StartClaims HttpSplit EveryRet SpecClient SpecEnd.

(** The requests of the set methods. *)
Inductive wishes : wish -> rpc -> Prop :=
| ws_speed n : 1 <= n <= 4 -> wishes (Want (Speed n)) (SetFanSpeedR n false)
| ws_comfort t : 0 <= t <= 255 -> wishes (Want (Comfort_temp t)) (SetComfortTempR t)
| ws_profile p v : 1 <= p <= 4 -> 15 <= v <= 100 -> wishes (Want (Profile p v)) (SetFanProfileR p v)
| ws_step up : wishes (Step up) (SetFanSpeedR 0 up).
Lemma py_valid n : py_in n VALID_SPEEDS = true -> 1 <= n <= 4.
Proof. unfold py_in, VALID_SPEEDS. cbn [existsb]. lia. Qed.
Lemma wish_asks w q k : method_of w = Asks q k -> wishes w q /\ args_ok q /\
  forall r, k (Reply r) = PyRet true -> modified r.
Proof.
  assert (St : forall r, stub Modified (Reply r) = PyRet true -> modified r).
  { intros r. destruct r; cbn; try discriminate; intros [= ->]; exact I. }
  destruct w as [[n|t|p v]|up]; cbn [method_of called].
  - unfold set_fan_speed. destruct (py_in n VALID_SPEEDS) eqn:V; cbn [negb]; intros [= <- <-]. apply py_valid in V.
    split; [constructor; auto|]. split; [cbn; unfold u32_ok; lia|auto].
  - unfold set_comfort_temperature. destruct ((t <? 0) || (t >? 255)) eqn:V; intros [= <- <-].
    split; [constructor; lia|]. split; [cbn; unfold u32_ok; lia|auto].
  - unfold configure_fan_profile. destruct (py_in p VALID_SPEEDS) eqn:V; cbn [negb]; [|discriminate]. apply py_valid in V.
    destruct ((v <? 15) || (v >? 100)) eqn:V2; intros [= <- <-].
    split; [constructor; lia|]. split; [cbn; unfold u32_ok; lia|auto].
  - assert (E : forall b : bool, (if b then increase_fan_speed else decrease_fan_speed) = step_fan_speed b) by (intros []; reflexivity).
    unfold step. rewrite E. unfold step_fan_speed. intros [= <- <-]. split; [constructor|]. split; [cbn; unfold u32_ok; lia|].
    intros r H. apply St. destruct (stub Modified (Reply r)) as [b|[]]; try discriminate; auto. destruct e; discriminate.
Qed.
Lemma achieved_fulfilled u w q b : wishes w q -> achieved u q b -> fulfilled u w.
Proof.
  intros W A. destruct W as [n B|t B|p v P V|up]; inversion A; subst; cbn [fulfilled].
  - match goal with H : meant _ _ |- _ => destruct H as [_ H]; rewrite H by lia end. apply Z.mod_small. lia.
  - rewrite Z.mod_small in * by lia. auto.
  - rewrite !Z.mod_small in * by lia. auto.
  - match goal with H : meant _ _ |- _ => destruct H as [H _] end. lia.
Qed.
Lemma seen_as r : ClientHttp.seen (as_seen r) = Reply r.
Proof. destruct r; reflexivity. Qed.

Section End_.
Variables (ul : list byte -> list byte) (uj : desc -> list byte -> option msg).

Lemma legal_http hs lo c clk u xs mh : lo <= 15 -> lined lo c u -> c_log c = [] -> exec xs (serve_http ul uj hs c clk) = Some mh -> legal mh.
Proof.
  intros Lo L Z E. destruct (sim_reach _ _ _ _ _ _ _ E) as (m & E' & (G & _)). pose proof (lined_legal _ _ _ _ _ _ _ Lo L Z E') as Lg.
  unfold legal in *. rewrite G. exact Lg.
Qed.

(** A call in the server. *)
Lemma call_down {A} hs c clk xs mh m i (me : method A) q k : exec xs (serve_http ul uj hs c clk) = Some mh -> legal mh -> sim ul uj hs mh m ->
  exec (map (renumber ul uj hs) xs) (serve (calls ul uj hs) c clk) = Some m ->
  posted hs i me -> me = Asks q k -> args_ok q ->
  is_call ul uj hs i (num ul uj hs i) /\ nth_error (calls ul uj hs) (num ul uj hs i) = Some q /\
  forall r, told mh i me r -> exists a, answered m (num ul uj hs i) a /\ (readable a -> r = k (Reply a)) /\ (~ readable a -> r = k Lost).
Proof.
  intros E Lg S E' (q1 & k1 & h & t & Em & Po & N & Ti) -> Ar. injection Em as <- <-.
  destruct (sim_client ul uj hs c clk xs mh m i q h t E Lg S E' N Po Ar Ti) as (Ic & Nq & H). splits; auto.
  intros r (q2 & k2 & a & Em & An & ->). injection Em as <- <-. destruct (H _ An) as (x & Ax & R1 & R2). exists x. split; auto. split; intros R.
  - rewrite (R1 R), seen_as. reflexivity.
  - rewrite (R2 R). reflexivity.
Qed.
Lemma setter_readable rs c clk xs m j w q a : exec xs (serve rs c clk) = Some m -> legal m -> nth_error rs j = Some q -> wishes w q -> args_ok q ->
  answered m j a -> readable a.
Proof.
  intros E Lg N W A An. destruct (answer_types ul _ _ _ _ _ _ _ _ E Lg N A An) as (_ & [R|(e & ->)]); [|exact I].
  destruct W, a; try contradiction; exact I.
Qed.

(** C130 *)
Lemma true_means hs c clk lo u xs mh0 ys mh i w : lo <= 15 -> lined lo c u -> c_log c = [] ->
  exec xs (serve_http ul uj hs c clk) = Some mh0 -> waits i xs -> exec ys mh0 = Some mh ->
  posted hs i (method_of w) -> told mh i (method_of w) (PyRet true) ->
  exists ys1 ys2 mh1 u1, ys = ys1 ++ ys2 /\ exec ys1 mh0 = Some mh1 /\ unit_in lo mh1 u1 /\ fulfilled u1 w.
Proof.
  intros Lo L Z E1 W E2 Po To. destruct (halves _ _ _ _ _ _ _ _ _ E1 E2) as (m0 & m & E1' & S0 & E2' & S).
  pose proof (exec_both _ _ _ _ _ E1 E2) as E. pose proof (legal_http _ _ _ _ _ _ _ Lo L Z E) as Lg.
  pose proof (exec_both _ _ _ _ _ E1' E2') as E'. rewrite <- map_app in E'.
  pose proof Po as (q & k & _ & _ & Em & _). destruct (wish_asks _ _ _ Em) as (Wi & A & Tr).
  destruct (call_down hs c clk _ mh m i _ q k E Lg S E' Po Em A) as (Ic & Nq & H).
  destruct (H _ To) as (a & An & R1 & R2).
  assert (Lg' : legal m) by (unfold legal in *; destruct S as (G & _); rewrite <- G; exact Lg).
  pose proof (setter_readable _ _ _ _ _ _ _ _ _ E' Lg' Nq Wi A An) as Rd. specialize (R1 Rd). symmetry in R1. apply Tr in R1.
  pose proof (waits_renumber _ _ _ _ _ Ic _ _ _ _ (sim_start ul uj hs c clk) E1 W) as W'.
  destruct (change_takes_effect lo _ c clk u _ m0 _ m _ q a Lo L E1' W' E2' Nq An R1) as (y1 & y2 & m1 & u1 & Sp & Ey & U & Ac).
  destruct (moment_up _ _ _ _ _ _ _ _ _ _ S0 E2 Sp Ey) as (z1 & z2 & mh1 & -> & _ & _ & Ez & _ & (G & _)).
  exists z1, z2, mh1, u1. splits; auto.
  - unfold unit_in in *. rewrite G. exact U.
  - eapply achieved_fulfilled; eauto.
Qed.
Lemma raises_means hs c clk lo u xs mh0 ys mh i w e : lo <= 15 -> lined lo c u -> c_log c = [] ->
  exec xs (serve_http ul uj hs c clk) = Some mh0 -> waits i xs -> exec ys mh0 = Some mh ->
  posted hs i (method_of w) -> told mh i (method_of w) (PyRaise e) ->
  (((exists n, w = Want (Speed n)) \/ exists up, w = Step up) /\ e = TwirpServer (Internal ErrSetPollFailed)) \/
  (exists t, w = Want (Comfort_temp t) /\ 107 < t /\ e = TwirpServer (Internal (LibErr ErrTooHigh))).
Proof.
  intros Lo L Z E1 W E2 Po To. destruct (halves _ _ _ _ _ _ _ _ _ E1 E2) as (m0 & m & E1' & S0 & E2' & S).
  pose proof (exec_both _ _ _ _ _ E1 E2) as E. pose proof (legal_http _ _ _ _ _ _ _ Lo L Z E) as Lg.
  pose proof (exec_both _ _ _ _ _ E1' E2') as E'. rewrite <- map_app in E'.
  pose proof Po as (q & k & _ & _ & Em & _). destruct (wish_asks _ _ _ Em) as (Wi & A & _).
  destruct (call_down hs c clk _ mh m i _ q k E Lg S E' Po Em A) as (Ic & Nq & H).
  destruct (H _ To) as (a & An & R1 & R2).
  assert (Lg' : legal m) by (unfold legal in *; destruct S as (G & _); rewrite <- G; exact Lg).
  pose proof (setter_readable _ _ _ _ _ _ _ _ _ E' Lg' Nq Wi A An) as Rd. specialize (R1 Rd). clear R2 Rd.
  pose proof (waits_renumber _ _ _ _ _ Ic _ _ _ _ (sim_start ul uj hs c clk) E1 W) as W'.
  assert (X : exists x, a = RespErr (Internal x) /\ e = TwirpServer (Internal x)).
  { destruct (answer_types ul _ _ _ _ _ _ _ _ E' Lg' Nq A An) as (_ & [R|(x & ->)]).
    - exfalso. destruct Wi as [n B|t B|p v P V|up]; destruct a; try contradiction; clear - Em R1; cbn [method_of called] in Em.
      + unfold set_fan_speed in Em. destruct (negb _); [discriminate|]. injection Em as <-. discriminate.
      + unfold set_comfort_temperature in Em. destruct (_ || _); [discriminate|]. injection Em as <-. discriminate.
      + unfold configure_fan_profile in Em. destruct (negb _); [discriminate|]. destruct (_ || _); [discriminate|]. injection Em as <-. discriminate.
      + destruct up; cbn in Em; injection Em as <-; discriminate.
    - destruct Wi as [n B|t B|p v P V|up]; cbn [method_of called] in Em.
      + unfold set_fan_speed in Em. destruct (negb _); [discriminate|]. injection Em as <-. cbn in R1. injection R1 as ->.
        pose proof (every_answer _ _ _ _ _ _ _ _ _ E' Nq (speed_admitted n B) An) as Ad.
        destruct x as [x|x]; [destruct (Ad x eq_refl)|eauto].
      + unfold set_comfort_temperature in Em. destruct (_ || _); [discriminate|]. injection Em as <-. cbn in R1. injection R1 as ->.
        pose proof (every_answer _ _ _ _ _ _ _ _ _ E' Nq (comfort_admitted t (proj2 B)) An) as Ad.
        destruct x as [x|x]; [destruct (Ad x eq_refl)|eauto].
      + unfold configure_fan_profile in Em. destruct (negb _); [discriminate|]. destruct (_ || _); [discriminate|]. injection Em as <-. cbn in R1. injection R1 as ->.
        pose proof (every_answer _ _ _ _ _ _ _ _ _ E' Nq (profile_admitted p v P V) An) as Ad.
        destruct x as [x|x]; [destruct (Ad x eq_refl)|eauto].
      + destruct x as [x|x]; destruct up; cbn in Em; injection Em as <-; cbn in R1; try discriminate; injection R1 as ->; eauto. }
  destruct X as (x & -> & ->).
  destruct (setter_errors lo _ c clk u _ m0 _ m _ q x Lo L E1' W' E2' Nq An) as [(a & b & -> & ->)|(t & -> & T1 & T2 & ->)]; inversion Wi; subst.
  - left. eauto.
  - left. eauto.
  - right. exists t. rewrite Z.mod_small in T2 by lia. auto.
Qed.

(** The getters. *)
Lemma temps_told a : forall r : pyres pyobj, r = (match get_temps with Asks _ k => k (Reply a) | Raises e => PyRaise e end) ->
  forall p, a = RespTemps p -> exists o, r = PyRet o /\ attr o "Comfort" = Some (PFloat (pbComfort p)).
Proof. intros r -> p ->. eexists. split; reflexivity. Qed.
Lemma profs_told a : forall r : pyres pyobj, r = (match get_fan_profiles with Asks _ k => k (Reply a) | Raises e => PyRaise e end) ->
  forall p, a = RespProf p -> exists o, r = PyRet o /\
    map (attr o) ["OutAway"; "OutLow"; "OutMid"; "OutHigh"]%string = map (fun z => Some (PInt z)) [pbOutAway p; pbOutLow p; pbOutMid p; pbOutHigh p] /\
    map (attr o) ["InAway"; "InLow"; "InMid"; "InHigh"]%string = map (fun z => Some (PInt z)) [pbInAway p; pbInLow p; pbInMid p; pbInHigh p] /\
    attr o "CurrentMode" = Some (PInt (pbCurrentMode p)).
Proof. intros r -> p ->. eexists. splits; reflexivity. Qed.

Lemma started_means hs c clk lo u xs mh0 ys mh i k r : lo <= 15 -> lined lo c u -> c_log c = [] ->
  exec xs (serve_http ul uj hs c clk) = Some mh0 -> m_wk mh0 = None -> waits i xs -> exec ys mh0 = Some mh -> telling k ->
  posted hs i (getter k) -> told mh i (getter k) r ->
  exists s1 s2 n1 u1 o, xs ++ ys = s1 ++ s2 /\ exec s1 (serve_http ul uj hs c clk) = Some n1 /\ unit_in lo n1 u1 /\ r = PyRet o /\
    (k = CTemp -> tells_temps u1 o) /\ (k = CProf -> tells_profiles u1 o).
Proof.
  intros Lo L Z E1 Wk W E2 Tk Po To. destruct (halves _ _ _ _ _ _ _ _ _ E1 E2) as (m0 & m & E1' & S0 & E2' & S).
  pose proof (exec_both _ _ _ _ _ E1 E2) as E. pose proof (legal_http _ _ _ _ _ _ _ Lo L Z E) as Lg.
  pose proof (exec_both _ _ _ _ _ E1' E2') as E'. rewrite <- map_app in E'.
  assert (Em : exists kk, getter k = Asks (getter_rpc k) kk /\ args_ok (getter_rpc k)).
  { destruct Tk as [-> | ->]; eexists; (split; [reflexivity|exact I]). }
  destruct Em as (kk & Em & A).
  destruct (call_down hs c clk _ mh m i _ (getter_rpc k) kk E Lg S E' Po Em A) as (Ic & Nq & H).
  destruct (H _ To) as (a & An & R1 & R2).
  pose proof (waits_renumber _ _ _ _ _ Ic _ _ _ _ (sim_start ul uj hs c clk) E1 W) as W'.
  assert (Wk' : m_wk m0 = None) by (destruct S0 as (_ & Y & _); congruence).
  destruct (shows_started lo k _ c clk u _ m0 _ m _ a Lo L Z E1' Wk' W' E2' Tk Nq An) as (s1 & s2 & n1 & u1 & Sp & Es & U & Sh).
  rewrite <- map_app in Sp.
  destruct (moment_up _ _ _ _ _ _ _ _ _ _ (sim_start ul uj hs c clk) E Sp Es) as (z1 & z2 & mh1 & Ez0 & _ & _ & Ez & _ & (G & _)).
  assert (U' : unit_in lo mh1 u1) by (unfold unit_in in *; rewrite G; exact U).
  destruct Tk as [-> | ->]; inversion Sh; subst.
  - cbn in Em. injection Em as <-. destruct (temps_told _ r (R1 I) _ eq_refl) as (o & -> & At).
    exists z1, z2, mh1, u1, o. splits; auto; [intros _; eexists; eauto|discriminate].
  - cbn in Em. injection Em as <-. destruct (profs_told _ r (R1 I) _ eq_refl) as (o & -> & A1 & A2 & A3).
    exists z1, z2, mh1, u1, o. splits; auto; [discriminate|]. intros _. unfold tells_profiles. rewrite A1, A2, A3. splits; congruence.
Qed.

(** Read your writes. *)
Lemma read_write hs c clk lo u xs mh1 ys mh2 zs mh i j w k r : lo <= 15 -> lined lo c u -> c_log c = [] ->
  exec xs (serve_http ul uj hs c clk) = Some mh1 -> waits j xs -> exec ys mh1 = Some mh2 -> waits i (xs ++ ys) -> exec zs mh2 = Some mh ->
  posted hs j (method_of w) -> told mh2 j (method_of w) (PyRet true) -> telling k -> posted hs i (getter k) -> told mh i (getter k) r ->
  exists xs' m1 ys' m2 zs' m i' j' q b a kk, exec xs' (serve (calls ul uj hs) c clk) = Some m1 /\ waits j' xs' /\ exec ys' m1 = Some m2 /\
    waits i' (xs' ++ ys') /\ exec zs' m2 = Some m /\ nth_error (calls ul uj hs) j' = Some q /\ wishes w q /\ answered m2 j' b /\ modified b /\
    (reply_to q b \/ exists e, b = RespErr e) /\ nth_error (calls ul uj hs) i' = Some (getter_rpc k) /\ answered m i' a /\
    getter k = Asks (getter_rpc k) kk /\ (readable a -> r = kk (Reply a)).
Proof.
  intros Lo L Z E1 W1 E2 W2 E3 Pj Tj Tk Pi Ti.
  pose proof (exec_both _ _ _ _ _ E1 E2) as E12. pose proof (exec_both _ _ _ _ _ E12 E3) as E.
  destruct (sim_reach _ _ _ _ _ _ _ E1) as (m1 & E1' & S1). destruct (sim_exec _ _ _ _ _ _ _ S1 E2) as (m2 & E2' & S2).
  destruct (sim_exec _ _ _ _ _ _ _ S2 E3) as (m & E3' & S).
  pose proof (exec_both _ _ _ _ _ E1' E2') as E12'. rewrite <- map_app in E12'. pose proof (exec_both _ _ _ _ _ E12' E3') as E'. rewrite <- map_app in E'.
  pose proof (legal_http _ _ _ _ _ _ _ Lo L Z E12) as Lg2. pose proof (legal_http _ _ _ _ _ _ _ Lo L Z E) as Lg.
  pose proof Pj as (q & k1 & _ & _ & Em & _). destruct (wish_asks w _ _ Em) as (Wi & A & Tr).
  destruct (call_down hs c clk _ mh2 m2 j _ q k1 E12 Lg2 S2 E12' Pj Em A) as (Icj & Nj & Hj). destruct (Hj _ Tj) as (b & Ab & B1 & _).
  assert (Lg2' : legal m2) by (unfold legal in *; destruct S2 as (G & _); rewrite <- G; exact Lg2).
  pose proof (setter_readable _ _ _ _ _ _ _ _ _ E12' Lg2' Nj Wi A Ab) as Rd. specialize (B1 Rd). symmetry in B1. apply Tr in B1.
  pose proof (answer_types ul _ _ _ _ _ _ _ _ E12' Lg2' Nj A Ab) as (_ & Rt).
  assert (Ek : exists kk, getter k = Asks (getter_rpc k) kk /\ args_ok (getter_rpc k)).
  { destruct Tk as [-> | ->]; eexists; (split; [reflexivity|exact I]). }
  destruct Ek as (kk & Ek & Ak).
  destruct (call_down hs c clk _ mh m i _ (getter_rpc k) kk E Lg S E' Pi Ek Ak) as (Ici & Ni & Hi). destruct (Hi _ Ti) as (a & Aa & A1 & _).
  pose proof (waits_renumber _ _ _ _ _ Icj _ _ _ _ (sim_start ul uj hs c clk) E1 W1) as W1'.
  pose proof (waits_renumber _ _ _ _ _ Ici _ _ _ _ (sim_start ul uj hs c clk) E12 W2) as W2'. rewrite map_app in W2'.
  exists (map (renumber ul uj hs) xs), m1, (map (renumber ul uj hs) ys), m2, (map (renumber ul uj hs) zs), m, (num ul uj hs i), (num ul uj hs j), q, b, a, kk. splits; eauto.
Qed.
Lemma comfort_read hs c clk lo u xs mh1 ys mh2 zs mh i j t r : lo <= 15 -> lined lo c u -> c_log c = [] ->
  exec xs (serve_http ul uj hs c clk) = Some mh1 -> waits j xs -> exec ys mh1 = Some mh2 -> waits i (xs ++ ys) -> exec zs mh2 = Some mh ->
  posted hs j (set_comfort_temperature (Some t)) -> told mh2 j (set_comfort_temperature (Some t)) (PyRet true) ->
  (forall t0, In (SetComfortTempR t0) (calls ul uj hs) -> t0 <= 255 -> t0 mod 256 <= 107 -> t0 = t) ->
  posted hs i get_temps -> told mh i get_temps r ->
  exists o f, r = PyRet o /\ attr o "Comfort" = Some (PFloat f) /\ f32_is f t.
Proof.
  intros Lo L Z E1 W1 E2 W2 E3 Pj Tj Only Pi Ti.
  destruct (read_write hs c clk lo u xs mh1 ys mh2 zs mh i j (Want (Comfort_temp t)) CTemp r Lo L Z E1 W1 E2 W2 E3 Pj Tj (or_introl eq_refl) Pi Ti)
    as (xs' & m1 & ys' & m2 & zs' & m & i' & j' & q & b & a & kk & X1 & X2 & X3 & X4 & X5 & X6 & Wi & X7 & X8 & X9 & X10 & X11 & Ek & A1).
  inversion Wi; subst q.
  destruct b as [m'|m'|m'|m'|m'|m'|mo o t'|mo o t'|mo o t'|mo|e']; cbn in X8; try contradiction;
    try (destruct X9 as [X9|(? & X9)]; [contradiction|discriminate]).
  destruct mo; [|contradiction].
  destruct (comfort_shown lo _ c clk u _ m1 _ m2 _ m _ _ t o t' a Lo L Z X1 X2 X3 X4 X5 X6 ltac:(lia) X7 Only X10 X11) as (p & -> & F).
  cbn in Ek. injection Ek as <-. destruct (temps_told _ r (A1 I) _ eq_refl) as (ob & -> & At). exists ob, (pbComfort p). auto.
Qed.
Lemma profile_read hs c clk lo u xs mh1 ys mh2 zs mh i j p v r : lo <= 15 -> lined lo c u -> c_log c = [] ->
  exec xs (serve_http ul uj hs c clk) = Some mh1 -> waits j xs -> exec ys mh1 = Some mh2 -> waits i (xs ++ ys) -> exec zs mh2 = Some mh ->
  posted hs j (configure_fan_profile p v) -> told mh2 j (configure_fan_profile p v) (PyRet true) ->
  (forall p0 t0, In (SetFanProfileR p0 t0) (calls ul uj hs) -> p0 mod 256 = p -> t0 mod 256 = v) ->
  posted hs i get_fan_profiles -> told mh i get_fan_profiles r ->
  exists o, r = PyRet o /\ nth_error (map (attr o) ["OutAway"; "OutLow"; "OutMid"; "OutHigh"]%string) (Z.to_nat (p - 1)) = Some (Some (PInt v)) /\
    nth_error (map (attr o) ["InAway"; "InLow"; "InMid"; "InHigh"]%string) (Z.to_nat (p - 1)) = Some (Some (PInt v)).
Proof.
  intros Lo L Z E1 W1 E2 W2 E3 Pj Tj Only Pi Ti.
  destruct (read_write hs c clk lo u xs mh1 ys mh2 zs mh i j (Want (Profile p v)) CProf r Lo L Z E1 W1 E2 W2 E3 Pj Tj (or_intror eq_refl) Pi Ti)
    as (xs' & m1 & ys' & m2 & zs' & m & i' & j' & q & b & a & kk & X1 & X2 & X3 & X4 & X5 & X6 & Wi & X7 & X8 & X9 & X10 & X11 & Ek & A1).
  inversion Wi as [| |p' v' P V|]; subst.
  destruct b as [m'|m'|m'|m'|m'|m'|mo o t'|mo o t'|mo o t'|mo|e']; cbn in X8; try contradiction;
    try (destruct X9 as [X9|(? & X9)]; [contradiction|discriminate]).
  destruct mo; [|contradiction].
  destruct (profile_shown lo _ c clk u _ m1 _ m2 _ m _ _ p v o t' a Lo L Z X1 X2 X3 X4 X5 X6 P V X7 Only X10 X11) as (pb & -> & F1 & F2).
  cbn in Ek. injection Ek as <-. destruct (profs_told _ r (A1 I) _ eq_refl) as (ob & -> & At1 & At2 & _). exists ob. split; auto.
  injection At1 as O1 O2 O3 O4. injection At2 as I1 I2 I3 I4.
  remember (Z.to_nat (p - 1)) as x eqn:Ex. assert (x = 0 \/ x = 1 \/ x = 2 \/ x = 3)%nat as X by lia. clear Ex.
  destruct X as [-> |[-> |[-> | ->]]]; cbn [nth nth_error map] in *; split; congruence.
Qed.
Lemma speed_read hs c clk lo u xs mh1 ys mh2 zs mh i j n r : lo <= 15 -> lined lo c u -> c_log c = [] ->
  exec xs (serve_http ul uj hs c clk) = Some mh1 -> waits j xs -> exec ys mh1 = Some mh2 -> waits i (xs ++ ys) -> exec zs mh2 = Some mh ->
  posted hs j (set_fan_speed n) -> told mh2 j (set_fan_speed n) (PyRet true) ->
  (forall v0 b0, In (SetFanSpeedR v0 b0) (calls ul uj hs) -> v0 = n) ->
  posted hs i get_fan_profiles -> told mh i get_fan_profiles r ->
  exists o, r = PyRet o /\ attr o "CurrentMode" = Some (PInt n).
Proof.
  intros Lo L Z E1 W1 E2 W2 E3 Pj Tj Only Pi Ti.
  destruct (read_write hs c clk lo u xs mh1 ys mh2 zs mh i j (Want (Speed n)) CProf r Lo L Z E1 W1 E2 W2 E3 Pj Tj (or_intror eq_refl) Pi Ti)
    as (xs' & m1 & ys' & m2 & zs' & m & i' & j' & q & b & a & kk & X1 & X2 & X3 & X4 & X5 & X6 & Wi & X7 & X8 & X9 & X10 & X11 & Ek & A1).
  inversion Wi as [n' B| | |]; subst.
  destruct b as [m'|m'|m'|m'|m'|m'|mo o t'|mo o t'|mo o t'|mo|e']; cbn in X8; try contradiction;
    try (destruct X9 as [X9|(? & X9)]; [contradiction|discriminate]).
  destruct mo; [|contradiction].
  destruct (speed_shown lo _ c clk u _ m1 _ m2 _ m _ _ n false o t' a Lo L Z X1 X2 X3 X4 X5 X6 X7 Only ltac:(lia) X10 X11) as (pb & -> & F).
  cbn in Ek. injection Ek as <-. destruct (profs_told _ r (A1 I) _ eq_refl) as (ob & -> & _ & _ & At). exists ob. split; auto.
  rewrite At, F, Z.mod_small by lia. reflexivity.
Qed.
End End_.
