(** Proofs for PropertiesClient.v. *)
From Coq Require Import String.
From Verif Require LayoutProofs.
From Verif Require Import GoBase Proto ProofBase SpecProto SpecFrame SpecConn SpecLayout SpecUnit Scanner Conn Proc Lib QueryProofs Server SpecServer
  ServerProofs ServerLemmas ServerOps ServerClaims UnitProofs UnitServer UnitClaims Client SpecClient
  Samples SamplesServer SamplesUnit.

Lemma valid_in n : py_in n VALID_SPEEDS = true <-> 1 <= n <= 4.
Proof. unfold py_in, VALID_SPEEDS, existsb. lia. Qed.
Lemma valid_out n : ~ 1 <= n <= 4 -> py_in n VALID_SPEEDS = false.
Proof. intros N. destruct (py_in n VALID_SPEEDS) eqn:E; auto. apply valid_in in E. lia. Qed.

Lemma ranges n p v t :
  (1 <= n <= 4 -> sends (set_fan_speed n) (SetFanSpeedR n false)) /\
  (~ 1 <= n <= 4 -> set_fan_speed n = Raises InvalidFanSpeed) /\
  (1 <= p <= 4 -> 15 <= v <= 100 -> sends (configure_fan_profile p v) (SetFanProfileR p v)) /\
  (~ 1 <= p <= 4 -> configure_fan_profile p v = Raises InvalidFanSpeed) /\
  (1 <= p <= 4 -> ~ 15 <= v <= 100 -> configure_fan_profile p v = Raises InvalidDutyPercent) /\
  (0 <= t <= 255 -> sends (set_comfort_temperature (Some t)) (SetComfortTempR t)) /\
  (~ 0 <= t <= 255 -> set_comfort_temperature (Some t) = Raises InvalidTemperature) /\
  set_comfort_temperature None = Raises InvalidTemperature.
Proof.
  unfold set_fan_speed, configure_fan_profile, set_comfort_temperature, sends. splits; auto; intros.
  - apply valid_in in H. rewrite H. eexists. reflexivity.
  - rewrite valid_out by auto. reflexivity.
  - apply valid_in in H. rewrite H. cbn [negb]. replace ((v <? 15) || (v >? 100)) with false by lia. eexists. reflexivity.
  - rewrite valid_out by auto. reflexivity.
  - apply valid_in in H. rewrite H. cbn [negb]. replace ((v <? 15) || (v >? 100)) with true by lia. reflexivity.
  - replace ((t <? 0) || (t >? 255)) with false by lia. eexists. reflexivity.
  - replace ((t <? 0) || (t >? 255)) with true by lia. reflexivity.
Qed.

(** What the three set requests answer. *)
Definition set_reply (c : call) (r : resp) : Prop :=
  (exists b o, r = match c with
     | Speed n => RespSpeed b o n | Comfort_temp t => RespComfort b o t | Profile _ v => RespProfile b o v end) \/
  (exists e, r = RespErr (Internal e)).
Lemma f_speed_reply n w : 1 <= n <= 4 -> set_reply (Speed n) (fst (f_speed n false w)).
Proof.
  intros N. unfold f_speed, modifySpeed. rewrite andb_false_r. replace (n =? 0) with false by lia. cbn [negb].
  assert (U : u8 n = n) by (unfold u8; apply Z.mod_small; lia). assert (U' : u32 n = n) by (unfold u32; apply Z.mod_small; lia).
  rewrite !U, ?U'. replace ((n <? 1) || (n >? 4)) with false by lia. unfold set_reply. rewrite ?U, ?U'.
  destruct (negb _); [|cbn [fst]; eauto 6].
  destruct (setq _ _) as [[e|] cn]; [cbn [fst]; eauto 6|].
  destruct (f_updpoll _ _ _) as [[e|] w2]; cbn [fst]; eauto 6.
Qed.
Lemma f_comfort_reply t w : 0 <= t <= 255 -> set_reply (Comfort_temp t) (fst (f_comfort t w)).
Proof.
  intros T. unfold f_comfort, set_reply. replace (t >? 255) with false by lia. destruct (negb _); [|cbn [fst]; eauto 6].
  destruct (setq _ _) as [[e|] cn]; cbn [fst]; eauto 6.
Qed.
Lemma f_profile_reply m t w : 1 <= m <= 4 -> 15 <= t <= 100 -> set_reply (Profile m t) (fst (f_profile m t w)).
Proof.
  intros M T. unfold f_profile, set_reply. assert (U : u8 m = m) by (unfold u8; apply Z.mod_small; lia).
  assert (U' : u8 t = t) by (unfold u8; apply Z.mod_small; lia). rewrite !U, !U'.
  replace ((m <? 1) || (m >? 4)) with false by lia. replace ((t <? 15) || (t >? 100)) with false by lia.
  destruct (profile_in _ _) as [o|] eqn:P.
  2:{ exfalso. unfold profile_in in P. repeat (destruct (_ =? _) eqn:? in P; [discriminate|]). lia. }
  destruct (negb _); [|cbn [fst]; eauto 6]. destruct (fprofile _ _ _) as [[e|] cn]; cbn [fst]; eauto 6.
Qed.

Lemma called_sends c q k : called c = Asks q k -> k = stub Modified /\ (forall x, q <> FlushCacheR x) /\
  forall w, set_reply c (fst (f_rpc q w)).
Proof.
  destruct c as [n|t|p v]; cbn [called wanted].
  - unfold set_fan_speed. destruct (py_in n VALID_SPEEDS) eqn:E; cbn [negb]; [|discriminate]. apply valid_in in E.
    intros H. injection H as <- <-. splits; auto; [discriminate|]. intros w. cbn [f_rpc]. apply f_speed_reply. auto.
  - unfold set_comfort_temperature. destruct ((t <? 0) || (t >? 255)) eqn:E; [discriminate|].
    intros H. injection H as <- <-. splits; auto; [discriminate|]. intros w. cbn [f_rpc]. apply f_comfort_reply. lia.
  - unfold configure_fan_profile. destruct (py_in p VALID_SPEEDS) eqn:E; cbn [negb]; [|discriminate]. apply valid_in in E.
    destruct ((v <? 15) || (v >? 100)) eqn:E2; [discriminate|].
    intros H. injection H as <- <-. splits; auto; [discriminate|]. intros w. cbn [f_rpc]. apply f_profile_reply; lia.
Qed.

Lemma stub_passes c r : set_reply c r -> forall w w', passed_on (reply_of w w' r) (stub Modified (reply_of w w' r)).
Proof.
  intros H w w'. unfold reply_of. destruct (http_reply _ _ _) as [r'|] eqn:E; [|reflexivity].
  assert (r' = r) as -> by (unfold http_reply in E; destruct (_ <? _); congruence).
  destruct H as [(b & o & ->)|[e ->]]; [destruct c|]; reflexivity.
Qed.

Lemma accepted_calls c q w : idle w -> sends (called c) q ->
  exists r x w', run (handle q) w = (RDone r, w') /\ ask (called c) w = (Some x, w') /\ idle w' /\
    ~ argument_error r /\ (forall t, target r = Some t -> t = wanted c) /\ passed_on (reply_of w w' r) x.
Proof.
  intros I [k E]. rewrite E. destruct (called_sends c q k E) as (-> & N & S). specialize (S w).
  destruct (run_rpc q w I N) as [R I']. do 3 eexists. unfold ask. rewrite R. split; [reflexivity|]. split; [reflexivity|]. splits.
  - exact I'.
  - intros [a H]. rewrite H in S. unfold set_reply in S.
    destruct S as [(b & o & S)|[e S]]; [destruct c|]; discriminate.
  - intros t T. destruct S as [(b & o & S)|[e S]]; rewrite S in T; [destruct c|]; cbn [target wanted] in *; congruence.
  - eapply stub_passes. exact S.
Qed.

Lemma f_speed_step up w : 0 <= CurrentMode (sh_prof (w_sh w)) < 256 ->
  let mode := CurrentMode (sh_prof (w_sh w)) in
  (~ 1 <= next up mode <= 4 /\ f_speed 0 up w = (RespErr (InvalidArgument (ArgFanSpeed (next up mode mod 256))), w)) \/
  (1 <= next up mode <= 4 /\
   ((exists w', f_speed 0 up w = (RespSpeed true mode (next up mode), w')) \/ exists e w', f_speed 0 up w = (RespErr (Internal e), w'))).
Proof.
  intros M. cbv zeta. unfold f_speed. set (mode := CurrentMode (sh_prof (w_sh w))) in *. unfold modifySpeed. cbn [Z.eqb negb andb].
  set (tgt := if up then u8 (mode + 1) else u8 (mode - 1)).
  assert (T : 1 <= next up mode <= 4 /\ tgt = next up mode /\ (tgt <? 1) || (tgt >? 4) = false \/
              ~ 1 <= next up mode <= 4 /\ (tgt <? 1) || (tgt >? 4) = true).
  { assert (D : 1 <= next up mode <= 4 \/ ~ 1 <= next up mode <= 4) by lia. destruct D as [D|D]; [left|right].
    - assert (tgt = next up mode) as E. { subst tgt. unfold next in *. unfold u8. destruct up; apply Z.mod_small; lia. }
      split; [exact D|]. split; [exact E|]. lia.
    - split; auto. subst tgt. unfold next in D. unfold u8. destruct up.
      + destruct (Z.eq_dec mode 255) as [->|]; [reflexivity|]. rewrite Z.mod_small by lia. lia.
      + destruct (Z.eq_dec mode 0) as [->|]; [reflexivity|]. rewrite Z.mod_small by lia. lia. }
  destruct T as [(D & E & F)|(D & F)]; rewrite F; [right|left; split; [auto|]; subst tgt; unfold next; destruct up; reflexivity]. rewrite !E in *. split; [auto|].
  assert (U : u8 (next up mode) = next up mode) by (unfold u8; apply Z.mod_small; lia).
  assert (U' : u32 (next up mode) = next up mode) by (unfold u32; apply Z.mod_small; lia).
  assert (U'' : u32 mode = mode) by (unfold u32; apply Z.mod_small; lia). rewrite !U, !U', U''.
  replace (negb (next up mode =? mode)) with true by (unfold next; destruct up; lia).
  destruct (setq _ _) as [[e|] cn]; [right; eauto|]. destruct (f_updpoll _ _ _) as [[e|] w2]; [right; eauto|left; eauto].
Qed.

Lemma step_asks up : step up = step_fan_speed up.
Proof. destruct up; reflexivity. Qed.

Lemma now_reply w r : reply_of w w r = Reply r.
Proof. unfold reply_of, http_reply. rewrite Z.sub_diag. reflexivity. Qed.
Lemma reply_cases w w' r : reply_of w w' r = Reply r \/ reply_of w w' r = Lost.
Proof. unfold reply_of, http_reply. destruct (_ <? _); auto. Qed.

Lemma steps up w : idle w -> 0 <= CurrentMode (sh_prof (w_sh w)) < 256 ->
  let mode := CurrentMode (sh_prof (w_sh w)) in
  exists r x w', run (handle (SetFanSpeedR 0 up)) w = (RDone r, w') /\ ask (step up) w = (Some x, w') /\ idle w' /\
    (x = PyRet false <-> ~ 1 <= next up mode <= 4) /\ (x = PyRet false <-> argument_error r) /\ (x = PyRet false -> w' = w) /\
    (x = PyRet true <-> reply_of w w' r = Reply (RespSpeed true mode (next up mode))) /\
    (forall e, x = PyRaise e -> e = Transport /\ reply_of w w' r = Lost \/
       exists ie, e = TwirpServer (Internal ie) /\ reply_of w w' r = Reply (RespErr (Internal ie))).
Proof.
  intros I M mode. rewrite step_asks. unfold step_fan_speed, ask.
  destruct (run_rpc (SetFanSpeedR 0 up) w I) as [R I']; [discriminate|]. rewrite R. cbn [f_rpc] in *.
  do 3 eexists. split; [reflexivity|]. split; [reflexivity|]. split; [exact I'|]. clear R I'.
  destruct (f_speed_step up w M) as [(D & ->)|(D & C)]; fold mode in D |- *.
  - cbn [fst snd]. rewrite now_reply. cbn [stub]. splits; try (intros; congruence).
    + split; auto.
    + split; auto. intros _. eexists. reflexivity.
    + split; congruence.
  - fold mode in C. destruct C as [[w' ->]|(e & w' & ->)]; cbn [fst snd].
    + destruct (reply_cases w w' (RespSpeed true mode (next up mode))) as [-> | ->]; cbn [stub Modified]; splits;
        try (intros; congruence); try (split; [intros; congruence|intros [a ?]; congruence]); try (split; [intros; congruence|intros; contradiction]).
      * split; auto.
      * split; congruence.
      * intros e H. injection H as <-. auto.
    + destruct (reply_cases w w' (RespErr (Internal e))) as [-> | ->]; cbn [stub Modified]; splits;
        try (intros; congruence); try (split; [intros; congruence|intros [a ?]; congruence]); try (split; [intros; congruence|intros; contradiction]).
      * split; congruence.
      * intros e' H. injection H as <-. eauto.
      * split; congruence.
      * intros e' H. injection H as <-. auto.
Qed.

(** ** async *)
Lemma async_running {A} (m : method A) l : async (init_loop None (Some l)) m = m.
Proof. reflexivity. Qed.
Lemma async_fails {A} (m : method A) loop running : loop <> None \/ running = None -> async (init_loop loop running) m = Raises NoAttribute.
Proof. intros [H| ->]; destruct loop; try reflexivity. contradiction. Qed.

(** ** getters *)
Lemma getters_show w c : idle w -> typed (cached (w_sh w) c) ->
  exists o, ask (getter c) w = (Some (PyRet o), w) /\ shows (cached (w_sh w) c) o.
Proof.
  intros I T. pose proof (getter_message w c I T) as R.
  destruct c; cbn [getter getter_rpc] in *; unfold ask, get_bootinfo, get_bypass, get_temps, get_fans, get_fan_profiles, get_errors; rewrite R, now_reply;
    eexists; (split; [reflexivity|]); cbv -[sh_boot sh_bypass sh_temp sh_fans sh_prof sh_err w_sh]; splits; reflexivity.
Qed.
Lemma ping_true w : idle w -> ask ping w = (Some (PyRet true), w).
Proof.
  intros I. unfold ping, get_bootinfo, then_, ask. destruct (run_rpc GetBootInfo w I) as [R _]; [discriminate|].
  rewrite R. cbn [f_rpc fst snd]. rewrite now_reply. reflexivity.
Qed.

(** ** with a unit *)
Lemma modified_true w w' r : stub Modified (reply_of w w' r) = PyRet true ->
  (exists o t, r = RespComfort true o t) \/ (exists o t, r = RespSpeed true o t) \/ (exists o t, r = RespProfile true o t).
Proof.
  destruct (reply_cases w w' r) as [-> | ->]; [|discriminate].
  destruct r; cbn [stub Modified]; intros H; try discriminate; injection H as ->; eauto 6.
Qed.

Lemma speed_call_unit lo b w u n w2 : idle w -> unit_at lo b u (c_dev (w_conn w)) -> vent_ok lo u -> (b = true \/ quiet (w_conn w)) ->
  ask (set_fan_speed n) w = (Some (PyRet true), w2) ->
  exists u2, unit_at lo b u2 (c_dev (w_conn w2)) /\ u_mode u2 = n /\ u_in u2 = u_in u /\ u_out u2 = u_out u /\ u_comfort u2 = u_comfort u.
Proof.
  intros I U V B A. unfold set_fan_speed in A. destruct (py_in n VALID_SPEEDS) eqn:E; cbn [negb] in A; [|discriminate]. apply valid_in in E.
  unfold ask in A. destruct (run_rpc (SetFanSpeedR n false) w I) as [R _]; [discriminate|]. rewrite R in A. injection A as A <-.
  pose proof (f_speed_reply n w E) as S. cbn [f_rpc] in *. apply modified_true in A.
  destruct A as [(o & t & A)|[(o & t & A)|(o & t & A)]]; rewrite A in S;
    destruct S as [(b' & o' & S)|[e S]]; try discriminate.
  rewrite A in R. eapply speed_modified; [exact I|exact U|exact V|exact B| |exact R]. lia.
Qed.
Lemma step_call_unit lo b w u up w2 : idle w -> unit_at lo b u (c_dev (w_conn w)) -> vent_ok lo u -> (b = true \/ quiet (w_conn w)) ->
  0 <= CurrentMode (sh_prof (w_sh w)) < 256 -> ask (step up) w = (Some (PyRet true), w2) ->
  exists u2, unit_at lo b u2 (c_dev (w_conn w2)) /\ u_mode u2 = next up (CurrentMode (sh_prof (w_sh w))) /\ u_in u2 = u_in u /\ u_out u2 = u_out u /\ u_comfort u2 = u_comfort u.
Proof.
  intros I U V B M A. destruct (steps up w I M) as (r & x & w' & R & A' & _ & _ & _ & _ & X & _). rewrite A' in A. injection A as -> ->.
  destruct X as [X _]. specialize (X eq_refl). pose proof (reply_cases w w2 r) as C. rewrite X in C. destruct C as [C|C]; [|discriminate].
  injection C as C. subst r. destruct (run_rpc (SetFanSpeedR 0 up) w I) as [R' _]; [discriminate|]. rewrite R' in R. cbn [f_rpc] in R. injection R as F <-.
  destruct (speed_unit lo b w 0 up u U V) as (u2 & U2 & _ & Ui & Uo & Uc & P). destruct (P _ _ _ F) as (_ & Pm & _). exists u2. splits; auto.
Qed.
Lemma comfort_call_unit lo b w u t w2 : idle w -> unit_at lo b u (c_dev (w_conn w)) -> vent_ok lo u -> (b = true \/ quiet (w_conn w)) ->
  ask (set_comfort_temperature (Some t)) w = (Some (PyRet true), w2) ->
  exists u2, unit_at lo b u2 (c_dev (w_conn w2)) /\ u_comfort u2 = 2 * (t + 20) /\ u_mode u2 = u_mode u /\ u_in u2 = u_in u /\ u_out u2 = u_out u.
Proof.
  intros I U V B A. unfold set_comfort_temperature in A. destruct ((t <? 0) || (t >? 255)) eqn:E; [discriminate|].
  unfold ask in A. destruct (run_rpc (SetComfortTempR t) w I) as [R _]; [discriminate|]. rewrite R in A. injection A as A <-.
  pose proof (f_comfort_reply t w ltac:(lia)) as S. cbn [f_rpc] in *. apply modified_true in A.
  destruct A as [(o & t' & A)|[(o & t' & A)|(o & t' & A)]]; rewrite A in S;
    destruct S as [(b' & o' & S)|[e S]]; try discriminate.
  rewrite A in R. eapply comfort_modified; [exact I|exact U|exact V|exact B| |exact R]. lia.
Qed.
Lemma profile_call_unit lo b w u p v w2 : idle w -> quiet (w_conn w) -> unit_at lo b u (c_dev (w_conn w)) -> vent_ok lo u -> lo <= v ->
  ask (configure_fan_profile p v) w = (Some (PyRet true), w2) ->
  exists u2, unit_at lo b u2 (c_dev (w_conn w2)) /\ with_profile (Z.to_nat (p - 1)) v u u2.
Proof.
  intros I Q U V L A. unfold configure_fan_profile in A. destruct (py_in p VALID_SPEEDS) eqn:E; cbn [negb] in A; [|discriminate]. apply valid_in in E.
  destruct ((v <? 15) || (v >? 100)) eqn:E2; [discriminate|].
  unfold ask in A. destruct (run_rpc (SetFanProfileR p v) w I) as [R _]; [discriminate|]. rewrite R in A. injection A as A <-.
  pose proof (f_profile_reply p v w E ltac:(lia)) as S. cbn [f_rpc] in *. apply modified_true in A.
  destruct A as [(o & t & A)|[(o & t & A)|(o & t & A)]]; rewrite A in S;
    destruct S as [(b' & o' & S)|[e S]]; try discriminate. injection S as _ _ ->.
  rewrite A in R. eapply profile_modified; [exact I|exact Q|exact U|exact V|exact E| |exact L|exact R]. lia.
Qed.

Lemma comfort_too_high w t k : idle w -> f32_is (Comfort (sh_temp (w_sh w))) k -> 0 <= k <= 107 ->
  (108 <= t <= 255 -> exists w', ask (set_comfort_temperature (Some t)) w = (Some (PyRaise (TwirpServer (Internal (LibErr ErrTooHigh)))), w') /\
     added w w' []) /\
  (0 <= t <= 107 -> t <> k -> forall w', ask (set_comfort_temperature (Some t)) w = (Some (PyRet true), w') ->
     exists out l1 l2, added w w' (l1 ++ l2) /\ exchange 211 [2 * (t + 20)] false out None l1 /\ one_query CTemp l2).
Proof.
  intros I F K. split.
  - intros T. destruct (comfort_spec w t k I ltac:(lia) F K) as (r & w' & l & R & _ & A & _ & H & _).
    destruct (H T) as (-> & -> & S). exists w'. split; [|exact A].
    unfold set_comfort_temperature. replace ((t <? 0) || (t >? 255)) with false by lia. unfold ask. rewrite R.
    destruct (run_rpc (SetComfortTempR t) w I) as [R' _]; [discriminate|]. rewrite R' in R. injection R as R1 R2. cbn [f_rpc] in *.
    assert (C : w_clk w' = w_clk w).
    { rewrite <- R2. revert R1. unfold f_comfort. replace (t >? 255) with false by lia. destruct (negb _); [|reflexivity].
      destruct (setq _ _) as [[e|] cn]; [reflexivity|discriminate]. }
    unfold reply_of, http_reply. rewrite C, Z.sub_diag. reflexivity.
  - intros T N w' A. destruct (comfort_spec w t k I ltac:(lia) F K) as (r & w2 & l & R & _ & Ad & _ & _ & _ & H).
    unfold set_comfort_temperature in A. replace ((t <? 0) || (t >? 255)) with false in A by lia. unfold ask in A. rewrite R in A.
    injection A as A <-. apply modified_true in A.
    destruct (H ltac:(lia) N) as [(out & e & _ & -> & _)|(out & l1 & l2 & -> & E & Q & _)].
    + destruct A as [(o' & t' & A)|[(o' & t' & A)|(o' & t' & A)]]; discriminate.
    + exists out, l1, l2. auto.
Qed.

Lemma async_loop_given : exists loop : nat, forall running A (m : method A), async (init_loop (Some loop) running) m = Raises NoAttribute.
Proof. exists 0%nat. reflexivity. Qed.
Lemma ping_no_unit : exists w, w_sh w = init_shared /\ w_conn w = fresh (script []) /\
  ask ping (snd (run StartCaches w)) = (Some (PyRet true), snd (run StartCaches w)) /\
  w_sh (snd (run StartCaches w)) = init_shared.
Proof. exists (server (script []) init_shared). vm_compute. auto. Qed.
Lemma comfort_150 : exists w, idle w /\ f32_is (Comfort (sh_temp (w_sh w))) 21 /\
  fst (ask (set_comfort_temperature (Some 150)) w) = Some (PyRaise (TwirpServer (Internal (LibErr ErrTooHigh)))).
Proof. exists (started []). split; [vm_compute; reflexivity|]. split; [apply LayoutProofs.f32_isb_ok|]; vm_compute; reflexivity. Qed.
