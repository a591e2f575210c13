(** What the goroutines of LogServer.v log, whatever the others do: in terms of their exchanges. *)
From Coq Require Import String.
From Verif Require Import ProofBase Proto SpecProto SpecFrame SpecConn SpecLayout SpecServer ProtoProofs Scanner Conn Proc Lib QueryProofs
  FrameLemmas LayoutProofs OpLemmas Server ServerProofs ServerLemmas ServerOps Machine SpecMachine SpecFresh FreshLogic OwnLogic Twirp ErrorText Log SpecLog LogServer
  LogServerProofs LogMachine SpecLogMachine.

Section Yields.
Context (txt : Z -> list byte).

(** The error of a getter says what came back. *)
Definition got {T} (c : cache) (l : list (list io)) (r : T * option err) : Prop :=
  exists x p e, l = [x] /\ exchange (request c) [] true p e x /\
    snd r = match e with Some e => Some e | None => if accepted c (p_data p) then None else Some (complaint c (p_data p)) end.
Lemma yields_got {T} c gr (zero : T) assert (dec : list byte -> outcome (T * option err)) (inj : T -> Response) :
  gr = request c -> ResponseType (u8 (gr + 1)) = Some (fun l => omap inj (dec l)) -> u8 (gr + 1) <> 0 -> total_dec dec ->
  (forall v, assert (inj v) = Some v) -> (forall p v e, dec p = Done (v, e) -> e = if accepted c p then None else Some (complaint c p)) ->
  yields (getter gr zero assert) (got c).
Proof.
  intros -> RT NZ Td As De. unfold getter, getQuery. eapply yields_bind.
  - eapply yields_bind; [apply yields_query|]. intros l [out e] (x & -> & X). cbn [fst snd EncodeGetRequest p_cmd p_data p_expect] in X.
    instantiate (1 := fun l (r : option Response * option err) => exists x p e, l = [x] /\ exchange (request c) [] true p e x /\
      snd r = (match e with Some e => Some e | None => if accepted c (p_data p) then None else Some (complaint c (p_data p)) end) /\
      (snd r = None -> exists v, fst r = Some (inj v))).
    destruct e as [e|].
    + apply yields_ret. exists x, out, (Some e). splits; auto. cbn. discriminate.
    + apply yields_lift. intros [r er] D. exists x, out, None. split; [reflexivity|]. split; [exact X|]. cbn [snd].
      assert (C : p_cmd out = u8 (request c + 1)) by (inversion X; subst; auto).
      unfold DecodeResponse in D. rewrite C, RT in D. destruct (Z.eqb_spec (u8 (request c + 1)) 0) as [|_]; [contradiction|].
      destruct (Td (p_data out)) as (v & e & U). rewrite U in D. cbn in D. injection D as <- <-. split; [apply (De _ _ _ U)|].
      cbn. eauto.
  - intros l [r e] (x & p & e' & -> & X & D & V). cbn [fst snd] in D, V. destruct e as [e|].
    + apply yields_ret. exists x, p, e'. cbn. auto.
    + destruct (V eq_refl) as (v & ->). rewrite As. apply yields_ret. exists x, p, e'. cbn. auto.
Qed.
Lemma boot_got : yields GetBootloader (got CBoot).
Proof. apply (yields_got CBoot getBootloader _ _ BootInfo_Unmarshal RBoot); try reflexivity; try discriminate; apply boot_getter. Qed.
Lemma bypass_got : yields GetBypass (got CBypass).
Proof. apply (yields_got CBypass getBypass _ _ Bypass_Unmarshal RBypass); try reflexivity; try discriminate; apply bypass_getter. Qed.
Lemma temp_got : yields GetTemperatures (got CTemp).
Proof. apply (yields_got CTemp getTemps _ _ Temps_Unmarshal RTemps); try reflexivity; try discriminate; apply temp_getter. Qed.
Lemma fans_got : yields GetFans (got CFans).
Proof. apply (yields_got CFans getFans _ _ Fans_Unmarshal RFans); try reflexivity; try discriminate; apply fans_getter. Qed.
Lemma prof_got : yields GetFanProfiles (got CProf).
Proof. apply (yields_got CProf getFanProfiles _ _ FanProfiles_Unmarshal RProf); try reflexivity; try discriminate; apply prof_getter. Qed.
Lemma err_got : yields GetErrors (got CErr).
Proof. apply (yields_got CErr getErrors _ _ Errors_Unmarshal RErrors); try reflexivity; try discriminate; apply err_getter. Qed.

(** The reports of its exchanges. *)
Definition tell (l : list (list io)) (es : list event) : Prop := reports txt (concat l) es.
Lemma tell_nil : tell [] [].
Proof. constructor. Qed.
Lemma tell_app a b x y : tell a x -> tell b y -> tell (a ++ b) (x ++ y).
Proof. unfold tell. rewrite concat_app. apply reports_app. Qed.
Definition tell1 c (force : bool) (l : list (list io)) (es : list event) : Prop :=
  tell l es /\ (force = true -> exists x, l = [x] /\ one_query c x).
Lemma yields_shape' {T} c (t : shared -> Z) (get : sproc (T * option err)) put force : yields get (got c) ->
  (forall v now, yields (put v now) (fun l es => l = [] /\ es = [])) ->
  yields (with_lock (LC c) (Now (fun now => Get (fun s =>
    if negb force && negb (isStale (t s) now) then Ret []
    else do (v, e) <- get;
         match e with None => put v now | Some e => Ret (updateError txt (str (cache_message c)) e) end)))) (tell1 c force).
Proof.
  intros G P. apply yields_lock; [discriminate|]. apply yields_now. intros now. apply yields_get. intros s.
  destruct (negb force && _) eqn:F; [apply yields_ret; split; [apply tell_nil|destruct force; discriminate]|].
  eapply yields_bind; [exact G|]. intros l [v e] (x & p & e' & -> & X & E). cbn [snd] in E.
  assert (Q : force = true -> exists y, [x] = [y] /\ one_query c y) by (intros _; exists x; split; auto; exists p, e'; auto).
  destruct e as [e|].
  - apply yields_ret. split; auto. unfold tell. cbn [concat]. unfold updateError. destruct e' as [e'|].
    + injection E as ->. eapply rp_failed; [exact X|constructor].
    + destruct (accepted c (p_data p)) eqn:A; [discriminate|]. injection E as ->. eapply rp_rejected; [exact X|auto|constructor].
  - destruct e'; [discriminate|]. destruct (accepted c (p_data p)) eqn:A; [|discriminate].
    eapply yields_weaken; [|apply P]. cbn beta. intros l es (-> & ->). split; auto. unfold tell. cbn [concat app]. eapply rp_fetched; [exact X|auto|constructor].
Qed.
Lemma tells_update c force : yields (Update' txt c force) (tell1 c force).
Proof.
  destruct c; cbn [Update'].
  - apply (yields_shape' CBoot sh_boot_t GetBootloader (fun v now => assign_boot v (Put (on_boot_t now) (Ret []))) force boot_got).
    intros. repeat apply yields_put. apply yields_ret. auto.
  - apply (yields_shape' CBypass sh_bypass_t GetBypass (fun v now => assign_bypass v (Put (on_bypass_t now) (Ret []))) force bypass_got).
    intros. repeat apply yields_put. apply yields_ret. auto.
  - apply (yields_shape' CTemp sh_temp_t GetTemperatures (fun v now => assign_temp v (Put (on_temp_t now) (Ret []))) force temp_got).
    intros. repeat apply yields_put. apply yields_ret. auto.
  - apply (yields_shape' CFans sh_fans_t GetFans (fun v now => assign_fans v (Put (on_fans_t now) (Ret []))) force fans_got).
    intros. repeat apply yields_put. apply yields_ret. auto.
  - apply (yields_shape' CProf sh_prof_t GetFanProfiles (fun v now => assign_prof v (Put (on_prof_t now) (Ret []))) force prof_got).
    intros. repeat apply yields_put. apply yields_ret. auto.
  - apply (yields_shape' CErr sh_err_t GetErrors (fun v now => assign_err v (Put (on_err_t now) (Ret []))) force err_got).
    intros. repeat apply yields_put. apply yields_ret. auto.
Qed.
Lemma tells_upd c force : yields (Update' txt c force) tell.
Proof. eapply yields_weaken; [|apply tells_update]. intros l es [H _]. exact H. Qed.
Lemma tells_all force : yields (UpdateCaches' txt force) tell.
Proof.
  unfold UpdateCaches'. do 6 (eapply yields_bind; [apply tells_upd|intros ? ? ?]). apply yields_ret. rewrite app_nil_r.
  repeat apply tell_app; auto.
Qed.
Lemma tells_tick t : yields (on_tick' txt t) tell.
Proof.
  destruct t; cbn [on_tick']; do 2 (eapply yields_bind; [apply tells_upd|intros ? ? ?]); apply yields_ret; rewrite app_nil_r; apply tell_app; auto.
Qed.
Lemma tells_flush c : yields (FlushCaches' txt c) tell.
Proof.
  unfold FlushCaches'. eapply yields_bind with (R := fun l x => tell l (snd x)).
  - unfold FlushCaches_body'.
    repeat match goal with |- yields (if ?b then _ else _) _ => destruct b; [eapply yields_bind;
      [first [apply tells_upd|apply tells_all]|intros ? ? ?; apply yields_ret; rewrite app_nil_r; auto]|] end.
    apply yields_ret. apply tell_nil.
  - intros l [b es] H ls. cbn. split; auto. exists []. rewrite !app_nil_r. auto.
Qed.
Lemma tells_start : yields (StartCaches' txt) (fun l es => exists e1, es = caches_started e1 /\ tell l e1).
Proof.
  unfold StartCaches'. eapply yields_bind; [apply tells_all|]. intros l es H. apply yields_ret. rewrite app_nil_r. exists es. auto.
Qed.
Lemma tells_setq r : (exists cmd data, set_command cmd data /\ EncodeSetRequest r = (mkPacket cmd data false, None)) \/ (exists p e, EncodeSetRequest r = (p, Some e)) ->
  yields (setQuery r) (fun l _ => tell l []).
Proof.
  intros [(cmd & data & Sc & E)|(p & e & E)].
  - eapply yields_weaken; [|apply (yields_setQuery _ _ E)]. cbn [p_cmd p_data p_expect]. intros l e (x & out & -> & X).
    unfold tell. cbn [concat]. eapply rp_set; [exact Sc|exact X|constructor].
  - unfold setQuery. rewrite E. apply yields_ret. apply tell_nil.
Qed.
Lemma tells_poll n i o : forall acc l0, tell l0 acc -> yields (poll_loop' txt n i o acc) (fun l x => tell (l0 ++ l) (snd x)).
Proof.
  induction n as [|n IH]; intros acc l0 H0; cbn [poll_loop'].
  - apply yields_ret. rewrite app_nil_r. exact H0.
  - eapply yields_bind; [apply tells_upd|]. intros l es H.
    assert (K : tell (l0 ++ l) (acc ++ es)) by (apply tell_app; auto).
    assert (Again : yields (Sleep (second / 2) (poll_loop' txt n i o (acc ++ es))) (fun l' x => tell (l0 ++ l ++ l') (snd x))).
    { apply yields_sleep. eapply yields_weaken; [|apply (IH _ _ K)]. cbn beta. intros l' x Hx. rewrite app_assoc. exact Hx. }
    apply yields_get. intros s. destruct (_ =? _); [|exact Again]. apply yields_get. intros s'. destruct (_ =? _); [|exact Again].
    apply yields_ret. rewrite app_nil_r. exact K.
Qed.
Lemma tells_updpoll n v : yields (UpdatePoll' txt n v) (fun l x => tell l (snd x)).
Proof.
  intros ls. unfold UpdatePoll'. cbn [os]. intros s. destruct (Lookup _ _) as [[i o] [e|]]; cbn [os].
  - split; auto. exists []. rewrite app_nil_r. split; auto. apply tell_nil.
  - apply (tells_poll n i o [] []). apply tell_nil.
Qed.
Lemma own_profile m t : yields (SetFanProfile m t) (fun l _ => own (concat l)).
Proof.
  assert (N : own (concat [])) by (left; reflexivity).
  unfold SetFanProfile. destruct (_ >? _); [apply yields_ret; exact N|]. destruct (_ >? _); [apply yields_ret; exact N|].
  apply yields_lock; [discriminate|]. eapply yields_bind; [apply yields_profiles|].
  intros l [fp e] (x & p & e' & -> & X & _).
  assert (Stop : own (concat ([x] ++ []))).
  { right. exists p, e', x, []. cbn. rewrite app_nil_r. auto. }
  destruct e as [e|]; [apply yields_ret; exact Stop|].
  destruct (EncodeSetRequest (SRProfiles (change_profile m t fp))) as [q [e|]] eqn:E.
  { unfold setQuery. rewrite E. apply yields_ret. exact Stop. }
  assert (F : exists data, List.length data = 8%nat /\ q = mkPacket 207 data false).
  { unfold EncodeSetRequest in E. match type of E with context [requestType ?r =? 0] => change (requestType r =? 0) with false in E end. cbv iota in E. unfold SetRequest_MarshalBinary in E.
    repeat match type of E with context [if ?b then _ else _] => destruct b; [discriminate|] end.
    injection E as <-; eexists; split; [|reflexivity]; reflexivity. }
  destruct F as (data & Ld & ->). eapply yields_weaken; [|apply (yields_setQuery _ _ E)]. cbn [p_cmd p_data p_expect].
  intros l o (y & out & -> & Y). right. exists p, e', x, y. cbn. rewrite app_nil_r. split; auto. split; auto. right. eauto 6.
Qed.
Lemma yields_rpc' r : yields (handle' txt r) (fun l x => recorded txt r l (fst x) (snd x)).
Proof.
  assert (G : forall c, yields (handle' txt (getter_rpc c)) (fun l x => l = [] /\ snd x = [])).
  { intros c. destruct c; cbn [getter_rpc handle' handle]; (eapply yields_bind with (R := fun l _ => l = []);
      [eapply yields_bind with (R := fun l _ => l = []);
        [apply yields_lock; [discriminate|]; repeat (apply yields_get; intros ?s); apply yields_ret; reflexivity|
         intros l a ->; apply yields_ret; reflexivity]|
       intros l a ->; apply yields_ret; auto]). }
  assert (G' : forall c, yields (handle' txt (getter_rpc c)) (fun l x => tell l (snd x))).
  { intros c. eapply yields_weaken; [|apply G]. cbn beta. intros l [a es] (-> & E). cbn [snd] in *. subst. apply tell_nil. }
  destruct r.
  - apply (G' CBoot).
  - apply (G' CBypass).
  - apply (G' CErr).
  - apply (G' CFans).
  - apply (G' CProf).
  - apply (G' CTemp).
  - cbn [handle' recorded]. change (fun l (x : resp * list event) => reports txt (concat l) (snd x)) with (fun l (x : resp * list event) => tell l (snd x)).
    unfold SetComfortTemp'. apply yields_get. intros s. destruct (_ >? _); [apply yields_ret, tell_nil|].
    destruct (negb _); [|apply yields_ret, tell_nil]. apply yields_lock; [discriminate|].
    eapply yields_bind; [apply tells_setq, comfort_encodes|]. intros l [e|] H; [apply yields_ret; rewrite app_nil_r; exact H|].
    eapply yields_bind; [apply tells_upd|]. intros l' es H'. apply yields_ret. rewrite app_nil_r. apply (tell_app _ _ _ _ H H').
  - cbn [handle' recorded]. change (fun l (x : resp * list event) => reports txt (concat l) (snd x)) with (fun l (x : resp * list event) => tell l (snd x)).
    unfold SetFanSpeed'. apply yields_lock; [discriminate|]. apply yields_get. intros s. cbv zeta.
    destruct (modifySpeed _ _ _) as [v [e|]]; [apply yields_ret, tell_nil|].
    destruct (negb _); [|apply yields_ret, tell_nil].
    eapply yields_bind; [apply tells_setq, speed_encodes|]. intros l [e|] H; [apply yields_ret; rewrite app_nil_r; exact H|].
    eapply yields_bind; [apply tells_updpoll|]. intros l2 [[e|] es] H2; cbn [snd] in H2.
    + apply yields_ret. rewrite app_nil_r. apply (tell_app _ _ _ _ H H2).
    + eapply yields_bind; [apply tells_upd|]. intros l3 es3 H3. apply yields_ret. rewrite app_nil_r.
      apply (tell_app _ _ _ _ H). apply (tell_app _ _ _ _ H2 H3).
  - cbn [handle' recorded]. unfold SetFanProfileRPC'. cbv zeta.
    assert (Q : forall a, exists l1 l2 : list io, concat [] = l1 ++ l2 /\ own l1 /\ reports txt l2 [] /\ (l2 = [] \/ one_query CProf l2 /\ exists x y z, a = RespProfile x y z)).
    { intros a. exists [], []. repeat split; auto. left; reflexivity. constructor. }
    destruct (_ || _); [apply yields_ret, Q|]. destruct (_ || _); [apply yields_ret, Q|].
    apply yields_lock; [discriminate|]. apply yields_get. intros s.
    match goal with |- yields (match ?o with _ => _ end) _ => destruct o end; [|apply yields_crash].
    destruct (negb _); [|apply yields_ret, Q].
    eapply yields_bind; [apply own_profile|]. intros l [e|] H.
    + apply yields_ret. exists (concat l), []. rewrite !app_nil_r. repeat split; auto. constructor.
    + eapply yields_bind; [apply tells_update|]. intros l' es (H1 & H2). apply yields_ret. rewrite app_nil_r. exists (concat l), (concat l').
      rewrite concat_app. repeat split; auto. right. destruct (H2 eq_refl) as (x & -> & O). cbn. rewrite app_nil_r. eauto.
  - intros ls. cbn. intros b. split; auto. exists []. rewrite app_nil_r. auto.
Qed.
End Yields.
