(** A logic for what a goroutine does to a unit that follows the protocol, whatever the others do. *)
From Verif Require Import ProofBase Proto SpecProto SpecFrame SpecConn SpecLayout SpecServer SpecUnit SpecTrack ProtoProofs Scanner Conn Proc Lib QueryProofs
  FrameLemmas LayoutProofs OpLemmas Server ServerProofs ServerLemmas ServerOps UnitProofs Machine MachineBase ThreadLogic FreshLogic.

(** Where it is in an exchange: without LPm; holding it; waiting for a reply to [gr] or for an ack; before its own ack. *)
Inductive phase := Away | Ready | Asked (gr : option Z) | Heard.
Definition is_am (l : lockid) : bool := match l with LAm => true | _ => false end.
(** Requests that change the unit, by the RPC being handled.  [kw]: the profiles it has read under LAm. *)
Inductive alters (rs : list rpc) (kw : option (list Z)) : Z -> list Z -> Prop :=
| al_comfort t : In (SetComfortTempR t) rs -> t <= 255 -> t mod 256 <= 107 -> alters rs kw 211 [2 * (t mod 256 + 20)]
| al_speed a b v : In (SetFanSpeedR a b) rs -> 1 <= v <= 4 -> (a <> 0 -> v = a mod 256) -> alters rs kw 153 [v]
| al_profile m t pl : In (SetFanProfileR m t) rs -> 1 <= m mod 256 <= 4 -> 15 <= t mod 256 <= 100 -> kw = Some pl ->
    alters rs kw 207 (profile_request pl (m mod 256 - 1) (t mod 256)).

Section Us.
Context (rs : list rpc).
Definition upost (A : Type) := phase -> bool -> option (list Z) -> A -> Prop.
Fixpoint us {A} (ph : phase) (am : bool) (kw : option (list Z)) (p : sproc A) (Q : upost A) : Prop :=
  match p with
  | Ret a => Q ph am kw a
  | Crash => True
  | Lock l q => if is_pm l then ph = Away /\ us Ready am kw q Q
                else if is_am l then am = false /\ us ph true kw q Q else us ph am kw q Q
  | Unlock l q => if is_pm l then ph = Ready /\ us Away am kw q Q
                  else if is_am l then us ph false None q Q else us ph am kw q Q
  | RLock _ q => us ph am kw q Q
  | RUnlock _ q => us ph am kw q Q
  | WriteC bs q => match ph with
      | Ready => (exists gr, In gr asking /\ bs = framed gr [] /\ us (Asked (Some gr)) am kw (q (mkWres (len bs) None)) Q) \/
                 (exists cmd data, alters rs kw cmd data /\ bs = framed cmd data /\ us (Asked None) am None (q (mkWres (len bs) None)) Q)
      | Heard => bs = [7; 243] /\ us Ready am kw (q (mkWres 2 None)) Q
      | _ => False
      end
  | ReadC x q => match ph with
      | Asked (Some gr) => x = true /\ forall pl, (gr = 205 -> length pl = 14%nat /\ bytes_ok pl) ->
          us Heard am (if am && (gr =? 205) then Some pl else kw) (q (mkPacket (gr + 1) pl false) None) Q
      | Asked None => x = false /\ us Heard am kw (q zero_packet None) Q
      | _ => False
      end
  | Get q => forall s, us ph am kw (q s) Q
  | Put _ q => us ph am kw q Q
  | Now q => forall t, us ph am kw (q t) Q
  | Sleep _ q => us ph am kw q Q
  | SendFlush _ q => us ph am kw q Q
  | RecvSucc q => forall b, us ph am kw (q b) Q
  | SendSucc _ q => us ph am kw q Q
  end.
Lemma us_weaken {A} (p : sproc A) : forall ph am kw (Q R : upost A),
  (forall ph' am' kw' a, Q ph' am' kw' a -> R ph' am' kw' a) -> us ph am kw p Q -> us ph am kw p R.
Proof.
  induction p as [a| |l q IH|l q IH|l q IH|l q IH|bs q IH|e q IH|q IH|f q IH|q IH|d q IH|c q IH|q IH|b q IH];
    intros ph am kw Q R W F; cbn [us] in *; eauto.
  - destruct (is_pm l); [destruct F; eauto|]. destruct (is_am l); [destruct F; eauto|eauto].
  - destruct (is_pm l); [destruct F; eauto|]. destruct (is_am l); eauto.
  - destruct ph as [| |gr|]; try contradiction.
    + destruct F as [(gr & G & E & F)|(cmd & data & G & E & F)]; [left|right]; eauto 8.
    + destruct F as [E F]. eauto.
  - destruct ph as [| |[gr|]|]; try contradiction; destruct F as [E F]; split; eauto.
Qed.
Lemma us_bind {A B} (p : sproc A) (f : A -> sproc B) : forall ph am kw (Q : upost B),
  us ph am kw p (fun ph' am' kw' a => us ph' am' kw' (f a) Q) -> us ph am kw (bind p f) Q.
Proof.
  induction p as [a| |l q IH|l q IH|l q IH|l q IH|bs q IH|e q IH|q IH|g q IH|q IH|d q IH|c q IH|q IH|b q IH];
    intros ph am kw Q F; cbn [us bind] in *; eauto.
  - destruct (is_pm l); [destruct F; eauto|]. destruct (is_am l); [destruct F; eauto|eauto].
  - destruct (is_pm l); [destruct F; eauto|]. destruct (is_am l); eauto.
  - destruct ph as [| |gr|]; try contradiction.
    + destruct F as [(gr & G & E & F)|(cmd & data & G & E & F)]; [left|right]; eauto 8.
    + destruct F as [E F]. eauto.
  - destruct ph as [| |[gr|]|]; try contradiction; destruct F as [E F]; split; eauto.
Qed.

(** Processes that begin and end outside of exchanges and without LAm. *)
Definition plain {A} (p : sproc A) (R : A -> Prop) : Prop :=
  us Away false None p (fun ph am kw a => ph = Away /\ am = false /\ kw = None /\ R a).
Definition any {A} (_ : A) : Prop := True.
Lemma plain_weaken {A} (p : sproc A) (R R' : A -> Prop) : (forall a, R a -> R' a) -> plain p R -> plain p R'.
Proof. intros W. apply us_weaken. intros ph am kw a (E1 & E2 & E3 & H). auto. Qed.
Lemma plain_any {A} (p : sproc A) R : plain p R -> plain p any.
Proof. apply plain_weaken. intros a _. exact I. Qed.
Lemma plain_ret {A} (a : A) (R : A -> Prop) : R a -> plain (Ret a) R.
Proof. intros H. cbn. auto. Qed.
Lemma plain_crash {A} (R : A -> Prop) : plain Crash R.
Proof. exact I. Qed.
Lemma plain_bind {A B} (p : sproc A) (f : A -> sproc B) R R' : plain p R -> (forall a, R a -> plain (f a) R') -> plain (bind p f) R'.
Proof. intros P F. apply us_bind. eapply us_weaken; [|exact P]. cbn beta. intros ph am kw a (-> & -> & -> & H). apply F. exact H. Qed.
Lemma plain_get {A} (q : shared -> sproc A) R : (forall s, plain (q s) R) -> plain (Get q) R.
Proof. intros H s. apply H. Qed.
Lemma plain_now {A} (q : Z -> sproc A) R : (forall s, plain (q s) R) -> plain (Now q) R.
Proof. intros H s. apply H. Qed.
Lemma plain_put {A} f (q : sproc A) R : plain q R -> plain (Put f q) R.
Proof. intros H. apply H. Qed.
Lemma plain_sleep {A} d (q : sproc A) R : plain q R -> plain (Sleep d q) R.
Proof. intros H. apply H. Qed.
Lemma plain_lock {A} l (p : sproc A) R : l <> LPm -> l <> LAm -> plain p R -> plain (with_lock l p) R.
Proof.
  intros N N2 H. unfold plain, with_lock. cbn [us].
  assert (E : is_pm l = false /\ is_am l = false) by (destruct l; split; try reflexivity; congruence). destruct E as [E1 E2]. rewrite E1, E2.
  apply us_bind. eapply us_weaken; [|exact H]. cbn. intros ph am kw a G. rewrite E1, E2. exact G.
Qed.
Lemma plain_lift {A} (o : outcome A) (R : A -> Prop) : (forall a, o = Done a -> R a) -> plain (lift o) R.
Proof. intros H. destruct o; cbn [lift]; [apply plain_ret; auto|apply plain_crash]. Qed.

(** ** one exchange *)
Lemma us_ask gr am kw (Q : upost (packet * option err)) : In gr asking ->
  (forall pl, (gr = 205 -> length pl = 14%nat /\ bytes_ok pl) ->
     Q Away am (if am && (gr =? 205) then Some pl else kw) (mkPacket (gr + 1) pl false, None)) ->
  us Away am kw (QueryPacket (mkPacket gr [] true)) Q.
Proof.
  intros G H. unfold QueryPacket, with_lock. cbn [us is_pm]. split; [reflexivity|]. apply us_bind.
  unfold WritePacket. rewrite marshal_wire. change (len (p_data (mkPacket gr [] true)) >? 255) with false. cbn [lift bind us].
  left. exists gr. split; auto. split; [reflexivity|]. cbn [w_err bind us]. split; [reflexivity|]. intros pl L. cbn [p_cmd p_expect].
  assert (E : u8 (gr + 1) = gr + 1) by (simpl in G; intuition subst; reflexivity). rewrite E, Z.eqb_refl. cbn [negb andb].
  unfold WriteAck. cbn [bind us]. split; [reflexivity|]. cbn [w_err w_n]. change (2 =? len pktAck) with true. cbn [negb bind us is_pm].
  split; [reflexivity|]. apply H. exact L.
Qed.
Lemma us_alter cmd data am kw (Q : upost (packet * option err)) : alters rs kw cmd data -> (length data <= 255)%nat ->
  Q Away am None (zero_packet, None) -> us Away am kw (QueryPacket (mkPacket cmd data false)) Q.
Proof.
  intros G L H. unfold QueryPacket, with_lock. cbn [us is_pm]. split; [reflexivity|]. apply us_bind.
  unfold WritePacket. rewrite marshal_wire. cbn [p_data p_cmd p_expect]. replace (_ >? 255) with false by (unfold len; lia). cbn [lift bind us].
  right. exists cmd, data. split; auto. split; [reflexivity|]. cbn [w_err bind us]. split; [reflexivity|]. cbn [andb].
  unfold WriteAck. cbn [bind us]. split; [reflexivity|]. cbn [w_err w_n]. change (2 =? len pktAck) with true. cbn [negb bind us is_pm].
  split; [reflexivity|]. exact H.
Qed.
Lemma plain_set r cmd data : EncodeSetRequest r = (mkPacket cmd data false, None) -> alters rs None cmd data -> (length data <= 255)%nat ->
  plain (setQuery r) (fun e => e = None).
Proof.
  intros E G L. unfold plain, setQuery. rewrite E. apply us_bind. apply us_alter; auto. cbn. auto.
Qed.
Lemma plain_getter {T} gr (zero : T) assert : In gr asking -> plain (getter gr zero assert) any.
Proof.
  intros G. unfold getter, getQuery. eapply plain_bind with (R := any).
  - unfold plain. apply us_bind. unfold EncodeGetRequest. apply us_ask; auto. intros pl _. cbn [andb]. apply plain_lift. intros; exact I.
  - intros [r e] _. destruct e; [apply plain_ret; exact I|]. destruct r; [|apply plain_crash]. destruct (assert r); [apply plain_ret; exact I|apply plain_crash].
Qed.
Lemma plain_shape {T} c (t : shared -> Z) (get : sproc (T * option err)) put :
  plain get any -> (forall v now, plain (put v now) any) -> forall force, plain (update_shape c t get put force) any.
Proof.
  intros G P force. unfold update_shape. apply plain_lock; [discriminate|discriminate|]. apply plain_now. intros now. apply plain_get. intros s.
  destruct (negb force && _); [apply plain_ret; exact I|]. eapply plain_bind; [exact G|]. intros [v e] _. destruct e; [apply plain_ret; exact I|apply P].
Qed.
Lemma plain_update c force : plain (Update c force) any.
Proof.
  destruct c.
  - apply (plain_shape CBoot sh_boot_t GetBootloader (fun v now => assign_boot v (Put (on_boot_t now) (Ret tt))));
      [apply plain_getter; simpl; auto 9|intros; unfold assign_boot, assign_bypass, assign_temp, assign_fans, assign_prof, assign_err; repeat match goal with |- plain (Put _ _) _ => apply plain_put end; apply plain_ret; exact I].
  - apply (plain_shape CBypass sh_bypass_t GetBypass (fun v now => assign_bypass v (Put (on_bypass_t now) (Ret tt))));
      [apply plain_getter; simpl; auto 9|intros; unfold assign_boot, assign_bypass, assign_temp, assign_fans, assign_prof, assign_err; repeat match goal with |- plain (Put _ _) _ => apply plain_put end; apply plain_ret; exact I].
  - apply (plain_shape CTemp sh_temp_t GetTemperatures (fun v now => assign_temp v (Put (on_temp_t now) (Ret tt))));
      [apply plain_getter; simpl; auto 9|intros; unfold assign_boot, assign_bypass, assign_temp, assign_fans, assign_prof, assign_err; repeat match goal with |- plain (Put _ _) _ => apply plain_put end; apply plain_ret; exact I].
  - apply (plain_shape CFans sh_fans_t GetFans (fun v now => assign_fans v (Put (on_fans_t now) (Ret tt))));
      [apply plain_getter; simpl; auto 9|intros; unfold assign_boot, assign_bypass, assign_temp, assign_fans, assign_prof, assign_err; repeat match goal with |- plain (Put _ _) _ => apply plain_put end; apply plain_ret; exact I].
  - apply (plain_shape CProf sh_prof_t GetFanProfiles (fun v now => assign_prof v (Put (on_prof_t now) (Ret tt))));
      [apply plain_getter; simpl; auto 9|intros; unfold assign_boot, assign_bypass, assign_temp, assign_fans, assign_prof, assign_err; repeat match goal with |- plain (Put _ _) _ => apply plain_put end; apply plain_ret; exact I].
  - apply (plain_shape CErr sh_err_t GetErrors (fun v now => assign_err v (Put (on_err_t now) (Ret tt))));
      [apply plain_getter; simpl; auto 9|intros; unfold assign_boot, assign_bypass, assign_temp, assign_fans, assign_prof, assign_err; repeat match goal with |- plain (Put _ _) _ => apply plain_put end; apply plain_ret; exact I].
Qed.
Lemma plain_caches force : plain (UpdateCaches force) any.
Proof. unfold UpdateCaches. do 5 (eapply plain_bind; [apply plain_update|intros [] _]). apply plain_update. Qed.
Lemma plain_tick t : plain (on_tick t) any.
Proof. destruct t; cbn [on_tick]; (eapply plain_bind; [apply plain_update|intros [] _; apply plain_update]). Qed.
Lemma plain_flush t : plain (FlushCaches t) any.
Proof.
  unfold FlushCaches. eapply plain_bind with (R := any).
  - unfold FlushCaches_body. repeat match goal with |- plain (if _ then _ else _) _ =>
      match goal with |- plain (if ?b then _ else _) _ => destruct b end; [eapply plain_bind; [first [apply plain_update|apply plain_caches]|intros [] _; apply plain_ret; exact I]|] end.
    apply plain_ret. exact I.
  - intros b _. cbn. unfold any. auto.
Qed.
Lemma plain_poll n i o : plain (poll_loop n i o) any.
Proof.
  induction n as [|n IH]; cbn [poll_loop]; [apply plain_ret; exact I|].
  eapply plain_bind; [apply plain_update|]. intros [] _. apply plain_get. intros s. destruct (_ =? _); [|apply plain_sleep; exact IH].
  apply plain_get. intros s'. destruct (_ =? _); [apply plain_ret; exact I|apply plain_sleep; exact IH].
Qed.
Lemma plain_updpoll n v : 1 <= v <= 4 -> plain (UpdatePoll n v) any.
Proof. intros V. unfold plain, UpdatePoll. cbn [us]. intros s. rewrite in_out_lookup by auto. cbn [us]. apply plain_poll. Qed.

(** Requests. *)
Lemma plain_rpc r : In r rs -> plain (handle r) any.
Proof.
  intros Rs. destruct r.
  - cbn [handle]. eapply plain_bind with (R := any); [apply plain_lock; [discriminate|discriminate|]; repeat match goal with |- plain (Get _) _ => apply plain_get; intros ?s; cbv zeta end; apply plain_ret; exact I|intros a _; apply plain_ret; exact I].
  - cbn [handle]. eapply plain_bind with (R := any); [apply plain_lock; [discriminate|discriminate|]; repeat match goal with |- plain (Get _) _ => apply plain_get; intros ?s; cbv zeta end; apply plain_ret; exact I|intros a _; apply plain_ret; exact I].
  - cbn [handle]. eapply plain_bind with (R := any); [apply plain_lock; [discriminate|discriminate|]; repeat match goal with |- plain (Get _) _ => apply plain_get; intros ?s; cbv zeta end; apply plain_ret; exact I|intros a _; apply plain_ret; exact I].
  - cbn [handle]. eapply plain_bind with (R := any); [apply plain_lock; [discriminate|discriminate|]; repeat match goal with |- plain (Get _) _ => apply plain_get; intros ?s; cbv zeta end; apply plain_ret; exact I|intros a _; apply plain_ret; exact I].
  - cbn [handle]. eapply plain_bind with (R := any); [apply plain_lock; [discriminate|discriminate|]; repeat match goal with |- plain (Get _) _ => apply plain_get; intros ?s; cbv zeta end; apply plain_ret; exact I|intros a _; apply plain_ret; exact I].
  - cbn [handle]. eapply plain_bind with (R := any); [apply plain_lock; [discriminate|discriminate|]; repeat match goal with |- plain (Get _) _ => apply plain_get; intros ?s; cbv zeta end; apply plain_ret; exact I|intros a _; apply plain_ret; exact I].
  - cbn [handle]. unfold SetComfortTemp. apply plain_get. intros s. destruct (_ >? _) eqn:Hi; [apply plain_ret; exact I|].
    destruct (negb _); [|apply plain_ret; exact I]. apply plain_lock; [discriminate|discriminate|].
    match goal with |- context[SetComfort (u8 ?x)] => rename x into t end.
    assert (B : 0 <= t mod 256 <= 255) by (pose proof (Z.mod_pos_bound t 256 ltac:(lia)); lia).
    unfold u8. destruct (Z_lt_le_dec 107 (t mod 256)) as [V|V].
    + assert (E : (SetComfort (t mod 256) : sproc (option err)) = Ret (Some ErrTooHigh)).
      { unfold SetComfort, setQuery, EncodeSetRequest. cbn [requestType SetRequest_MarshalBinary].
        destruct (of_Z_exact (t mod 256) ltac:(lia)) as [_ T]. unfold temperature_MarshalBinary. rewrite T.
        replace (t mod 256 >? 107) with true by lia. reflexivity. }
      rewrite E. cbn [bind]. apply plain_ret. exact I.
    + assert (E : EncodeSetRequest (SRComfort (f32_of_Z (t mod 256))) = (mkPacket 211 [2 * (t mod 256 + 20)] false, None)).
      { unfold EncodeSetRequest. cbn [requestType SetRequest_MarshalBinary]. rewrite temp_encode by lia. reflexivity. }
      unfold SetComfort. eapply plain_bind; [eapply plain_set; [exact E|apply al_comfort; auto; lia|simpl; lia]|]. intros e ->.
      eapply plain_bind; [apply plain_update|]. intros [] _. apply plain_ret. exact I.
  - cbn [handle]. unfold SetFanSpeed. apply plain_lock; [discriminate|discriminate|]. apply plain_get. intros s.
    destruct (modifySpeed _ _ _) as [tgt [e|]] eqn:T; [apply plain_ret; exact I|].
    match type of T with modifySpeed _ ?x ?y = _ => rename x into a; rename y into b end.
    assert (Ta : a <> 0 -> tgt = a mod 256).
    { intros N. revert T. unfold modifySpeed. replace (a =? 0) with false by lia. cbn [negb andb]. destruct b; [discriminate|].
      destruct (_ || _); [discriminate|]. intros X. injection X as <-. reflexivity. }
    apply modify_range in T.
    assert (U : u8 tgt = tgt) by (apply Z.mod_small; lia). rewrite U. destruct (negb _); [|apply plain_ret; exact I].
    unfold SetSpeed. eapply plain_bind; [eapply plain_set; [apply (speed_encode tgt ltac:(lia))|eapply al_speed; eauto|simpl; lia]|]. intros e ->.
    eapply plain_bind; [apply plain_updpoll; auto|]. intros [e|] _; [apply plain_ret; exact I|].
    eapply plain_bind; [apply plain_update|]. intros [] _. apply plain_ret. exact I.
  - cbn [handle]. unfold SetFanProfileRPC. 
    match goal with |- context[SetFanProfile (u8 (u8 ?x - 1)) (u8 ?y)] => rename x into m; rename y into t end.
    destruct ((u8 m <? 1) || (u8 m >? 4)) eqn:Bm; [apply plain_ret; exact I|].
    destruct ((u8 t <? 15) || (u8 t >? 100)) eqn:Bt; [apply plain_ret; exact I|].
    assert (Rm : 1 <= u8 m <= 4) by lia. assert (Rt : 15 <= u8 t <= 100) by lia.
    assert (U : u8 (u8 m - 1) = u8 m - 1) by (apply Z.mod_small; lia). rewrite U.
    apply plain_lock; [discriminate|discriminate|]. apply plain_get. intros s.
    match goal with |- plain (match ?o with _ => _ end) _ => destruct o end; [|apply plain_crash].
    destruct (negb _); [|apply plain_ret; exact I].
    unfold SetFanProfile. replace (u8 m - 1 >? 3) with false by lia. replace (u8 t >? 100) with false by lia.
    eapply plain_bind with (R := fun e => e = None).
    + unfold plain, with_lock. cbn [us is_pm is_am]. split; [reflexivity|]. apply us_bind. apply us_bind.
      unfold GetFanProfiles, getter, getQuery. apply us_bind. apply us_bind. unfold EncodeGetRequest. change getFanProfiles with 205.
      apply us_ask; [simpl; auto 9|]. intros pl L. destruct (L eq_refl) as [L14 B]. change (true && (205 =? 205)) with true. cbn iota.
      assert (D : exists fp, FanProfiles_Unmarshal pl = Done (fp, None)).
      { clear -L14. do 14 (destruct pl as [|? pl]; [discriminate|]). destruct pl; [|discriminate]. eexists. reflexivity. }
      destruct D as (fp & D). unfold DecodeResponse. cbn [p_cmd p_data]. change (205 + 1) with 206. cbn [Z.eqb Pos.eqb].
      change (ResponseType 206) with (Some (fun l => omap RProf (FanProfiles_Unmarshal l))). cbn beta iota. rewrite D. cbn [omap obind lift us].
      pose proof (profile_request_ok _ _ (u8 m - 1) (u8 t) ltac:(lia) D) as E. unfold setQuery. rewrite E. apply us_bind. apply us_alter.
      * apply al_profile; auto.
      * unfold profile_request. simpl. lia.
      * cbn. auto.
    + intros e ->. eapply plain_bind; [apply plain_update|]. intros [] _. apply plain_ret. exact I.
  - cbn. unfold any. auto.
Qed.
End Us.
