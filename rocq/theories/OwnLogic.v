(** A logic for what one goroutine does on the connection, whatever the others do: the exchanges
    it makes, one by one. *)
From Verif Require Import ProofBase Proto SpecProto SpecFrame SpecConn SpecLayout SpecServer ProtoProofs Scanner Conn Proc Lib QueryProofs
  FrameLemmas LayoutProofs OpLemmas Server ServerProofs ServerLemmas ServerOps ServerTimes Machine MachineBase ThreadLogic SpecMachine SpecFresh FreshLogic.

(** [kn]: what it has done since it took LPm, if it holds it; [ls]: earlier exchanges. *)
Definition opost (A : Type) := option (list io) -> list (list io) -> A -> Prop.
Fixpoint os {A} (kn : option (list io)) (ls : list (list io)) (p : sproc A) (Q : opost A) : Prop :=
  match p with
  | Ret a => Q kn ls a
  | Crash => True
  | Lock l q => if is_pm l then kn = None /\ os (Some []) ls q Q else os kn ls q Q
  | Unlock l q => if is_pm l then exists x, kn = Some x /\ os None (ls ++ [x]) q Q else os kn ls q Q
  | RLock _ q => os kn ls q Q
  | RUnlock _ q => os kn ls q Q
  | WriteC bs q => exists x, kn = Some x /\ forall r, os (Some (x ++ [Wr bs r])) ls (q r) Q
  | ReadC e q => exists x, kn = Some x /\ forall p r, (r <> None -> p = zero_packet) -> os (Some (x ++ [Rd e p r])) ls (q p r) Q
  | Get q => forall s, os kn ls (q s) Q
  | Put _ q => os kn ls q Q
  | Now q => forall t, os kn ls (q t) Q
  | Sleep _ q => os kn ls q Q
  | SendFlush _ q => os kn ls q Q
  | RecvSucc q => forall b, os kn ls (q b) Q
  | SendSucc _ q => os kn ls q Q
  end.
Lemma os_weaken {A} (p : sproc A) : forall kn ls (Q R : opost A),
  (forall kn' ls' a, Q kn' ls' a -> R kn' ls' a) -> os kn ls p Q -> os kn ls p R.
Proof.
  induction p as [a| |l q IH|l q IH|l q IH|l q IH|bs q IH|e q IH|q IH|f q IH|q IH|d q IH|c q IH|q IH|b q IH];
    intros kn ls Q R W F; cbn [os] in *; eauto.
  - destruct (is_pm l); eauto. destruct F. eauto.
  - destruct (is_pm l); eauto. destruct F as (x & E & F). eauto.
  - destruct F as (x & E & F). eauto.
  - destruct F as (x & E & F). eauto 6.
Qed.
Lemma os_bind {A B} (p : sproc A) (f : A -> sproc B) : forall kn ls Q,
  os kn ls p (fun kn' ls' a => os kn' ls' (f a) Q) -> os kn ls (bind p f) Q.
Proof.
  induction p as [a| |l q IH|l q IH|l q IH|l q IH|bs q IH|e q IH|q IH|g q IH|q IH|d q IH|c q IH|q IH|b q IH];
    intros kn ls Q F; cbn [os bind] in *; eauto.
  - destruct (is_pm l); eauto. destruct F. eauto.
  - destruct (is_pm l); eauto. destruct F as (x & E & F). eauto.
  - destruct F as (x & E & F). eauto.
  - destruct F as (x & E & F). eauto 6.
Qed.

(** Processes made of whole exchanges: which, depending on the result. *)
Definition yields {A} (p : sproc A) (R : list (list io) -> A -> Prop) : Prop :=
  forall ls, os None ls p (fun kn ls' a => kn = None /\ exists l, ls' = ls ++ l /\ R l a).
Lemma yields_weaken {A} (p : sproc A) (R S : list (list io) -> A -> Prop) : (forall l a, R l a -> S l a) -> yields p R -> yields p S.
Proof.
  intros W Y ls. eapply os_weaken; [|apply Y]. cbn. intros kn l' a (E & l & El & H). split; auto. exists l. auto.
Qed.
Lemma yields_ret {A} (a : A) (R : list (list io) -> A -> Prop) : R [] a -> yields (Ret a) R.
Proof. intros H ls. cbn. split; auto. exists []. rewrite app_nil_r. auto. Qed.
Lemma yields_crash {A} (R : list (list io) -> A -> Prop) : yields Crash R.
Proof. intros ls. exact I. Qed.
Lemma yields_bind {A B} (p : sproc A) (f : A -> sproc B) R S : yields p R ->
  (forall l a, R l a -> yields (f a) (fun l' b => S (l ++ l') b)) -> yields (bind p f) S.
Proof.
  intros P F ls. apply os_bind. eapply os_weaken; [|apply P]. cbn. intros kn ls' a (-> & l & -> & H).
  eapply os_weaken; [|apply (F l a H)]. cbn. intros kn ls' b (E & l' & -> & G). split; auto. exists (l ++ l'). rewrite app_assoc. auto.
Qed.
Lemma yields_get {A} (q : shared -> sproc A) R : (forall s, yields (q s) R) -> yields (Get q) R.
Proof. intros H ls s. apply H. Qed.
Lemma yields_now {A} (q : Z -> sproc A) R : (forall s, yields (q s) R) -> yields (Now q) R.
Proof. intros H ls s. apply H. Qed.
Lemma yields_put {A} f (q : sproc A) R : yields q R -> yields (Put f q) R.
Proof. intros H ls. apply H. Qed.
Lemma yields_sleep {A} d (q : sproc A) R : yields q R -> yields (Sleep d q) R.
Proof. intros H ls. apply H. Qed.
Lemma yields_lock {A} l (p : sproc A) R : l <> LPm -> yields p R -> yields (with_lock l p) R.
Proof.
  intros N H ls. unfold with_lock. cbn [os]. assert (E : is_pm l = false) by (destruct l; try reflexivity; congruence). rewrite E.
  apply os_bind. eapply os_weaken; [|apply H]. cbn. intros kn l' a G. rewrite E. exact G.
Qed.
Lemma yields_lift {A} (o : outcome A) (R : list (list io) -> A -> Prop) : (forall a, o = Done a -> R [] a) -> yields (lift o) R.
Proof. intros H. destruct o; cbn [lift]; [apply yields_ret; auto|apply yields_crash]. Qed.

Lemma yields_query p : yields (QueryPacket p) (fun l r => exists x, l = [x] /\ exchange (p_cmd p) (p_data p) (p_expect p) (fst r) (snd r) x).
Proof.
  intros ls. unfold QueryPacket, with_lock. cbn [os is_pm]. split; [reflexivity|]. apply os_bind.
  set (T := fun (kn : option (list io)) ls' (r : packet * option err) => ls' = ls /\ exists x, kn = Some x /\
     exchange (p_cmd p) (p_data p) (p_expect p) (fst r) (snd r) x).
  assert (F : os (Some []) ls
     (do (_, e) <- WritePacket p;
      match e with
      | Some e => Ret (zero_packet, Some e)
      | None => ReadC (p_expect p) (fun out e =>
          match e with
          | Some e => Ret (out, Some e)
          | None => if p_expect p && negb (p_cmd out =? u8 (p_cmd p + 1))
                    then Ret (out, Some ErrInvalidResponse)
                    else do (_, e) <- WriteAck; Ret (out, e)
          end)
      end) T).
  { unfold WritePacket. rewrite marshal_wire. destruct (_ >? 255) eqn:L; cbn [lift bind].
    - cbn. split; auto. eexists. split; [reflexivity|]. apply ex_too_long. lia.
    - cbn [os bind]. eexists. split; [reflexivity|]. intros r. cbn [app].
      change (pktStart ++ wire (p_cmd p) (p_data p) ++ pktEnd) with (framed (p_cmd p) (p_data p)).
      assert (Ln : (length (p_data p) <= 255)%nat) by lia.
      destruct (w_err r) as [e|] eqn:E1; cbn [os bind].
      + split; auto. eexists. split; [reflexivity|]. apply ex_write_failed; auto.
      + eexists. split; [reflexivity|]. intros out e Z. cbn [app]. destruct e as [e|].
        * cbn. split; auto. eexists. split; [reflexivity|]. rewrite Z by discriminate. apply ex_read_failed; auto.
        * destruct (p_expect p && negb (p_cmd out =? u8 (p_cmd p + 1))) eqn:E2.
          -- apply andb_true_iff in E2 as [X N]. apply negb_true_iff, Z.eqb_neq in N.
             cbn. split; auto. eexists. split; [reflexivity|]. rewrite X. apply ex_other_reply; auto.
          -- unfold WriteAck. cbn [os bind]. eexists. split; [reflexivity|]. intros r2. cbn [app].
             assert (K : p_expect p = true -> p_cmd out = (p_cmd p + 1) mod 256).
             { intros X. rewrite X in E2. cbn [andb] in E2. apply negb_false_iff, Z.eqb_eq in E2. exact E2. }
             change (len pktAck) with 2.
             destruct (w_err r2) as [e|] eqn:E3; [|destruct (Z.eqb_spec (w_n r2) 2) as [E4|E4]]; cbn; unfold T;
               (split; [reflexivity|]; eexists; split; [reflexivity|]);
               apply ex_acked; auto; intros W; try destruct W; auto; congruence. }
  eapply os_weaken; [|exact F]. unfold T. intros kn ls' r (-> & x & -> & X). cbn [os is_pm]. eexists. split; [reflexivity|].
  split; [reflexivity|]. exists [x]. eauto.
Qed.
Lemma yields_setQuery r p : EncodeSetRequest r = (p, None) ->
  yields (setQuery r) (fun l e => exists x out, l = [x] /\ exchange (p_cmd p) (p_data p) (p_expect p) out e x).
Proof.
  intros E. unfold setQuery. rewrite E. eapply yields_bind; [apply yields_query|].
  intros l [out e] (x & -> & X). apply yields_ret. cbn. eauto.
Qed.
Lemma yields_getter {T} gr (zero : T) assert : yields (getter gr zero assert) (fun l r => exists x p e, l = [x] /\ exchange gr [] true p e x).
Proof.
  unfold getter, getQuery. eapply yields_bind with (R := fun l _ => exists x p e, l = [x] /\ exchange gr [] true p e x).
  - eapply yields_bind; [apply yields_query|]. intros l [out e] (x & -> & X). cbn in X. destruct e as [e|]; [apply yields_ret; cbn; eauto|].
    apply yields_lift. intros. cbn. eauto.
  - intros l [r e] (x & p & e' & -> & X). destruct e; [apply yields_ret; cbn; eauto|]. destruct r; [|apply yields_crash].
    destruct (assert r); [apply yields_ret; cbn; eauto|apply yields_crash].
Qed.
(** Asking for the profiles, with what it brings. *)
Lemma yields_profiles : yields GetFanProfiles (fun l r => exists x p e, l = [x] /\ exchange 205 [] true p e x /\
  match snd r with
  | None => e = None /\ FanProfiles_Unmarshal (p_data p) = Done (fst r, None)
  | Some _ => e = None -> length (p_data p) <> 14%nat
  end).
Proof.
  unfold GetFanProfiles, getter, getQuery. eapply yields_bind.
  - eapply yields_bind; [apply yields_query|]. intros l [out e] (x & -> & X). cbn [fst snd EncodeGetRequest p_cmd p_data p_expect] in X.
    instantiate (1 := fun l (r : option Response * option err) => exists x p e, l = [x] /\ exchange 205 [] true p e x /\
      match snd r with
      | None => e = None /\ exists v, fst r = Some (RProf v) /\ FanProfiles_Unmarshal (p_data p) = Done (v, None)
      | Some _ => e = None -> length (p_data p) <> 14%nat
      end).
    destruct e as [e|].
    + apply yields_ret. exists x, out, (Some e). splits; auto. cbn. discriminate.
    + apply yields_lift. intros [r er] D. exists x, out, None. split; [reflexivity|]. split; [exact X|]. cbn [snd].
      assert (C : p_cmd out = 206) by (inversion X; subst; auto).
      unfold DecodeResponse in D. rewrite C in D. cbn [Z.eqb Pos.eqb ResponseType] in D.
      destruct (prof_total (p_data out)) as (v & e & U). change (ResponseType 206) with (Some (fun l => omap RProf (FanProfiles_Unmarshal l))) in D.
      cbn beta iota in D. rewrite U in D. cbn in D. injection D as <- <-. destruct e as [e|].
      * intros _. eapply prof_fails; eauto.
      * split; auto. cbn. eauto.
  - intros l [r e] (x & p & e' & -> & X & D). cbn [fst snd] in D. destruct e as [e|].
    + apply yields_ret. exists x, p, e'. cbn. auto.
    + destruct D as (-> & v & -> & U). apply yields_ret. exists x, p, None. cbn. auto.
Qed.
Lemma yields_shape {T} c (t : shared -> Z) (get : sproc (T * option err)) put gr : gr = request c ->
  yields get (fun l r => exists x p e, l = [x] /\ exchange gr [] true p e x) ->
  (forall v now, yields (put v now) (fun l _ => l = [])) ->
  forall force, yields (update_shape c t get put force) (fun l _ => (force = false /\ l = []) \/ queried [c] l).
Proof.
  intros -> G P force. unfold update_shape. apply yields_lock; [discriminate|]. apply yields_now. intros now. apply yields_get. intros s.
  destruct (negb force && _) eqn:F; [apply yields_ret; left; split; auto; destruct force; auto; discriminate|].
  eapply yields_bind; [exact G|]. intros l [v e] (x & p & e' & -> & X).
  assert (Q : queried [c] [x]) by (repeat constructor; exists p, e'; auto).
  destruct e; [apply yields_ret; auto|]. eapply yields_weaken; [|apply P]. cbn. intros l' _ ->. auto.
Qed.
Lemma yields_update c force : yields (Update c force) (fun l _ => (force = false /\ l = []) \/ queried [c] l).
Proof.
  destruct c.
  - apply (yields_shape CBoot sh_boot_t GetBootloader (fun v now => assign_boot v (Put (on_boot_t now) (Ret tt))) getBootloader eq_refl (yields_getter _ _ _)).
    intros. repeat apply yields_put. apply yields_ret. reflexivity.
  - apply (yields_shape CBypass sh_bypass_t GetBypass (fun v now => assign_bypass v (Put (on_bypass_t now) (Ret tt))) getBypass eq_refl (yields_getter _ _ _)).
    intros. repeat apply yields_put. apply yields_ret. reflexivity.
  - apply (yields_shape CTemp sh_temp_t GetTemperatures (fun v now => assign_temp v (Put (on_temp_t now) (Ret tt))) getTemps eq_refl (yields_getter _ _ _)).
    intros. repeat apply yields_put. apply yields_ret. reflexivity.
  - apply (yields_shape CFans sh_fans_t GetFans (fun v now => assign_fans v (Put (on_fans_t now) (Ret tt))) getFans eq_refl (yields_getter _ _ _)).
    intros. repeat apply yields_put. apply yields_ret. reflexivity.
  - apply (yields_shape CProf sh_prof_t GetFanProfiles (fun v now => assign_prof v (Put (on_prof_t now) (Ret tt))) getFanProfiles eq_refl (yields_getter _ _ _)).
    intros. repeat apply yields_put. apply yields_ret. reflexivity.
  - apply (yields_shape CErr sh_err_t GetErrors (fun v now => assign_err v (Put (on_err_t now) (Ret tt))) getErrors eq_refl (yields_getter _ _ _)).
    intros. repeat apply yields_put. apply yields_ret. reflexivity.
Qed.
Lemma yields_forced c : yields (Update c true) (fun l _ => queried [c] l).
Proof. eapply yields_weaken; [|apply yields_update]. cbn. intros l a [[H _]|H]; [discriminate|auto]. Qed.
Lemma yields_any c force : yields (Update c force) (fun l _ => True).
Proof. eapply yields_weaken; [|apply yields_update]. auto. Qed.
Lemma queried_app a b l k : queried a l -> queried b k -> queried (a ++ b) (l ++ k).
Proof. apply Forall2_app. Qed.
Lemma yields_all : yields (UpdateCaches true) (fun l _ => queried [CBoot; CBypass; CTemp; CFans; CProf; CErr] l).
Proof.
  unfold UpdateCaches.
  eapply yields_bind; [apply yields_forced|]. intros l1 [] Q1. eapply yields_bind; [apply yields_forced|]. intros l2 [] Q2.
  eapply yields_bind; [apply yields_forced|]. intros l3 [] Q3. eapply yields_bind; [apply yields_forced|]. intros l4 [] Q4.
  eapply yields_bind; [apply yields_forced|]. intros l5 [] Q5. eapply yields_weaken; [|apply yields_forced]. cbn beta. intros l6 [] Q6.
  apply (queried_app [_] _ _ _ Q1), (queried_app [_] _ _ _ Q2), (queried_app [_] _ _ _ Q3), (queried_app [_] _ _ _ Q4), (queried_app [_] _ _ _ Q5), Q6.
Qed.
Lemma yields_caches force : yields (UpdateCaches force) (fun l _ => True).
Proof. unfold UpdateCaches. do 5 (eapply yields_bind; [apply yields_any|intros ?l [] _]). apply yields_any. Qed.
Lemma yields_tick t : yields (on_tick t) (fun l _ => True).
Proof. destruct t; cbn [on_tick]; (eapply yields_bind; [apply yields_any|intros ?l [] _; apply yields_any]). Qed.
Lemma yields_flush t : yields (FlushCaches t) (fun l _ => queried (flushes t) l).
Proof.
  unfold FlushCaches. eapply yields_bind with (R := fun l _ => queried (flushes t) l).
  - unfold FlushCaches_body.
    repeat match goal with |- yields (if ?t =? ?x then _ else _) _ => destruct (Z.eqb_spec t x) as [->|?]; [eapply yields_bind; 
      [first [apply yields_forced|apply yields_all]|intros l [] Q; apply yields_ret; rewrite app_nil_r; exact Q]|] end.
    apply yields_ret. unfold TBootInfo, TBypass, TFans, TTemps, TProfiles, TAll in *. unfold flushes.
    destruct t as [|p|p]; try lia; try constructor. do 4 (destruct p as [p|p|]; try lia; try constructor).
  - intros l b Q ls. cbn. split; auto. exists []. rewrite app_nil_r. rewrite app_nil_r. auto.
Qed.
Lemma yields_poll n i o : yields (poll_loop n i o) (fun l e =>
  match e with
  | None => exists k, (1 <= k <= n)%nat /\ queried (repeat CFans k) l
  | Some e => e = ErrSetPollFailed /\ queried (repeat CFans n) l
  end).
Proof.
  induction n as [|n IH]; cbn [poll_loop].
  - apply yields_ret. split; auto. constructor.
  - eapply yields_bind; [apply yields_forced|]. intros l [] Q.
    assert (Again : yields (Sleep (second / 2) (poll_loop n i o)) (fun l' e =>
      match e with
      | None => exists k, (1 <= k <= S n)%nat /\ queried (repeat CFans k) (l ++ l')
      | Some e => e = ErrSetPollFailed /\ queried (repeat CFans (S n)) (l ++ l')
      end)).
    { apply yields_sleep. eapply yields_weaken; [|exact IH]. cbn. intros l' [e|].
      - intros (-> & Q'). split; auto. apply (queried_app [CFans] _ _ _ Q Q').
      - intros (k & B & Q'). exists (S k). split; [lia|]. apply (queried_app [CFans] _ _ _ Q Q'). }
    apply yields_get. intros s. destruct (_ =? _); [|exact Again]. apply yields_get. intros s'. destruct (_ =? _); [|exact Again].
    apply yields_ret. exists 1%nat. split; [lia|]. rewrite app_nil_r. exact Q.
Qed.
Lemma yields_updpoll n v : 1 <= v <= 4 -> yields (UpdatePoll n v) (fun l e =>
  match e with
  | None => exists k, (1 <= k <= n)%nat /\ queried (repeat CFans k) l
  | Some e => e = ErrSetPollFailed /\ queried (repeat CFans n) l
  end).
Proof. intros V ls. unfold UpdatePoll. cbn [os]. intros s. rewrite in_out_lookup by auto. cbn [os]. apply yields_poll. Qed.

(** Requests other than FlushCache. *)
Lemma yields_rpc r : (forall t, r <> FlushCacheR t) -> yields (handle r) (fun l a => does_on_wire r a l).
Proof.
  intros NF.
  assert (G : forall c, yields (handle (getter_rpc c)) (fun l a => does_on_wire (getter_rpc c) a l)).
  { intros c. destruct c; cbn [getter_rpc handle]; (eapply yields_bind with (R := fun l _ => l = []);
      [apply yields_lock; [discriminate|]; repeat (apply yields_get; intros ?s); apply yields_ret; reflexivity|
       intros l a ->; apply yields_ret; cbn [app]]).
    - apply (dw_get CBoot); exact I. - apply (dw_get CBypass); exact I. - apply (dw_get CTemp); exact I. - apply (dw_get CFans); exact I.
    - apply (dw_get CProf); exact I. - apply (dw_get CErr); exact I. }
  destruct r.
  - apply (G CBoot).
  - apply (G CBypass).
  - apply (G CErr).
  - apply (G CFans).
  - apply (G CProf).
  - apply (G CTemp).
  - cbn [handle]. unfold SetComfortTemp. apply yields_get. intros s. destruct (_ >? _) eqn:Hi; [apply yields_ret; constructor|].
    destruct (negb _); [|apply yields_ret; constructor; lia]. apply yields_lock; [discriminate|].
    match goal with |- context[SetComfort (u8 ?x)] => rename x into t end.
    assert (B : 0 <= t mod 256 <= 255) by (pose proof (Z.mod_pos_bound t 256 ltac:(lia)); lia).
    unfold u8. destruct (Z_lt_le_dec 107 (t mod 256)) as [V|V].
    + assert (E : (SetComfort (t mod 256) : sproc (option err)) = Ret (Some ErrTooHigh)).
      { unfold SetComfort, setQuery, EncodeSetRequest. cbn [requestType SetRequest_MarshalBinary].
        destruct (of_Z_exact (t mod 256) ltac:(lia)) as [_ T]. unfold temperature_MarshalBinary. rewrite T.
        replace (t mod 256 >? 107) with true by lia. reflexivity. }
      rewrite E. cbn [bind]. apply yields_ret. apply dw_comfort_high; lia.
    + assert (E : EncodeSetRequest (SRComfort (f32_of_Z (t mod 256))) = (mkPacket 211 [2 * (t mod 256 + 20)] false, None)).
      { unfold EncodeSetRequest. cbn [requestType SetRequest_MarshalBinary]. rewrite temp_encode by lia. reflexivity. }
      unfold SetComfort. eapply yields_bind; [apply (yields_setQuery _ _ E)|]. cbn [p_cmd p_data p_expect].
      intros l [e|] (x & out & -> & X); [apply yields_ret; eapply dw_comfort_failed; eauto; lia|].
      eapply yields_bind; [apply yields_forced|]. intros l [] Q. apply yields_ret. rewrite app_nil_r.
      inversion Q as [|? y ? ? O N]; subst. inversion N; subst. eapply dw_comfort; eauto; lia.
  - cbn [handle]. unfold SetFanSpeed. apply yields_lock; [discriminate|]. apply yields_get. intros s.
    destruct (modifySpeed _ _ _) as [tgt [e|]] eqn:T.
    { apply yields_ret. revert T. unfold modifySpeed. destruct (_ && _); [intros T; injection T as <- <-; constructor|].
      destruct (_ || _); intros T; inversion T. constructor. }
    match type of T with modifySpeed _ ?x ?y = _ => rename x into a; rename y into b end.
    assert (Mt : meant a tgt).
    { split; [eapply modify_range; eauto|]. intros N. revert T. unfold modifySpeed. replace (a =? 0) with false by lia. cbn [negb andb]. destruct b; [discriminate|].
      destruct (_ || _); [discriminate|]. intros T. injection T as <-. reflexivity. }
    apply modify_range in T. assert (U32 : u32 tgt = tgt) by (apply Z.mod_small; lia).
    assert (U : u8 tgt = tgt) by (apply Z.mod_small; lia). rewrite U. destruct (negb _); [|apply yields_ret; rewrite U32; constructor; auto].
    unfold SetSpeed. eapply yields_bind; [apply (yields_setQuery _ _ (speed_encode tgt ltac:(lia)))|]. cbn [p_cmd p_data p_expect].
    intros l [e|] (x & out & -> & X); [apply yields_ret; eapply dw_speed_failed; eauto|].
    eapply yields_bind; [apply yields_updpoll; auto|]. intros l [e|].
    + intros (-> & Q). apply yields_ret. rewrite app_nil_r. eapply dw_speed_poll; eauto.
    + intros (k & K & Q). eapply yields_bind; [apply yields_forced|]. intros l' [] Q'. apply yields_ret. rewrite app_nil_r.
      rewrite U32. eapply dw_speed; eauto. apply queried_app; auto.
  - cbn [handle]. unfold SetFanProfileRPC. 
    match goal with |- context[SetFanProfile (u8 (u8 ?x - 1)) (u8 ?y)] => rename x into m; rename y into t end.
    destruct ((u8 m <? 1) || (u8 m >? 4)) eqn:Bm; [apply yields_ret; constructor|].
    destruct ((u8 t <? 15) || (u8 t >? 100)) eqn:Bt; [apply yields_ret; constructor|].
    assert (Rm : 1 <= u8 m <= 4) by lia. assert (Rt : 15 <= u8 t <= 100) by lia.
    assert (Ac : acceptable m t) by (split; [exact Rm|exact Rt]).
    assert (U : u8 (u8 m - 1) = u8 m - 1) by (apply Z.mod_small; lia). rewrite U.
    apply yields_lock; [discriminate|]. apply yields_get. intros s.
    match goal with |- yields (match ?o with _ => _ end) _ => destruct o end; [|apply yields_crash].
    destruct (negb _); [|apply yields_ret; constructor; auto].
    unfold SetFanProfile. replace (u8 m - 1 >? 3) with false by lia. replace (u8 t >? 100) with false by lia.
    eapply yields_bind with (R := fun l e => exists x p e', exchange 205 [] true p e' x /\
      ((exists e0, l = [x] /\ e = Some e0 /\ (e' = None -> length (p_data p) <> 14%nat)) \/
       (exists y q, l = [x; y] /\ e' = None /\ length (p_data p) = 14%nat /\ exchange 207 (profile_request (p_data p) (u8 m - 1) (u8 t)) false q e y))).
    + apply yields_lock; [discriminate|]. eapply yields_bind; [apply yields_profiles|].
      intros l [fp e] (x & p & e' & -> & X & D). cbn [fst snd] in D. destruct e as [e|].
      * apply yields_ret. exists x, p, e'. split; auto. left. exists e. auto.
      * destruct D as (-> & D). pose proof (profile_request_ok _ _ (u8 m - 1) (u8 t) ltac:(lia) D) as E.
        eapply yields_weaken; [|apply (yields_setQuery _ _ E)]. cbn [p_cmd p_data p_expect].
        intros l e (y & q & -> & Y). exists x, p, None. split; auto. right. exists y, q. cbn [app]. apply prof_len in D. auto.
    + intros l e (x & p & e' & X & C). destruct C as [(e0 & -> & -> & N)|(y & q & -> & -> & L & Y)].
      * apply yields_ret. eapply dw_profile_unread; eauto.
      * destruct e as [e|]; [apply yields_ret; eapply dw_profile_failed; eauto|].
        eapply yields_bind; [apply yields_forced|]. intros l [] Q. apply yields_ret. rewrite app_nil_r.
        inversion Q as [|? z0 ? ? O N]; subst. inversion N; subst. eapply dw_profile; eauto.
  - exfalso. eapply NF. reflexivity.
Qed.
