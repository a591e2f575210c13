(** The logic of SpeedLogic.v once more, for polls that fail, too: what is known about the current mode of the unit and about the one in the profile cache. *)
From Verif Require Import ProofBase Proto SpecProto SpecFrame SpecConn SpecLayout SpecServer SpecUnit SpecTrack SpecSpeed ProtoProofs Scanner Conn Proc Lib QueryProofs
  FrameLemmas LayoutProofs OpLemmas Server ServerProofs ServerLemmas ServerOps UnitProofs Machine MachineBase ThreadLogic FreshLogic TrackLogic SpeedLogic.

(** Who holds LFan has not looked at the mode yet; has seen [b] in the cache when it was [v]; has set it to [t], has seen that nobody is about to store an older one, and
    has read it and stored it. *)
Inductive phase := P0 | P1 (b v : Z) | P2 (b v t : Z) | P3 (b v t : Z) | P4 (b v t : Z).
(** Without LFan, or with it. *)
Inductive seat := Outside | Seated (ph : phase).
Definition settled (x : seat) : seat := match x with Seated (P3 b v t) => Seated (P4 b v t) | _ => x end.
Definition passed (x : seat) : seat := match x with Seated (P2 b v t) => Seated (P3 b v t) | _ => x end.
(** Holding the lock of the profile cache: the mode it has read and not stored. *)
Definition pending := option (option Z).
(** What it is waiting for on the line. *)
Definition asked := option (option Z).
Definition mode (s : shared) : Z := CurrentMode (sh_prof s).

Section Sp.
(** Whether it may take LFan, and whether it may change the speed. *)
Context (takes may : bool).
Definition spost (A : Type) := seat -> pending -> asked -> A -> Prop.
Definition leaving (A : Type) := phase -> A -> Prop.
Fixpoint sp {A} (x : seat) (pe : pending) (lw : asked) (p : sproc A) (Q : spost A) (R : leaving A) : Prop :=
  match p with
  | Ret a => Q x pe lw a
  | Crash => True
  | Lock l q => match l with
      | LFan => x = Outside /\ pe = None /\ lw = None /\ takes = true /\ sp (Seated P0) None None q Q R
      | LC CProf => pe = None /\ sp x (Some None) lw q Q R
      | _ => sp x pe lw q Q R
      end
  | Unlock l q => match l with
      | LFan => exists ph a, x = Seated ph /\ pe = None /\ lw = None /\ q = Ret a /\ R ph a /\ forall b v t, ph <> P2 b v t
      | LC CProf => sp x None lw q Q R
      | LPm => lw = None /\ sp x pe lw q Q R
      | _ => sp x pe lw q Q R
      end
  | RLock l q => match l with LC CProf => sp (passed x) pe lw q Q R | _ => sp x pe lw q Q R end
  | RUnlock _ q => sp x pe lw q Q R
  | WriteC bs q =>
      (exists gr, In gr asking /\ bs = framed gr [] /\ sp x pe (Some (Some gr)) (q (mkWres (len bs) None)) Q R) \/
      (exists t b v, may = true /\ bs = framed 153 [t] /\ x = Seated (P1 b v) /\ pe = None /\ sp (Seated (P2 b v t)) None (Some None) (q (mkWres (len bs) None)) Q R) \/
      (exists cmd data, cmd <> 153 /\ data <> [] /\ bs = framed cmd data /\ sp x pe (Some None) (q (mkWres (len bs) None)) Q R) \/
      (bs = [7; 243] /\ sp x pe None (q (mkWres 2 None)) Q R)
  | ReadC e q => match lw with
      | Some (Some gr) => e = true /\ forall pl, (gr = 205 -> length pl = 14%nat /\ bytes_ok pl) ->
          sp x (match pe with Some _ => if gr =? 205 then Some (Some (byte_at pl 8)) else pe | None => None end) None (q (mkPacket (gr + 1) pl false) None) Q R
      | Some None => e = false /\ sp x pe None (q zero_packet None) Q R
      | None => False
      end
  | Get q => (forall s, sp x pe lw (q s) Q R) \/
      (x = Seated P0 /\ may = true /\ forall s v, 0 <= mode s <= 4 -> sp (Seated (P1 (mode s) v)) pe lw (q s) Q R)
  | Put f q => ((forall s, mode (f s) = mode s) /\ sp x pe lw q Q R) \/
      exists w, pe = Some (Some w) /\ (forall s, mode (f s) = w) /\ sp (settled x) (Some None) lw q Q R
  | Now q => forall t, sp x pe lw (q t) Q R
  | Sleep _ q => sp x pe lw q Q R
  | SendFlush _ q => sp x pe lw q Q R
  | RecvSucc q => forall b, sp x pe lw (q b) Q R
  | SendSucc _ q => sp x pe lw q Q R
  end.
Lemma sp_weaken {A} (p : sproc A) : forall x pe lw (Q Q' : spost A) (R R' : leaving A),
  (forall x pe lw a, Q x pe lw a -> Q' x pe lw a) -> (forall ph a, R ph a -> R' ph a) -> sp x pe lw p Q R -> sp x pe lw p Q' R'.
Proof.
  induction p as [a| |l q IH|l q IH|l q IH|l q IH|bs q IH|e q IH|q IH|f q IH|q IH|d q IH|c q IH|q IH|b q IH];
    intros x pe lw Q Q' R R' W W' F; cbn [sp] in *; eauto.
  - destruct l as [| | | |c]; eauto; [|destruct c; eauto; destruct F; eauto].
    destruct F as (E1 & E2 & E3 & E4 & F). splits; eauto.
  - destruct l as [| | | |c]; eauto; [destruct F; eauto| |destruct c; eauto].
    destruct F as (ph & a & E1 & E2 & E3 & E4 & F & N). exists ph, a. splits; auto.
  - destruct l as [| | | |c]; eauto. destruct c; eauto.
  - destruct F as [(gr & G & E & F)|[(v & s & v0 & Ma & E & E1 & E2 & F)|[(cmd & data & N & D & E & F)|[E F]]]].
    + left. eauto 8.
    + right. left. exists v, s, v0. splits; eauto.
    + right. right. left. exists cmd, data. splits; eauto.
    + right. right. right. eauto.
  - destruct lw as [[gr|]|]; try contradiction; destruct F as [E F]; split; eauto.
  - destruct F as [F|(E & M & F)]; [left; eauto|right]. splits; auto. intros s v Hs. eauto.
  - destruct F as [[E F]|(w & E1 & E2 & F)]; [left; eauto|right; exists w; eauto 8].
Qed.
Lemma sp_bind {A B} (p : sproc A) (f : A -> sproc B) : forall x pe lw (Q : spost B) (R : leaving B),
  sp x pe lw p (fun x' pe' lw' a => sp x' pe' lw' (f a) Q R) (fun _ _ => False) -> sp x pe lw (bind p f) Q R.
Proof.
  induction p as [a| |l q IH|l q IH|l q IH|l q IH|bs q IH|e q IH|q IH|g q IH|q IH|d q IH|c q IH|q IH|b q IH];
    intros x pe lw Q R F; cbn [sp bind] in *; eauto.
  - destruct l as [| | | |c]; eauto; [|destruct c; eauto; destruct F; eauto].
    destruct F as (E1 & E2 & E3 & E4 & F). splits; eauto.
  - destruct l as [| | | |c]; eauto; [destruct F; eauto| |destruct c; eauto].
    destruct F as (ph & a & E1 & E2 & E3 & E4 & [] & _).
  - destruct l as [| | | |c]; eauto. destruct c; eauto.
  - destruct F as [(gr & G & E & F)|[(v & s & v0 & Ma & E & E1 & E2 & F)|[(cmd & data & N & D & E & F)|[E F]]]].
    + left. eauto 8.
    + right. left. exists v, s, v0. splits; eauto.
    + right. right. left. exists cmd, data. splits; eauto.
    + right. right. right. eauto.
  - destruct lw as [[gr|]|]; try contradiction; destruct F as [E F]; split; eauto.
  - destruct F as [F|(E & M & F)]; [left; eauto|right]. splits; auto. 
  - destruct F as [[E F]|(w & E1 & E2 & F)]; [left; eauto|right; exists w; eauto 8].
Qed.

Definition calm {A} (x : seat) (p : sproc A) (P : A -> Prop) : Prop :=
  forall R : leaving A, sp x None None p (fun x' pe lw a => x' = x /\ pe = None /\ lw = None /\ P a) R.
Lemma calm_bind {A B} x (p : sproc A) (f : A -> sproc B) (P : A -> Prop) (Q : spost B) R :
  calm x p P -> (forall a, P a -> sp x None None (f a) Q R) -> sp x None None (bind p f) Q R.
Proof. intros C F. apply sp_bind. eapply sp_weaken; [|intros ph b X; exact X|apply C]. cbn beta. intros x' pe lw a (-> & -> & -> & H). apply F. exact H. Qed.
Lemma calm_ret {A} x (a : A) (P : A -> Prop) : P a -> calm x (Ret a) P.
Proof. intros H R. cbn. auto. Qed.
Lemma calm_then {A B} x (p : sproc A) (f : A -> sproc B) P P' : calm x p P -> (forall a, P a -> calm x (f a) P') -> calm x (bind p f) P'.
Proof. intros C F R. eapply calm_bind; [exact C|]. intros a H. apply F. exact H. Qed.
Lemma calm_get {A} x (q : shared -> sproc A) P : (forall s, calm x (q s) P) -> calm x (Get q) P.
Proof. intros H R. left. intros s. apply H. Qed.
Lemma calm_now {A} x (q : Z -> sproc A) P : (forall s, calm x (q s) P) -> calm x (Now q) P.
Proof. intros H R s. apply H. Qed.
Lemma calm_put {A} x f (q : sproc A) P : (forall s, mode (f s) = mode s) -> calm x q P -> calm x (Put f q) P.
Proof. intros E H R. left. split; [exact E|apply H]. Qed.
Lemma calm_lock {A} x l (p : sproc A) P : l <> LFan -> l <> LC CProf -> calm x p P -> calm x (with_lock l p) P.
Proof.
  intros N N2 H R. unfold with_lock.
  assert (C : sp x None None (bind p (fun y => Unlock l (Ret y))) (fun x' pe lw a => x' = x /\ pe = None /\ lw = None /\ P a) R).
  { eapply calm_bind; [exact H|]. intros a Pa. destruct l as [| | | |[]]; cbn [sp]; auto; congruence. }
  destruct l as [| | | |[]]; cbn [sp]; auto; congruence.
Qed.
Lemma calm_lift {A} x (o : outcome A) (P : A -> Prop) : (forall a, o = Done a -> P a) -> calm x (lift o) P.
Proof. intros H. destruct o; cbn [lift]; [apply calm_ret; auto|intros R; exact I]. Qed.

(** ** one exchange *)
Lemma sp_ask gr x pe (Q : spost (packet * option err)) R : In gr asking ->
  (forall pl, (gr = 205 -> length pl = 14%nat /\ bytes_ok pl) ->
     Q x (match pe with Some _ => if gr =? 205 then Some (Some (byte_at pl 8)) else pe | None => None end) None (mkPacket (gr + 1) pl false, None)) ->
  sp x pe None (QueryPacket (mkPacket gr [] true)) Q R.
Proof.
  intros G H. unfold QueryPacket, with_lock. cbn [sp]. apply sp_bind.
  unfold WritePacket. rewrite marshal_wire. change (len (p_data (mkPacket gr [] true)) >? 255) with false. cbn [lift bind sp].
  left. exists gr. split; auto. split; [reflexivity|]. cbn [w_err bind sp]. split; [reflexivity|]. intros pl L. cbn [p_cmd p_expect].
  assert (E : u8 (gr + 1) = gr + 1) by (simpl in G; intuition subst; reflexivity). rewrite E, Z.eqb_refl. cbn [negb andb].
  unfold WriteAck. cbn [bind sp]. right. right. right. split; [reflexivity|]. cbn [w_err w_n]. change (2 =? len pktAck) with true. cbn [negb bind sp].
  split; [reflexivity|]. apply H. exact L.
Qed.
Lemma sp_alter cmd data x pe (Q : spost (packet * option err)) R : cmd <> 153 -> data <> [] -> (length data <= 255)%nat ->
  Q x pe None (zero_packet, None) -> sp x pe None (QueryPacket (mkPacket cmd data false)) Q R.
Proof.
  intros N D L H. unfold QueryPacket, with_lock. cbn [sp]. apply sp_bind.
  unfold WritePacket. rewrite marshal_wire. cbn [p_data p_cmd p_expect]. replace (_ >? 255) with false by (unfold len; lia). cbn [lift bind sp].
  right. right. left. exists cmd, data. split; auto. split; auto. split; [reflexivity|]. cbn [w_err bind sp]. split; [reflexivity|]. cbn [andb].
  unfold WriteAck. cbn [bind sp]. right. right. right. split; [reflexivity|]. cbn [w_err w_n]. change (2 =? len pktAck) with true. cbn [negb bind sp].
  split; [reflexivity|]. exact H.
Qed.
Lemma sp_speed v s v0 (Q : spost (packet * option err)) R : may = true ->
  Q (Seated (P2 s v0 v)) None None (zero_packet, None) -> sp (Seated (P1 s v0)) None None (QueryPacket (mkPacket 153 [v] false)) Q R.
Proof.
  intros M H. unfold QueryPacket, with_lock. cbn [sp]. apply sp_bind.
  unfold WritePacket. rewrite marshal_wire. change (len (p_data (mkPacket 153 [v] false)) >? 255) with false. cbn [lift bind sp].
  right. left. exists v, s, v0. split; auto. split; [reflexivity|]. split; [reflexivity|]. split; [reflexivity|]. cbn [w_err bind sp]. split; [reflexivity|]. cbn [p_expect andb].
  unfold WriteAck. cbn [bind sp]. right. right. right. split; [reflexivity|]. cbn [w_err w_n]. change (2 =? len pktAck) with true. cbn [negb bind sp].
  split; [reflexivity|]. exact H.
Qed.
Lemma calm_set x r cmd data : EncodeSetRequest r = (mkPacket cmd data false, None) -> cmd <> 153 -> data <> [] -> (length data <= 255)%nat ->
  calm x (setQuery r) (fun e => e = None).
Proof. intros E N D L R. unfold setQuery. rewrite E. apply sp_bind. apply sp_alter; auto. cbn. auto. Qed.
Lemma calm_getter {T} x gr (zero : T) assert : In gr asking -> calm x (getter gr zero assert) any.
Proof.
  intros G. unfold getter, getQuery. eapply calm_then with (P := any).
  - intros R. apply sp_bind. unfold EncodeGetRequest. apply sp_ask; auto. intros pl _. apply calm_lift. intros; exact I.
  - intros [r e] _. destruct e; [apply calm_ret; exact I|]. destruct r; [|intros R; exact I]. destruct (assert r); [apply calm_ret; exact I|intros R; exact I].
Qed.
Lemma calm_shape {T} x c (t : shared -> Z) (get : sproc (T * option err)) put : c <> CProf ->
  calm x get any -> (forall v now, calm x (put v now) any) -> forall force, calm x (update_shape c t get put force) any.
Proof.
  intros N G P force. unfold update_shape. apply calm_lock; [discriminate|congruence|]. apply calm_now. intros now. apply calm_get. intros s.
  destruct (negb force && _); [apply calm_ret; exact I|]. eapply calm_then; [exact G|]. intros [v e] _. destruct e; [apply calm_ret; exact I|apply P].
Qed.
Ltac calm_puts := intros; unfold assign_boot, assign_bypass, assign_temp, assign_fans, assign_err;
  repeat match goal with |- calm _ (Put _ _) _ => apply calm_put; [reflexivity|] end; apply calm_ret; exact I.
Lemma calm_update x c force : c <> CProf -> calm x (Update c force) any.
Proof.
  intros N. destruct c; try congruence.
  - apply (calm_shape x CBoot sh_boot_t GetBootloader (fun v now => assign_boot v (Put (on_boot_t now) (Ret tt)))); [auto|apply calm_getter; simpl; auto 9|calm_puts].
  - apply (calm_shape x CBypass sh_bypass_t GetBypass (fun v now => assign_bypass v (Put (on_bypass_t now) (Ret tt)))); [auto|apply calm_getter; simpl; auto 9|calm_puts].
  - apply (calm_shape x CTemp sh_temp_t GetTemperatures (fun v now => assign_temp v (Put (on_temp_t now) (Ret tt)))); [auto|apply calm_getter; simpl; auto 9|calm_puts].
  - apply (calm_shape x CFans sh_fans_t GetFans (fun v now => assign_fans v (Put (on_fans_t now) (Ret tt)))); [auto|apply calm_getter; simpl; auto 9|calm_puts].
  - apply (calm_shape x CErr sh_err_t GetErrors (fun v now => assign_err v (Put (on_err_t now) (Ret tt)))); [auto|apply calm_getter; simpl; auto 9|calm_puts].
Qed.
Lemma sp_update_prof x force (Q : spost unit) R : (forall x', x' = settled x \/ (force = false /\ x' = x) -> Q x' None None tt) ->
  sp x None None (Update CProf force) Q R.
Proof.
  intros H. cbn [Update]. unfold prof_Update, with_lock. cbn [sp bind]. split; [reflexivity|]. intros now. left. intros s.
  destruct (negb force && _) eqn:F.
  - cbn [bind sp]. apply H. right. destruct force; [discriminate|auto].
  - apply sp_bind. apply sp_bind. unfold GetFanProfiles, getter, getQuery. apply sp_bind. apply sp_bind. unfold EncodeGetRequest. change getFanProfiles with 205.
    apply sp_ask; [simpl; auto 9|]. intros pl L. destruct (L eq_refl) as [L14 B]. change (205 =? 205) with true. cbn iota.
    assert (D : exists fp, FanProfiles_Unmarshal pl = Done (fp, None) /\ CurrentMode fp = byte_at pl 8).
    { clear -L14. do 14 (destruct pl as [|? pl]; [discriminate|]). destruct pl; [|discriminate]. eexists. split; reflexivity. }
    destruct D as (fp & D & M). unfold DecodeResponse. cbn [p_cmd p_data]. change (205 + 1) with 206. cbn [Z.eqb Pos.eqb].
    change (ResponseType 206) with (Some (fun l => omap RProf (FanProfiles_Unmarshal l))). cbn beta iota. rewrite D. cbn [omap obind lift sp].
    unfold assign_prof. do 11 (left; split; [reflexivity|]). right. exists (byte_at pl 8). split; [reflexivity|]. split; [intros s0; exact M|].
    left. split; [reflexivity|]. cbn [sp]. apply H. auto.
Qed.
Lemma calm_update_any x c force : settled x = x -> calm x (Update c force) any.
Proof.
  intros S. destruct c; try (apply calm_update; discriminate). intros R. apply sp_update_prof. intros x' [-> |(_ & ->)]; rewrite ?S; unfold any; auto.
Qed.
Lemma calm_caches x force : settled x = x -> calm x (UpdateCaches force) any.
Proof. intros S. unfold UpdateCaches. do 5 (eapply calm_then; [apply calm_update_any; exact S|intros [] _]). apply calm_update_any. exact S. Qed.
Lemma calm_tick x t : settled x = x -> calm x (on_tick t) any.
Proof. intros S. destruct t; cbn [on_tick]; (eapply calm_then; [apply calm_update_any; exact S|intros [] _; apply calm_update_any; exact S]). Qed.
Lemma calm_flush x t : settled x = x -> calm x (FlushCaches t) any.
Proof.
  intros S. unfold FlushCaches. eapply calm_then with (P := any).
  - unfold FlushCaches_body. repeat match goal with |- calm _ (if _ then _ else _) _ =>
      match goal with |- calm _ (if ?b then _ else _) _ => destruct b end; [eapply calm_then; [first [apply calm_update_any; exact S|apply calm_caches; exact S]|intros [] _; apply calm_ret; exact I]|] end.
    apply calm_ret. exact I.
  - intros b _ R. cbn. unfold any. auto.
Qed.
Lemma calm_poll x n i o : calm x (poll_loop n i o) any.
Proof.
  induction n as [|n IH]; cbn [poll_loop]; [apply calm_ret; exact I|].
  eapply calm_then; [apply calm_update; discriminate|]. intros [] _. apply calm_get. intros s. destruct (_ =? _); [|intros R; apply IH].
  apply calm_get. intros s'. destruct (_ =? _); [apply calm_ret; exact I|intros R; apply IH].
Qed.
Lemma poll_error n i o x : calm x (poll_loop n i o) (fun e => e = None \/ e = Some ErrSetPollFailed).
Proof.
  induction n as [|n IH]; cbn [poll_loop]; [apply calm_ret; auto|].
  eapply calm_then; [apply calm_update; discriminate|]. intros [] _. apply calm_get. intros s. destruct (_ =? _); [|intros R; apply IH].
  apply calm_get. intros s'. destruct (_ =? _); [apply calm_ret; auto|intros R; apply IH].
Qed.
Lemma sp_updpoll b v t n w R : 1 <= w <= 4 ->
  sp (Seated (P2 b v t)) None None (UpdatePoll n w) (fun x pe lw e => x = Seated (P3 b v t) /\ pe = None /\ lw = None /\ (e = None \/ e = Some ErrSetPollFailed)) R.
Proof. intros V. unfold UpdatePoll. cbn [sp passed]. left. intros s. rewrite in_out_lookup by auto. cbn [sp]. apply poll_error. Qed.
End Sp.

Definition poll_failed : resp := RespErr (Internal ErrSetPollFailed).
(** When LFan is released. *)
Definition leaves (q : rpc) : leaving resp := fun ph a =>
  match q with
  | SetFanSpeedR _ _ => match ph with
      | P1 b v => (a = RespSpeed false b b /\ wanted b q b) \/ ((exists x, a = RespErr (InvalidArgument x)) /\ forall t, ~ wanted b q t)
      | P3 b v t => a = poll_failed /\ wanted b q t /\ t <> b
      | P4 b v t => a = RespSpeed true b t /\ wanted b q t /\ t <> b
      | _ => False
      end
  | _ => ph = P0
  end.
Definition moves (q : rpc) : bool := match q with SetFanSpeedR _ _ => true | _ => false end.
Definition outside {A} : spost A := fun x _ _ _ => x = Outside.
Lemma calm_outside {A} takes may (p : sproc A) P R : calm takes may Outside p P -> sp takes may Outside None None p outside R.
Proof. intros C. eapply sp_weaken; [|intros ph a X; exact X|apply C]. cbn beta. intros x pe lw a (-> & _). reflexivity. Qed.
Lemma sp_fan may (p : sproc resp) Q R : sp true may (Seated P0) None None p (fun x pe lw a => exists ph, x = Seated ph /\ pe = None /\ lw = None /\ R ph a /\ forall b v t, ph <> P2 b v t) (fun _ _ => False) ->
  sp true may Outside None None (with_lock LFan p) Q R.
Proof.
  intros H. unfold with_lock. cbn [sp]. splits; auto. apply sp_bind. eapply sp_weaken; [| |exact H].
  - cbn beta. intros x pe lw a (ph & -> & -> & -> & X & N). cbn [sp]. exists ph, a. auto 8.
  - intros ? ? [].
Qed.

Lemma sp_speed_rpc a b : sp true true Outside None None (SetFanSpeed a b) outside (leaves (SetFanSpeedR a b)).
Proof.
  unfold SetFanSpeed. apply sp_fan. cbn [sp]. right. split; auto. split; auto. intros sh v Hs. fold (mode sh). set (s := mode sh) in *. clearbody s.
  pose proof (modify_some s a b Hs) as M. destruct (modifySpeed s a b) as [t [e|]].
  - destruct M as ((x & ->) & M). cbn [sp]. exists (P1 s v). splits; auto; [|discriminate]. cbn [leaves]. right. eauto.
  - destruct M as (W & T). assert (U : u8 t = t) by (apply Z.mod_small; lia). rewrite U.
    assert (U1 : u32 s = s) by (apply Z.mod_small; lia). assert (U2 : u32 t = t) by (apply Z.mod_small; lia). rewrite U1, U2.
    destruct (Z.eqb_spec t s) as [-> |N]; cbn [negb].
    + cbn [sp]. exists (P1 s v). splits; auto; [|discriminate]. cbn [leaves]. auto.
    + apply sp_bind. unfold SetSpeed, setQuery. rewrite (speed_encode t ltac:(lia)). apply sp_bind. apply sp_speed; [reflexivity|]. cbn [sp].
      apply sp_bind. eapply sp_weaken with (R := fun _ _ => False); [|intros ? ? []|apply sp_updpoll; auto]. cbn beta. intros x pe lw e (-> & -> & -> & [-> | ->]).
      * apply sp_bind. apply sp_update_prof. intros x' [-> |(F & _)]; [|discriminate]. cbn [sp settled]. exists (P4 s v t). splits; auto; [|discriminate].
        cbn [leaves]. auto.
      * cbn [sp]. exists (P3 s v t). splits; auto; [|discriminate]. cbn [leaves]. auto.
Qed.
Lemma sp_rpc q : sp true (moves q) Outside None None (handle q) outside (leaves q).
Proof.
  destruct q; cbn [moves].
  1-6: cbn [handle]; eapply calm_outside with (P := any); eapply calm_then with (P := any);
    [|intros a _; apply calm_ret; exact I].
  1-4,6: apply calm_lock; [discriminate|discriminate|]; repeat match goal with |- calm _ _ _ (Get _) _ => apply calm_get; intros ?s; cbv zeta end; apply calm_ret; exact I.
  - intros R. unfold prof_Protobuf, with_lock. cbn [sp bind]. split; [reflexivity|]. do 12 (left; intros ?s; cbv zeta; cbn [bind sp]). splits; auto. exact I.
  - cbn [handle]. unfold SetComfortTemp. eapply calm_outside with (P := any). apply calm_get. intros s. destruct (_ >? _) eqn:Hi; [apply calm_ret; exact I|].
    destruct (negb _); [|apply calm_ret; exact I]. apply calm_lock; [discriminate|discriminate|].
    match goal with |- context[SetComfort (u8 ?x)] => rename x into t end.
    assert (B : 0 <= t mod 256 <= 255) by (pose proof (Z.mod_pos_bound t 256 ltac:(lia)); lia).
    unfold u8. destruct (Z_lt_le_dec 107 (t mod 256)) as [V|V].
    + assert (E : (SetComfort (t mod 256) : sproc (option err)) = Ret (Some ErrTooHigh)).
      { unfold SetComfort, setQuery, EncodeSetRequest. cbn [requestType SetRequest_MarshalBinary].
        destruct (of_Z_exact (t mod 256) ltac:(lia)) as [_ T]. unfold temperature_MarshalBinary. rewrite T.
        replace (t mod 256 >? 107) with true by lia. reflexivity. }
      rewrite E. cbn [bind]. apply calm_ret. exact I.
    + assert (E : EncodeSetRequest (SRComfort (f32_of_Z (t mod 256))) = (mkPacket 211 [2 * (t mod 256 + 20)] false, None)).
      { unfold EncodeSetRequest. cbn [requestType SetRequest_MarshalBinary]. rewrite temp_encode by lia. reflexivity. }
      unfold SetComfort. eapply calm_then; [eapply calm_set; [exact E|discriminate|discriminate|simpl; lia]|]. intros e ->.
      eapply calm_then; [apply calm_update; discriminate|]. intros [] _. apply calm_ret. exact I.
  - cbn [handle]. apply sp_speed_rpc.
  - cbn [handle]. unfold SetFanProfileRPC.
    match goal with |- context[SetFanProfile (u8 (u8 ?x - 1)) (u8 ?y)] => rename x into m; rename y into t end.
    destruct ((u8 m <? 1) || (u8 m >? 4)) eqn:Bm; [reflexivity|].
    destruct ((u8 t <? 15) || (u8 t >? 100)) eqn:Bt; [reflexivity|].
    assert (Rm : 1 <= u8 m <= 4) by lia. assert (Rt : 15 <= u8 t <= 100) by lia.
    assert (U : u8 (u8 m - 1) = u8 m - 1) by (apply Z.mod_small; lia). rewrite U.
    apply sp_fan. cbn [sp]. left. intros s.
    match goal with |- sp _ _ _ _ _ (match ?o with _ => _ end) _ _ => destruct o end; [|exact I].
    destruct (negb _); [|cbn [sp]; exists P0; splits; auto; [reflexivity|discriminate]].
    unfold SetFanProfile. replace (u8 m - 1 >? 3) with false by lia. replace (u8 t >? 100) with false by lia.
    eapply calm_bind with (P := fun e => e = None).
    + intros R. unfold with_lock. cbn [sp]. apply sp_bind. apply sp_bind.
      unfold GetFanProfiles, getter, getQuery. apply sp_bind. apply sp_bind. unfold EncodeGetRequest. change getFanProfiles with 205.
      apply sp_ask; [simpl; auto 9|]. intros pl L. destruct (L eq_refl) as [L14 B].
      assert (D : exists fp, FanProfiles_Unmarshal pl = Done (fp, None)).
      { clear -L14. do 14 (destruct pl as [|? pl]; [discriminate|]). destruct pl; [|discriminate]. eexists. reflexivity. }
      destruct D as (fp & D). unfold DecodeResponse. cbn [p_cmd p_data]. change (205 + 1) with 206. cbn [Z.eqb Pos.eqb].
      change (ResponseType 206) with (Some (fun l => omap RProf (FanProfiles_Unmarshal l))). cbn beta iota. rewrite D. cbn [omap obind lift sp].
      pose proof (profile_request_ok _ _ (u8 m - 1) (u8 t) ltac:(lia) D) as E. unfold setQuery. rewrite E. apply sp_bind. apply sp_alter.
      * discriminate.
      * unfold profile_request. discriminate.
      * unfold profile_request. simpl. lia.
      * cbn. auto.
    + intros e ->. eapply calm_bind; [apply calm_update_any; reflexivity|]. intros [] _. cbn [sp]. exists P0. splits; auto; [reflexivity|discriminate].
  - cbn. intros b. reflexivity.
Qed.
