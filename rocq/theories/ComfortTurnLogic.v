(** A logic for the comfort temperature: of the unit, in the temperature cache, and as seen by those who want to set it. *)
From Verif Require Import ProofBase Proto SpecProto SpecFrame SpecConn SpecLayout SpecServer SpecUnit SpecTrack ProtoProofs Scanner Conn Proc Lib QueryProofs
  FrameLemmas LayoutProofs OpLemmas Server ServerProofs ServerLemmas ServerOps UnitProofs Machine MachineBase ThreadLogic FreshLogic TrackLogic SpecComfortTurns.

(** Before LTemp is taken, with it, and after it was released; and what it has set. *)
Inductive seat := Starting | Before | Seated (w : option Z) | After (w : option Z).
(** At the start the cache does not show the unit; then it does. *)
Definition settle (x : seat) : seat := match x with Starting => Before | _ => x end.
(** Holding the lock of the temperature cache: the temperature it has read and not stored. *)
Definition pending := option (option Z).
(** What it is waiting for on the line. *)
Definition asked := option (option Z).
Definition shownT (s : shared) : Z := f32_trunc (Comfort (sh_temp s)).

Section Sp.
(** What it may set the unit to. *)
Context (may : option Z).
(** The last list: the temperatures it has read in the cache before it took LTemp. *)
Definition spost (A : Type) := seat -> pending -> asked -> list Z -> A -> Prop.
Fixpoint sp {A} (x : seat) (pe : pending) (lw : asked) (sn : list Z) (p : sproc A) (Q : spost A) (lv : bool) : Prop :=
  match p with
  | Ret a => Q x pe lw sn a
  | Crash => True
  | Lock l q => match l with
      | LTemp => lv = true /\ x = Before /\ pe = None /\ lw = None /\ sp (Seated None) None None sn q Q lv
      | LC CTemp => pe = None /\ sp x (Some None) lw sn q Q lv
      | _ => sp x pe lw sn q Q lv
      end
  | Unlock l q => match l with
      | LTemp => lv = true /\ exists w a, x = Seated w /\ pe = None /\ lw = None /\ q = Ret a /\ Q (After w) None None sn a
      | LC CTemp => sp x None lw sn q Q lv
      | LPm => lw = None /\ sp x pe lw sn q Q lv
      | _ => sp x pe lw sn q Q lv
      end
  | RLock _ q => sp x pe lw sn q Q lv
  | RUnlock _ q => sp x pe lw sn q Q lv
  | WriteC bs q =>
      (exists gr, In gr asking /\ bs = framed gr [] /\ sp x pe (Some (Some gr)) sn (q (mkWres (len bs) None)) Q lv) \/
      (exists v, may = Some v /\ bs = framed 211 [2 * (v + 20)] /\ x = Seated None /\ pe = None /\ sp (Seated (Some v)) None (Some None) sn (q (mkWres (len bs) None)) Q lv) \/
      (exists cmd data, cmd <> 211 /\ data <> [] /\ bs = framed cmd data /\ sp x pe (Some None) sn (q (mkWres (len bs) None)) Q lv) \/
      (bs = [7; 243] /\ sp x pe None sn (q (mkWres 2 None)) Q lv)
  | ReadC e q => match lw with
      | Some (Some gr) => e = true /\ forall pl, (gr = 209 -> length pl = 9%nat /\ bytes_ok pl) ->
          sp x (match pe with Some _ => if gr =? 209 then Some (Some (byte_at pl 0 / 2 - 20)) else pe | None => None end) None sn (q (mkPacket (gr + 1) pl false) None) Q lv
      | Some None => e = false /\ sp x pe None sn (q zero_packet None) Q lv
      | None => False
      end
  | Get q => forall s, sp x pe lw (match x with Before => shownT s :: sn | _ => sn end) (q s) Q lv
  | Put f q => ((forall s, shownT (f s) = shownT s) /\ sp x pe lw sn q Q lv) \/
      exists w, pe = Some (Some w) /\ (forall s, shownT (f s) = w) /\ sp (settle x) (Some None) lw sn q Q lv
  | Now q => forall t, sp x pe lw sn (q t) Q lv
  | Sleep _ q => sp x pe lw sn q Q lv
  | SendFlush _ q => sp x pe lw sn q Q lv
  | RecvSucc q => forall b, sp x pe lw sn (q b) Q lv
  | SendSucc _ q => sp x pe lw sn q Q lv
  end.
Lemma sp_weaken {A} (p : sproc A) : forall x pe lw sn (Q Q' : spost A) (lv lv' : bool),
  (forall x pe lw sn a, Q x pe lw sn a -> Q' x pe lw sn a) -> (lv = true -> lv' = true) -> sp x pe lw sn p Q lv -> sp x pe lw sn p Q' lv'.
Proof.
  induction p as [a| |l q IH|l q IH|l q IH|l q IH|bs q IH|e q IH|q IH|f q IH|q IH|d q IH|c q IH|q IH|b q IH];
    intros x pe lw sn Q Q' lv lv' W V F; cbn [sp] in *; eauto.
  - destruct l as [| | | |c]; eauto; [|destruct c; eauto; destruct F; eauto].
    destruct F as (E0 & E1 & E2 & E3 & F). splits; eauto.
  - destruct l as [| | | |c]; eauto; [destruct F; eauto| |destruct c; eauto].
    destruct F as (E0 & w & a & E1 & E2 & E3 & E4 & F). split; auto. exists w, a. splits; auto.
  - destruct F as [(gr & G & E & F)|[(v & Ma & E & E1 & E2 & F)|[(cmd & data & N & D & E & F)|[E F]]]].
    + left. eauto 8.
    + right. left. exists v. splits; eauto.
    + right. right. left. exists cmd, data. splits; eauto.
    + right. right. right. eauto.
  - destruct lw as [[gr|]|]; try contradiction; destruct F as [E F]; split; eauto.
  - destruct F as [[E F]|(w & E1 & E2 & F)]; [left; eauto|right; exists w; eauto 8].
Qed.
Lemma sp_bind {A B} (p : sproc A) (f : A -> sproc B) : forall x pe lw sn (Q : spost B) lv,
  sp x pe lw sn p (fun x' pe' lw' sn' a => sp x' pe' lw' sn' (f a) Q lv) false -> sp x pe lw sn (bind p f) Q lv.
Proof.
  induction p as [a| |l q IH|l q IH|l q IH|l q IH|bs q IH|e q IH|q IH|g q IH|q IH|d q IH|c q IH|q IH|b q IH];
    intros x pe lw sn Q lv F; cbn [sp bind] in *; eauto.
  - destruct l as [| | | |c]; eauto; [|destruct c; eauto; destruct F; eauto].
    destruct F as (E0 & _). discriminate.
  - destruct l as [| | | |c]; eauto; [destruct F; eauto| |destruct c; eauto].
    destruct F as (E0 & _). discriminate.
  - destruct F as [(gr & G & E & F)|[(v & Ma & E & E1 & E2 & F)|[(cmd & data & N & D & E & F)|[E F]]]].
    + left. eauto 8.
    + right. left. exists v. splits; eauto.
    + right. right. left. exists cmd, data. splits; eauto.
    + right. right. right. eauto.
  - destruct lw as [[gr|]|]; try contradiction; destruct F as [E F]; split; eauto.
  - destruct F as [[E F]|(w & E1 & E2 & F)]; [left; eauto|right; exists w; eauto 8].
Qed.

(** What [x] has read is of no use to [p]. *)
Definition calm {A} (x : seat) (p : sproc A) (P : A -> Prop) : Prop :=
  forall sn lv, sp x None None sn p (fun x' pe lw sn' a => x' = x /\ pe = None /\ lw = None /\ (x = Before \/ sn' = sn) /\ P a) lv.
Lemma calm_bind {A B} x (p : sproc A) (f : A -> sproc B) (P : A -> Prop) sn (Q : spost B) lv :
  calm x p P -> (forall a sn', x = Before \/ sn' = sn -> P a -> sp x None None sn' (f a) Q lv) -> sp x None None sn (bind p f) Q lv.
Proof. intros C F. apply sp_bind. eapply sp_weaken; [| |apply (C sn false)]; [|auto]. cbn beta. intros x' pe lw sn' a (-> & -> & -> & S & H). apply F; auto. Qed.
Lemma calm_ret {A} x (a : A) (P : A -> Prop) : P a -> calm x (Ret a) P.
Proof. intros H sn lv. cbn. auto 8. Qed.
Lemma calm_then {A B} x (p : sproc A) (f : A -> sproc B) P P' : calm x p P -> (forall a, P a -> calm x (f a) P') -> calm x (bind p f) P'.
Proof.
  intros C F sn lv. eapply calm_bind; [exact C|]. intros a sn' S H. eapply sp_weaken; [| |apply (F a H sn' lv)]; [|auto].
  cbn beta. intros x' pe lw sn2 b (-> & -> & -> & S' & Hb). splits; auto. intuition congruence.
Qed.
Lemma calm_get {A} x (q : shared -> sproc A) P : (forall s, calm x (q s) P) -> calm x (Get q) P.
Proof.
  intros H sn lv. cbn [sp]. intros s. destruct x; [apply H| |apply H|apply H]. eapply sp_weaken; [| |apply (H s (shownT s :: sn) lv)]; [|auto]. cbn beta. intros x' pe lw sn2 b (-> & -> & -> & S' & Hb). splits; auto.
Qed.
Lemma calm_now {A} x (q : Z -> sproc A) P : (forall s, calm x (q s) P) -> calm x (Now q) P.
Proof. intros H sn lv s. apply H. Qed.
Lemma calm_put {A} x f (q : sproc A) P : (forall s, shownT (f s) = shownT s) -> calm x q P -> calm x (Put f q) P.
Proof. intros E H sn lv. left. split; [exact E|apply H]. Qed.
Lemma calm_lock {A} x l (p : sproc A) P : l <> LTemp -> l <> LC CTemp -> calm x p P -> calm x (with_lock l p) P.
Proof.
  intros N N2 H sn lv. unfold with_lock.
  assert (C : sp x None None sn (bind p (fun y => Unlock l (Ret y))) (fun x' pe lw sn' a => x' = x /\ pe = None /\ lw = None /\ (x = Before \/ sn' = sn) /\ P a) lv).
  { eapply calm_bind; [exact H|]. intros a sn' S Pa. destruct l as [| | | |[]]; cbn [sp]; auto 8; congruence. }
  destruct l as [| | | |[]]; cbn [sp]; auto; congruence.
Qed.
Lemma calm_lift {A} x (o : outcome A) (P : A -> Prop) : (forall a, o = Done a -> P a) -> calm x (lift o) P.
Proof. intros H. destruct o; cbn [lift]; [apply calm_ret; auto|intros sn lv; exact I]. Qed.

(** ** one exchange *)
Lemma sp_ask gr x pe sn (Q : spost (packet * option err)) lv : In gr asking ->
  (forall pl, (gr = 209 -> length pl = 9%nat /\ bytes_ok pl) ->
     Q x (match pe with Some _ => if gr =? 209 then Some (Some (byte_at pl 0 / 2 - 20)) else pe | None => None end) None sn (mkPacket (gr + 1) pl false, None)) ->
  sp x pe None sn (QueryPacket (mkPacket gr [] true)) Q lv.
Proof.
  intros G H. unfold QueryPacket, with_lock. cbn [sp]. apply sp_bind.
  unfold WritePacket. rewrite marshal_wire. change (len (p_data (mkPacket gr [] true)) >? 255) with false. cbn [lift bind sp].
  left. exists gr. split; auto. split; [reflexivity|]. cbn [w_err bind sp]. split; [reflexivity|]. intros pl L. cbn [p_cmd p_expect].
  assert (E : u8 (gr + 1) = gr + 1) by (simpl in G; intuition subst; reflexivity). rewrite E, Z.eqb_refl. cbn [negb andb].
  unfold WriteAck. cbn [bind sp]. right. right. right. split; [reflexivity|]. cbn [w_err w_n]. change (2 =? len pktAck) with true. cbn [negb bind sp].
  split; [reflexivity|]. apply H. exact L.
Qed.
Lemma sp_alter cmd data x pe sn (Q : spost (packet * option err)) lv : cmd <> 211 -> data <> [] -> (length data <= 255)%nat ->
  Q x pe None sn (zero_packet, None) -> sp x pe None sn (QueryPacket (mkPacket cmd data false)) Q lv.
Proof.
  intros N D L H. unfold QueryPacket, with_lock. cbn [sp]. apply sp_bind.
  unfold WritePacket. rewrite marshal_wire. cbn [p_data p_cmd p_expect]. replace (_ >? 255) with false by (unfold len; lia). cbn [lift bind sp].
  right. right. left. exists cmd, data. split; auto. split; auto. split; [reflexivity|]. cbn [w_err bind sp]. split; [reflexivity|]. cbn [andb].
  unfold WriteAck. cbn [bind sp]. right. right. right. split; [reflexivity|]. cbn [w_err w_n]. change (2 =? len pktAck) with true. cbn [negb bind sp].
  split; [reflexivity|]. exact H.
Qed.
Lemma sp_warm v sn (Q : spost (packet * option err)) lv : may = Some v ->
  Q (Seated (Some v)) None None sn (zero_packet, None) -> sp (Seated None) None None sn (QueryPacket (mkPacket 211 [2 * (v + 20)] false)) Q lv.
Proof.
  intros M H. unfold QueryPacket, with_lock. cbn [sp]. apply sp_bind.
  unfold WritePacket. rewrite marshal_wire. change (len (p_data (mkPacket 211 [2 * (v + 20)] false)) >? 255) with false. cbn [lift bind sp].
  right. left. exists v. split; auto. split; [reflexivity|]. split; [reflexivity|]. split; [reflexivity|]. cbn [w_err bind sp]. split; [reflexivity|]. cbn [p_expect andb].
  unfold WriteAck. cbn [bind sp]. right. right. right. split; [reflexivity|]. cbn [w_err w_n]. change (2 =? len pktAck) with true. cbn [negb bind sp].
  split; [reflexivity|]. exact H.
Qed.
Lemma calm_set x r cmd data : EncodeSetRequest r = (mkPacket cmd data false, None) -> cmd <> 211 -> data <> [] -> (length data <= 255)%nat ->
  calm x (setQuery r) (fun e => e = None).
Proof. intros E N D L sn lv. unfold setQuery. rewrite E. apply sp_bind. apply sp_alter; auto. cbn. auto 8. Qed.
Lemma calm_getter {T} x gr (zero : T) assert : In gr asking -> calm x (getter gr zero assert) any.
Proof.
  intros G. unfold getter, getQuery. eapply calm_then with (P := any).
  - intros sn lv. apply sp_bind. unfold EncodeGetRequest. apply sp_ask; auto. intros pl _. apply calm_lift. intros; exact I.
  - intros [r e] _. destruct e; [apply calm_ret; exact I|]. destruct r; [|intros sn lv; exact I]. destruct (assert r); [apply calm_ret; exact I|intros sn lv; exact I].
Qed.
Lemma calm_shape {T} x c (t : shared -> Z) (get : sproc (T * option err)) put : c <> CTemp ->
  calm x get any -> (forall v now, calm x (put v now) any) -> forall force, calm x (update_shape c t get put force) any.
Proof.
  intros N G P force. unfold update_shape. apply calm_lock; [discriminate|congruence|]. apply calm_now. intros now. apply calm_get. intros s.
  destruct (negb force && _); [apply calm_ret; exact I|]. eapply calm_then; [exact G|]. intros [v e] _. destruct e; [apply calm_ret; exact I|apply P].
Qed.
Ltac calm_puts := intros; unfold assign_boot, assign_bypass, assign_prof, assign_fans, assign_err;
  repeat match goal with |- calm _ (Put _ _) _ => apply calm_put; [reflexivity|] end; apply calm_ret; exact I.
Lemma sp_update_temp x force sn lv : sp x None None sn (Update CTemp force)
  (fun x' pe lw sn' a => (x' = settle x \/ force = false /\ x' = x) /\ pe = None /\ lw = None /\ (x = Before \/ sn' = sn) /\ any a) lv.
Proof.
  cbn [Update]. unfold temp_Update, with_lock. cbn [sp bind]. split; [reflexivity|]. intros now s.
  set (sn1 := match x with Before => _ | _ => _ end). assert (S1 : x = Before \/ sn1 = sn) by (destruct x; auto). clearbody sn1.
  destruct (negb force && _) eqn:F; [apply andb_true_iff in F as [F _]; apply negb_true_iff in F; cbn [bind sp]; unfold any; auto 8|].
  apply sp_bind. apply sp_bind. unfold GetTemperatures, getter, getQuery. apply sp_bind. apply sp_bind. unfold EncodeGetRequest. change getTemps with 209.
  apply sp_ask; [simpl; auto 9|]. intros pl L. destruct (L eq_refl) as [L9 B]. change (209 =? 209) with true. cbn iota.
  assert (D : exists tp, Temps_Unmarshal pl = Done (tp, None) /\ f32_trunc (Comfort tp) = byte_at pl 0 / 2 - 20).
  { clear -L9 B. do 9 (destruct pl as [|? pl]; [discriminate|]). destruct pl; [|discriminate]. eexists. split; [reflexivity|].
    cbn [Comfort byte_at nth]. apply is_trunc. apply temp_decode. inversion B; subst. assumption. }
  destruct D as (tp & D & M). unfold DecodeResponse. cbn [p_cmd p_data]. change (209 + 1) with 210. cbn [Z.eqb Pos.eqb].
  change (ResponseType 210) with (Some (fun l => omap RTemps (Temps_Unmarshal l))). cbn beta iota. rewrite D. cbn [omap obind lift sp].
  unfold assign_temp. cbn [sp bind]. right. exists (byte_at pl 0 / 2 - 20). split; [reflexivity|]. split; [intros s0; exact M|].
  do 8 (left; split; [reflexivity|]). cbn [sp]. unfold any. auto 8.
Qed.
Lemma calm_update_other x c force : c <> CTemp -> calm x (Update c force) any.
Proof.
  intros N. destruct c.
  - apply (calm_shape x CBoot sh_boot_t GetBootloader (fun v now => assign_boot v (Put (on_boot_t now) (Ret tt)))); [discriminate|apply calm_getter; simpl; auto 9|calm_puts].
  - apply (calm_shape x CBypass sh_bypass_t GetBypass (fun v now => assign_bypass v (Put (on_bypass_t now) (Ret tt)))); [discriminate|apply calm_getter; simpl; auto 9|calm_puts].
  - congruence.
  - apply (calm_shape x CFans sh_fans_t GetFans (fun v now => assign_fans v (Put (on_fans_t now) (Ret tt)))); [discriminate|apply calm_getter; simpl; auto 9|calm_puts].
  - apply (calm_shape x CProf sh_prof_t GetFanProfiles (fun v now => assign_prof v (Put (on_prof_t now) (Ret tt)))); [discriminate|apply calm_getter; simpl; auto 9|calm_puts].
  - apply (calm_shape x CErr sh_err_t GetErrors (fun v now => assign_err v (Put (on_err_t now) (Ret tt)))); [discriminate|apply calm_getter; simpl; auto 9|calm_puts].
Qed.
Lemma calm_update x c force : settle x = x -> calm x (Update c force) any.
Proof.
  intros E. destruct c; try (apply calm_update_other; discriminate). intros sn lv. eapply sp_weaken; [| |apply (sp_update_temp x force sn lv)]; [|auto].
  cbn beta. intros x' pe lw sn' a (Ex & H). split; [|exact H]. intuition congruence.
Qed.
(** At the start, before the cache shows the unit. *)
Lemma sp_start : sp Starting None None [] (StartCaches : sproc unit) (fun x pe lw _ _ => x = Before) false.
Proof.
  unfold StartCaches, UpdateCaches. do 2 (eapply calm_bind; [apply calm_update_other; discriminate|intros [] ? _ _]).
  apply sp_bind. eapply sp_weaken; [| |apply (sp_update_temp Starting true _ false)]; [|auto]. cbn beta. intros x pe lw sn2 [] (Ex & -> & -> & _ & _).
  assert (x = Before) by (destruct Ex as [->|(E & _)]; [reflexivity|discriminate]). subst x. clear Ex.
  do 2 (eapply calm_bind; [apply calm_update_other; discriminate|intros [] ? _ _]).
  eapply sp_weaken; [| |apply (calm_update_other Before CErr true ltac:(discriminate) _ false)]; [|auto]. cbn beta. intros x pe lw sn3 a (-> & _). reflexivity.
Qed.
Lemma calm_caches x force : settle x = x -> calm x (UpdateCaches force) any.
Proof. intros S. unfold UpdateCaches. do 5 (eapply calm_then; [apply calm_update; exact S|intros [] _]). apply calm_update; exact S. Qed.
Lemma calm_tick x t : settle x = x -> calm x (on_tick t) any.
Proof. intros S. destruct t; cbn [on_tick]; (eapply calm_then; [apply calm_update; exact S|intros [] _; apply calm_update; exact S]). Qed.
Lemma calm_flush x t : settle x = x -> calm x (FlushCaches t) any.
Proof.
  intros S. unfold FlushCaches. eapply calm_then with (P := any).
  - unfold FlushCaches_body. repeat match goal with |- calm _ (if _ then _ else _) _ =>
      match goal with |- calm _ (if ?b then _ else _) _ => destruct b end; [eapply calm_then; [first [apply calm_update; exact S|apply calm_caches; exact S]|intros [] _; apply calm_ret; exact I]|] end.
    apply calm_ret. exact I.
  - intros b _ sn lv. cbn. unfold any. auto 8.
Qed.
Lemma calm_poll x n i o : calm x (poll_loop n i o) any.
Proof.
  induction n as [|n IH]; cbn [poll_loop]; [apply calm_ret; exact I|].
  eapply calm_then; [apply calm_update_other; discriminate|]. intros [] _. apply calm_get. intros s. destruct (_ =? _); [|intros sn lv; apply IH].
  apply calm_get. intros s'. destruct (_ =? _); [apply calm_ret; exact I|intros sn lv; apply IH].
Qed.
Lemma calm_updpoll x n v : calm x (UpdatePoll n v) any.
Proof. unfold UpdatePoll. apply (calm_get x (fun s => _) any). intros s. destruct (Lookup _ _) as [[a b] [e|]]; [apply calm_ret; exact I|]. intros sn lv. apply calm_poll. Qed.
End Sp.

(** What a request may set; what it can be told. *)
Definition sets (q : rpc) : option Z :=
  match q with SetComfortTempR t => if (t <=? 255) && (t mod 256 <=? 107) then Some (t mod 256) else None | _ => None end.
Definition tells (q : rpc) : spost resp := fun x pe lw sn a =>
  match q with
  | SetComfortTempR t => match x with
      | Before => (exists y, a = RespErr y) \/ exists v, t <= 255 /\ In v sn /\ u8 v = t mod 256 /\ a = RespComfort false (u32 v) t
      | Starting | Seated _ => False
      | After None => sets q = None /\ exists y, a = RespErr y
      | After (Some w) => exists v, sets q = Some w /\ In v sn /\ u8 v <> t mod 256 /\ a = RespComfort true (u32 v) t
      end
  | _ => x = Before /\ forall b o t, a <> RespComfort b o t
  end.
Lemma tells_before q a (P : resp -> Prop) (p : sproc resp) sn lv : (forall t, q <> SetComfortTempR t) -> (forall a, P a -> forall b o t, a <> RespComfort b o t) ->
  calm a Before p P -> sp a Before None None sn p (tells q) lv.
Proof.
  intros N H C. eapply sp_weaken; [| |apply (C sn lv)]; [|auto]. cbn beta. intros x pe lw sn' r (-> & _ & _ & _ & Hp). unfold tells. destruct q; auto. destruct (N t eq_refl).
Qed.
Lemma sp_comfort t : sp (sets (SetComfortTempR t)) Before None None [] (SetComfortTemp t) (tells (SetComfortTempR t)) true.
Proof.
  unfold SetComfortTemp. cbn [sp]. intros s. set (v := shownT s). unfold f32_to_u8, f32_to_u32. change (f32_trunc (Comfort (sh_temp s))) with v.
  destruct (t >? 255) eqn:Hi; [cbn [sp tells]; left; eauto|]. unfold u8 at 2.
  destruct (Z.eqb_spec (u8 v) (t mod 256)) as [E|N]; cbn [negb].
  - cbn [sp tells]. right. exists v. splits; auto; [lia|left; reflexivity].
  - unfold with_lock. cbn [sp]. splits; auto. apply sp_bind. unfold u8 at 1.
    assert (B : 0 <= t mod 256 <= 255) by (pose proof (Z.mod_pos_bound t 256 ltac:(lia)); lia).
    destruct (Z_lt_le_dec 107 (t mod 256)) as [V|V].
    + assert (E : (SetComfort (t mod 256) : sproc (option err)) = Ret (Some ErrTooHigh)).
      { unfold SetComfort, setQuery, EncodeSetRequest. cbn [requestType SetRequest_MarshalBinary].
        destruct (of_Z_exact (t mod 256) ltac:(lia)) as [_ T]. unfold temperature_MarshalBinary. rewrite T.
        replace (t mod 256 >? 107) with true by lia. reflexivity. }
      rewrite E. cbn [bind sp]. split; auto. exists None. eexists. splits; auto. cbn [tells sets]. split; [|eauto].
      replace (t mod 256 <=? 107) with false by lia. rewrite andb_false_r. reflexivity.
    + assert (E : EncodeSetRequest (SRComfort (f32_of_Z (t mod 256))) = (mkPacket 211 [2 * (t mod 256 + 20)] false, None)).
      { unfold EncodeSetRequest. cbn [requestType SetRequest_MarshalBinary]. rewrite temp_encode by lia. reflexivity. }
      assert (Es : sets (SetComfortTempR t) = Some (t mod 256)).
      { unfold sets. replace (t <=? 255) with true by lia. replace (t mod 256 <=? 107) with true by lia. reflexivity. }
      apply sp_bind. unfold SetComfort, setQuery. rewrite E. apply sp_bind. apply sp_warm; [exact Es|]. cbn [sp].
      eapply calm_bind; [apply calm_update; reflexivity|]. intros [] sn' [Y| ->] _; [discriminate|]. cbn [sp]. split; auto. eexists. eexists. splits; auto.
      cbn [tells]. exists v. splits; auto. left. reflexivity.
Qed.
Lemma sp_rpc q : sp (sets q) Before None None [] (handle q) (tells q) true.
Proof.
  destruct q.
  1-6: apply tells_before with (P := fun a => forall b o t, a <> RespComfort b o t); [discriminate|auto|]; cbn [handle]; eapply calm_then with (P := any);
    [|intros a _; apply calm_ret; discriminate].
  1-5: apply calm_lock; [discriminate|discriminate|]; repeat match goal with |- calm _ _ (Get _) _ => apply calm_get; intros ?s; cbv zeta end; apply calm_ret; exact I.
  - intros sn lv. unfold temp_Protobuf, with_lock. cbn [sp bind]. split; [reflexivity|]. repeat (intros ?s; cbv zeta; cbn [bind sp]). splits; auto. exact I.
  - apply sp_comfort.
  - apply tells_before with (P := fun a => forall b o t, a <> RespComfort b o t); [discriminate|auto|]; cbn [handle]. unfold SetFanSpeed. apply calm_lock; [discriminate|discriminate|].
    apply calm_get. intros s. cbv zeta. destruct (modifySpeed _ _ _) as [t [e|]] eqn:Em; [apply calm_ret; discriminate|]. destruct (negb _); [|apply calm_ret; discriminate].
    assert (T : 1 <= t <= 4) by (revert Em; unfold modifySpeed; destruct (_ && _); [discriminate|]; destruct (_ || _) eqn:Eo; [discriminate|]; intros X; injection X as <-; lia).
    assert (U : u8 t = t) by (apply Z.mod_small; lia). rewrite U.
    eapply calm_then with (P := fun e => e = None).
    + unfold SetSpeed. eapply calm_set; [apply (speed_encode t); lia|discriminate|discriminate|simpl; lia].
    + intros e ->. eapply calm_then; [apply calm_updpoll|]. intros [e|] _; [apply calm_ret; discriminate|]. eapply calm_then; [apply calm_update; reflexivity|]. intros [] _. apply calm_ret. discriminate.
  - apply tells_before with (P := fun a => forall b o t, a <> RespComfort b o t); [discriminate|auto|]; cbn [handle]. unfold SetFanProfileRPC.
    match goal with |- context[SetFanProfile (u8 (u8 ?x - 1)) (u8 ?y)] => rename x into m; rename y into t end.
    destruct ((u8 m <? 1) || (u8 m >? 4)) eqn:Bm; [apply calm_ret; discriminate|].
    destruct ((u8 t <? 15) || (u8 t >? 100)) eqn:Bt; [apply calm_ret; discriminate|].
    assert (Rm : 1 <= u8 m <= 4) by lia. assert (Rt : 15 <= u8 t <= 100) by lia.
    assert (U : u8 (u8 m - 1) = u8 m - 1) by (apply Z.mod_small; lia). rewrite U.
    apply calm_lock; [discriminate|discriminate|]. apply calm_get. intros s. cbv zeta.
    match goal with |- calm _ _ (match ?o with _ => _ end) _ => destruct o end; [|intros sn lv; exact I].
    destruct (negb _); [|apply calm_ret; discriminate].
    unfold SetFanProfile. replace (u8 m - 1 >? 3) with false by lia. replace (u8 t >? 100) with false by lia.
    eapply calm_then with (P := any).
    + apply calm_lock; [discriminate|discriminate|].
      intros sn lv. apply sp_bind.
      unfold GetFanProfiles, getter, getQuery. apply sp_bind. apply sp_bind. unfold EncodeGetRequest. change getFanProfiles with 205.
      apply sp_ask; [simpl; auto 9|]. intros pl _.
      unfold DecodeResponse. cbn [p_cmd p_data]. change (205 + 1) with 206. cbn [Z.eqb Pos.eqb].
      change (ResponseType 206) with (Some (fun l => omap RProf (FanProfiles_Unmarshal l))). cbn beta iota.
      destruct (FanProfiles_Unmarshal pl) as [[fp [e|]]|] eqn:D; cbn [omap obind lift sp]; [unfold any; auto 8| |exact I].
      pose proof (profile_request_ok _ _ (u8 m - 1) (u8 t) ltac:(lia) D) as E. unfold setQuery. rewrite E. apply sp_bind. apply sp_alter.
      * discriminate.
      * unfold profile_request. discriminate.
      * unfold profile_request. simpl. lia.
      * cbn. unfold any. auto 8.
    + intros [e|] _; [apply calm_ret; discriminate|]. eapply calm_then; [apply calm_update; reflexivity|]. intros [] _. apply calm_ret. discriminate.
  - cbn. intros b. split; [reflexivity|discriminate].
Qed.
