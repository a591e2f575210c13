(** Proofs about what the server logs. *)
From Coq Require Import String.
From Verif Require Import ProofBase Proto SpecProto SpecFrame SpecConn SpecOps SpecLayout SpecServer Scanner Conn Proc Lib QueryProofs FrameLemmas
  LayoutProofs OpLemmas Server ServerProofs ServerLemmas ServerOps Twirp ErrorText Log SpecLog LogServer.

(** ** The same programs *)
Section Same.
Context {S : Type}.
Lemma same_refl {A} (p : proc S A) : same eq p p.
Proof. induction p; constructor; auto. Qed.
Lemma same_bind {A B A' B'} (R : A -> A' -> Prop) (Q : B -> B' -> Prop) (p : proc S A) p' (k : A -> proc S B) k' :
  same R p p' -> (forall a a', R a a' -> same Q (k a) (k' a')) -> same Q (bind p k) (bind p' k').
Proof. intros H K. induction H; cbn [bind]; try constructor; auto. Qed.
Lemma same_lock {A A'} (R : A -> A' -> Prop) l (p : proc S A) p' : same R p p' -> same R (with_lock l p) (with_lock l p').
Proof. intros H. constructor. apply same_bind with (R := R); auto. intros. repeat constructor. auto. Qed.
Lemma same_bind_eq {A B B'} (Q : B -> B' -> Prop) (p : proc S A) (k : A -> proc S B) k' :
  (forall a, same Q (k a) (k' a)) -> same Q (bind p k) (bind p k').
Proof. intros K. eapply same_bind; [apply same_refl|]. intros a ? <-. auto. Qed.
Lemma same_impl {A A'} (R R' : A -> A' -> Prop) (p : proc S A) p' : (forall a a', R a a' -> R' a a') -> same R p p' -> same R' p p'.
Proof. intros I H. induction H; constructor; auto. Qed.
Lemma run_same {A A'} (R : A -> A' -> Prop) (p : proc S A) p' : same R p p' -> forall w,
  snd (run p w) = snd (run p' w) /\
  match fst (run p w), fst (run p' w) with RDone a, RDone a' => R a a' | RPanic, RPanic | RBlocked, RBlocked => True | _, _ => False end.
Proof.
  induction 1; intros w; cbn [run fst snd]; auto.
  - destruct (can_lock _ _); cbn; auto.
  - destruct (release _ _ _); cbn; auto.
  - destruct (can_rlock _ _); cbn; auto.
  - destruct (release _ _ _); cbn; auto.
  - destruct (do_write w bs) as [r w']. auto.
  - destruct (do_read w x) as [[[q e]|] w']; cbn; auto.
Qed.
End Same.

Section Logs.
Variable txt : Z -> list byte.
Lemma same_update c force : same silent (Update c force) (Update' txt c force).
Proof.
  destruct c; apply same_lock; constructor; intros now; constructor; intros s; destruct (negb force && _);
    try (repeat constructor; fail); apply same_bind_eq; intros [v [e|]]; repeat constructor.
Qed.
Lemma same_all force : same silent (UpdateCaches force) (UpdateCaches' txt force).
Proof.
  unfold UpdateCaches, UpdateCaches'. 
  do 5 (eapply same_bind; [apply same_update|intros ? ? _]).
  (* the last Update is a tail call *)
  assert (X : forall {A} (p : sproc unit) (p' : sproc A) B (k : A -> B), same silent p p' -> same silent p (bind p' (fun a => Ret (k a)))).
  { intros A p p' B k H. induction H; cbn [bind]; constructor; auto. }
  apply X, same_update.
Qed.
Lemma same_tail {A B} (p : sproc unit) (p' : sproc A) (k : A -> B) : same silent p p' -> same silent p (bind p' (fun a => Ret (k a))).
Proof. intros H. induction H; cbn [bind]; constructor; auto. Qed.
Lemma same_flush c : same erases (FlushCaches_body c) (FlushCaches_body' txt c).
Proof.
  unfold FlushCaches_body, FlushCaches_body'.
  repeat (destruct (c =? _); [eapply same_bind; [apply same_update || apply same_all|intros ? ? _; constructor; reflexivity]|]).
  constructor. reflexivity.
Qed.
Lemma same_poll n i o acc : same erases (poll_loop n i o) (poll_loop' txt n i o acc).
Proof.
  revert acc. induction n as [|n IH]; intros acc; cbn [poll_loop poll_loop']; [constructor; reflexivity|].
  eapply same_bind; [apply (same_update CFans)|]. intros ? l _. constructor. intros s.
  destruct (_ =? i); [|constructor; apply IH]. constructor. intros s'.
  destruct (_ =? o); constructor; [reflexivity|apply IH].
Qed.
Lemma same_updatepoll n v : same erases (UpdatePoll n v) (UpdatePoll' txt n v).
Proof.
  unfold UpdatePoll, UpdatePoll'. constructor. constructor. intros s. destruct (Lookup _ _) as [[i o] [e|]]; constructor; [reflexivity|apply same_poll].
Qed.
Lemma same_handle r : same erases (handle r) (handle' txt r).
Proof.
  assert (X : forall (p : sproc resp), same erases p (do x <- p; Ret (x, []))).
  { intros p. induction p; cbn [bind]; constructor; auto. reflexivity. }
  destruct r; cbn [handle']; try apply X; cbn [handle].
  - unfold SetComfortTemp, SetComfortTemp'. constructor. intros s. cbv zeta. destruct (_ >? _); [constructor; reflexivity|].
    destruct (negb _); [|constructor; reflexivity]. apply same_lock, same_bind_eq. intros [e|]; [constructor; reflexivity|].
    eapply same_bind; [apply same_update|]. intros. constructor. reflexivity.
  - unfold SetFanSpeed, SetFanSpeed'. apply same_lock. constructor. intros s. cbv zeta. destruct (modifySpeed _ _ _) as [v [e|]]; [constructor; reflexivity|].
    destruct (negb _); [|constructor; reflexivity]. apply same_bind_eq. intros [e|]; [constructor; reflexivity|].
    eapply same_bind; [apply same_updatepoll|]. intros a [a' l] <-. cbn [fst]. destruct a' as [e|]; [constructor; reflexivity|].
    eapply same_bind; [apply same_update|]. intros. constructor. reflexivity.
  - unfold SetFanProfileRPC, SetFanProfileRPC'. cbv zeta. destruct (_ || _); [constructor; reflexivity|]. destruct (_ || _); [constructor; reflexivity|].
    apply same_lock. constructor. intros s. 
    match goal with |- same _ (match ?x with _ => _ end) _ => destruct x as [o|] end; [|constructor].
    destruct (negb _); [|constructor; reflexivity]. apply same_bind_eq. intros [e|]; [constructor; reflexivity|].
    eapply same_bind; [apply same_update|]. intros. constructor. reflexivity.
Qed.
Lemma same_tick t : same silent (on_tick t) (on_tick' txt t).
Proof. destruct t; cbn [on_tick on_tick']; (eapply same_bind; [apply same_update|intros ? ? _; apply same_tail, same_update]). Qed.
Lemma same_start : same silent StartCaches (StartCaches' txt).
Proof. apply same_tail, same_all. Qed.

(** ** What is logged *)
Definition logs {B} (acc : list event) (p : sproc B) (ev : B -> list event) (locks : list lockid) : Prop :=
  forall w, (forall l, In l locks -> can_lock (w_held w) l = true) ->
  exists b w' l es, run p w = (RDone b, w') /\ w_held w' = w_held w /\ added w w' l /\ reports txt l es /\ ev b = acc ++ es.

Lemma reports_app a ea b eb : reports txt a ea -> reports txt b eb -> reports txt (a ++ b) (ea ++ eb).
Proof.
  intros Ha Hb. induction Ha; [exact Hb|..]; cbn [app]; rewrite <- app_assoc.
  - eapply rp_fetched; eauto.
  - eapply rp_rejected; eauto.
  - eapply rp_failed; eauto.
  - eapply rp_set; eauto.
Qed.
Lemma logs_ret {B} (b : B) acc ev locks : ev b = acc -> logs acc (Ret b) ev locks.
Proof. intros E w _. exists b, w, [], []. repeat split; auto. apply added_nil; auto. constructor. rewrite app_nil_r. auto. Qed.
Lemma logs_bind {A B} acc (p : sproc A) (k : A -> sproc B) ev ev' l1 l2 :
  logs acc p ev l1 -> (forall a, logs (ev a) (k a) ev' l2) -> logs acc (bind p k) ev' (l1 ++ l2).
Proof.
  intros P K w L. destruct (P w) as (a & w1 & la & ea & R & H & Ad & Rp & E); [intros; apply L, in_or_app; auto|].
  destruct (K a w1) as (b & w2 & lb & eb & R2 & H2 & Ad2 & Rp2 & E2); [intros; rewrite H; apply L, in_or_app; auto|].
  exists b, w2, (la ++ lb), (ea ++ eb). rewrite run_bind, R. repeat split; auto; try congruence.
  - eapply added_app; eauto.
  - apply reports_app; auto.
  - rewrite E2, E. symmetry. apply app_assoc.
Qed.
Lemma logs_get {B} acc (k : shared -> sproc B) ev locks : (forall s, logs acc (k s) ev locks) -> logs acc (Get k) ev locks.
Proof. intros K w L. exact (K (w_sh w) w L). Qed.
Lemma logs_sleep {B} acc d (p : sproc B) ev locks : logs acc p ev locks -> logs acc (Sleep d p) ev locks.
Proof. intros P w L. exact (P (add_clock w d) L). Qed.
Lemma logs_weaken {B} acc (p : sproc B) ev l1 l2 : (forall x, In x l1 -> In x l2) -> logs acc p ev l1 -> logs acc p ev l2.
Proof. intros I P w L. apply P. auto. Qed.
Lemma logs_lock {B} acc (p : sproc B) ev l locks : ~ In l locks -> logs acc p ev locks -> logs acc (with_lock l p) ev (l :: locks).
Proof.
  intros N P w L.
  destruct (P (set_held w ((l, true) :: w_held w))) as (b & w' & lg & es & R & H & Ad & Rp & E).
  { intros x I. cbn [set_held w_held]. rewrite can_lock_cons by (intros ->; contradiction). apply L. right. auto. }
  exists b, (set_held w' (w_held w)), lg, es. repeat split; auto.
  erewrite run_with_lock; [ reflexivity | apply L; left; auto | exact R | ]. rewrite H. reflexivity.
Qed.
Definition getter_ok {T} (c : cache) (inj : T -> rec) gr (zero : T) dec (get : sproc (T * option err)) : Prop :=
  (forall w, can_lock (w_held w) LPm = true -> run get w = (RDone (fst (getq gr zero dec (w_conn w))), set_conn w (snd (getq gr zero dec (w_conn w))))) /\
  total_dec dec /\ gr = request c /\
  (forall p v e, dec p = Done (v, e) -> e = if accepted c p then None else Some (complaint c p)).
Lemma run_shape' {T} c (inj : T -> rec) gr zero dec (get : sproc (T * option err)) (put : T -> Z -> sproc (list event)) msg force w :
  getter_ok c inj gr zero dec get ->
  (forall v now w, run (put v now) w = (RDone [], set_sh w (store (inj v) now (w_sh w)))) ->
  (forall v now s, stamp (store (inj v) now s) c = now) -> msg = str (cache_message c) ->
  can_lock (w_held w) (LC c) = true -> can_lock (w_held w) LPm = true ->
  exists es w' l,
  run (with_lock (LC c) (Now (fun now => Get (fun s =>
    if negb force && negb (isStale (stamp s c) now) then Ret []
    else do (v, e) <- get;
         match e with None => put v now | Some e => Ret (updateError txt msg e) end)))) w = (RDone es, w') /\
  w_held w' = w_held w /\ added w w' l /\ reports txt l es /\ outcome_ok txt c force w w' l es.
Proof.
  intros (G & Td & Gr & De) P St M L1 L2.
  assert (K : w_clk w <= w_clk (tick_clock w)) by (unfold tick_clock; cbn; lia).
  set (w1 := set_held w ((LC c, true) :: w_held w)).
  assert (X : exists es w' l, run (Now (fun now => Get (fun s =>
    if negb force && negb (isStale (stamp s c) now) then Ret []
    else do (v, e) <- get;
         match e with None => put v now | Some e => Ret (updateError txt msg e) end))) w1 = (RDone es, w') /\
    w_held w' = w_held w1 /\ added w1 w' l /\ reports txt l es /\ outcome_ok txt c force w1 w' l es).
  { cbn [run]. set (w2 := tick_clock w1). assert (K2 : w_clk w1 <= w_clk w2) by (unfold w2, w1, tick_clock; cbn; lia).
    change (w_sh w2) with (w_sh w1). destruct (negb force && _) eqn:Du.
    { exists [], w2, []. repeat split; auto. apply added_nil. reflexivity. constructor. left. repeat split. destruct force; [discriminate|reflexivity]. }
    rewrite run_bind, G by (cbn; rewrite can_lock_cons by discriminate; auto).
    unfold getq. subst gr. destruct (query_exchange (mkPacket (request c) [] true) (w_conn w2)) as (l & Lg & X).
    destruct (query _ (w_conn w2)) as [[q qe] cn] eqn:Q. cbn [fst snd p_cmd p_data p_expect] in *.
    destruct qe as [e|].
    { cbn [fst snd run]. eexists _, _, l. repeat split; auto.
      - replace l with (l ++ []) by apply app_nil_r. unfold updateError. subst msg. eapply rp_failed; [exact X|constructor].
      - right. right. exists e. subst msg. repeat split. exists q, (Some e). exact X. }
    destruct (Td (p_data q)) as (v & e & D). pose proof (De _ _ _ D) as A. rewrite D. destruct (accepted c (p_data q)) eqn:Ac; subst e; cbn [fst snd].
    - rewrite P. eexists _, _, l. repeat split; auto.
      + replace l with (l ++ []) by apply app_nil_r. eapply rp_fetched; [exact X|auto|constructor].
      + right. left. exists q. repeat split; auto; cbn [set_sh w_sh set_conn]; rewrite St; cbn; lia.
    - cbn [run]. eexists _, _, l. repeat split; auto.
      + replace l with (l ++ []) by apply app_nil_r. unfold updateError. subst msg. eapply rp_rejected; [exact X|auto|constructor].
      + right. right. exists (complaint c (p_data q)). subst msg. repeat split. exists q, None. exact X. }
  destruct X as (es & w' & l & R & H & Ad & Rp & O).
  exists es, (set_held w' (w_held w)), l. repeat split; auto.
  erewrite run_with_lock; [ reflexivity | auto | exact R | ]. rewrite H. reflexivity.
Qed.

Lemma dec_one {T} (dec : list byte -> outcome (T * option err)) (zero : T) c n lay :
  (forall p, accepted c p = (length p =? n)%nat) -> (forall p, complaint c p = ErrPktLen) ->
  (forall l, (length l <> n -> dec l = Done (zero, Some ErrPktLen)) /\ (length l = n -> exists t, dec l = Done (t, None) /\ lay l t)) ->
  forall p v e, dec p = Done (v, e) -> e = if accepted c p then None else Some (complaint c p).
Proof.
  intros A C D p v e E. rewrite A, C. destruct (D p) as [N Y]. destruct (Nat.eqb_spec (length p) n) as [L|L].
  - destruct (Y L) as (t & F & _). congruence.
  - rewrite (N L) in E. congruence.
Qed.
Lemma boot_getter : getter_ok CBoot VBoot 103 zeroBoot BootInfo_Unmarshal GetBootloader.
Proof. split; [intros; apply run_GetBootloader; auto|]. split; [apply boot_total|]. split; auto. apply dec_one with (zero := zeroBoot) (n := 13%nat) (lay := boot_layout); auto using boot_spec. Qed.
Lemma bypass_getter : getter_ok CBypass VBypass 223 zeroBypass Bypass_Unmarshal GetBypass.
Proof. split; [intros; apply run_GetBypass; auto|]. split; [apply bypass_total|]. split; auto. apply dec_one with (zero := zeroBypass) (n := 7%nat) (lay := bypass_layout); auto using bypass_spec. Qed.
Lemma temp_getter : getter_ok CTemp VTemp 209 zeroTemps Temps_Unmarshal GetTemperatures.
Proof.
  split; [intros; apply run_GetTemperatures; auto|]. split; [apply temps_total|]. split; auto.
  apply dec_one with (zero := zeroTemps) (n := 9%nat) (lay := fun _ _ => True); auto. intros l. split; intros L.
  - unfold Temps_Unmarshal. destruct (Nat.eqb_spec (length l) 9); [contradiction|reflexivity].
  - do 9 (destruct l as [|? l]; [discriminate|]). destruct l; [|discriminate]. eexists; split; [reflexivity|auto].
Qed.
Lemma prof_getter : getter_ok CProf VProf 205 zeroProf FanProfiles_Unmarshal GetFanProfiles.
Proof. split; [intros; apply run_GetFanProfiles; auto|]. split; [apply prof_total|]. split; auto. apply dec_one with (zero := zeroProf) (n := 14%nat) (lay := profiles_layout); auto using profiles_spec. Qed.
Lemma err_getter : getter_ok CErr VErr 217 zeroErrors Errors_Unmarshal GetErrors.
Proof. split; [intros; apply run_GetErrors; auto|]. split; [apply errors_total|]. split; auto. apply dec_one with (zero := zeroErrors) (n := 17%nat) (lay := errors_layout); auto using errors_spec. Qed.
Lemma fans_getter : getter_ok CFans VFans 11 zeroFans Fans_Unmarshal GetFans.
Proof.
  split; [intros; apply run_GetFans; auto|]. split; [apply fans_total|]. split; auto.
  intros p v e D. destruct (fans_spec p) as (S1 & S2 & S3). cbn [accepted complaint]. destruct (Nat.eqb_spec (length p) 6) as [L|L]; cbn [andb].
  - destruct (Z.eqb_spec (be_at p 2 2) 0) as [A|A]; cbn [negb andb]; [rewrite S2 in D by auto; congruence|].
    destruct (Z.eqb_spec (be_at p 4 2) 0) as [B|B]; cbn [negb]; [rewrite S2 in D by auto; congruence|].
    destruct (S3 L A B) as (t & E & _). congruence.
  - rewrite S1 in D by auto. congruence.
Qed.
Lemma update_logs c force w : can_lock (w_held w) (LC c) = true -> can_lock (w_held w) LPm = true ->
  exists es w' l, run (Update' txt c force) w = (RDone es, w') /\ w_held w' = w_held w /\ added w w' l /\ reports txt l es /\ outcome_ok txt c force w w' l es.
Proof.
  intros L1 L2. destruct c.
  - eapply (run_shape' CBoot VBoot _ _ _ _ (fun v now => assign_boot v (Put (on_boot_t now) (Ret [])))); eauto using boot_getter.
    intros. rewrite run_assign_boot. reflexivity.
  - eapply (run_shape' CBypass VBypass _ _ _ _ (fun v now => assign_bypass v (Put (on_bypass_t now) (Ret [])))); eauto using bypass_getter.
    intros. rewrite run_assign_bypass. reflexivity.
  - eapply (run_shape' CTemp VTemp _ _ _ _ (fun v now => assign_temp v (Put (on_temp_t now) (Ret [])))); eauto using temp_getter.
    intros. rewrite run_assign_temp. reflexivity.
  - eapply (run_shape' CFans VFans _ _ _ _ (fun v now => assign_fans v (Put (on_fans_t now) (Ret [])))); eauto using fans_getter.
    intros. rewrite run_assign_fans. reflexivity.
  - eapply (run_shape' CProf VProf _ _ _ _ (fun v now => assign_prof v (Put (on_prof_t now) (Ret [])))); eauto using prof_getter.
    intros. rewrite run_assign_prof. reflexivity.
  - eapply (run_shape' CErr VErr _ _ _ _ (fun v now => assign_err v (Put (on_err_t now) (Ret [])))); eauto using err_getter.
    intros. rewrite run_assign_err. reflexivity.
Qed.

Lemma logs_update acc c force : logs acc (Update' txt c force) (fun l => acc ++ l) [LC c; LPm].
Proof.
  intros w L. destruct (update_logs c force w) as (es & w' & l & R & H & A & Rp & _); [apply L; simpl; auto..|].
  exists es, w', l, es. auto.
Qed.
Lemma logs_setq acc r : (exists cmd data, set_command cmd data /\ EncodeSetRequest r = (mkPacket cmd data false, None)) \/ (exists p e, EncodeSetRequest r = (p, Some e)) ->
  logs acc (setQuery r) (fun _ => acc) [LPm].
Proof.
  intros H w L. exists (fst (setq r (w_conn w))), (set_conn w (snd (setq r (w_conn w)))).
  destruct H as [(cmd & data & Sc & E)|(p & e & E)].
  - destruct (setq_cases r w cmd data E) as (l & out & A & X). exists l, []. repeat split; auto.
    + apply run_setQuery, L. simpl. auto.
    + replace l with (l ++ []) by apply app_nil_r. eapply rp_set; eauto. constructor.
    + symmetry. apply app_nil_r.
  - exists [], []. repeat split; auto.
    + apply run_setQuery, L. simpl. auto.
    + unfold setq. rewrite E. apply added_nil. reflexivity.
    + constructor.
    + symmetry. apply app_nil_r.
Qed.
Lemma logs_poll n i o acc acc0 : logs (acc0 ++ acc) (poll_loop' txt n i o acc) (fun x => acc0 ++ snd x) [LC CFans; LPm].
Proof.
  revert acc. induction n as [|n IH]; intros acc; cbn [poll_loop'].
  { apply logs_ret. reflexivity. }
  eapply logs_weaken with (l1 := [LC CFans; LPm] ++ [LC CFans; LPm]); [simpl; intuition|].
  eapply logs_bind; [apply (logs_update _ CFans)|]. intros l. cbn beta. rewrite <- app_assoc. apply logs_get. intros s.
  destruct (_ =? i); [|apply logs_sleep, IH]. apply logs_get. intros s'.
  destruct (_ =? o); [|apply logs_sleep, IH]. apply logs_ret. reflexivity.
Qed.
Lemma logs_updatepoll n v : 1 <= v <= 4 -> logs [] (UpdatePoll' txt n v) snd [LC CProf; LC CFans; LPm].
Proof.
  intros V w L. unfold UpdatePoll'. cbn [run].
  rewrite can_lock_rlock by (apply L; simpl; auto). cbn [set_held w_sh].
  assert (E : exists i o, Lookup (sh_prof (w_sh w)) v = (i, o, None)).
  { assert (v = 1 \/ v = 2 \/ v = 3 \/ v = 4) as [-> |[-> |[-> | ->]]] by lia; eexists; eexists; reflexivity. }
  destruct E as (i & o & ->). cbn [run w_held set_held]. rewrite release_head.
  replace (set_held _ _) with w by (destruct w; reflexivity).
  exact (logs_poll n i o [] [] w ltac:(intros; apply L; simpl in *; intuition)).
Qed.
Lemma logs_getter c : logs [] (handle' txt (getter_rpc c)) snd all_locks.
Proof.
  intros w L. destruct (does_getter c w) as [R _]; [intros l [<-|[]]; apply L; destruct c; simpl; auto 20|].
  exists (umsg (cached (w_sh w) c), []), w, [], []. repeat split; auto; [|apply added_nil; auto|constructor].
  cbn [fst snd] in R. destruct c; cbn [getter_rpc handle'] in *; rewrite run_bind, R; reflexivity.
Qed.
Lemma comfort_encodes t : (exists cmd data, set_command cmd data /\ EncodeSetRequest (SRComfort t) = (mkPacket cmd data false, None)) \/ (exists p e, EncodeSetRequest (SRComfort t) = (p, Some e)).
Proof.
  unfold EncodeSetRequest. change (requestType (SRComfort t) =? 0) with false. cbv iota. unfold SetRequest_MarshalBinary.
  destruct (temperature_MarshalBinary t) as [b [e|]]; [eauto|]. left. eexists _, _. split; [|reflexivity]. split; [left; reflexivity|reflexivity].
Qed.
Lemma speed_encodes v : (exists cmd data, set_command cmd data /\ EncodeSetRequest (SRSpeed v) = (mkPacket cmd data false, None)) \/ (exists p e, EncodeSetRequest (SRSpeed v) = (p, Some e)).
Proof.
  unfold EncodeSetRequest. change (requestType (SRSpeed v) =? 0) with false. cbv iota. unfold SetRequest_MarshalBinary.
  destruct (_ >? _); [eauto|]. left. eexists _, _. split; [|reflexivity]. split; [right; reflexivity|reflexivity].
Qed.
Lemma logs_comfort t : logs [] (SetComfortTemp' txt t) snd [LTemp; LPm; LC CTemp].
Proof.
  unfold SetComfortTemp'. apply logs_get. intros s. cbv zeta. destruct (t >? 255); [apply logs_ret; reflexivity|].
  destruct (negb _); [|apply logs_ret; reflexivity].
  apply logs_lock; [intros [H|[H|[]]]; discriminate|].
  eapply logs_weaken with (l1 := [LPm] ++ ([LC CTemp; LPm] ++ [])); [simpl; intuition|].
  eapply logs_bind; [apply logs_setq, comfort_encodes|]. intros [e|]; [apply logs_ret; reflexivity|].
  eapply logs_bind; [apply logs_update|]. intros l. apply logs_ret. reflexivity.
Qed.
Lemma logs_speed a r : logs [] (SetFanSpeed' txt a r) snd [LFan; LPm; LC CProf; LC CFans].
Proof.
  unfold SetFanSpeed'. apply logs_lock; [intros [H|[H|[H|[]]]]; discriminate|].
  apply logs_get. intros s. cbv zeta. destruct (modifySpeed _ _ _) as [v [e|]] eqn:M; [apply logs_ret; reflexivity|].
  apply modify_range in M. assert (U : u8 v = v) by (unfold u8; apply Z.mod_small; lia). rewrite U.
  destruct (negb _); [|apply logs_ret; reflexivity].
  eapply logs_weaken with (l1 := [LPm] ++ ([LC CProf; LC CFans; LPm] ++ ([LC CProf; LPm] ++ []))); [simpl; intuition|].
  eapply logs_bind; [apply logs_setq, speed_encodes|]. intros [e|]; [apply logs_ret; reflexivity|].
  eapply logs_bind; [apply logs_updatepoll; lia|]. intros [[e|] l]; [apply logs_ret; reflexivity|].
  eapply logs_bind; [apply logs_update|]. intros l'. apply logs_ret. reflexivity.
Qed.
Lemma logs_handle r : quiet_rpc r -> logs [] (handle' txt r) snd all_locks.
Proof.
  intros Q. destruct r; try contradiction.
  - apply (logs_getter CBoot).
  - apply (logs_getter CBypass).
  - apply (logs_getter CErr).
  - apply (logs_getter CFans).
  - apply (logs_getter CProf).
  - apply (logs_getter CTemp).
  - eapply logs_weaken; [|apply logs_comfort]. simpl; intuition.
  - eapply logs_weaken; [|apply logs_speed]. simpl; intuition.
Qed.
Lemma logs_two a b force : logs [] (do x <- Update' txt a force; do y <- Update' txt b force; Ret (x ++ y)) (fun l => l) [LC a; LC b; LPm].
Proof.
  eapply logs_weaken with (l1 := [LC a; LPm] ++ ([LC b; LPm] ++ [])); [simpl; intuition|].
  eapply logs_bind; [apply logs_update|]. intros x. eapply logs_bind; [apply logs_update|]. intros y. apply logs_ret. reflexivity.
Qed.
Lemma logs_tick t : logs [] (on_tick' txt t) (fun l => l) all_locks.
Proof. destruct t; cbn [on_tick']; (eapply logs_weaken; [|apply logs_two]); simpl; intuition. Qed.
Lemma logs_all force : logs [] (UpdateCaches' txt force) (fun l => l) all_locks.
Proof.
  unfold UpdateCaches'.
  eapply logs_weaken with (l1 := [LC CBoot; LPm] ++ ([LC CBypass; LPm] ++ ([LC CTemp; LPm] ++ ([LC CFans; LPm] ++ ([LC CProf; LPm] ++ ([LC CErr; LPm] ++ [])))))).
  { intros x H. simpl in *. intuition. }
  do 6 (eapply logs_bind; [apply logs_update|intros ?]). apply logs_ret. repeat rewrite <- app_assoc. reflexivity.
Qed.
Lemma logs_flush c : logs [] (FlushCaches_body' txt c) snd all_locks.
Proof.
  unfold FlushCaches_body'.
  assert (One : forall k, logs [] (do l <- Update' txt k true; Ret (true, l)) snd all_locks).
  { intros k. eapply logs_weaken with (l1 := [LC k; LPm] ++ []).
    - intros x H. destruct k; simpl in *; intuition.
    - eapply logs_bind; [apply logs_update|]. intros l. apply logs_ret. reflexivity. }
  do 5 (destruct (c =? _); [apply One|]). destruct (c =? TAll); [|apply logs_ret; reflexivity].
  eapply logs_weaken with (l1 := all_locks ++ []); [intros; rewrite app_nil_r in *; auto|].
  eapply logs_bind; [apply logs_all|]. intros l. apply logs_ret. reflexivity.
Qed.

Lemma profile_logs m t w : idle w ->
  exists r es w' l1 l2, run (handle' txt (SetFanProfileR m t)) w = (RDone (r, es), w') /\ idle w' /\ added w w' (l1 ++ l2) /\
    own l1 /\ reports txt l2 es /\ (l2 = [] \/ one_query CProf l2 /\ exists a b c, r = RespProfile a b c).
Proof.
  intros I. assert (Lk : forall h l, ~ In l (map fst h) -> can_lock h l = true).
  { induction h as [|[x b] h IH]; intros l N; [reflexivity|]. rewrite can_lock_cons by (intros ->; apply N; left; reflexivity).
    apply IH. intros H. apply N. right. exact H. }
  assert (Q : forall r, exists r0 es w' l1 l2, (RDone (r, @nil event), w) = (RDone (r0, es), w') /\ idle w' /\ added w w' (l1 ++ l2) /\
    own l1 /\ reports txt l2 es /\ (l2 = [] \/ one_query CProf l2 /\ exists a b c, r0 = RespProfile a b c)).
  { intros r. exists r, [], w, [], []. repeat split; auto. apply added_nil; auto. left; reflexivity. constructor. }
  cbn [handle']. unfold SetFanProfileRPC'. cbv zeta. destruct ((u8 m <? 1) || (u8 m >? 4)) eqn:M; [cbn [run]; apply Q|].
  destruct ((u8 t <? 15) || (u8 t >? 100)) eqn:T; [cbn [run]; apply Q|].
  assert (U : u8 (u8 m - 1) = u8 m - 1) by (unfold u8 at 1; apply Z.mod_small; lia). rewrite U.
  set (w1 := set_held w ((LFan, true) :: w_held w)).
  assert (P : exists o, profile_in (sh_prof (w_sh w1)) (u8 m - 1) = Some o).
  { destruct (profile_in _ _) as [o|] eqn:P; [exists o; reflexivity|]. exfalso. unfold profile_in in P.
    repeat (destruct (_ =? _) eqn:? in P; [discriminate|]). lia. }
  assert (X : forall body, (exists r es w' l1 l2, run (body : sproc (resp * list event)) w1 = (RDone (r, es), w') /\ w_held w' = w_held w1 /\
     added w1 w' (l1 ++ l2) /\ own l1 /\ reports txt l2 es /\ (l2 = [] \/ one_query CProf l2 /\ exists a b c, r = RespProfile a b c)) ->
     exists r es w' l1 l2, run (with_lock LFan body) w = (RDone (r, es), w') /\ idle w' /\
     added w w' (l1 ++ l2) /\ own l1 /\ reports txt l2 es /\ (l2 = [] \/ one_query CProf l2 /\ exists a b c, r = RespProfile a b c)).
  { intros body (r & es & w' & l1 & l2 & R & H & A & B). exists r, es, (set_held w' (w_held w)), l1, l2. repeat split; auto; try apply B.
    erewrite run_with_lock; [reflexivity|rewrite I; reflexivity|exact R|]. rewrite H. reflexivity. }
  apply X. cbn [run]. fold (profile_in (sh_prof (w_sh w1)) (u8 m - 1)). destruct P as (o & ->). destruct (negb _).
  2:{ exists (RespProfile false (u32 o) t), [], w1, [], []. repeat split; auto. apply added_nil; auto. left; reflexivity. constructor. }
  assert (H1 : w_held w1 = [(LFan, true)]) by (unfold w1; cbn; rewrite I; reflexivity).
  rewrite run_bind, run_SetFanProfile by (rewrite H1; reflexivity).
  assert (Ow : exists l1, c_log (snd (fprofile (u8 m - 1) (u8 t) (w_conn w1))) = c_log (w_conn w1) ++ l1 /\ own l1).
  { unfold fprofile. destruct (_ >? 3); [exists []; rewrite app_nil_r; split; auto; left; reflexivity|].
    destruct (_ >? 100); [exists []; rewrite app_nil_r; split; auto; left; reflexivity|].
    unfold getq. destruct (query_exchange (mkPacket 205 [] true) (w_conn w1)) as (a & La & Xa).
    destruct (query _ (w_conn w1)) as [[q qe] c1]. cbn [fst snd p_cmd p_data p_expect] in *.
    assert (Stop : exists l1, c_log c1 = c_log (w_conn w1) ++ l1 /\ own l1).
    { exists a. split; auto. right. exists q, qe, a, []. rewrite app_nil_r. auto. }
    destruct qe as [e|]; [exact Stop|].
    assert (Go : forall fp, exists l1, c_log (snd (setq (SRProfiles fp) c1)) = c_log (w_conn w1) ++ l1 /\ own l1).
    { intros fp. unfold setq. destruct (EncodeSetRequest (SRProfiles fp)) as [p [e|]] eqn:E; [exact Stop|].
      assert (F : exists data, List.length data = 8%nat /\ p = mkPacket 207 data false).
      { unfold EncodeSetRequest in E. change (requestType (SRProfiles fp) =? 0) with false in E. cbv iota in E. unfold SetRequest_MarshalBinary in E.
        repeat match type of E with context [if ?b then _ else _] => destruct b; [discriminate|] end.
        injection E as <-; eexists; split; [|reflexivity]; reflexivity. }
      destruct F as (data & Ld & ->). destruct (query_exchange (mkPacket 207 data false) c1) as (b & Lb & Xb).
      destruct (query _ c1) as [[q' qe'] c2]. cbn [fst snd p_cmd p_data p_expect] in *.
      exists (a ++ b). split; [rewrite Lb, La; symmetry; apply app_assoc|]. right. exists q, None, a, b. repeat split; auto. right. eauto 10. }
    destruct (FanProfiles_Unmarshal (p_data q)) as [[v [e|]]|]; [exact Stop|apply Go|apply Go]. }
  destruct Ow as (l1 & L1 & O1). destruct (fprofile _ _ _) as [[e|] c1]; cbn [fst snd] in *.
  { exists (RespErr (Internal (LibErr e))), [], (set_conn w1 c1), l1, []. repeat split; auto. unfold added. cbn. rewrite app_nil_r. exact L1. constructor. }
  rewrite run_bind. destruct (update_logs CProf true (set_conn w1 c1)) as (es & w2 & l2 & R & Hh & A2 & Rp & Oc); [cbn [set_conn w_held]; rewrite H1; reflexivity..|].
  rewrite R. cbn [run]. exists (RespProfile true (u32 o) t), es, w2, l1, l2. repeat split; auto.
  - unfold added in *. rewrite A2. cbn [set_conn w_conn]. rewrite L1. symmetry. apply app_assoc.
  - right. split; eauto. destruct Oc as [(_ & _ & F & _)|[(p & _ & Xp & _)|(e & _ & Xe & _)]]; [discriminate|exists p, None; exact Xp|exact Xe].
Qed.

(** ** Reports are determined by the log *)
Lemma starts_app a b : starts a -> starts b -> starts (a ++ b).
Proof. destruct a; auto. Qed.
Lemma reports_starts l es : reports txt l es -> starts l.
Proof. induction 1; [exact I|..]; apply starts_app; auto; eapply ServerProofs.exchange_starts; eauto. Qed.
Lemma exchange_split c d x p e l c' d' x' p' e' l' k k' :
  exchange c d x p e l -> exchange c' d' x' p' e' l' -> (List.length d <= 255)%nat -> (List.length d' <= 255)%nat ->
  (c = c' -> x = x') -> starts k -> starts k' -> l ++ k = l' ++ k' -> c = c' /\ x = x' /\ p = p' /\ e = e' /\ k = k'.
Proof.
  intros X Y Ld Ld' Xx K K' E.
  assert (C : c = c').
  { destruct X; try lia; destruct Y; try lia; cbn [app] in E; injection E; intros; unfold framed, wire in *;
      repeat match goal with H : [7; 240] ++ _ = _ |- _ => cbn [app] in H; injection H; clear H; intros end; auto. }
  subst c'. rewrite <- (Xx eq_refl) in *. clear Xx.
  assert (Ack : forall r rest, k = Wr ack_seq r :: rest -> False) by (intros; subst k; apply K; reflexivity).
  assert (Ack' : forall r rest, k' = Wr ack_seq r :: rest -> False) by (intros; subst k'; apply K'; reflexivity).
  assert (Rd0 : forall y q z rest, k = Rd y q z :: rest -> False) by (intros; subst k; exact K).
  assert (Rd0' : forall y q z rest, k' = Rd y q z :: rest -> False) by (intros; subst k'; exact K').
  assert (Same : forall r2 (a b : option err), (w_err r2 = None /\ w_n r2 = 2 -> a = None) -> (w_err r2 = None /\ w_n r2 <> 2 -> a = Some ErrAck) ->
    (w_err r2 <> None -> a = w_err r2) -> (w_err r2 = None /\ w_n r2 = 2 -> b = None) -> (w_err r2 = None /\ w_n r2 <> 2 -> b = Some ErrAck) ->
    (w_err r2 <> None -> b = w_err r2) -> a = b).
  { intros r2 a1 b1 H1 H2 H3 H4 H5 H6. destruct (w_err r2) as [e2|] eqn:W.
    - rewrite H3, H6 by discriminate. reflexivity.
    - destruct (Z.eq_dec (w_n r2) 2) as [n|n]; [rewrite H1, H4 by auto|rewrite H2, H5 by auto]; reflexivity. }
  destruct X as [X0|r e0 X0 X1|r e0 X0 X1|r p0 X0 X1 X2 X3|r p0 r2 e0 X0 X1 X2 X3 X4 X5]; [lia|..];
    (destruct Y as [Y0|s e1 Y0 Y1|s e1 Y0 Y1|s p1 Y0 Y1 Y2 Y3|s p1 s2 e1 Y0 Y1 Y2 Y3 Y4 Y5]; [lia|..]);
    cbn [app] in E; injection E; clear E; intros; subst; try congruence;
    try (exfalso; eauto; fail); try (exfalso; auto; fail); try (repeat split; congruence).
  repeat split; auto. eapply Same; eauto.
Qed.
Lemma request_inj c c' : request c = request c' -> c = c'.
Proof. destruct c, c'; try discriminate; auto. Qed.
Lemma request_set c cmd data : set_command cmd data -> request c <> cmd.
Proof. intros [[-> | ->] _]; destruct c; discriminate. Qed.
Lemma exchange_nonempty c d x p e l : exchange c d x p e l -> (List.length d <= 255)%nat -> l <> [].
Proof. destruct 1; intros; try lia; discriminate. Qed.
Lemma reports_unique l es : reports txt l es -> forall es', reports txt l es' -> es = es'.
Proof.
  assert (N : forall l1 l2 c d x p e, exchange c d x p e l1 -> (List.length d <= 255)%nat -> l1 ++ l2 <> []).
  { intros l1 l2 c d x p e X L H. apply app_eq_nil in H as [H _]. eapply exchange_nonempty; eauto. }
  assert (S1 : forall d, List.length d = 1%nat -> (List.length (d : list byte) <= 255)%nat) by (intros; lia).
  assert (Z0 : (List.length (@nil byte) <= 255)%nat) by (cbn; lia).
  induction 1 as [|c p l l' es X A H IH|c p l l' es X A H IH|c p e l l' es X H IH|cmd data p e l l' es Sc X H IH]; intros es' H'.
  { remember (@nil io) as l0 eqn:E0 in H'. destruct H' as [|c' p' l1 l1' es1 X' A' H'|c' p' l1 l1' es1 X' A' H'|c' p' e' l1 l1' es1 X' H'|cmd' data' p' e' l1 l1' es1 Sc' X' H'];
    auto; exfalso; refine (N _ _ _ _ _ _ _ X' _ E0); auto. apply S1, Sc'. }
  all: pose proof (reports_starts _ _ H) as St; remember (l ++ l') as l0 eqn:E0; destruct H' as [|c' p' l1 l1' es1 X' A' H'|c' p' l1 l1' es1 X' A' H'|c' p' e' l1 l1' es1 X' H'|cmd' data' p' e' l1 l1' es1 Sc' X' H'];
    [exfalso; refine (N _ _ _ _ _ _ _ X _ (eq_sym E0)); auto; apply S1, Sc|..]; pose proof (reports_starts _ _ H') as St';
    (edestruct (exchange_split _ _ _ _ _ _ _ _ _ _ _ _ l' l1' X X') as (C & _ & P & E & K);
       [auto; try apply S1, Sc|auto; try apply S1, Sc'|first [reflexivity|intros F; exfalso; eapply request_set; [eassumption|eauto]]|auto|auto|auto|]);
    try discriminate E; try (exfalso; eapply request_set; [eassumption|eauto]; fail); subst; try apply request_inj in C; subst.
  all: try (rewrite A in A'; discriminate).
  all: try (f_equal; eauto).
  all: try (injection E as <-; auto).
Qed.
End Logs.
(** ** Events are made of bytes *)
Lemma str_bytes s : bytes_ok (str s).
Proof.
  unfold str. induction (list_ascii_of_string s) as [|a l IH]; constructor; auto. pose proof (Ascii.nat_ascii_bounded a). unfold byte_ok. lia.
Qed.
Lemma err_text_bytes txt e : (forall i, bytes_ok (txt i)) -> bytes_ok (err_text txt e).
Proof. intros H. destruct e; cbn [err_text]; auto using str_bytes. Qed.
Lemma reports_bytes txt l es : (forall i, bytes_ok (txt i)) -> reports txt l es -> Forall event_ok es.
Proof.
  intros H. assert (K : forall c e, event_ok (report txt c e)).
  { intros c e. split; [apply str_bytes|]. constructor; [|constructor]. split; cbn [fst snd value_ok]; [apply str_bytes|apply err_text_bytes, H]. }
  induction 1; auto.
Qed.
(** ** Operations of an idle server *)
Lemma logs_idle txt {B} (p : sproc B) ev w : logs txt [] p ev all_locks -> idle w ->
  exists b w' l, run p w = (RDone b, w') /\ idle w' /\ added w w' l /\ reports txt l (ev b).
Proof.
  intros P I. destruct (P w) as (b & w' & l & es & R & H & A & Rp & E); [intros; unfold idle in I; rewrite I; reflexivity|].
  exists b, w', l. rewrite E. unfold idle in *. rewrite H. auto.
Qed.
Lemma rpc_reports txt r w : idle w -> quiet_rpc r ->
  exists a es w' l, run (handle' txt r) w = (RDone (a, es), w') /\ idle w' /\ added w w' l /\ reports txt l es.
Proof. intros I Q. destruct (logs_idle txt _ _ w (logs_handle txt r Q) I) as ([a es] & w' & l & H). eauto 6. Qed.
Lemma flush_reports txt c w : idle w ->
  exists b es w' l, run (FlushCaches_body' txt c) w = (RDone (b, es), w') /\ idle w' /\ added w w' l /\ reports txt l es.
Proof. intros I. destruct (logs_idle txt _ _ w (logs_flush txt c) I) as ([a es] & w' & l & H). eauto 6. Qed.
Lemma tick_reports txt t w : idle w ->
  exists es w' l, run (on_tick' txt t) w = (RDone es, w') /\ idle w' /\ added w w' l /\ reports txt l es.
Proof. intros I. exact (logs_idle txt _ _ w (logs_tick txt t) I). Qed.
Lemma start_reports txt w : idle w ->
  exists es w' l, run (StartCaches' txt) w = (RDone (caches_started es), w') /\ idle w' /\ added w w' l /\ reports txt l es.
Proof.
  intros I. destruct (logs_idle txt _ _ w (logs_all txt true) I) as (es & w' & l & R & H). exists es, w', l. split; auto.
  unfold StartCaches'. rewrite run_bind, R. reflexivity.
Qed.
Lemma logged_same txt : (forall c force, same silent (Update c force) (Update' txt c force)) /\ (forall r, same erases (handle r) (handle' txt r)) /\
  (forall c, same erases (FlushCaches_body c) (FlushCaches_body' txt c)) /\ (forall t, same silent (on_tick t) (on_tick' txt t)) /\
  same silent StartCaches (StartCaches' txt).
Proof. split; [apply same_update|]. split; [apply same_handle|]. split; [apply same_flush|]. split; [apply same_tick|apply same_start]. Qed.
