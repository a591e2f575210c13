(** A logic for one cache and one goroutine: the exchanges the goroutine makes, and what was in the
    cache at the moments when it took or gave back the cache's lock. *)
From Verif Require Import ProofBase Proto SpecProto SpecFrame SpecConn SpecLayout SpecServer ProtoProofs Scanner Conn Proc Lib QueryProofs
  FrameLemmas LayoutProofs OpLemmas Server ServerProofs ServerLemmas ServerOps ServerTimes Machine MachineBase ThreadLogic SpecMachine SpecFresh FreshLogic OwnLogic.

Section For.
Context (k : cache).
Notation mine := (fun h => holds h (LC k) true).
Definition moments := list (list io) -> rec -> Prop.
Definition within (H H' : moments) : Prop := forall l z, H l z -> H' l z.
Lemma within_refl H : within H H. Proof. intros l z; auto. Qed.
Lemma within_trans H1 H2 H3 : within H1 H2 -> within H2 H3 -> within H1 H3. Proof. intros A B l z X; auto. Qed.

(** [h]: locks held; [kn]: what has been done since LPm was taken, if it is held; [ls]: earlier exchanges;
    [ls0], [v0]: exchanges and content of the cache when its lock was taken; [x]: its content now;
    [H]: exchanges and content of the cache at moments when nobody held its lock. *)
Definition tpost (A : Type) := held -> option (list io) -> list (list io) -> list (list io) -> rec -> rec -> moments -> A -> Prop.
Fixpoint tg {A} (h : held) (kn : option (list io)) (ls ls0 : list (list io)) (v0 x : rec) (H : moments) (p : sproc A) (Q : tpost A) : Prop :=
  match p with
  | Ret a => Q h kn ls ls0 v0 x H a
  | Crash => True
  | Lock l q =>
      if is_pm l then kn = None /\ tg ((l, true) :: h) (Some []) ls ls0 v0 x H q Q
      else if lock_eqb l (LC k) then kn = None /\ forall v (H' : moments), kind k v -> within H H' -> H' ls v -> tg ((l, true) :: h) kn ls ls v v H' q Q
      else tg ((l, true) :: h) kn ls ls0 v0 x H q Q
  | Unlock l q => exists h', h = (l, true) :: h' /\
      if is_pm l then exists y, kn = Some y /\ tg h' None (ls ++ [y]) ls0 v0 x H q Q
      else if lock_eqb l (LC k) then kn = None /\
        (x = v0 \/ exists y pl, ls = ls0 ++ [y] /\ In pl (fetched k y) /\ decodes k pl = Some x) /\
        forall H' : moments, within H H' -> H' ls x -> tg h' kn ls ls0 v0 x H' q Q
      else tg h' kn ls ls0 v0 x H q Q
  | RLock l q => tg ((l, false) :: h) kn ls ls0 v0 x H q Q
  | RUnlock l q => exists h', h = (l, false) :: h' /\ tg h' kn ls ls0 v0 x H q Q
  | WriteC bs q => exists y, kn = Some y /\ forall r, tg h (Some (y ++ [Wr bs r])) ls ls0 v0 x H (q r) Q
  | ReadC e q => exists y, kn = Some y /\ forall p r, (r <> None -> p = zero_packet) -> tg h (Some (y ++ [Rd e p r])) ls ls0 v0 x H (q p r) Q
  | Get q => forall s, (mine h = true -> cached s k = x) -> tg h kn ls ls0 v0 x H (q s) Q
  | Put f q => exists x', (mine h = true -> forall s, cached s k = x -> cached (f s) k = x') /\
      (mine h = false -> forall s, cached (f s) k = cached s k) /\ tg h kn ls ls0 v0 x' H q Q
  | Now q => forall t, tg h kn ls ls0 v0 x H (q t) Q
  | Sleep _ q => tg h kn ls ls0 v0 x H q Q
  | SendFlush _ q => tg h kn ls ls0 v0 x H q Q
  | RecvSucc q => forall b, tg h kn ls ls0 v0 x H (q b) Q
  | SendSucc _ q => tg h kn ls ls0 v0 x H q Q
  end.

Lemma tg_weaken {A} (p : sproc A) : forall h kn ls ls0 v0 x H (Q R : tpost A),
  (forall h' kn' ls' l0' v0' x' (H' : moments) a, within H H' -> Q h' kn' ls' l0' v0' x' H' a -> R h' kn' ls' l0' v0' x' H' a) ->
  tg h kn ls ls0 v0 x H p Q -> tg h kn ls ls0 v0 x H p R.
Proof.
  induction p as [a| |l q IH|l q IH|l q IH|l q IH|bs q IH|e q IH|q IH|f q IH|q IH|d q IH|c q IH|q IH|b q IH];
    intros h kn ls ls0 v0 x H Q R W F; cbn [tg] in *; eauto using within_refl.
  - destruct (is_pm l); [destruct F; eauto|]. destruct (lock_eqb l (LC k)); eauto. destruct F as [E F]. split; auto.
    intros v H' K S Hv. eapply IH; [|apply F; eauto]. intros; apply W; eauto using within_trans.
  - destruct F as (h' & E & F). exists h'. split; auto. destruct (is_pm l); [destruct F as (y & Ey & F); eauto|]. destruct (lock_eqb l (LC k)); eauto.
    destruct F as (E1 & E2 & F). splits; auto. intros H' S Hv. eapply IH; [|apply F; eauto]. intros; apply W; eauto using within_trans.
  - destruct F as (h' & E & F). eauto.
  - destruct F as (y & E & F). eauto.
  - destruct F as (y & E & F). eauto 6.
  - destruct F as (x' & M & N & F). eauto 6.
Qed.
Lemma tg_bind {A B} (p : sproc A) (f : A -> sproc B) : forall h kn ls ls0 v0 x H Q,
  tg h kn ls ls0 v0 x H p (fun h' kn' ls' l0' v0' x' H' a => tg h' kn' ls' l0' v0' x' H' (f a) Q) -> tg h kn ls ls0 v0 x H (bind p f) Q.
Proof.
  induction p as [a| |l q IH|l q IH|l q IH|l q IH|bs q IH|e q IH|q IH|g q IH|q IH|d q IH|c q IH|q IH|b q IH];
    intros h kn ls ls0 v0 x H Q F; cbn [tg bind] in *; eauto.
  - destruct (is_pm l); [destruct F; eauto|]. destruct (lock_eqb l (LC k)); eauto. destruct F as [E F]. split; auto.
  - destruct F as (h' & E & F). exists h'. split; auto. destruct (is_pm l); [destruct F as (y & Ey & F); eauto|]. destruct (lock_eqb l (LC k)); eauto.
    destruct F as (E1 & E2 & F). splits; auto.
  - destruct F as (h' & E & F). eauto.
  - destruct F as (y & E & F). eauto.
  - destruct F as (y & E & F). eauto 6.
  - destruct F as (x' & M & N & F). eauto 6.
Qed.

(** Processes made of whole exchanges that do not hold the cache's lock when they begin and leave the locks as they were.
    The moments are told relative to the beginning. *)
Definition tells {A} (h : held) (p : sproc A) (R : list (list io) -> moments -> A -> Prop) : Prop :=
  mine h = false -> forall ls ls0 v0 x H, tg h None ls ls0 v0 x H p (fun h' kn' ls' _ _ _ H' a =>
    h' = h /\ kn' = None /\ exists l, ls' = ls ++ l /\ forall N : moments, (forall l z, H' (ls ++ l) z -> N l z) -> R l N a).
Lemma tells_weaken {A} h (p : sproc A) (R S : list (list io) -> moments -> A -> Prop) : (forall l N a, R l N a -> S l N a) -> tells h p R -> tells h p S.
Proof.
  intros W Y M ls ls0 v0 x H. eapply tg_weaken; [|apply Y; auto]. cbn. intros h' kn' ls' _ _ _ H' a _ (E & E' & l & El & HR). splits; auto. exists l. auto.
Qed.
Lemma tells_ret {A} h (a : A) (R : list (list io) -> moments -> A -> Prop) : (forall N, R [] N a) -> tells h (Ret a) R.
Proof. intros HR M ls ls0 v0 x H. cbn. splits; auto. exists []. rewrite app_nil_r. auto. Qed.
Lemma tells_crash {A} h (R : list (list io) -> moments -> A -> Prop) : tells h Crash R.
Proof. intros M ls ls0 v0 x H. exact I. Qed.
Lemma tells_bind {A B} h (p : sproc A) (f : A -> sproc B) R (S : list (list io) -> moments -> B -> Prop) : tells h p R ->
  (forall l a N0, R l N0 a -> tells h (f a) (fun l' N' b => forall N : moments, (forall z v, N' z v -> N (l ++ z) v) -> R l N a -> S (l ++ l') N b)) -> tells h (bind p f) S.
Proof.
  intros P F M ls ls0 v0 x H. apply tg_bind. eapply tg_weaken; [|apply P; auto]. cbn beta. intros h' kn' ls' l0' v0' x' H1 a W1 (-> & -> & l & -> & HR).
  eapply tg_weaken; [|apply (F l a (fun z v => H1 (ls ++ z) v)); auto]. cbn beta. intros h' kn' ls' _ _ _ H2 b W2 (-> & -> & l' & -> & HS). splits; auto.
  exists (l ++ l'). split; [rewrite app_assoc; auto|]. intros N HN. apply (HS (fun z v => H2 ((ls ++ l) ++ z) v)).
  - auto.
  - intros z v Hz. apply HN. rewrite app_assoc. auto.
  - apply HR. intros z v Hz. apply HN. apply W2. auto.
Qed.
Lemma tells_get {A} h (q : shared -> sproc A) R : (forall s, tells h (q s) R) -> tells h (Get q) R.
Proof. intros F M ls ls0 v0 x H. cbn. intros s _. apply F. auto. Qed.
Lemma tells_now {A} h (q : Z -> sproc A) R : (forall s, tells h (q s) R) -> tells h (Now q) R.
Proof. intros F M ls ls0 v0 x H. cbn. intros s. apply F. auto. Qed.
Lemma tells_sleep {A} h d (q : sproc A) R : tells h q R -> tells h (Sleep d q) R.
Proof. intros F M ls ls0 v0 x H. cbn. apply F. auto. Qed.
Lemma tells_put {A} h f (q : sproc A) R : (forall s, cached (f s) k = cached s k) -> tells h q R -> tells h (Put f q) R.
Proof. intros E F M ls ls0 v0 x H. cbn. exists x. split; [congruence|]. split; [auto|]. apply F. auto. Qed.
Lemma tells_lock {A} h l (p : sproc A) R : l <> LC k -> l <> LPm -> tells ((l, true) :: h) p R -> tells h (with_lock l p) R.
Proof.
  intros N N2 P M ls ls0 v0 x H. unfold with_lock. cbn [tg]. assert (E : is_pm l = false) by (destruct l; try reflexivity; congruence).
  rewrite E, (eqb_neq_lock k l N). apply tg_bind. eapply tg_weaken; [|apply P; rewrite (mine_cons k); auto].
  cbn beta. intros h' kn' ls' l0' v0' x' H1 a W1 (-> & -> & D). cbn [tg]. exists h. split; auto. rewrite E, (eqb_neq_lock k l N). auto.
Qed.
Lemma tells_lift {A} h (o : outcome A) (R : list (list io) -> moments -> A -> Prop) : (forall a N, o = Done a -> R [] N a) -> tells h (lift o) R.
Proof. intros HR. destruct o; cbn [lift]; [apply tells_ret; auto|apply tells_crash]. Qed.

(** An exchange, whether the cache's lock is held or not. *)
Lemma tg_query h ls ls0 v0 x H p (Q : tpost (packet * option err)) :
  (forall y r, exchange (p_cmd p) (p_data p) (p_expect p) (fst r) (snd r) y -> Q h None (ls ++ [y]) ls0 v0 x H r) ->
  tg h None ls ls0 v0 x H (QueryPacket p) Q.
Proof.
  intros HQ. unfold QueryPacket, with_lock. cbn [tg is_pm]. split; [reflexivity|]. apply tg_bind.
  set (T := fun (h' : held) (kn : option (list io)) ls' l0' v0' x' (H' : moments) (r : packet * option err) => h' = (LPm, true) :: h /\
     ls' = ls /\ l0' = ls0 /\ v0' = v0 /\ x' = x /\ H' = H /\ exists y, kn = Some y /\
     exchange (p_cmd p) (p_data p) (p_expect p) (fst r) (snd r) y).
  assert (F : tg ((LPm, true) :: h) (Some []) ls ls0 v0 x H
     (do (_, e) <- WritePacket p;
      match e with
      | Some e => Ret (zero_packet, Some e)
      | None => ReadC (p_expect p) (fun out e =>
          match e with
          | Some e => Ret (out, Some e)
          | None => if p_expect p && negb (p_cmd out =? u8 (p_cmd p + 1))
                    then Ret (out, Some ErrInvalidResponse)
                    else do (_, e) <- WriteAck; Ret (out, e)
          end)
      end) T).
  { unfold WritePacket. rewrite marshal_wire. destruct (_ >? 255) eqn:L; cbn [lift bind].
    - cbn. unfold T. splits; auto. eexists. split; [reflexivity|]. apply ex_too_long. lia.
    - cbn [tg bind]. eexists. split; [reflexivity|]. intros r. cbn [app].
      change (pktStart ++ wire (p_cmd p) (p_data p) ++ pktEnd) with (framed (p_cmd p) (p_data p)).
      assert (Ln : (length (p_data p) <= 255)%nat) by lia.
      destruct (w_err r) as [e|] eqn:E1; cbn [tg bind].
      + unfold T. splits; auto. eexists. split; [reflexivity|]. apply ex_write_failed; auto.
      + eexists. split; [reflexivity|]. intros out e Z. cbn [app]. destruct e as [e|].
        * cbn. unfold T. splits; auto. eexists. split; [reflexivity|]. rewrite Z by discriminate. apply ex_read_failed; auto.
        * destruct (p_expect p && negb (p_cmd out =? u8 (p_cmd p + 1))) eqn:E2.
          -- apply andb_true_iff in E2 as [X N]. apply negb_true_iff, Z.eqb_neq in N.
             cbn. unfold T. splits; auto. eexists. split; [reflexivity|]. rewrite X. apply ex_other_reply; auto.
          -- unfold WriteAck. cbn [tg bind]. eexists. split; [reflexivity|]. intros r2. cbn [app].
             assert (K : p_expect p = true -> p_cmd out = (p_cmd p + 1) mod 256).
             { intros X. rewrite X in E2. cbn [andb] in E2. apply negb_false_iff, Z.eqb_eq in E2. exact E2. }
             change (len pktAck) with 2.
             destruct (w_err r2) as [e|] eqn:E3; [|destruct (Z.eqb_spec (w_n r2) 2) as [E4|E4]]; cbn; unfold T;
               (splits; auto; eexists; split; [reflexivity|]);
               apply ex_acked; auto; intros W; try destruct W; auto; congruence. }
  eapply tg_weaken; [|exact F]. unfold T. intros h' kn ls' l0' v0' x' H' r _ (-> & -> & -> & -> & -> & -> & y & -> & X). cbn [tg is_pm].
  exists h. split; [reflexivity|]. exists y. auto.
Qed.
Lemma tells_query h p : tells h (QueryPacket p) (fun l _ r => exists y, l = [y] /\ exchange (p_cmd p) (p_data p) (p_expect p) (fst r) (snd r) y).
Proof. intros M ls ls0 v0 x H. apply tg_query. intros y r X. splits; auto. exists [y]. eauto. Qed.
Lemma tells_setQuery h r p : EncodeSetRequest r = (p, None) ->
  tells h (setQuery r) (fun l _ e => exists x out, l = [x] /\ exchange (p_cmd p) (p_data p) (p_expect p) out e x).
Proof.
  intros E. unfold setQuery. rewrite E. eapply tells_bind; [apply tells_query|].
  intros l [out e] ?N0 _. apply tells_ret. cbn. intros _ _ _ (x & -> & X). exists x, out. auto.
Qed.
Lemma tells_getter {T} h gr (zero : T) assert : tells h (getter gr zero assert) (fun l _ r => exists y p e, l = [y] /\ exchange gr [] true p e y).
Proof.
  unfold getter, getQuery. eapply tells_bind with (R := fun l _ _ => exists y p e, l = [y] /\ exchange gr [] true p e y).
  - eapply tells_bind; [apply tells_query|]. intros l [out e] ?N0 _. cbn [fst snd]. destruct e as [e|].
    + apply tells_ret. cbn. intros _ _ _ (y & -> & X). exists y, out, (Some e). auto.
    + apply tells_lift. cbn. intros a _ _ _ _ (y & -> & X). exists y, out, None. auto.
  - intros l [r e] N0 _. destruct e as [e|]; [apply tells_ret; rewrite app_nil_r; auto|]. destruct r; [|apply tells_crash].
    destruct (assert r); [apply tells_ret; rewrite app_nil_r; auto|apply tells_crash].
Qed.

(** The cache is fetched: either that fails, or there is a moment at which it holds what was fetched. *)
Definition got (l : list (list io)) (N : moments) : Prop :=
  (exists y, In y l /\ one_query k y /\ fetched k y = []) \/
  (exists pre y post pl v, l = pre ++ y :: post /\ In pl (fetched k y) /\ decodes k pl = Some v /\ N (pre ++ [y]) v).
Lemma got_left l l' (N N' : moments) : (forall z v, N z v -> N' z v) -> got l N -> got (l ++ l') N'.
Proof.
  intros W [(y & I & Y)|(pre & y & post & pl & v & -> & I & D & Hv)]; [left; exists y; split; auto; apply in_app_iff; auto|].
  right. exists pre, y, (post ++ l'), pl, v. rewrite <- app_assoc. cbn [app]. auto.
Qed.
Lemma got_right l l' (N N' : moments) : (forall z v, N' z v -> N (l ++ z) v) -> got l' N' -> got (l ++ l') N.
Proof.
  intros W [(y & I & Y)|(pre & y & post & pl & v & -> & I & D & Hv)]; [left; exists y; split; auto; apply in_app_iff; auto|].
  right. exists (l ++ pre), y, post, pl, v. rewrite <- !app_assoc. cbn [app]. auto.
Qed.
Lemma tells_shape {T} h c (t : shared -> Z) (get : sproc (T * option err)) put force : c <> k ->
  (forall h', tells h' get (fun _ _ _ => True)) -> (forall v now h', tells h' (put v now) (fun _ _ _ => True)) -> tells h (update_shape c t get put force) (fun _ _ _ => True).
Proof.
  intros N G P. unfold update_shape. apply tells_lock; [congruence|discriminate|].
  apply tells_now. intros now. apply tells_get. intros s. destruct (_ && _); [apply tells_ret; auto|].
  eapply tells_bind; [apply G|]. intros l [v [e|]] N0 _; [apply tells_ret; auto|]. eapply tells_weaken; [|apply P]. auto.
Qed.
(** Fetching the cache's record while holding its lock. *)
Definition draws {T} (inj : T -> rec) (get : sproc (T * option err)) : Prop :=
  forall h ls ls0 v0 x H, mine h = true -> tg h None ls ls0 v0 x H get (fun h' kn' ls' l0' v0' x' H' r => h' = h /\ kn' = None /\ l0' = ls0 /\ v0' = v0 /\ x' = x /\ H' = H /\
    exists y, ls' = ls ++ [y] /\ one_query k y /\
    match snd r with None => exists pl, In pl (fetched k y) /\ decodes k pl = Some (inj (fst r)) | Some _ => fetched k y = [] end).
Lemma draws_getter {T} gr (zero : T) assert (rinj : T -> Response) dec (inj : T -> rec) :
  gr = request k -> total_dec dec -> (u8 (gr + 1) =? 0) = false ->
  ResponseType (u8 (gr + 1)) = Some (fun l => omap rinj (dec l)) -> (forall v, assert (rinj v) = Some v) ->
  (forall pl, decodes k pl = match dec pl with Done (v, None) => Some (inj v) | _ => None end) ->
  draws inj (getter gr zero assert).
Proof.
  intros -> Td N0 RT As Dc h ls ls0 v0 x H M. unfold getter, getQuery. apply tg_bind. apply tg_bind. apply tg_query.
  intros y [q e] X. cbn [EncodeGetRequest p_cmd p_data p_expect fst snd] in X |- *.
  pose proof (exchange_replies _ _ _ _ _ _ (request k) X) as Rp. rewrite Z.eqb_refl in Rp. cbn [andb] in Rp.
  assert (O : one_query k y) by (exists q, e; auto).
  destruct e as [e|].
  { cbn. splits; auto. exists y. splits; auto. unfold fetched. rewrite Rp. reflexivity. }
  assert (C : p_cmd q = u8 (request k + 1)) by (inversion X; subst; unfold u8; auto).
  unfold DecodeResponse. rewrite C, N0, RT. destruct (Td (p_data q)) as (v & e & D). rewrite D.
  cbn [omap obind lift]. destruct e as [e|].
  - cbn. splits; auto. exists y. splits; auto. unfold fetched. rewrite Rp. cbn [filter]. destruct (accepted k (p_data q)) eqn:A; [|reflexivity].
    apply accepted_decodes in A as (w & A). rewrite Dc, D in A. discriminate.
  - cbn [tg]. rewrite As. cbn. splits; auto. exists y. splits; auto.
    assert (E : decodes k (p_data q) = Some (inj v)) by (rewrite Dc, D; reflexivity).
    exists (p_data q). split; auto. unfold fetched. rewrite Rp. cbn [filter]. rewrite (decodes_accepted _ _ _ E). left. auto.
Qed.
Definition saves (p : sproc unit) (v : rec) : Prop :=
  forall h kn ls ls0 v0 x H, mine h = true -> kind k x -> tg h kn ls ls0 v0 x H p (fun h' kn' ls' l0' v0' x' H' _ =>
    h' = h /\ kn' = kn /\ ls' = ls /\ l0' = ls0 /\ v0' = v0 /\ x' = v /\ H' = H).
Lemma tells_own {T} h (t : shared -> Z) (inj : T -> rec) get put force :
  draws inj get -> (forall v now, saves (put v now) (inj v)) -> tells h (update_shape k t get put force) (fun l N _ => force = true -> got l N).
Proof.
  intros G P M ls ls0 v0 x H. unfold update_shape, with_lock. cbn [tg bind is_pm].
  assert (E : lock_eqb (LC k) (LC k) = true) by apply lock_eqb_refl. rewrite E. split; auto. intros v H' K W Hv.
  assert (M1 : mine ((LC k, true) :: h) = true) by (cbn [holds existsb fst snd]; rewrite E; reflexivity).
  intros now s _. set (U := Unlock (LC k) (Ret tt) : sproc unit).
  destruct (negb force && _) eqn:Fc.
  { unfold U. cbn [tg bind is_pm]. exists h. split; [auto|]. rewrite E. split; [auto|]. split; [auto|]. intros H2 W2 _. splits; auto. exists []. rewrite app_nil_r. split; auto.
    intros N HN ->. discriminate. }
  apply tg_bind. apply tg_bind. eapply tg_weaken; [|apply G; auto].
  cbn beta. intros h' kn' ls' l0' v0' x' H2 [w e] _ (-> & -> & -> & -> & -> & -> & y & -> & O & D). cbn [fst snd] in D. destruct e as [e|].
  - unfold U. cbn [tg bind is_pm]. exists h. split; [auto|]. rewrite E. split; [auto|]. split; [auto|]. intros H2 W2 _. splits; auto. exists [y]. split; auto.
    intros N HN _. left. exists y. split; [left; auto|auto].
  - destruct D as (pl & Ip & D). eapply tg_weaken; [|apply P; auto]. cbn beta. intros h' kn' ls' l0' v0' x' H3 [] _ (-> & -> & -> & -> & -> & -> & ->).
    unfold U. cbn [tg bind is_pm]. exists h. split; [auto|]. rewrite E. split; [auto|]. split; [right; exists y, pl; auto|]. intros H2 W2 Hx. splits; auto. exists [y]. split; auto.
    intros N HN _. right. exists [], y, [], pl, (inj w). splits; auto.
Qed.
End For.

(** ** the server *)
Ltac saved := intros h kn ls ls0 v0 x H M K; destruct x as [x|x|x|x|x|x]; try contradiction; destruct x;
  repeat (cbn [tg]; eexists; split; [intros _ s E; cbn in E |- *; injection E as E; try rewrite E; cbn; reflexivity|];
          split; [intros X; rewrite M in X; discriminate|]);
  cbn; splits; auto.
Lemma saves_boot v now : saves CBoot (assign_boot v (Put (on_boot_t now) (Ret tt))) (VBoot v).
Proof. destruct v. unfold assign_boot. cbn. saved. Qed.
Lemma saves_bypass v now : saves CBypass (assign_bypass v (Put (on_bypass_t now) (Ret tt))) (VBypass v).
Proof. destruct v. unfold assign_bypass. cbn. saved. Qed.
Lemma saves_temp v now : saves CTemp (assign_temp v (Put (on_temp_t now) (Ret tt))) (VTemp v).
Proof. destruct v. unfold assign_temp. cbn. saved. Qed.
Lemma saves_fans v now : saves CFans (assign_fans v (Put (on_fans_t now) (Ret tt))) (VFans v).
Proof. destruct v. unfold assign_fans. cbn. saved. Qed.
Lemma saves_prof v now : saves CProf (assign_prof v (Put (on_prof_t now) (Ret tt))) (VProf v).
Proof. destruct v. unfold assign_prof. cbn. saved. Qed.
Lemma saves_err v now : saves CErr (assign_err v (Put (on_err_t now) (Ret tt))) (VErr v).
Proof. destruct v. unfold assign_err. cbn. saved. Qed.
Lemma tells_any {T} k h gr (zero : T) assert : tells k h (getter gr zero assert) (fun _ _ _ => True).
Proof. eapply tells_weaken; [|apply tells_getter]. auto. Qed.
Lemma tells_update k h c force : tells k h (Update c force) (fun l N _ => c = k -> force = true -> got k l N).
Proof.
  destruct (cache_dec c k) as [<-|N].
  - eapply tells_weaken with (R := fun l N _ => force = true -> got c l N); [auto|]. destruct c.
    + apply (tells_own CBoot h sh_boot_t VBoot GetBootloader (fun v now => assign_boot v (Put (on_boot_t now) (Ret tt)))); auto using saves_boot.
      eapply draws_getter with (rinj := RBoot); eauto using boot_total.
    + apply (tells_own CBypass h sh_bypass_t VBypass GetBypass (fun v now => assign_bypass v (Put (on_bypass_t now) (Ret tt)))); auto using saves_bypass.
      eapply draws_getter with (rinj := RBypass); eauto using bypass_total.
    + apply (tells_own CTemp h sh_temp_t VTemp GetTemperatures (fun v now => assign_temp v (Put (on_temp_t now) (Ret tt)))); auto using saves_temp.
      eapply draws_getter with (rinj := RTemps); eauto using temps_total.
    + apply (tells_own CFans h sh_fans_t VFans GetFans (fun v now => assign_fans v (Put (on_fans_t now) (Ret tt)))); auto using saves_fans.
      eapply draws_getter with (rinj := RFans); eauto using fans_total.
    + apply (tells_own CProf h sh_prof_t VProf GetFanProfiles (fun v now => assign_prof v (Put (on_prof_t now) (Ret tt)))); auto using saves_prof.
      eapply draws_getter with (rinj := RProf); eauto using prof_total.
    + apply (tells_own CErr h sh_err_t VErr GetErrors (fun v now => assign_err v (Put (on_err_t now) (Ret tt)))); auto using saves_err.
      eapply draws_getter with (rinj := RErrors); eauto using errors_total.
  - eapply tells_weaken with (R := fun _ _ _ => True); [intros; congruence|]. destruct c.
    + apply (tells_shape k h CBoot sh_boot_t GetBootloader (fun v now => assign_boot v (Put (on_boot_t now) (Ret tt)))); auto; [intros; apply tells_any|].
      intros; repeat (apply tells_put; [intros s; destruct k; try congruence; reflexivity|]); apply tells_ret; auto.
    + apply (tells_shape k h CBypass sh_bypass_t GetBypass (fun v now => assign_bypass v (Put (on_bypass_t now) (Ret tt)))); auto; [intros; apply tells_any|].
      intros; repeat (apply tells_put; [intros s; destruct k; try congruence; reflexivity|]); apply tells_ret; auto.
    + apply (tells_shape k h CTemp sh_temp_t GetTemperatures (fun v now => assign_temp v (Put (on_temp_t now) (Ret tt)))); auto; [intros; apply tells_any|].
      intros; repeat (apply tells_put; [intros s; destruct k; try congruence; reflexivity|]); apply tells_ret; auto.
    + apply (tells_shape k h CFans sh_fans_t GetFans (fun v now => assign_fans v (Put (on_fans_t now) (Ret tt)))); auto; [intros; apply tells_any|].
      intros; repeat (apply tells_put; [intros s; destruct k; try congruence; reflexivity|]); apply tells_ret; auto.
    + apply (tells_shape k h CProf sh_prof_t GetFanProfiles (fun v now => assign_prof v (Put (on_prof_t now) (Ret tt)))); auto; [intros; apply tells_any|].
      intros; repeat (apply tells_put; [intros s; destruct k; try congruence; reflexivity|]); apply tells_ret; auto.
    + apply (tells_shape k h CErr sh_err_t GetErrors (fun v now => assign_err v (Put (on_err_t now) (Ret tt)))); auto; [intros; apply tells_any|].
      intros; repeat (apply tells_put; [intros s; destruct k; try congruence; reflexivity|]); apply tells_ret; auto.
Qed.
Lemma tells_calm k h c force : tells k h (Update c force) (fun _ _ _ => True).
Proof. eapply tells_weaken; [|apply tells_update]. auto. Qed.
Lemma tells_caches k h : tells k h (UpdateCaches true) (fun l N _ => In k [CBoot; CBypass; CTemp; CFans; CProf; CErr] -> got k l N).
Proof.
  unfold UpdateCaches.
  eapply tells_bind; [apply tells_update|]. intros l1 [] ?M _. eapply tells_bind; [apply tells_update|]. intros l2 [] ?M _.
  eapply tells_bind; [apply tells_update|]. intros l3 [] ?M _. eapply tells_bind; [apply tells_update|]. intros l4 [] ?M _.
  eapply tells_bind; [apply tells_update|]. intros l5 [] ?M _. eapply tells_weaken; [|apply tells_update]. cbn beta.
  intros l6 N6 [] G6 N5 W5 G5 N4 W4 G4 N3 W3 G3 N2 W2 G2 N1 W1 G1 I.
  destruct I as [<-|[<-|[<-|[<-|[<-|[<-|[]]]]]]].
  - eapply got_left; eauto.
  - eapply got_right; eauto. eapply got_left; eauto.
  - do 2 (eapply got_right; eauto). eapply got_left; eauto.
  - do 3 (eapply got_right; eauto). eapply got_left; eauto.
  - do 4 (eapply got_right; eauto). eapply got_left; eauto.
  - do 5 (eapply got_right; eauto).
Qed.
Lemma tells_fill k h force : tells k h (UpdateCaches force) (fun _ _ _ => True).
Proof.
  unfold UpdateCaches. do 5 (eapply tells_bind; [apply tells_calm|intros ?l [] ?M _]). eapply tells_weaken; [|apply tells_calm]. cbn. auto.
Qed.
Lemma tells_tick k h t : tells k h (on_tick t) (fun _ _ _ => True).
Proof. destruct t; cbn [on_tick]; (eapply tells_bind; [apply tells_calm|intros ?l [] ?M _; eapply tells_weaken; [|apply tells_calm]; cbn; auto]). Qed.
Lemma tells_flush k h t : tells k h (FlushCaches t) (fun l N _ => In k (flushes t) -> got k l N).
Proof.
  unfold FlushCaches. eapply tells_bind with (R := fun l N _ => In k (flushes t) -> got k l N).
  - unfold FlushCaches_body.
    repeat match goal with |- tells _ _ (if ?t =? ?x then _ else _) _ => destruct (Z.eqb_spec t x) as [->|?]; [eapply tells_bind; 
      [first [apply tells_update|apply tells_caches]|intros l [] ?M _; apply tells_ret; intros N N' W Q I; rewrite app_nil_r; 
       try (apply Q; [destruct I as [I|[]]; exact I|reflexivity]); try (apply Q; exact I)]|] end.
    apply tells_ret. intros N I. exfalso. revert I. unfold TBootInfo, TBypass, TFans, TTemps, TProfiles, TAll in *. unfold flushes.
    destruct t as [|p|p]; try (intros []; lia); try lia. do 4 (destruct p as [p|p|]; try (intros []; fail); try lia).
  - intros l b M0 _ M ls ls0 v0 x H. cbn. splits; auto. exists []. rewrite app_nil_r. split; auto. intros N HN N' W Q I. rewrite app_nil_r. auto.
Qed.
Lemma tells_poll k n i o h : tells k h (poll_loop n i o) (fun l N _ => k = CFans -> (0 < n)%nat -> got k l N).
Proof.
  assert (T : forall n, tells k h (poll_loop n i o) (fun _ _ _ => True)).
  { clear n. induction n as [|n IH]; cbn [poll_loop]; [apply tells_ret; auto|]. eapply tells_bind; [apply tells_calm|]. intros l [] M0 _.
    eapply tells_weaken with (R := fun _ _ _ => True); [auto|]. apply tells_get. intros s. destruct (_ =? _); [|apply tells_sleep, IH].
    apply tells_get. intros s'. destruct (_ =? _); [apply tells_ret; auto|apply tells_sleep, IH]. }
  destruct n as [|n]; cbn [poll_loop]; [apply tells_ret; lia|]. eapply tells_bind; [apply tells_update|]. intros l [] M0 _.
  eapply tells_weaken with (R := fun _ _ _ => True).
  - intros l' N a _ N' W G -> _. eapply got_left; eauto.
  - apply tells_get. intros s. destruct (_ =? _); [|apply tells_sleep, T]. apply tells_get. intros s'.
    destruct (_ =? _); [apply tells_ret; auto|apply tells_sleep, T].
Qed.
Lemma tells_updpoll k n v h : 1 <= v <= 4 -> tells k h (UpdatePoll n v) (fun l N _ => k = CFans -> (0 < n)%nat -> got k l N).
Proof.
  intros V M ls ls0 v0 x H. unfold UpdatePoll. cbn [tg]. intros s _.
  rewrite in_out_lookup by auto. cbn [tg]. eexists. split; [reflexivity|]. apply tells_poll. auto.
Qed.
(** Asking for the profiles, with what it brings. *)
Lemma tells_profiles k h : tells k h GetFanProfiles (fun l _ r => match snd r with
  | None => exists x p, l = [x] /\ FanProfiles_Unmarshal (p_data p) = Done (fst r, None)
  | Some _ => True
  end).
Proof.
  unfold GetFanProfiles, getter, getQuery. eapply tells_bind.
  - eapply tells_bind; [apply tells_query|]. intros l [out e] N0 (y & -> & X). cbn [fst snd EncodeGetRequest p_cmd p_data p_expect] in X.
    instantiate (1 := fun l _ (r : option Response * option err) => match snd r with
      | None => exists x p v, l = [x] /\ fst r = Some (RProf v) /\ FanProfiles_Unmarshal (p_data p) = Done (v, None)
      | Some _ => True
      end).
    destruct e as [e|]; [apply tells_ret; cbn; auto|].
    apply tells_lift. intros [r er] N D N' _ _. cbn [snd fst].
    assert (C : p_cmd out = 206) by (inversion X; subst; auto).
    unfold DecodeResponse in D. rewrite C in D. cbn [Z.eqb Pos.eqb ResponseType] in D.
    destruct (prof_total (p_data out)) as (v & e & U). change (ResponseType 206) with (Some (fun l => omap RProf (FanProfiles_Unmarshal l))) in D.
    cbn beta iota in D. rewrite U in D. cbn in D. injection D as <- <-. destruct e as [e|]; [exact I|]. exists y, out, v. auto.
  - intros l [r e] N0. cbn [fst snd]. destruct e as [e|]; [intros _; apply tells_ret; cbn; auto|].
    intros (x & p & v & -> & -> & U). apply tells_ret. cbn. eauto.
Qed.
(** What a request tells about cache [k]. *)
Definition told (k : cache) (r : rpc) (l : list (list io)) (N : moments) (a : resp) : Prop :=
  (modified a -> In k (refreshed r) -> exists l1 x l2 cmd data p, l = l1 ++ x :: l2 /\ change r a cmd data /\ exchange cmd data false p None x /\
     got k l2 (fun z v => N (l1 ++ x :: z) v)) /\
  (r = getter_rpc k -> exists v, N [] v /\ kind k v /\ a = umsg v).
Lemma told_not k r l N a : ~ modified a -> (r <> getter_rpc k) -> told k r l N a.
Proof. intros X Y. split; intros; contradiction. Qed.
Lemma tells_own_getter k h : tells k h (handle (getter_rpc k)) (fun _ N a => exists v, N [] v /\ kind k v /\ a = umsg v).
Proof.
  intros M ls ls0 v0 x H.
  destruct k; cbn [getter_rpc handle boot_Protobuf bypass_Protobuf temp_Protobuf fans_Protobuf prof_Protobuf err_Protobuf
    with_lock bind tg lock_eqb cache_eqb is_pm]; (split; [reflexivity|]); intros v H' K W Hv;
    cbn [holds existsb fst snd lock_eqb cache_eqb Bool.eqb andb orb]; intros; exists h; (split; [reflexivity|]); (split; [reflexivity|]); (split; [auto|]);
    intros Hz W2 _; (split; [reflexivity|]); (split; [reflexivity|]); exists []; rewrite app_nil_r; (split; [reflexivity|]);
    intros N HN; exists v; (split; [apply HN; rewrite app_nil_r; apply W2; exact Hv|]); (split; [exact K|]);
    repeat match goal with V : true = true -> _ |- _ => specialize (V eq_refl) end;
    destruct v as [v|v|v|v|v|v]; try contradiction; cbn [cached] in *;
    repeat match goal with V : _ = _ |- _ => injection V as V end; subst; cbn [umsg]; congruence.
Qed.
Lemma tells_rpc k r : (forall t, r <> FlushCacheR t) -> tells k [] (handle r) (told k r).
Proof.
  intros NF.
  assert (G : forall c, tells k [] (handle (getter_rpc c)) (told k (getter_rpc c))).
  { intros c. destruct (cache_dec c k) as [->|D].
    - eapply tells_weaken; [|apply tells_own_getter]. cbn beta. intros l N a (v & Hv). split; [intros _ I; destruct k; destruct I|]. eauto.
    - eapply tells_weaken with (R := fun _ _ _ => True).
      { intros l N a _. split; [intros _ I; destruct c; destruct I|]. intros E. destruct c, k; cbn in E; congruence. }
      destruct c; cbn [getter_rpc handle]; (eapply tells_bind with (R := fun _ _ _ => True); [apply tells_lock; [congruence|discriminate|];
        repeat (apply tells_get; intros ?s); apply tells_ret; auto|intros l a M0 _; apply tells_ret; auto]). }
  destruct r.
  - apply (G CBoot).
  - apply (G CBypass).
  - apply (G CErr).
  - apply (G CFans).
  - apply (G CProf).
  - apply (G CTemp).
  - clear G. cbn [handle]. match goal with |- tells _ _ (SetComfortTemp ?x) _ => rename x into t end.
    assert (Ng : SetComfortTempR t <> getter_rpc k) by (destruct k; discriminate).
    unfold SetComfortTemp. apply tells_get. intros s. destruct (_ >? _) eqn:Hi; [apply tells_ret; intros; apply told_not; auto|].
    destruct (negb _); [|apply tells_ret; intros; apply told_not; auto]. apply tells_lock; [discriminate|discriminate|].
    assert (B : 0 <= t mod 256 <= 255) by (pose proof (Z.mod_pos_bound t 256 ltac:(lia)); lia).
    unfold u8. destruct (Z_lt_le_dec 107 (t mod 256)) as [V|V].
    + assert (E : (SetComfort (t mod 256) : sproc (option err)) = Ret (Some ErrTooHigh)).
      { unfold SetComfort, setQuery, EncodeSetRequest. cbn [requestType SetRequest_MarshalBinary].
        destruct (of_Z_exact (t mod 256) ltac:(lia)) as [_ T]. unfold temperature_MarshalBinary. rewrite T.
        replace (t mod 256 >? 107) with true by lia. reflexivity. }
      rewrite E. cbn [bind]. apply tells_ret. intros; apply told_not; auto.
    + assert (E : EncodeSetRequest (SRComfort (f32_of_Z (t mod 256))) = (mkPacket 211 [2 * (t mod 256 + 20)] false, None)).
      { unfold EncodeSetRequest. cbn [requestType SetRequest_MarshalBinary]. rewrite temp_encode by lia. reflexivity. }
      unfold SetComfort. eapply tells_bind; [apply (tells_setQuery k _ _ _ E)|]. cbn [p_cmd p_data p_expect].
      intros l [e|] M0 _; [apply tells_ret; intros; apply told_not; auto|].
      eapply tells_bind; [apply tells_update|]. intros l' [] M2 _. apply tells_ret. intros N0 N1 W1 Q N W (x & out & -> & X).
      rewrite app_nil_r. split; [|congruence]. intros _ [<-|[]]. exists [], x, l', 211, [2 * (t mod 256 + 20)], out.
      split; [auto|]. split; [constructor; lia|]. split; [auto|]. rewrite <- (app_nil_r l'). eapply got_left; [|apply Q; auto]. auto.
  - clear G. cbn [handle]. match goal with |- tells _ _ (SetFanSpeed ?x ?y) _ => rename x into a; rename y into b end.
    match goal with |- tells _ _ (SetFanSpeed ?x ?y) _ => assert (Ng : SetFanSpeedR x y <> getter_rpc k) by (destruct k; discriminate) end.
    unfold SetFanSpeed. apply tells_lock; [discriminate|discriminate|]. apply tells_get. intros s.
    destruct (modifySpeed _ _ _) as [tgt [e|]] eqn:T; [apply tells_ret; intros; apply told_not; auto|].
    assert (Mt : meant a tgt).
    { split; [eapply modify_range; eauto|]. intros N. revert T. unfold modifySpeed. replace (a =? 0) with false by lia. cbn [negb andb]. destruct b; [discriminate|].
      destruct (_ || _); [discriminate|]. intros T. injection T as <-. reflexivity. }
    apply modify_range in T.
    assert (U : u8 tgt = tgt) by (apply Z.mod_small; lia). rewrite U. destruct (negb _); [|apply tells_ret; intros; apply told_not; auto].
    unfold SetSpeed. eapply tells_bind; [apply (tells_setQuery k _ _ _ (speed_encode tgt ltac:(lia)))|]. cbn [p_cmd p_data p_expect].
    intros l [e|] M0 _; [apply tells_ret; intros; apply told_not; auto|].
    eapply tells_bind; [apply tells_updpoll; auto|]. intros l2 [e|] M1 _; [apply tells_ret; intros; apply told_not; auto|].
    eapply tells_bind; [apply tells_update|]. intros l3 [] M2 _. apply tells_ret. intros N0 N1 W1 Q1 N2 W2 Q2 N W (x & out & -> & X).
    rewrite app_nil_r. split; [|congruence]. intros _ I.
    assert (U32 : u32 tgt = tgt) by (apply Z.mod_small; lia). rewrite U32. exists [], x, (l2 ++ l3), 153, [tgt], out.
    split; [auto|]. split; [constructor; auto|]. split; [auto|]. destruct I as [<-|[<-|[]]].
    + eapply got_left; [|apply Q2; auto; lia]. auto.
    + eapply got_right with (N' := N1); [|apply Q1; auto]. intros z v Hz. apply (W (l2 ++ z)). auto.
  - clear G. cbn [handle].
    match goal with |- tells _ _ (SetFanProfileRPC ?x ?y) _ => rename x into m; rename y into t end.
    assert (Ng : SetFanProfileR m t <> getter_rpc k) by (destruct k; discriminate).
    unfold SetFanProfileRPC. 
    destruct ((u8 m <? 1) || (u8 m >? 4)) eqn:Bm; [apply tells_ret; intros; apply told_not; auto|].
    destruct ((u8 t <? 15) || (u8 t >? 100)) eqn:Bt; [apply tells_ret; intros; apply told_not; auto|].
    assert (Rm : 1 <= u8 m <= 4) by lia. assert (Rt : 15 <= u8 t <= 100) by lia.
    assert (U : u8 (u8 m - 1) = u8 m - 1) by (apply Z.mod_small; lia). rewrite U.
    apply tells_lock; [discriminate|discriminate|]. apply tells_get. intros s.
    match goal with |- tells _ _ (match ?o with _ => _ end) _ => destruct o end; [|apply tells_crash].
    destruct (negb _); [|apply tells_ret; intros; apply told_not; auto].
    unfold SetFanProfile. replace (u8 m - 1 >? 3) with false by lia. replace (u8 t >? 100) with false by lia.
    eapply tells_bind with (R := fun l _ e => e = None -> exists x y q pl, l = [x; y] /\ length pl = 14%nat /\ exchange 207 (profile_request pl (u8 m - 1) (u8 t)) false q None y).
    + apply tells_lock; [discriminate|discriminate|]. eapply tells_bind; [apply tells_profiles|].
      intros l [fp e] M0. cbn [fst snd]. destruct e as [e|]; [intros _; apply tells_ret; discriminate|]. intros (x & p & -> & D).
      pose proof (profile_request_ok _ _ (u8 m - 1) (u8 t) ltac:(lia) D) as E.
      eapply tells_weaken; [|apply (tells_setQuery k _ _ _ E)]. cbn [p_cmd p_data p_expect]. intros l' N e (y & q & -> & Y) N' _ _ ->.
      exists x, y, q, (p_data p). apply prof_len in D. auto.
    + intros l [e|] M0 _; [apply tells_ret; intros; apply told_not; auto|].
      eapply tells_bind; [apply tells_update|]. intros l' [] M2 _. apply tells_ret. intros N0 N1 W1 Q N W R.
      destruct (R eq_refl) as (x & y & q & pl & -> & Lp & Y).
      rewrite app_nil_r. split; [|congruence]. intros _ [<-|[]]. exists [x], y, l', 207, (profile_request pl (u8 m - 1) (u8 t)), q.
      split; [auto|]. split; [constructor; [split; [exact Rm|exact Rt]|exact Lp]|]. split; [auto|]. rewrite <- (app_nil_r l'). eapply got_left; [|apply Q; auto]. auto.
  - exfalso. eapply NF. reflexivity.
Qed.
