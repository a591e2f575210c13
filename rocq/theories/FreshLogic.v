(** A second thread-modular logic, for one cache: it holds what the latest successful fetch
    brought whenever nobody is writing it. *)
From Verif Require Import ProofBase Proto SpecProto SpecFrame SpecConn SpecLayout SpecServer ProtoProofs Scanner Conn Proc Lib QueryProofs
  FrameLemmas LayoutProofs OpLemmas Server ServerProofs ServerLemmas ServerOps Machine MachineBase ThreadLogic.

Lemma accepted_decodes c pl : accepted c pl = true -> exists v, decodes c pl = Some v.
Proof.
  intros A. apply accepted_spec in A. destruct c; cbn [decodes].
  - destruct (boot_spec pl) as [_ S]. destruct (S A) as (t & -> & _). eauto.
  - destruct (bypass_spec pl) as [_ S]. destruct (S A) as (t & -> & _). eauto.
  - do 9 (destruct pl as [|? pl]; [discriminate|]). destruct pl; [|discriminate]. cbn. eauto.
  - destruct A as (A & N1 & N2). destruct (fans_spec pl) as (_ & _ & S). destruct (S A N1 N2) as (t & -> & _). eauto.
  - destruct (profiles_spec pl) as [_ S]. destruct (S A) as (t & -> & _). eauto.
  - destruct (errors_spec pl) as [_ S]. destruct (S A) as (t & -> & _). eauto.
Qed.

(** What the last of these payloads stands for. *)
Definition lastrec (c : cache) (y : rec) (pls : list (list Z)) : rec :=
  match rev pls with
  | [] => y
  | pl :: _ => match decodes c pl with Some v => v | None => y end
  end.
Definition latest (c : cache) (l : list io) : rec := lastrec c (blank c) (fetched c l).
Lemma fetched_decodes c l : Forall (fun pl => exists v, decodes c pl = Some v) (fetched c l).
Proof.
  apply Forall_forall. intros pl I. unfold fetched in I. apply filter_In in I as [_ A]. apply accepted_decodes. auto.
Qed.
Lemma lastrec_app c y a b : Forall (fun pl => exists v, decodes c pl = Some v) b ->
  lastrec c y (a ++ b) = lastrec c (lastrec c y a) b.
Proof.
  intros F. unfold lastrec at 1 2. rewrite rev_app_distr. destruct (rev b) as [|pl r] eqn:E; [reflexivity|].
  cbn [app]. assert (I : In pl b) by (apply in_rev; rewrite E; left; auto).
  rewrite Forall_forall in F. destruct (F _ I) as (v & ->). reflexivity.
Qed.
Lemma latest_app c a b : starts b -> latest c (a ++ b) = lastrec c (latest c a) (fetched c b).
Proof. intros S. unfold latest. rewrite fetched_app by auto. apply lastrec_app. apply fetched_decodes. Qed.

Section For.
Context (k : cache).   (* the cache *)
Notation mine := (fun h => holds h (LC k) true).

(** [h]: locks held; [kn]: what has been done on the connection since LPm was taken; [x]: content of
    the cache and [y]: what its latest fetch brought, both while its lock is held; [H]: what the
    latest fetch had brought at some earlier moment. *)
Definition fpost (A : Type) := held -> list io -> rec -> rec -> (rec -> Prop) -> A -> Prop.
Definition after (l : lockid) (kn : list io) : list io := match l with LPm => [] | _ => kn end.
Definition is_pm (l : lockid) : bool := match l with LPm => true | _ => false end.
Fixpoint fr {A} (h : held) (kn : list io) (x y : rec) (H : rec -> Prop) (p : sproc A) (Q : fpost A) : Prop :=
  match p with
  | Ret a => Q h kn x y H a
  | Crash => True
  | Lock l q => forall v (H' : rec -> Prop), (forall z, H z -> H' z) -> (l = LC k -> H' v /\ kind k v) ->
      fr ((l, true) :: h) (after l kn) (if lock_eqb l (LC k) then v else x) (if lock_eqb l (LC k) then v else y) H' q Q
  | Unlock l q => exists h', h = (l, true) :: h' /\ (l = LC k -> x = y /\ ~ In (LPm, true) h') /\
      fr h' (after l kn) x (if is_pm l && mine h then lastrec k y (fetched k kn) else y) H q Q
  | RLock l q => fr ((l, false) :: h) kn x y H q Q
  | RUnlock l q => exists h', h = (l, false) :: h' /\ fr h' kn x y H q Q
  | WriteC bs q => In (LPm, true) h /\ forall r, starts (kn ++ [Wr bs r]) /\
      (mine h = false -> fetched k (kn ++ [Wr bs r]) = []) /\ fr h (kn ++ [Wr bs r]) x y H (q r) Q
  | ReadC e q => In (LPm, true) h /\ forall p r, (r <> None -> p = zero_packet) -> starts (kn ++ [Rd e p r]) /\
      (mine h = false -> fetched k (kn ++ [Rd e p r]) = []) /\ fr h (kn ++ [Rd e p r]) x y H (q p r) Q
  | Get q => forall s, (mine h = true -> cached s k = x) -> fr h kn x y H (q s) Q
  | Put f q => exists x', (mine h = true -> forall s, cached s k = x -> cached (f s) k = x') /\
      (mine h = false -> forall s, cached (f s) k = cached s k) /\ fr h kn x' y H q Q
  | Now q => forall t, fr h kn x y H (q t) Q
  | Sleep _ q => fr h kn x y H q Q
  | SendFlush _ q => h = [] /\ fr h kn x y H q Q
  | RecvSucc q => h = [] /\ forall b, fr h kn x y H (q b) Q
  | SendSucc _ q => h = [] /\ fr h kn x y H q Q
  end.

Lemma fr_weaken {A} (p : sproc A) : forall h kn x y H (Q R : fpost A),
  (forall h' kn' x' y' H' a, Q h' kn' x' y' H' a -> R h' kn' x' y' H' a) -> fr h kn x y H p Q -> fr h kn x y H p R.
Proof.
  induction p as [a| |l q IH|l q IH|l q IH|l q IH|bs q IH|e q IH|q IH|f q IH|q IH|d q IH|c q IH|q IH|b q IH];
    intros h kn x y H Q R W F; cbn [fr] in *; auto.
  - intros v H' S V. eapply IH; eauto.
  - destruct F as (h' & E & X & F). exists h'. splits; auto. eapply IH; eauto.
  - eapply IH; eauto.
  - destruct F as (h' & E & F). exists h'. split; auto. eapply IH; eauto.
  - destruct F as (I & F). split; auto. intros r. destruct (F r) as (S & O & G). splits; auto. eapply IH; eauto.
  - destruct F as (I & F). split; auto. intros p r Z. destruct (F p r Z) as (S & O & G). splits; auto. eapply IH; eauto.
  - intros s M. eapply IH; eauto.
  - destruct F as (x' & M & N & F). exists x'. splits; auto. eapply IH; eauto.
  - intros t. eapply IH; eauto.
  - eapply IH; eauto.
  - destruct F. split; auto. eapply IH; eauto.
  - destruct F as [E F]. split; auto. intros b. eapply IH; eauto.
  - destruct F. split; auto. eapply IH; eauto.
Qed.
Lemma fr_bind {A B} (p : sproc A) (f : A -> sproc B) : forall h kn x y H Q,
  fr h kn x y H p (fun h' kn' x' y' H' a => fr h' kn' x' y' H' (f a) Q) -> fr h kn x y H (bind p f) Q.
Proof.
  induction p as [a| |l q IH|l q IH|l q IH|l q IH|bs q IH|e q IH|q IH|g q IH|q IH|d q IH|c q IH|q IH|b q IH];
    intros h kn x y H Q F; cbn [fr bind] in *; auto.
  - destruct F as (h' & E & X & F). exists h'. splits; auto.
  - destruct F as (h' & E & F). exists h'. split; auto.
  - destruct F as (I & F). split; auto. intros r. destruct (F r) as (S & O & G). splits; auto.
  - destruct F as (I & F). split; auto. intros p r Z. destruct (F p r Z) as (S & O & G). splits; auto.
  - destruct F as (x' & M & N & F). exists x'. splits; auto.
  - destruct F. split; auto.
  - destruct F as [E F]. split; auto.
  - destruct F. split; auto.
Qed.

(** ** the library *)
Lemma mine_pm h : mine ((LPm, true) :: h) = mine h. Proof. reflexivity. Qed.
Lemma fetched_short l : (length l < 3)%nat -> fetched k l = [].
Proof.
  intros L. unfold fetched. destruct l as [|? [|? [|? ?]]]; cbn in L; try lia; try reflexivity.
  cbn [replies_to]. destruct i0 as [|[|] ? [|]]; reflexivity.
Qed.
Lemma fr_query h kn x y (H : rec -> Prop) p (Q : fpost (packet * option err)) :
  (mine h = false -> p_cmd p = request k -> p_data p = [] -> p_expect p = true -> False) ->
  (forall l r (H' : rec -> Prop), (forall z, H z -> H' z) -> exchange (p_cmd p) (p_data p) (p_expect p) (fst r) (snd r) l ->
     Q h [] x (if mine h then lastrec k y (fetched k l) else y) H' r) ->
  fr h kn x y H (QueryPacket p) Q.
Proof.
  intros NF HQ. unfold QueryPacket, with_lock. cbn [fr lock_eqb]. intros v H' Sb _. cbn [after].
  assert (NX : forall q e l, mine h = false -> exchange (p_cmd p) (p_data p) (p_expect p) q e l -> fetched k l = []).
  { intros q e l M X. unfold fetched. rewrite (exchange_replies _ _ _ _ _ _ (request k) X).
    destruct (Z.eqb_spec (request k) (p_cmd p)) as [E|E]; [|reflexivity].
    destruct (p_data p) eqn:D; [|reflexivity]. destruct (p_expect p) eqn:Pe; [|reflexivity].
    destruct (NF M (eq_sym E) eq_refl eq_refl). }
  apply fr_bind.
  set (R := fun (h' : held) kn' x' y' (H2 : rec -> Prop) (r : packet * option err) => h' = (LPm, true) :: h /\ x' = x /\ y' = y /\ H2 = H' /\
     exchange (p_cmd p) (p_data p) (p_expect p) (fst r) (snd r) kn').
  assert (F : fr ((LPm, true) :: h) [] x y H'
     (do (_, e) <- WritePacket p;
      match e with
      | Some e => Ret (zero_packet, Some e)
      | None => ReadC (p_expect p) (fun out e =>
          match e with
          | Some e => Ret (out, Some e)
          | None => if p_expect p && negb (p_cmd out =? u8 (p_cmd p + 1))
                    then Ret (out, Some ErrInvalidResponse)
                    else do (_, e) <- WriteAck; Ret (out, e)
          end)
      end) R).
  { unfold WritePacket. rewrite marshal_wire. destruct (_ >? 255) eqn:L; cbn [lift bind].
    - cbn. unfold R. splits; auto. apply ex_too_long. lia.
    - cbn [fr bind]. split; [left; auto|]. intros r. cbn [app].
      change (pktStart ++ wire (p_cmd p) (p_data p) ++ pktEnd) with (framed (p_cmd p) (p_data p)).
      assert (Ln : (length (p_data p) <= 255)%nat) by lia.
      split; [apply framed_not_ack|]. split; [intros; apply fetched_short; cbn; lia|].
      destruct (w_err r) as [e|] eqn:E1; cbn [fr bind].
      + unfold R. splits; auto. apply ex_write_failed; auto.
      + split; [left; auto|]. intros out e Z. cbn [app].
        split; [apply framed_not_ack|]. split; [intros; apply fetched_short; cbn; lia|]. destruct e as [e|].
        * cbn. unfold R. splits; auto. rewrite Z by discriminate. apply ex_read_failed; auto.
        * destruct (p_expect p && negb (p_cmd out =? u8 (p_cmd p + 1))) eqn:E2.
          -- apply andb_true_iff in E2 as [X N]. apply negb_true_iff, Z.eqb_neq in N.
             cbn. unfold R. splits; auto. rewrite X. apply ex_other_reply; auto.
          -- unfold WriteAck. cbn [fr bind]. split; [left; auto|]. intros r2. cbn [app].
             assert (K : p_expect p = true -> p_cmd out = (p_cmd p + 1) mod 256).
             { intros X. rewrite X in E2. cbn [andb] in E2. apply negb_false_iff, Z.eqb_eq in E2. exact E2. }
             assert (EX : exists e2, exchange (p_cmd p) (p_data p) (p_expect p) out e2
                [Wr (framed (p_cmd p) (p_data p)) r; Rd (p_expect p) out None; Wr ack_seq r2]).
             { destruct (w_err r2) as [e|] eqn:E3; [exists (Some e)|destruct (Z.eq_dec (w_n r2) 2); [exists None|exists (Some ErrAck)]];
                 apply ex_acked; auto; intros W; try destruct W; auto; congruence. }
             destruct EX as (e2 & EX).
             split; [apply framed_not_ack|]. split; [intros M; rewrite mine_pm in M; eapply NX; eauto|].
             change (len pktAck) with 2.
             destruct (w_err r2) as [e|] eqn:E3; [|destruct (Z.eqb_spec (w_n r2) 2) as [E4|E4]]; cbn; unfold R;
               splits; auto; apply ex_acked; auto; intros W; try destruct W; auto; congruence. }
  eapply fr_weaken; [|exact F]. unfold R. intros h' kn' x' y' H2 r (-> & -> & -> & -> & X).
  cbn [fr]. exists h. split; [reflexivity|]. split; [discriminate|]. cbn [after is_pm andb]. rewrite mine_pm. apply HQ; auto.
Qed.

(** Processes that do not hold the cache's lock when they begin and leave everything as it was. *)
Definition quiet (h : held) : Prop := mine h = false /\ ~ In (LPm, true) h.
Definition calm {A} (h : held) (p : sproc A) : Prop :=
  quiet h -> forall kn x y H, fr h kn x y H p (fun h' kn' _ _ _ _ => h' = h).
Lemma calm_ret {A} h (a : A) : calm h (Ret a). Proof. intros M kn x y H. reflexivity. Qed.
Lemma calm_crash {A} h : calm h (@Crash shared A). Proof. intros M kn x y H. exact I. Qed.
Lemma calm_bind {A B} h (p : sproc A) (f : A -> sproc B) : calm h p -> (forall a, calm h (f a)) -> calm h (bind p f).
Proof.
  intros P F M kn x y H. apply fr_bind. eapply fr_weaken; [|apply P; auto].
  cbn. intros h' kn' x' y' H' a ->. apply F. auto.
Qed.
Lemma calm_get {A} h (q : shared -> sproc A) : (forall s, calm h (q s)) -> calm h (Get q).
Proof. intros F M kn x y H. cbn. intros s _. apply F. auto. Qed.
Lemma calm_now {A} h (q : Z -> sproc A) : (forall s, calm h (q s)) -> calm h (Now q).
Proof. intros F M kn x y H. cbn. intros s. apply F. auto. Qed.
Lemma calm_sleep {A} h d (q : sproc A) : calm h q -> calm h (Sleep d q).
Proof. intros F M kn x y H. cbn. apply F. auto. Qed.
Lemma calm_put {A} h f (q : sproc A) : (forall s, cached (f s) k = cached s k) -> calm h q -> calm h (Put f q).
Proof. intros E F M kn x y H. cbn. exists x. split; [destruct M; congruence|]. split; [auto|]. apply F. auto. Qed.
Lemma mine_cons l h : l <> LC k -> mine ((l, true) :: h) = mine h.
Proof. intros N. cbn. destruct (lock_eqb l (LC k)) eqn:E; [|reflexivity]. destruct l as [| | | |[]], k; cbn in E; congruence. Qed.
Lemma eqb_neq_lock l : l <> LC k -> lock_eqb l (LC k) = false.
Proof. intros N. destruct (lock_eqb l (LC k)) eqn:E; [|reflexivity]. destruct l as [| | | |[]], k; cbn in E; congruence. Qed.
Lemma calm_lock {A} h l (p : sproc A) : l <> LC k -> l <> LPm -> calm ((l, true) :: h) p -> calm h (with_lock l p).
Proof.
  intros N N2 P M kn x y H. unfold with_lock. cbn [fr]. intros v H' _ _. rewrite eqb_neq_lock by auto.
  apply fr_bind. eapply fr_weaken; [|apply P; destruct M as [M M2]; split; [rewrite mine_cons; auto|intros [I|I]; [congruence|auto]]].
  cbn beta. intros h' kn' x' y' H2 a ->. cbn [fr]. exists h. splits; auto. intros ->. congruence.
Qed.
Lemma calm_query h p : (p_cmd p = request k -> p_data p = [] -> p_expect p = true -> False) -> calm h (QueryPacket p).
Proof. intros N [M _] kn x y H. apply fr_query; auto. Qed.
Lemma calm_setQuery h r : calm h (setQuery r).
Proof.
  unfold setQuery. destruct (EncodeSetRequest r) as [sr [e|]] eqn:Es; [apply calm_ret|].
  apply calm_bind; [apply calm_query|intros [q e]; apply calm_ret].
  intros _ _ X. rewrite (encode_expect _ _ Es) in X. discriminate.
Qed.
Lemma calm_getter {T} h gr (zero : T) assert : gr <> request k -> calm h (getter gr zero assert).
Proof.
  intros N. unfold getter, getQuery. apply calm_bind.
  - apply calm_bind; [apply calm_query; cbn; auto|]. intros [q [e|]]; [apply calm_ret|].
    destruct (DecodeResponse q); cbn [lift]; [apply calm_ret|apply calm_crash].
  - intros [r [e|]]; [apply calm_ret|]. destruct r as [r|]; [|apply calm_crash].
    destruct (assert r); [apply calm_ret|apply calm_crash].
Qed.
Lemma calm_shape {T} h c (t : shared -> Z) (get : sproc (T * option err)) put force : c <> k ->
  (forall h', calm h' get) -> (forall v now h', calm h' (put v now)) -> calm h (update_shape c t get put force).
Proof.
  intros N G P. unfold update_shape. apply calm_lock; [congruence|discriminate|].
  apply calm_now. intros now. apply calm_get. intros s. destruct (_ && _); [apply calm_ret|].
  apply calm_bind; [apply G|]. intros [v [e|]]; [apply calm_ret|apply P].
Qed.

(** Fetching the cache's record while holding its lock. *)
Definition fetches {T} (inj : T -> rec) (get : sproc (T * option err)) : Prop :=
  forall h kn x y H, mine h = true -> fr h kn x y H get (fun h' kn' x' y' H' r => h' = h /\ x' = x /\
    y' = match snd r with None => inj (fst r) | Some _ => y end).
Lemma fetches_getter {T} gr (zero : T) assert (rinj : T -> Response) dec (inj : T -> rec) :
  gr = request k -> total_dec dec -> (u8 (gr + 1) =? 0) = false ->
  ResponseType (u8 (gr + 1)) = Some (fun l => omap rinj (dec l)) -> (forall v, assert (rinj v) = Some v) ->
  (forall pl, decodes k pl = match dec pl with Done (v, None) => Some (inj v) | _ => None end) ->
  fetches inj (getter gr zero assert).
Proof.
  intros -> Td N0 RT As Dc h kn x y H M. unfold getter, getQuery. apply fr_bind. apply fr_bind. apply fr_query; [congruence|].
  intros l [q e] H' _ X. rewrite M. cbn [EncodeGetRequest p_cmd p_data p_expect fst snd] in X |- *.
  pose proof (exchange_replies _ _ _ _ _ _ (request k) X) as Rp. rewrite Z.eqb_refl in Rp. cbn [andb] in Rp.
  destruct e as [e|].
  { cbn. unfold fetched. rewrite Rp. auto. }
  assert (C : p_cmd q = u8 (request k + 1)) by (inversion X; subst; unfold u8; auto).
  unfold DecodeResponse. rewrite C, N0, RT. destruct (Td (p_data q)) as (v & e & D). rewrite D.
  cbn [omap obind lift]. destruct e as [e|].
  - cbn. splits; auto. unfold fetched. rewrite Rp. cbn [filter]. destruct (accepted k (p_data q)) eqn:A; [|reflexivity].
    apply accepted_decodes in A as (w & A). rewrite Dc, D in A. discriminate.
  - cbn [fr]. rewrite As. cbn. splits; auto. assert (E : decodes k (p_data q) = Some (inj v)) by (rewrite Dc, D; reflexivity).
    unfold fetched. rewrite Rp. cbn [filter]. rewrite (decodes_accepted _ _ _ E). unfold lastrec. cbn [rev app]. rewrite E. reflexivity.
Qed.
(** Storing it. *)
Definition keeps (p : sproc unit) (v : rec) : Prop :=
  forall h kn x y H, mine h = true -> kind k x -> fr h kn x y H p (fun h' kn' x' y' _ _ => h' = h /\ x' = v /\ y' = y).
Lemma latest_kind l : kind k (latest k l).
Proof.
  unfold latest, lastrec. destruct (rev _) as [|pl r]; [destruct k; exact I|].
  destruct (decodes k pl) as [v|] eqn:D; [|destruct k; exact I]. eapply (good_kind (fun _ _ => True)). right. eauto.
Qed.
Lemma calm_own {T} h (t : shared -> Z) (inj : T -> rec) get put force :
  fetches inj get -> (forall v now, keeps (put v now) (inj v)) -> calm h (update_shape k t get put force).
Proof.
  intros G P [M M2] kn x y H. unfold update_shape, with_lock. cbn [fr bind]. intros v H' _ V. destruct (V eq_refl) as [_ K].
  assert (E : lock_eqb (LC k) (LC k) = true) by apply lock_eqb_refl. rewrite E.
  assert (M1 : mine ((LC k, true) :: h) = true) by (cbn [holds existsb fst snd]; rewrite E; reflexivity).
  intros now s _. set (U := Unlock (LC k) (Ret tt) : sproc unit).
  assert (Un : forall kn' z H2, fr ((LC k, true) :: h) kn' z z H2 U (fun h' _ _ _ _ _ => h' = h)).
  { intros kn' z H2. cbn. exists h. auto. }
  destruct (negb force && _); [apply Un|].
  apply fr_bind. apply fr_bind. eapply fr_weaken; [|apply G; auto].
  cbn beta. intros h' kn' x' y' H2 [w e] (-> & -> & ->). cbn [fst snd]. destruct e as [e|]; [apply Un|].
  eapply fr_weaken; [|apply P; auto]. cbn beta. intros h' kn2 x' y' H3 [] (-> & -> & ->). apply Un.
Qed.
End For.

(** ** the server *)
Ltac kept := intros h kn x y H M K; destruct x as [x|x|x|x|x|x]; try contradiction; destruct x;
  repeat (cbn [fr]; eexists; split; [intros _ s E; cbn in E |- *; injection E as E; try rewrite E; cbn; reflexivity|];
          split; [intros X; rewrite M in X; discriminate|]);
  cbn; auto.
Lemma keeps_boot v now : keeps CBoot (assign_boot v (Put (on_boot_t now) (Ret tt))) (VBoot v).
Proof. destruct v. unfold assign_boot. cbn. kept. Qed.
Lemma keeps_bypass v now : keeps CBypass (assign_bypass v (Put (on_bypass_t now) (Ret tt))) (VBypass v).
Proof. destruct v. unfold assign_bypass. cbn. kept. Qed.
Lemma keeps_temp v now : keeps CTemp (assign_temp v (Put (on_temp_t now) (Ret tt))) (VTemp v).
Proof. destruct v. unfold assign_temp. cbn. kept. Qed.
Lemma keeps_fans v now : keeps CFans (assign_fans v (Put (on_fans_t now) (Ret tt))) (VFans v).
Proof. destruct v. unfold assign_fans. cbn. kept. Qed.
Lemma keeps_prof v now : keeps CProf (assign_prof v (Put (on_prof_t now) (Ret tt))) (VProf v).
Proof. destruct v. unfold assign_prof. cbn. kept. Qed.
Lemma keeps_err v now : keeps CErr (assign_err v (Put (on_err_t now) (Ret tt))) (VErr v).
Proof. destruct v. unfold assign_err. cbn. kept. Qed.

Lemma cache_dec (a b : cache) : {a = b} + {a <> b}.
Proof. decide equality. Defined.
Lemma calm_update k h c force : calm k h (Update c force).
Proof.
  destruct (cache_dec c k) as [<-|N]; destruct c.
  - apply (calm_own CBoot h sh_boot_t VBoot GetBootloader (fun v now => assign_boot v (Put (on_boot_t now) (Ret tt)))); auto using keeps_boot.
    eapply fetches_getter with (rinj := RBoot); eauto using boot_total.
  - apply (calm_own CBypass h sh_bypass_t VBypass GetBypass (fun v now => assign_bypass v (Put (on_bypass_t now) (Ret tt)))); auto using keeps_bypass.
    eapply fetches_getter with (rinj := RBypass); eauto using bypass_total.
  - apply (calm_own CTemp h sh_temp_t VTemp GetTemperatures (fun v now => assign_temp v (Put (on_temp_t now) (Ret tt)))); auto using keeps_temp.
    eapply fetches_getter with (rinj := RTemps); eauto using temps_total.
  - apply (calm_own CFans h sh_fans_t VFans GetFans (fun v now => assign_fans v (Put (on_fans_t now) (Ret tt)))); auto using keeps_fans.
    eapply fetches_getter with (rinj := RFans); eauto using fans_total.
  - apply (calm_own CProf h sh_prof_t VProf GetFanProfiles (fun v now => assign_prof v (Put (on_prof_t now) (Ret tt)))); auto using keeps_prof.
    eapply fetches_getter with (rinj := RProf); eauto using prof_total.
  - apply (calm_own CErr h sh_err_t VErr GetErrors (fun v now => assign_err v (Put (on_err_t now) (Ret tt)))); auto using keeps_err.
    eapply fetches_getter with (rinj := RErrors); eauto using errors_total.
  - apply (calm_shape k h CBoot sh_boot_t GetBootloader (fun v now => assign_boot v (Put (on_boot_t now) (Ret tt)))); auto;
      [intros; apply calm_getter; destruct k; try congruence; discriminate|].
    intros; repeat (apply calm_put; [intros s; destruct k; try congruence; reflexivity|]); apply calm_ret.
  - apply (calm_shape k h CBypass sh_bypass_t GetBypass (fun v now => assign_bypass v (Put (on_bypass_t now) (Ret tt)))); auto;
      [intros; apply calm_getter; destruct k; try congruence; discriminate|].
    intros; repeat (apply calm_put; [intros s; destruct k; try congruence; reflexivity|]); apply calm_ret.
  - apply (calm_shape k h CTemp sh_temp_t GetTemperatures (fun v now => assign_temp v (Put (on_temp_t now) (Ret tt)))); auto;
      [intros; apply calm_getter; destruct k; try congruence; discriminate|].
    intros; repeat (apply calm_put; [intros s; destruct k; try congruence; reflexivity|]); apply calm_ret.
  - apply (calm_shape k h CFans sh_fans_t GetFans (fun v now => assign_fans v (Put (on_fans_t now) (Ret tt)))); auto;
      [intros; apply calm_getter; destruct k; try congruence; discriminate|].
    intros; repeat (apply calm_put; [intros s; destruct k; try congruence; reflexivity|]); apply calm_ret.
  - apply (calm_shape k h CProf sh_prof_t GetFanProfiles (fun v now => assign_prof v (Put (on_prof_t now) (Ret tt)))); auto;
      [intros; apply calm_getter; destruct k; try congruence; discriminate|].
    intros; repeat (apply calm_put; [intros s; destruct k; try congruence; reflexivity|]); apply calm_ret.
  - apply (calm_shape k h CErr sh_err_t GetErrors (fun v now => assign_err v (Put (on_err_t now) (Ret tt)))); auto;
      [intros; apply calm_getter; destruct k; try congruence; discriminate|].
    intros; repeat (apply calm_put; [intros s; destruct k; try congruence; reflexivity|]); apply calm_ret.
Qed.
Lemma calm_caches k h force : calm k h (UpdateCaches force).
Proof. unfold UpdateCaches. repeat (apply calm_bind; [apply calm_update|intros _]). apply calm_update. Qed.
Lemma calm_tick k h t : calm k h (on_tick t).
Proof. destruct t; cbn [on_tick]; (apply calm_bind; [apply calm_update|intros _; apply calm_update]). Qed.
Lemma calm_flush k c : calm k [] (FlushCaches c).
Proof.
  unfold FlushCaches. apply calm_bind.
  - unfold FlushCaches_body. repeat match goal with |- calm _ _ (if ?b then _ else _) => destruct b end;
      try (apply calm_bind; [first [apply calm_update|apply calm_caches]|intros _; apply calm_ret]); apply calm_ret.
  - intros b M kn x y H. cbn. auto.
Qed.
Lemma calm_poll k n i o h : calm k h (poll_loop n i o).
Proof.
  induction n as [|n IH]; cbn [poll_loop]; [apply calm_ret|]. apply calm_bind; [apply calm_update|]. intros _.
  apply calm_get. intros s. destruct (_ =? _); [|apply calm_sleep, IH]. apply calm_get. intros s'.
  destruct (_ =? _); [apply calm_ret|apply calm_sleep, IH].
Qed.
Lemma calm_updpoll k n v h : 1 <= v <= 4 -> calm k h (UpdatePoll n v).
Proof.
  intros V M kn x y H. unfold UpdatePoll. cbn [fr]. intros s _.
  rewrite in_out_lookup by auto. cbn [fr]. eexists. split; [reflexivity|]. apply calm_poll. auto.
Qed.
(** SetFanProfile asks for the profiles without storing them. *)
Definition stores (k : cache) (r : rpc) : Prop := k = CProf -> forall m t, r <> SetFanProfileR m t.
Lemma calm_rpc k r : stores k r -> calm k [] (handle r).
Proof.
  intros N.
  assert (G : forall c, calm k [] (handle (getter_rpc c))).
  { intros c. destruct (cache_dec c k) as [->|D].
    - intros M kn x y H. destruct k; cbn; intros; exists []; (split; [auto|]; split; [auto|]; auto).
    - destruct c; cbn [getter_rpc handle]; (apply calm_bind; [|intros; apply calm_ret]); apply calm_lock; try congruence;
        repeat (apply calm_get; intros ?s); apply calm_ret. }
  destruct r.
  - apply (G CBoot).
  - apply (G CBypass).
  - apply (G CErr).
  - apply (G CFans).
  - apply (G CProf).
  - apply (G CTemp).
  - cbn [handle]. unfold SetComfortTemp. apply calm_get. intros s. destruct (_ >? _); [apply calm_ret|]. destruct (negb _); [|apply calm_ret].
    apply calm_lock; try congruence. apply calm_bind; [apply calm_setQuery|]. intros [e|]; [apply calm_ret|].
    apply calm_bind; [apply calm_update|intros _; apply calm_ret].
  - cbn [handle]. unfold SetFanSpeed. apply calm_lock; try congruence. apply calm_get. intros s.
    destruct (modifySpeed _ _ _) as [tgt [e|]] eqn:T; [apply calm_ret|]. apply modify_range in T.
    assert (U : u8 tgt = tgt) by (apply Z.mod_small; lia). rewrite U. destruct (negb _); [|apply calm_ret].
    apply calm_bind; [apply calm_setQuery|]. intros [e|]; [apply calm_ret|].
    apply calm_bind; [apply calm_updpoll; auto|]. intros [e|]; [apply calm_ret|].
    apply calm_bind; [apply calm_update|intros _; apply calm_ret].
  - assert (N' : k <> CProf) by (intros E; exact (N E _ _ eq_refl)).
    cbn [handle]. unfold SetFanProfileRPC. destruct (_ || _); [apply calm_ret|]. destruct (_ || _); [apply calm_ret|].
    apply calm_lock; try congruence. apply calm_get. intros s.
    match goal with |- calm _ _ (match ?o with _ => _ end) => destruct o end; [|apply calm_crash].
    destruct (negb _); [|apply calm_ret]. apply calm_bind.
    + unfold SetFanProfile. destruct (_ >? _); [apply calm_ret|]. destruct (_ >? _); [apply calm_ret|].
      apply calm_lock; try congruence. apply calm_bind; [apply calm_getter; clear N; destruct k; try congruence; discriminate|].
      intros [fp [e|]]; [apply calm_ret|apply calm_setQuery].
    + intros [e|]; [apply calm_ret|]. apply calm_bind; [apply calm_update|intros _; apply calm_ret].
  - cbn [handle]. unfold FlushCache. intros M kn x y H. cbn. auto.
Qed.

(** What the cache's own getter returns. *)
Lemma own_getter k kn x y H : fr k [] kn x y H (handle (getter_rpc k))
  (fun h' _ _ _ H' a => h' = [] /\ exists v, H' v /\ kind k v /\ a = umsg v).
Proof.
  destruct k; cbn [getter_rpc handle boot_Protobuf bypass_Protobuf temp_Protobuf fans_Protobuf prof_Protobuf err_Protobuf
    with_lock bind fr lock_eqb after]; intros v H' _ V; destruct (V eq_refl) as [Hv K]; clear V;
    cbn [holds existsb fst snd lock_eqb cache_eqb Bool.eqb andb orb]; intros; eexists; (split; [reflexivity|]); (split; [split; [reflexivity|intros []]|]);
    cbn; (split; [reflexivity|]); exists v; (split; [exact Hv|]); (split; [exact K|]);
    repeat match goal with V : true = true -> _ |- _ => specialize (V eq_refl) end;
    destruct v as [v|v|v|v|v|v]; try contradiction; cbn [cached] in *;
    repeat match goal with V : _ = _ |- _ => injection V as V end; subst; cbn [umsg]; congruence.
Qed.
