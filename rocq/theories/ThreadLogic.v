(** A thread-modular logic for processes: what a goroutine may rely on while it holds locks, and
    what it guarantees.  Every process of the server is verified in it once, for all interleavings. *)
From Verif Require Import ProofBase Proto SpecProto SpecFrame SpecConn SpecLayout SpecServer ProtoProofs Scanner Conn Proc Lib QueryProofs
  FrameLemmas LayoutProofs OpLemmas Server ServerProofs ServerLemmas ServerOps Machine MachineBase.

(** Records that may be in a cache when nobody is writing it: the initial one, and those that
    stand for a fetched payload. *)
Definition pool := cache -> list Z -> Prop.
Definition sub (P P' : pool) : Prop := forall c pl, P c pl -> P' c pl.
Definition decodes (c : cache) (pl : list Z) : option rec :=
  let dec {T} (inj : T -> rec) (o : outcome (T * option err)) :=
    match o with Done (v, None) => Some (inj v) | _ => None end in
  match c with
  | CBoot => dec VBoot (BootInfo_Unmarshal pl)
  | CBypass => dec VBypass (Bypass_Unmarshal pl)
  | CTemp => dec VTemp (Temps_Unmarshal pl)
  | CFans => dec VFans (Fans_Unmarshal pl)
  | CProf => dec VProf (FanProfiles_Unmarshal pl)
  | CErr => dec VErr (Errors_Unmarshal pl)
  end.
Definition good (P : pool) (c : cache) (x : rec) : Prop :=
  x = blank c \/ exists pl, P c pl /\ decodes c pl = Some x.

(** Fields of a record, for readers that do not hold the lock: each of them comes from a good
    record. *)
Inductive fval := FZ (z : Z) | FB (b : bool) | FF (f : f32) | FL (l : list byte).
Definition fields (x : rec) : list fval :=
  match x with
  | VBoot v => [FZ (MajorVersion v); FZ (MinorVersion v); FZ (BetaVersion v); FL (DeviceName v)]
  | VBypass v => [FZ (Factor v); FZ (Level v); FZ (Correction v); FB (SummerMode v)]
  | VTemp v => [FF (Comfort v); FF (OutsideAir v); FF (SupplyAir v); FF (InsideAir v);
                FF (ExhaustAir v); FF (GeoHeat v); FF (Reheating v); FF (KitchenHood v)]
  | VFans v => [FZ (InPercent v); FZ (OutPercent v); FZ (InSpeed v); FZ (OutSpeed v)]
  | VProf v => [FZ (OutAway v); FZ (OutLow v); FZ (OutMid v); FZ (OutHigh v); FB (InFanActive v);
                FZ (InAway v); FZ (InLow v); FZ (InMid v); FZ (InHigh v);
                FZ (CurrentOut v); FZ (CurrentIn v); FZ (CurrentMode v)]
  | VErr v => [FB (EFilter v)]
  end.
Definition mixed (P : pool) (c : cache) (x : rec) : Prop :=
  forall i f, nth_error (fields x) i = Some f -> exists y, good P c y /\ nth_error (fields y) i = Some f.

(** ** the logic *)

(** Locks held, most recent first, with the record seen in the cache (for cache locks). *)
Definition stack := list (lockid * bool * rec).
Definition erase (st : stack) : held := map fst st.

(** Locks are taken in the order of [rank]. *)
Definition rank (l : lockid) : nat :=
  match l with LFan | LTemp => 0 | LAm | LC _ => 1 | LPm => 2 end.
Definition below (st : stack) (l : lockid) : Prop :=
  Forall (fun e => (rank (fst (fst e)) < rank l)%nat) st.
(** What the holder of these locks sees in the caches. *)
Definition sees (st : stack) (s : shared) : Prop :=
  forall c b x, In (LC c, b, x) st -> cached s c = x.
Definition all_mixed (P : pool) (s : shared) : Prop := forall c, mixed P c (cached s c).
(** One complete exchange the server may make. *)
Definition proper (kn : list io) : Prop :=
  exists cmd data x p e, permitted cmd data x /\ exchange cmd data x p e kn.
Definition new_fetches (kn : list io) (P : pool) : Prop := forall c pl, In pl (fetched c kn) -> P c pl.

(** [kn]: what has been done on the connection since LPm was taken. *)
Definition post (A : Type) := stack -> list io -> pool -> A -> Prop.
Fixpoint sp {A} (st : stack) (kn : list io) (P : pool) (p : sproc A) (Q : post A) : Prop :=
  match p with
  | Ret a => Q st kn P a
  | Crash => False
  | Lock l k => below st l /\ forall x P', sub P P' -> (forall c, l = LC c -> good P' c x) ->
      sp ((l, true, x) :: st) (match l with LPm => [] | _ => kn end) P' k Q
  | Unlock l k => exists x st', st = (l, true, x) :: st' /\ (forall c, l = LC c -> good P c x) /\
      (l = LPm -> proper kn) /\ forall P', sub P P' -> (l = LPm -> new_fetches kn P') ->
      sp st' (match l with LPm => [] | _ => kn end) P' k Q
  | RLock l k => below st l /\ (exists c, l = LC c) /\ forall x P', sub P P' -> (forall c, l = LC c -> good P' c x) ->
      sp ((l, false, x) :: st) kn P' k Q
  | RUnlock l k => exists x st', st = (l, false, x) :: st' /\ sp st' kn P k Q
  | WriteC bs k => In (LPm, true) (erase st) /\ forall r, sp st (kn ++ [Wr bs r]) P (k r) Q
  | ReadC x k => In (LPm, true) (erase st) /\
      forall p e, (e <> None -> p = zero_packet) -> sp st (kn ++ [Rd x p e]) P (k p e) Q
  | Get k => forall s P', sub P P' -> sees st s -> all_mixed P' s -> sp st kn P' (k s) Q
  | Put f k => exists c x st' x', st = (LC c, true, x) :: st' /\
      (forall s, cached s c = x -> cached (f s) c = x') /\
      (forall s c', c' <> c -> cached (f s) c' = cached s c') /\
      mixed P c x' /\ sp ((LC c, true, x') :: st') kn P k Q
  | Now k => forall t, sp st kn P (k t) Q
  | Sleep _ k => sp st kn P k Q
  | SendFlush _ _ | RecvSucc _ | SendSucc _ _ => False
  end.

Lemma sub_refl P : sub P P. Proof. intros c pl H. exact H. Qed.
Lemma sub_trans P1 P2 P3 : sub P1 P2 -> sub P2 P3 -> sub P1 P3.
Proof. intros A B c pl H. auto. Qed.
Global Hint Resolve sub_refl : core.
Lemma good_sub P P' c x : sub P P' -> good P c x -> good P' c x.
Proof. intros S [H|(pl & H & D)]; [left; auto|right; exists pl; auto]. Qed.
Lemma mixed_sub P P' c x : sub P P' -> mixed P c x -> mixed P' c x.
Proof. intros S H i f N. destruct (H i f N) as (y & G & E). exists y. split; [eapply good_sub; eauto|auto]. Qed.

Lemma sp_weaken {A} (p : sproc A) : forall st kn P (Q R : post A),
  (forall st' kn' P' a, sub P P' -> Q st' kn' P' a -> R st' kn' P' a) -> sp st kn P p Q -> sp st kn P p R.
Proof.
  induction p as [a| |l k IH|l k IH|l k IH|l k IH|bs k IH|x k IH|k IH|f k IH|k IH|d k IH|c k IH|k IH|b k IH];
    intros st kn P Q R W H; cbn [sp] in *; auto.
  - destruct H as [B H]. split; auto. intros x P' S G. eapply IH; [|apply H; auto].
    intros. apply W; auto. eapply sub_trans; eauto.
  - destruct H as (x & st' & E & G & Pr & H). exists x, st'. splits; auto. intros P' S N. eapply IH; [|apply H; auto].
    intros. apply W; auto. eapply sub_trans; eauto.
  - destruct H as (B & L & H). splits; auto. intros x P' S G. eapply IH; [|apply H; auto].
    intros. apply W; auto. eapply sub_trans; eauto.
  - destruct H as (x & st' & E & H). exists x, st'. split; auto. eapply IH; eauto.
  - destruct H as [L H]. split; auto. intros r. eapply IH; eauto.
  - destruct H as [L H]. split; auto. intros p e Z. eapply IH; eauto.
  - intros s P' S C M. eapply IH; [|apply H; eauto]. intros. apply W; auto. eapply sub_trans; eauto.
  - destruct H as (c & x & st' & x' & E & F & O & M & H). exists c, x, st', x'. splits; auto. eapply IH; eauto.
  - intros t. eapply IH; eauto.
  - eapply IH; eauto.
Qed.
Lemma sp_bind {A B} (p : sproc A) (f : A -> sproc B) : forall st kn P Q,
  sp st kn P p (fun st' kn' P' a => sp st' kn' P' (f a) Q) -> sp st kn P (bind p f) Q.
Proof.
  induction p as [a| |l k IH|l k IH|l k IH|l k IH|bs k IH|x k IH|k IH|g k IH|k IH|d k IH|c k IH|k IH|b k IH];
    intros st kn P Q H; cbn [sp bind] in *; auto.
  - destruct H as [B0 H]. split; auto.
  - destruct H as (x & st' & E & G & Pr & H). exists x, st'. splits; auto.
  - destruct H as (B0 & L & H). splits; auto.
  - destruct H as (x & st' & E & H). exists x, st'. split; auto.
  - destruct H as [L H]. split; auto.
  - destruct H as [L H]. split; auto.
  - destruct H as (c & x & st' & x' & E & F & O & M & H). exists c, x, st', x'. splits; auto.
Qed.
(** Knowing more fetches does not hurt. *)
Definition up {A} (Q : post A) : Prop := forall st kn P P' a, sub P P' -> Q st kn P a -> Q st kn P' a.
Lemma sp_sub {A} (p : sproc A) : forall st kn P P' Q, up Q -> sub P P' -> sp st kn P p Q -> sp st kn P' p Q.
Proof.
  induction p as [a| |l k IH|l k IH|l k IH|l k IH|bs k IH|x k IH|k IH|g k IH|k IH|d k IH|c k IH|k IH|b k IH];
    intros st kn P P1 Q U S H; cbn [sp] in *; auto.
  - eapply U; eauto.
  - destruct H as [B0 H]. split; auto. intros x P2 S2 G. apply H; auto. eapply sub_trans; eauto.
  - destruct H as (x & st' & E & G & Pr & H). exists x, st'. splits; auto.
    + intros c L. eapply good_sub; eauto.
    + intros P2 S2 N. apply H; auto. eapply sub_trans; eauto.
  - destruct H as (B0 & L & H). splits; auto. intros x P2 S2 G. apply H; auto. eapply sub_trans; eauto.
  - destruct H as (x & st' & E & H). exists x, st'. split; eauto.
  - destruct H as [L H]. split; auto. intros r. eauto.
  - destruct H as [L H]. split; auto. intros p e Z. eauto.
  - intros s P2 S2 C M. apply H; auto. eapply sub_trans; eauto.
  - destruct H as (c & x & st' & x' & E & F & O & M & H). exists c, x, st', x'. splits; eauto using mixed_sub.
  - intros t. eauto.
  - eauto.
Qed.

(** A process that gives back the locks it takes: [R] says what it returns. *)
Definition tidy {A} (st : stack) (P : pool) (p : sproc A) (R : pool -> A -> Prop) : Prop :=
  sp st [] P p (fun st' kn' P' a => st' = st /\ kn' = [] /\ sub P P' /\ R P' a).
Lemma tidy_ret {A} st P (a : A) (R : pool -> A -> Prop) : R P a -> tidy st P (Ret a) R.
Proof. intros H. cbn. auto. Qed.
Lemma tidy_bind {A B} st P (p : sproc A) (f : A -> sproc B) R Q :
  tidy st P p R -> (forall a P', sub P P' -> R P' a -> tidy st P' (f a) Q) -> tidy st P (bind p f) Q.
Proof.
  intros H F. apply sp_bind. eapply sp_weaken; [|exact H].
  intros st' kn' P' a S (-> & -> & _ & X). eapply sp_weaken; [|apply F; eauto].
  cbn. intros st2 kn2 P2 b S2 (-> & -> & S3 & Y). splits; auto. eapply sub_trans; eauto.
Qed.
Lemma tidy_weaken {A} st P (p : sproc A) (R Q : pool -> A -> Prop) :
  (forall P' a, sub P P' -> R P' a -> Q P' a) -> tidy st P p R -> tidy st P p Q.
Proof.
  intros W H. eapply sp_weaken; [|exact H]. cbn. intros st' kn' P' a S (-> & -> & _ & X). splits; auto.
Qed.
(** A mutex other than LPm and the cache locks. *)
Lemma tidy_lock {A} st P l (p : sproc A) (R : pool -> A -> Prop) : below st l -> l <> LPm -> (forall c, l <> LC c) ->
  (forall P' a P2, sub P' P2 -> R P' a -> R P2 a) ->
  (forall x P', sub P P' -> tidy ((l, true, x) :: st) P' p R) -> tidy st P (with_lock l p) R.
Proof.
  intros B N1 N2 U H. unfold with_lock, tidy. cbn [sp]. split; auto. intros x P' S _.
  replace (match l with LPm => [] | _ => [] end : list io) with (@nil io) by (destruct l; auto).
  apply sp_bind. eapply sp_weaken; [|apply H; auto].
  cbn. intros st' kn' P2 a S2 (-> & -> & _ & X). exists x, st. splits; auto.
  - intros c E. destruct (N2 c E).
  - intros E. destruct (N1 E).
  - intros P3 S3 _. replace (match l with LPm => [] | _ => [] end : list io) with (@nil io) by (destruct l; auto).
    cbn. splits; auto. eapply sub_trans; [|eauto]. eapply sub_trans; eauto. eapply U; eauto.
Qed.

(** ** the library *)
Lemma sp_write p st kn P (Q : post (bool * option err)) : In (LPm, true) (erase st) ->
  (Z.of_nat (length (p_data p)) > 255 -> Q st kn P (false, Some ErrTooLong)) ->
  ((length (p_data p) <= 255)%nat -> forall r,
     Q st (kn ++ [Wr (framed (p_cmd p) (p_data p)) r]) P
       (match w_err r with Some e => (false, Some e) | None => (true, None) end)) ->
  sp st kn P (WritePacket p) Q.
Proof.
  intros L H1 H2. unfold WritePacket. rewrite marshal_wire.
  destruct (_ >? 255) eqn:E; cbn [lift bind].
  - cbn. apply H1. lia.
  - cbn [sp]. split; auto. intros r. 
    change (pktStart ++ wire (p_cmd p) (p_data p) ++ pktEnd) with (framed (p_cmd p) (p_data p)).
    specialize (H2 ltac:(lia) r). destruct (w_err r); exact H2.
Qed.
Lemma tidy_query st P p : below st LPm -> permitted (p_cmd p) (p_data p) (p_expect p) ->
  tidy st P (QueryPacket p) (fun P' r => exists l, exchange (p_cmd p) (p_data p) (p_expect p) (fst r) (snd r) l /\ new_fetches l P').
Proof.
  intros B Pm. unfold QueryPacket, with_lock, tidy. cbn [sp]. split; auto. intros x P' S _.
  apply sp_bind.
  set (R := fun (st' : stack) kn' P2 (r : packet * option err) => st' = (LPm, true, x) :: st /\ sub P P2 /\
     exchange (p_cmd p) (p_data p) (p_expect p) (fst r) (snd r) kn').
  assert (H : sp ((LPm, true, x) :: st) [] P' 
     (do (_, e) <- WritePacket p;
      match e with
      | Some e => Ret (zero_packet, Some e)
      | None => ReadC (p_expect p) (fun out e =>
          match e with
          | Some e => Ret (out, Some e)
          | None => if p_expect p && negb (p_cmd out =? u8 (p_cmd p + 1))
                    then Ret (out, Some ErrInvalidResponse)
                    else do (_, e) <- WriteAck; Ret (out, e)
          end)
      end) R).
  { apply sp_bind. apply sp_write; [left; auto| |].
    - intros L. cbn. unfold R. splits; auto. apply ex_too_long. lia.
    - intros L r. destruct (w_err r) as [e|] eqn:E1.
      + cbn. unfold R. splits; auto. apply ex_write_failed; auto.
      + cbn [sp]. split; [left; auto|]. intros out e Z. destruct e as [e|].
        * cbn. unfold R. splits; auto. rewrite Z by discriminate. apply ex_read_failed; auto.
        * destruct (p_expect p && negb (p_cmd out =? u8 (p_cmd p + 1))) eqn:E2.
          -- apply andb_true_iff in E2 as [X N]. apply negb_true_iff, Z.eqb_neq in N.
             cbn. unfold R. splits; auto. rewrite X. apply ex_other_reply; auto.
          -- unfold WriteAck. cbn [sp bind]. split; [left; auto|]. intros r2.
             assert (K : p_expect p = true -> p_cmd out = (p_cmd p + 1) mod 256).
             { intros X. rewrite X in E2. cbn [andb] in E2. apply negb_false_iff, Z.eqb_eq in E2. exact E2. }
             change (len pktAck) with 2.
             destruct (w_err r2) as [e|] eqn:E3; [|destruct (Z.eqb_spec (w_n r2) 2) as [E4|E4]]; cbn; unfold R;
               splits; auto; apply ex_acked; auto; intros W; try destruct W; auto; congruence. }
  eapply sp_weaken; [|exact H]. unfold R. cbn. intros st' kn' P2 r S2 (-> & S3 & X).
  exists x, st. splits; auto; [discriminate|intros _; do 5 eexists; eauto|]. intros P3 S4 N. splits; auto.
  - eapply sub_trans; eauto.
  - exists kn'. split; auto.
Qed.
Definition may_set (r : SetRequest) : Prop :=
  forall cmd data, EncodeSetRequest r = (mkPacket cmd data false, None) -> permitted cmd data false.
Lemma encode_expect r sr : EncodeSetRequest r = (sr, None) -> p_expect sr = false.
Proof.
  unfold EncodeSetRequest. destruct (_ =? 0); [discriminate|].
  destruct (SetRequest_MarshalBinary r) as [b [e|]]; [discriminate|]. intros H. injection H as <-. reflexivity.
Qed.
Lemma may_comfort_set t : 0 <= t < 256 -> may_set (SRComfort (f32_of_Z t)).
Proof.
  intros B cmd data H. unfold EncodeSetRequest in H. cbn [requestType SetRequest_MarshalBinary] in H.
  destruct (Z.leb_spec t 107) as [L|L]; [rewrite temp_encode in H by lia; injection H as <- <-; constructor; lia|].
  unfold temperature_MarshalBinary in H. destruct (of_Z_exact t ltac:(lia)) as [_ Tt].
  rewrite Tt in H. replace (t >? 107) with true in H by lia. discriminate.
Qed.
Lemma may_speed_set v : 1 <= v <= 4 -> may_set (SRSpeed v).
Proof. intros B cmd data H. rewrite speed_encode in H by lia. injection H as <- <-. constructor. lia. Qed.
Lemma may_profiles_set fp : may_set (SRProfiles fp).
Proof. intros cmd data H. unfold EncodeSetRequest in H. simpl in H. injection H as <- <-. constructor. Qed.
Lemma tidy_setQuery st P r : below st LPm -> may_set r -> tidy st P (setQuery r) (fun _ _ => True).
Proof.
  intros B M. unfold setQuery. destruct (EncodeSetRequest r) as [sr [e|]] eqn:Es; [apply tidy_ret; auto|].
  assert (Pm : permitted (p_cmd sr) (p_data sr) (p_expect sr)).
  { pose proof (encode_expect _ _ Es) as X. rewrite X. apply M. rewrite Es. destruct sr. cbn in X |- *. subst. reflexivity. }
  eapply tidy_bind; [apply tidy_query; auto|]. intros [q e] P' _ _. apply tidy_ret. auto.
Qed.
Lemma tidy_getter {T} st P gr (zero : T) assert (inj : T -> Response) dec :
  below st LPm -> permitted gr [] true -> total_dec dec -> (u8 (gr + 1) =? 0) = false ->
  ResponseType (u8 (gr + 1)) = Some (fun l => omap inj (dec l)) ->
  (forall v, assert (inj v) = Some v) ->
  tidy st P (getter gr zero assert) (fun P' r => snd r = None ->
    exists l q, exchange gr [] true q None l /\ new_fetches l P' /\ dec (p_data q) = Done (fst r, None)).
Proof.
  intros B Pm Td N0 RT As. unfold getter, getQuery.
  eapply tidy_bind with (R := fun P' r => match snd r with
    | Some _ => True
    | None => exists l q v, exchange gr [] true q None l /\ new_fetches l P' /\ dec (p_data q) = Done (v, None) /\ fst r = Some (inj v)
    end).
  - eapply tidy_bind; [apply tidy_query; auto|]. intros [q e] P' S (l & X & N). cbn [fst snd] in *.
    cbn [EncodeGetRequest p_cmd p_data p_expect] in X.
    destruct e as [e|]; [apply tidy_ret; exact I|].
    assert (C : p_cmd q = u8 (gr + 1)).
    { inversion X; subst. unfold u8. auto. }
    unfold DecodeResponse. rewrite C, N0, RT. destruct (Td (p_data q)) as (v & e & D). rewrite D.
    cbn [omap obind lift]. apply tidy_ret. cbn [fst snd]. destruct e as [e|]; auto.
    exists l, q, v. auto.
  - intros [r e] P' S H. cbn [fst snd] in H. destruct e as [e|]; [apply tidy_ret; discriminate|].
    destruct H as (l & q & v & X & N & D & ->). rewrite As. apply tidy_ret. intros _. exists l, q. auto.
Qed.

Lemma decodes_accepted c pl x : decodes c pl = Some x -> accepted c pl = true.
Proof.
  intros H. apply accepted_spec. destruct c; cbn [decodes] in H.
  - destruct (BootInfo_Unmarshal pl) as [[v [|]]|] eqn:D; try discriminate. apply boot_decodes in D as [? _]. auto.
  - destruct (Bypass_Unmarshal pl) as [[v [|]]|] eqn:D; try discriminate. apply bypass_decodes in D as [? _]. auto.
  - destruct (Temps_Unmarshal pl) as [[v [|]]|] eqn:D; try discriminate. apply temps_decodes in D as [? _]. auto.
  - destruct (Fans_Unmarshal pl) as [[v [|]]|] eqn:D; try discriminate. apply fans_decodes in D as (? & ? & ? & _). auto.
  - destruct (FanProfiles_Unmarshal pl) as [[v [|]]|] eqn:D; try discriminate. apply prof_decodes in D as [? _]. auto.
  - destruct (Errors_Unmarshal pl) as [[v [|]]|] eqn:D; try discriminate. apply errors_decodes in D as [? _]. auto.
Qed.
Lemma decodes_layout c pl x : decodes c pl = Some x -> bytes_ok pl -> layout_of c pl x.
Proof.
  intros H B. destruct c; cbn [decodes] in H.
  - destruct (BootInfo_Unmarshal pl) as [[v [|]]|] eqn:D; inversion H; subst. apply boot_decodes in D as [_ L]. first [exact L | exact (L B)].
  - destruct (Bypass_Unmarshal pl) as [[v [|]]|] eqn:D; inversion H; subst. apply bypass_decodes in D as [_ L]. first [exact L | exact (L B)].
  - destruct (Temps_Unmarshal pl) as [[v [|]]|] eqn:D; inversion H; subst. apply temps_decodes in D as [_ L]. first [exact L | exact (L B)].
  - destruct (Fans_Unmarshal pl) as [[v [|]]|] eqn:D; inversion H; subst. apply fans_decodes in D as (_ & _ & _ & L). exact L.
  - destruct (FanProfiles_Unmarshal pl) as [[v [|]]|] eqn:D; inversion H; subst. apply prof_decodes in D as [_ L]. first [exact L | exact (L B)].
  - destruct (Errors_Unmarshal pl) as [[v [|]]|] eqn:D; inversion H; subst. apply errors_decodes in D as [_ L]. first [exact L | exact (L B)].
Qed.
Definition kind (c : cache) (x : rec) : Prop :=
  match c, x with
  | CBoot, VBoot _ | CBypass, VBypass _ | CTemp, VTemp _ | CFans, VFans _ | CProf, VProf _ | CErr, VErr _ => True
  | _, _ => False
  end.
Lemma good_kind P c x : good P c x -> kind c x.
Proof.
  intros [->|(pl & _ & D)]; [destruct c; exact I|]. destruct c; cbn [decodes] in D;
  match type of D with match ?o with _ => _ end = _ => destruct o as [[v [|]]|]; inversion D; subst; exact I end.
Qed.

Lemma exchange_fetched c q l x : exchange (request c) [] true q None l -> decodes c (p_data q) = Some x ->
  In (p_data q) (fetched c l).
Proof.
  intros X D. unfold fetched. rewrite (exchange_replies _ _ _ _ _ _ (request c) X), Z.eqb_refl. cbn [andb filter].
  rewrite (decodes_accepted _ _ _ D). left. reflexivity.
Qed.

(** The caches' own queries. *)
Definition brings {T} c (inj : T -> rec) (P' : pool) (r : T * option err) : Prop :=
  snd r = None -> good P' c (inj (fst r)).
Lemma tidy_fetch {T} st P c (inj : T -> rec) gr (zero : T) assert (rinj : T -> Response) dec :
  below st LPm -> total_dec dec -> (u8 (gr + 1) =? 0) = false ->
  ResponseType (u8 (gr + 1)) = Some (fun l => omap rinj (dec l)) ->
  (forall v, assert (rinj v) = Some v) -> gr = request c ->
  (forall l v, dec l = Done (v, None) -> decodes c l = Some (inj v)) ->
  tidy st P (getter gr zero assert) (brings c inj).
Proof.
  intros B Td N0 RT As -> Dc. eapply tidy_weaken; [|eapply tidy_getter; eauto using may_get].
  cbn beta. intros P' r S H E. destruct (H E) as (l & q & X & N & D). apply Dc in D.
  right. exists (p_data q). split; auto. apply N. eapply exchange_fetched; eauto.
Qed.

Lemma below_pm st l : below st l -> (rank l <= 1)%nat -> forall x b, below ((l, b, x) :: st) LPm.
Proof.
  intros B R x b. constructor; [cbn; lia|]. eapply Forall_impl; [|exact B]. cbn. intros; lia.
Qed.

Lemma mixed_of P c x a b : good P c a -> good P c b ->
  (forall i f, nth_error (fields x) i = Some f -> nth_error (fields a) i = Some f \/ nth_error (fields b) i = Some f) ->
  mixed P c x.
Proof. intros A B H i f N. destruct (H i f N); eauto. Qed.
Lemma mixed_good P c x : good P c x -> mixed P c x.
Proof. intros G. eapply mixed_of; eauto. Qed.

(** Storing a record field by field. *)
Definition stores (c : cache) (p : sproc unit) (v : rec) : Prop :=
  forall x st P, good P c x -> good P c v ->
  sp ((LC c, true, x) :: st) [] P p (fun st' kn' P' _ => st' = (LC c, true, v) :: st /\ kn' = [] /\ P' = P).
Lemma sp_update {T} st P c (t : shared -> Z) (inj : T -> rec) get put force :
  below st (LC c) ->
  (forall st' P', below st' LPm -> tidy st' P' get (brings c inj)) ->
  (forall v now, stores c (put v now) (inj v)) ->
  tidy st P (update_shape c t get put force) (fun _ _ => True).
Proof.
  intros B G S. unfold update_shape, with_lock, tidy. cbn [sp bind]. split; auto. intros x P1 S1 Gx now s P2 S2 _ _.
  specialize (Gx c eq_refl). apply (good_sub _ _ _ _ S2) in Gx.
  assert (E : forall y P3, sub P P3 -> good P3 c y -> sp ((LC c, true, y) :: st) [] P3 (Unlock (LC c) (Ret tt))
     (fun st' kn' P' _ => st' = st /\ kn' = [] /\ sub P P' /\ True)).
  { intros y P3 S3 Gy. cbn [sp]. exists y, st. splits; auto.
    - intros c' E. injection E as <-. auto.
    - discriminate.
    - intros P4 S4 _. splits; auto. eapply sub_trans; eauto. }
  assert (SP : sub P P2) by (eapply sub_trans; eauto).
  destruct (negb force && negb (isStale (t s) now)); [apply E; auto|].
  apply sp_bind. apply sp_bind. eapply sp_weaken; [|apply G; apply below_pm; auto].
  cbn beta. intros st' kn' P3 [v e] S3 (-> & -> & _ & Br). unfold brings in Br. cbn [fst snd] in *.
  apply (good_sub _ _ _ _ S3) in Gx. assert (SP3 : sub P P3) by (eapply sub_trans; eauto).
  destruct e as [e|]; [apply E; auto|].
  eapply sp_weaken; [|apply S; auto]. cbn beta. intros st' kn' P4 [] S4 (-> & -> & ->). apply E; auto.
Qed.
Ltac mix Gx Gv :=
  first [ apply mixed_good; assumption
        | eapply (mixed_of _ _ _ _ _ Gx Gv); intros i f N;
          destruct i as [|[|[|[|[|[|[|[|[|[|[|[|i]]]]]]]]]]]]; cbn in N |- *; auto; try discriminate; destruct i; discriminate ].
Tactic Notation "stored" integer(n) :=
  intros x st P Gx Gv; pose proof (good_kind _ _ _ Gx) as K; destruct x as [x|x|x|x|x|x]; try contradiction; clear K; destruct x;
  do n (cbn [sp]; do 4 eexists; split; [reflexivity|]; split; [intros s E; cbn in E |- *; injection E as E; try rewrite E; cbn; reflexivity|];
    split; [intros s [] N; try reflexivity; congruence|]; split; [mix Gx Gv|]).
Lemma stores_boot v now : stores CBoot (assign_boot v (Put (on_boot_t now) (Ret tt))) (VBoot v).
Proof. destruct v. unfold assign_boot. cbn. stored 5. cbn. auto. Qed.
Lemma stores_bypass v now : stores CBypass (assign_bypass v (Put (on_bypass_t now) (Ret tt))) (VBypass v).
Proof. destruct v. unfold assign_bypass. cbn. stored 5. cbn. auto. Qed.
Lemma stores_temp v now : stores CTemp (assign_temp v (Put (on_temp_t now) (Ret tt))) (VTemp v).
Proof. destruct v. unfold assign_temp. cbn. stored 9. cbn. auto. Qed.
Lemma stores_fans v now : stores CFans (assign_fans v (Put (on_fans_t now) (Ret tt))) (VFans v).
Proof. destruct v. unfold assign_fans. cbn. stored 5. cbn. auto. Qed.
Lemma stores_prof v now : stores CProf (assign_prof v (Put (on_prof_t now) (Ret tt))) (VProf v).
Proof. destruct v. unfold assign_prof. cbn. stored 13. cbn. auto. Qed.
Lemma stores_err v now : stores CErr (assign_err v (Put (on_err_t now) (Ret tt))) (VErr v).
Proof. destruct v. unfold assign_err. cbn. stored 2. cbn. auto. Qed.

Lemma tidy_update st P c force : below st (LC c) -> tidy st P (Update c force) (fun _ _ => True).
Proof.
  intros B. destruct c.
  - apply (sp_update st P CBoot sh_boot_t VBoot GetBootloader (fun v now => assign_boot v (Put (on_boot_t now) (Ret tt)))); auto using stores_boot.
    intros. eapply tidy_fetch with (rinj := RBoot); eauto using boot_total. intros l v D. cbn. rewrite D. auto.
  - apply (sp_update st P CBypass sh_bypass_t VBypass GetBypass (fun v now => assign_bypass v (Put (on_bypass_t now) (Ret tt)))); auto using stores_bypass.
    intros. eapply tidy_fetch with (rinj := RBypass); eauto using bypass_total. intros l v D. cbn. rewrite D. auto.
  - apply (sp_update st P CTemp sh_temp_t VTemp GetTemperatures (fun v now => assign_temp v (Put (on_temp_t now) (Ret tt)))); auto using stores_temp.
    intros. eapply tidy_fetch with (rinj := RTemps); eauto using temps_total. intros l v D. cbn. rewrite D. auto.
  - apply (sp_update st P CFans sh_fans_t VFans GetFans (fun v now => assign_fans v (Put (on_fans_t now) (Ret tt)))); auto using stores_fans.
    intros. eapply tidy_fetch with (rinj := RFans); eauto using fans_total. intros l v D. cbn. rewrite D. auto.
  - apply (sp_update st P CProf sh_prof_t VProf GetFanProfiles (fun v now => assign_prof v (Put (on_prof_t now) (Ret tt)))); auto using stores_prof.
    intros. eapply tidy_fetch with (rinj := RProf); eauto using prof_total. intros l v D. cbn. rewrite D. auto.
  - apply (sp_update st P CErr sh_err_t VErr GetErrors (fun v now => assign_err v (Put (on_err_t now) (Ret tt)))); auto using stores_err.
    intros. eapply tidy_fetch with (rinj := RErrors); eauto using errors_total. intros l v D. cbn. rewrite D. auto.
Qed.

(** ** the server *)
Lemma below_nil l : below [] l. Proof. constructor. Qed.
Global Hint Resolve below_nil : core.
Lemma tidy_then {B} st P (p : sproc unit) (q : sproc B) R :
  tidy st P p (fun _ _ => True) -> (forall P', sub P P' -> tidy st P' q R) -> tidy st P (do _ <- p; q) R.
Proof. intros H F. eapply tidy_bind; [exact H|]. intros _ P' S _. auto. Qed.
Lemma tidy_caches st P force : (forall c, below st (LC c)) -> tidy st P (UpdateCaches force) (fun _ _ => True).
Proof.
  intros B. unfold UpdateCaches. repeat (apply tidy_then; [apply tidy_update; auto|]; intros). apply tidy_update. auto.
Qed.
Lemma tidy_tick P t : tidy [] P (on_tick t) (fun _ _ => True).
Proof. destruct t; cbn [on_tick]; (apply tidy_then; [apply tidy_update; auto|]; intros; apply tidy_update; auto). Qed.
Lemma tidy_flush P c : tidy [] P (FlushCaches_body c) (fun _ b => b = flush_known c).
Proof.
  unfold FlushCaches_body, flush_known.
  destruct (c =? TBootInfo) eqn:E0; [|destruct (c =? TBypass) eqn:E1; [|destruct (c =? TFans) eqn:E2;
    [|destruct (c =? TTemps) eqn:E3; [|destruct (c =? TProfiles) eqn:E4; [|destruct (c =? TAll) eqn:E5]]]]];
  try (apply tidy_then; [first [apply tidy_update; auto | apply tidy_caches; auto]|]; intros; apply tidy_ret; cbn; rewrite ?orb_true_r; reflexivity).
  apply tidy_ret. reflexivity.
Qed.

Lemma mixed_field P c x i f : mixed P c x -> nth_error (fields x) i = Some f ->
  exists y, good P c y /\ kind c y /\ nth_error (fields y) i = Some f.
Proof. intros M N. destruct (M i f N) as (y & G & E). exists y. splits; auto. eapply good_kind; eauto. Qed.

(** What an answer says about fetched records. *)
Definition answer (P : pool) (r : rpc) (a : resp) : Prop :=
  match r, a with
  | SetComfortTempR t, RespComfort _ o t' => t' = t /\ exists v, good P CTemp (VTemp v) /\ o = f32_to_u32 (Comfort v)
  | SetFanSpeedR _ _, RespSpeed b o t =>
      1 <= t <= 4 /\ (exists v, good P CProf (VProf v) /\ o = u32 (CurrentMode v)) /\
      (b = true -> exists p fi fo, good P CProf (VProf p) /\ good P CFans (VFans fi) /\ good P CFans (VFans fo) /\
         InPercent fi = in_percent p t /\ OutPercent fo = out_percent p t)
  | SetFanProfileR m t, RespProfile _ o t' => t' = t /\ exists v, good P CProf (VProf v) /\ o = u32 (in_percent v (u8 m))
  | SetComfortTempR _, RespErr _ | SetFanSpeedR _ _, RespErr _ | SetFanProfileR _ _, RespErr _ => True
  | GetBootInfo, _ => exists x, good P CBoot x /\ a = umsg x
  | GetBypassRPC, _ => exists x, good P CBypass x /\ a = umsg x
  | GetErrorsRPC, _ => exists x, good P CErr x /\ a = umsg x
  | GetFansRPC, _ => exists x, good P CFans x /\ a = umsg x
  | GetFanProfilesRPC, _ => exists x, good P CProf x /\ a = umsg x
  | GetTempsRPC, _ => exists x, good P CTemp x /\ a = umsg x
  | FlushCacheR c, RespFlush b => b = flush_known c
  | _, _ => False
  end.
Lemma answer_sub P P' r a : sub P P' -> answer P r a -> answer P' r a.
Proof.
  intros S. pose proof (good_sub P P') as G.
  destruct r; cbn [answer]; try (intros (x & H & E); exists x; split; eauto; fail); destruct a; auto.
  - intros (E & v & H & F). split; auto. exists v. eauto.
  - intros (R & (v & H & F) & K). split; [auto|]. split; [exists v; eauto|].
    intros B. destruct (K B) as (p & fi & fo & H1 & H2 & H3 & E1 & E2). exists p, fi, fo. splits; eauto.
  - intros (E & v & H & F). split; auto. exists v. eauto.
Qed.

Lemma tidy_getters P c : tidy [] P (handle (getter_rpc c)) (fun P' a => exists x, good P' c x /\ a = umsg x).
Proof.
  unfold tidy. destruct c; cbn [getter_rpc handle boot_Protobuf bypass_Protobuf temp_Protobuf fans_Protobuf prof_Protobuf err_Protobuf
    with_lock bind sp]; (split; [auto|]; intros x P0 S0 G0; specialize (G0 _ eq_refl);
    repeat (intros ? ? ?Sx ?Vx _);
    eexists _, []; split; [reflexivity|]; split; [intros c' E; injection E as <-; eauto 20 using good_sub|]; split; [discriminate|];
    intros ? Se _; split; [auto|]; split; [auto|]; split; [eauto 30 using sub_trans|];
    exists x; split; [eauto 20 using good_sub|];
    repeat match goal with V : sees _ _ |- _ => specialize (V _ _ _ (or_introl eq_refl)) end;
    pose proof (good_kind _ _ _ G0) as K; destruct x as [x|x|x|x|x|x]; try contradiction; cbn [cached] in *;
    repeat match goal with V : _ = _ |- _ => injection V as V end; subst; cbn [umsg]; congruence).
Qed.
Lemma tidy_get {A} st P (k : shared -> sproc A) R :
  (forall s P', sub P P' -> sees st s -> all_mixed P' s -> tidy st P' (k s) R) -> tidy st P (Get k) R.
Proof.
  intros H. unfold tidy. cbn [sp]. intros s P' S V M. eapply sp_weaken; [|apply H; auto].
  cbn. intros st' kn' P2 a S2 (-> & -> & S3 & X). splits; auto. eapply sub_trans; eauto.
Qed.
Lemma fan_in P s : all_mixed P s -> exists f, good P CFans (VFans f) /\ InPercent f = InPercent (sh_fans s).
Proof.
  intros M. destruct (mixed_field _ _ _ 0%nat _ (M CFans) eq_refl) as (y & G & K & E).
  destruct y; try contradiction. cbn in E. injection E as E. eauto.
Qed.
Lemma fan_out P s : all_mixed P s -> exists f, good P CFans (VFans f) /\ OutPercent f = OutPercent (sh_fans s).
Proof.
  intros M. destruct (mixed_field _ _ _ 1%nat _ (M CFans) eq_refl) as (y & G & K & E).
  destruct y; try contradiction. cbn in E. injection E as E. eauto.
Qed.
Definition polled (i o : Z) (P : pool) (r : option srv_err) : Prop :=
  r = None -> exists fi fo, good P CFans (VFans fi) /\ good P CFans (VFans fo) /\ InPercent fi = i /\ OutPercent fo = o.
Lemma tidy_poll n i o st : below st (LC CFans) -> forall P, tidy st P (poll_loop n i o) (polled i o).
Proof.
  intros B. induction n as [|n IH]; intros P; cbn [poll_loop].
  { apply tidy_ret. intros H. discriminate. }
  apply tidy_then; [apply tidy_update; auto|]. intros P1 S1. apply tidy_get. intros s P2 S2 _ M2.
  destruct (Z.eqb_spec (InPercent (sh_fans s)) i) as [E1|]; [|apply IH].
  apply tidy_get. intros s' P3 S3 _ M3.
  destruct (Z.eqb_spec (OutPercent (sh_fans s')) o) as [E2|]; [|apply IH].
  apply tidy_ret. intros _. destruct (fan_in _ _ M2) as (fi & G1 & F1). destruct (fan_out _ _ M3) as (fo & G2 & F2).
  exists fi, fo. splits; auto; [eapply good_sub; eauto|congruence|congruence].
Qed.
Lemma in_out_lookup p v : 1 <= v <= 4 -> Lookup p v = (in_percent p v, out_percent p v, None).
Proof. intros H. assert (v = 1 \/ v = 2 \/ v = 3 \/ v = 4) as [->|[->|[->| ->]]] by lia; reflexivity. Qed.
Lemma tidy_updpoll n v st P : 1 <= v <= 4 -> below st (LC CProf) ->
  tidy st P (UpdatePoll n v) (fun P' r => r = None -> exists p fi fo, good P' CProf (VProf p) /\
     good P' CFans (VFans fi) /\ good P' CFans (VFans fo) /\ InPercent fi = in_percent p v /\ OutPercent fo = out_percent p v).
Proof.
  intros V B. unfold UpdatePoll, tidy. cbn [sp]. split; auto. split; [eauto|]. intros x P1 S1 G1 s P2 S2 Se _.
  specialize (G1 _ eq_refl). specialize (Se _ _ _ (or_introl eq_refl)). cbn [cached] in Se. subst x.
  rewrite in_out_lookup by auto. cbn [sp]. eexists _, st. split; [reflexivity|].
  eapply sp_weaken; [|apply (tidy_poll n _ _ st B)].
  cbn. intros st' kn' P3 a S3 (-> & -> & _ & X). splits; auto; [eapply sub_trans; eauto; eapply sub_trans; eauto|].
  intros E. destruct (X E) as (fi & fo & H). exists (sh_prof s), fi, fo. split; auto.
  eapply good_sub; [|exact G1]. eapply sub_trans; eauto.
Qed.

Lemma tidy_fanprofile m v st P : below st LAm -> tidy st P (SetFanProfile m v) (fun _ _ => True).
Proof.
  intros B. unfold SetFanProfile. destruct (m >? 3); [apply tidy_ret; exact I|].
  destruct (v >? 100); [apply tidy_ret; exact I|].
  apply tidy_lock; auto; try discriminate. intros x P' S.
  assert (B2 : below ((LAm, true, x) :: st) LPm) by (apply below_pm; auto).
  eapply tidy_bind; [eapply tidy_getter with (inj := RProf); eauto using prof_total; exact (may_get CProf)|].
  intros [fp e] P2 S2 _. destruct e; [apply tidy_ret; exact I|]. apply tidy_setQuery; auto using may_profiles_set.
Qed.

Lemma prof_mode P s : all_mixed P s -> exists v, good P CProf (VProf v) /\ CurrentMode v = CurrentMode (sh_prof s).
Proof.
  intros M. destruct (mixed_field _ _ _ 11%nat _ (M CProf) eq_refl) as (y & G & K & E).
  destruct y; try contradiction. cbn in E. injection E as E. eauto.
Qed.
Lemma temp_comfort P s : all_mixed P s -> exists v, good P CTemp (VTemp v) /\ Comfort v = Comfort (sh_temp s).
Proof.
  intros M. destruct (mixed_field _ _ _ 0%nat _ (M CTemp) eq_refl) as (y & G & K & E).
  destruct y; try contradiction. cbn in E. injection E as E. eauto.
Qed.
Lemma prof_field P s v : all_mixed P s -> 1 <= v <= 4 ->
  exists p, good P CProf (VProf p) /\ in_percent p v = in_percent (sh_prof s) v.
Proof.
  intros M V. assert (v = 1 \/ v = 2 \/ v = 3 \/ v = 4) as [->|[->|[->| ->]]] by lia.
  - destruct (mixed_field _ _ _ 5%nat _ (M CProf) eq_refl) as (y & G & K & E).
    destruct y; try contradiction. cbn in E. injection E as E. eauto.
  - destruct (mixed_field _ _ _ 6%nat _ (M CProf) eq_refl) as (y & G & K & E).
    destruct y; try contradiction. cbn in E. injection E as E. eauto.
  - destruct (mixed_field _ _ _ 7%nat _ (M CProf) eq_refl) as (y & G & K & E).
    destruct y; try contradiction. cbn in E. injection E as E. eauto.
  - destruct (mixed_field _ _ _ 8%nat _ (M CProf) eq_refl) as (y & G & K & E).
    destruct y; try contradiction. cbn in E. injection E as E. eauto.
Qed.
Lemma one_below l x b l' : (rank l < rank l')%nat -> below [(l, b, x)] l'.
Proof. intros H. constructor; auto. Qed.

Lemma tidy_comfort P t : tidy [] P (handle (SetComfortTempR t)) (fun P' a => answer P' (SetComfortTempR t) a).
Proof.
  cbn [handle]. unfold SetComfortTemp. apply tidy_get. intros s P1 S1 _ M.
  destruct (temp_comfort _ _ M) as (v & G & E). rewrite <- E.
  destruct (t >? 255); [apply tidy_ret; exact I|]. destruct (negb _).
  - apply tidy_lock; auto; try discriminate; [intros; eapply answer_sub; eauto|]. intros x P2 S2.
    eapply tidy_bind; [apply tidy_setQuery; [apply one_below; cbn; lia|apply may_comfort_set; apply Z.mod_pos_bound; lia]|]. intros e P3 S3 _.
    destruct e; [apply tidy_ret; exact I|]. apply tidy_then; [apply tidy_update; apply one_below; cbn; lia|].
    intros P4 S4. apply tidy_ret. cbn. split; auto. exists v. split; auto.
    eapply good_sub; [|exact G]. eapply sub_trans; [exact S2|]. eapply sub_trans; eauto.
  - apply tidy_ret. cbn. eauto.
Qed.
Lemma tidy_speed P a b : tidy [] P (handle (SetFanSpeedR a b)) (fun P' r => answer P' (SetFanSpeedR a b) r).
Proof.
  cbn [handle]. unfold SetFanSpeed. apply tidy_lock; auto; try discriminate; [intros; eapply answer_sub; eauto|].
  intros x P1 S1. apply tidy_get. intros s P2 S2 _ M. destruct (prof_mode _ _ M) as (p0 & G0 & E0).
  destruct (modifySpeed (CurrentMode (sh_prof s)) a b) as [tgt [e|]] eqn:T; [apply tidy_ret; exact I|].
  apply modify_range in T. assert (U : u8 tgt = tgt) by (apply Z.mod_small; lia).
  assert (U2 : u32 tgt = tgt) by (apply Z.mod_small; lia). rewrite U, U2, <- E0.
  destruct (negb (tgt =? CurrentMode p0)).
  - eapply tidy_bind; [apply tidy_setQuery; [apply one_below; cbn; lia|apply may_speed_set; auto]|]. intros e P3 S3 _.
    destruct e; [apply tidy_ret; exact I|].
    eapply tidy_bind; [apply tidy_updpoll; auto; apply one_below; cbn; lia|]. intros e P4 S4 H. cbn beta in H.
    destruct e as [e|]; [apply tidy_ret; exact I|]. destruct (H eq_refl) as (p & fi & fo & H1 & H2 & H3 & H4 & H5).
    apply tidy_then; [apply tidy_update; apply one_below; cbn; lia|].
    intros P5 S5. apply tidy_ret. cbn. split; auto. split.
    + exists p0. split; auto. eapply good_sub; [|exact G0]. eapply sub_trans; [exact S3|]. eapply sub_trans; eauto.
    + intros _. exists p, fi, fo. splits; eauto using good_sub.
  - apply tidy_ret. cbn. split; auto. split; [eauto|]. discriminate.
Qed.
Lemma tidy_profile P m t : tidy [] P (handle (SetFanProfileR m t)) (fun P' r => answer P' (SetFanProfileR m t) r).
Proof.
  cbn [handle]. unfold SetFanProfileRPC.
  destruct ((u8 m <? 1) || (u8 m >? 4)) eqn:R; [apply tidy_ret; exact I|].
  destruct ((u8 t <? 15) || (u8 t >? 100)) eqn:R2; [apply tidy_ret; exact I|].
  apply tidy_lock; auto; try discriminate; [intros; eapply answer_sub; eauto|].
  intros x P1 S1. apply tidy_get. intros s P2 S2 _ M.
  apply orb_false_iff in R as [R3 R4]. assert (V : 1 <= u8 m <= 4) by lia.
  destruct (prof_field _ _ _ M V) as (p & G & E).
  assert (H : forall o, o = in_percent (sh_prof s) (u8 m) ->
    tidy [(LFan, true, x)] P2 (if negb (o =? u8 t) then
        do e <- SetFanProfile (u8 (u8 m - 1)) (u8 t);
        match e with
        | Some e => Ret (RespErr (Internal (LibErr e)))
        | None => do _ <- Update CProf true; Ret (RespProfile true (u32 o) t)
        end
      else Ret (RespProfile false (u32 o) t)) (fun P' r => answer P' (SetFanProfileR m t) r)).
  { intros o ->. rewrite <- E. destruct (negb _).
    - eapply tidy_bind; [apply tidy_fanprofile; apply one_below; cbn; lia|]. intros e P3 S3 _.
      destruct e; [apply tidy_ret; exact I|]. apply tidy_then; [apply tidy_update; apply one_below; cbn; lia|].
      intros P4 S4. apply tidy_ret. cbn. split; auto. exists p. split; auto. eapply good_sub; [|exact G]. eapply sub_trans; eauto.
    - apply tidy_ret. cbn. eauto. }
  assert (u8 m = 1 \/ u8 m = 2 \/ u8 m = 3 \/ u8 m = 4) as [V1|[V1|[V1|V1]]] by lia; rewrite V1 in *; apply H; reflexivity.
Qed.

Lemma tidy_rpc P r : (forall c, r <> FlushCacheR c) -> tidy [] P (handle r) (fun P' a => answer P' r a).
Proof.
  intros N. destruct r; auto using tidy_comfort, tidy_speed, tidy_profile; try apply (tidy_getters P _).
  - apply (tidy_getters P CBoot).
  - apply (tidy_getters P CBypass).
  - apply (tidy_getters P CErr).
  - apply (tidy_getters P CFans).
  - apply (tidy_getters P CProf).
  - apply (tidy_getters P CTemp).
  - destruct (N c eq_refl).
Qed.
