(** The calls of the library keep the packet lock, or the profile lock, from beginning to end. *)
From Coq Require Import Permutation.
From Verif Require Import ProofBase Proto SpecProto SpecFrame SpecConn SpecLayout ProtoProofs Scanner Conn ReadProofs Proc Lib QueryProofs
  FrameLemmas LayoutProofs OpLemmas Server ServerProofs ServerLemmas Machine SpecMachine MachineBase MachineInv Atomic.

Section L.
Context (L : lockid).

(** Like [inside], [Q] says what is returned. *)
Fixpoint ends {B} (h : held) (p : sproc B) (Q : B -> Prop) : Prop :=
  match p with
  | Ret _ | Crash => False
  | Lock l k => l <> L /\ ends ((l, true) :: h) k Q
  | Unlock l k => match h with
                  | [] => l = L /\ exists a, k = Ret a /\ Q a
                  | e :: h' => e = (l, true) /\ ends h' k Q
                  end
  | WriteC _ k => forall r, ends h (k r) Q
  | ReadC _ k => forall q e, ends h (k q e) Q
  | _ => False
  end.
Definition crit {B} (p : sproc B) (Q : B -> Prop) : Prop :=
  match p with Ret a => Q a | Lock l k => l = L /\ ends [] k Q | _ => False end.
(** A piece in between. *)
Fixpoint mid {B} (h : held) (p : sproc B) (Q : held -> B -> Prop) : Prop :=
  match p with
  | Ret a => Q h a
  | Lock l k => l <> L /\ mid ((l, true) :: h) k Q
  | Unlock l k => match h with [] => False | e :: h' => e = (l, true) /\ mid h' k Q end
  | WriteC _ k => forall r, mid h (k r) Q
  | ReadC _ k => forall q e, mid h (k q e) Q
  | _ => False
  end.
Lemma mid_bind {B C} (p : sproc B) (f : B -> sproc C) Q : forall h, mid h p (fun h' b => mid h' (f b) Q) -> mid h (bind p f) Q.
Proof.
  induction p as [a| |l k IH|l k IH|l k IH|l k IH|bs k IH|x k IH|k IH|g k IH|k IH|d k IH|c k IH|k IH|b k IH];
    intros h H; cbn [mid bind] in *; auto.
  - destruct H. auto.
  - destruct h; [auto|]. destruct H. auto.
Qed.
Lemma mid_weaken {B} (p : sproc B) (Q R : held -> B -> Prop) : (forall h b, Q h b -> R h b) -> forall h, mid h p Q -> mid h p R.
Proof.
  intros W. induction p as [a| |l k IH|l k IH|l k IH|l k IH|bs k IH|x k IH|k IH|g k IH|k IH|d k IH|c k IH|k IH|b k IH];
    intros h H; cbn [mid] in *; auto.
  - destruct H. auto.
  - destruct h; [auto|]. destruct H. auto.
Qed.
Lemma mid_ends {B C} (p : sproc B) (f : B -> sproc C) Q : forall h, mid h p (fun h' b => ends h' (f b) Q) -> ends h (bind p f) Q.
Proof.
  induction p as [a| |l k IH|l k IH|l k IH|l k IH|bs k IH|x k IH|k IH|g k IH|k IH|d k IH|c k IH|k IH|b k IH];
    intros h H; cbn [mid ends bind] in *; auto.
  - destruct H. auto.
  - destruct h; [contradiction|]. destruct H. auto.
Qed.
Lemma ends_bind {B C} (p : sproc B) (f : B -> sproc C) (Q : B -> Prop) (R : C -> Prop) :
  (forall a, Q a -> exists b, f a = Ret b /\ R b) -> forall h, ends h p Q -> ends h (bind p f) R.
Proof.
  intros F. induction p as [a| |l k IH|l k IH|l k IH|l k IH|bs k IH|x k IH|k IH|g k IH|k IH|d k IH|c k IH|k IH|b k IH];
    intros h H; cbn [ends bind] in *; auto; try contradiction.
  - destruct H. auto.
  - destruct h; [destruct H as (-> & a & -> & H)|destruct H as [-> H]; auto]. split; auto. cbn. auto.
Qed.
Lemma crit_bind {B C} (p : sproc B) (f : B -> sproc C) (Q : B -> Prop) (R : C -> Prop) :
  crit p Q -> (forall a, Q a -> exists b, f a = Ret b /\ R b) -> crit (bind p f) R.
Proof.
  intros H F. destruct p; cbn [crit bind] in *; try contradiction.
  - destruct (F a H) as (b & -> & K). exact K.
  - destruct H as [-> H]. split; auto. eapply ends_bind; eauto.
Qed.
Lemma ends_inside {B} (p : sproc B) Q : forall h, ends h p Q -> inside L h p.
Proof.
  induction p as [a| |l k IH|l k IH|l k IH|l k IH|bs k IH|x k IH|k IH|g k IH|k IH|d k IH|c k IH|k IH|b k IH];
    intros h H; cbn [ends inside] in *; auto.
  - destruct H. auto.
  - destruct h; [destruct H as (-> & a & -> & _); eauto|destruct H; auto].
Qed.
Lemma crit_critical {B} (p : sproc B) Q : crit p Q -> critical L p.
Proof. destruct p; cbn; auto. intros [-> H]. split; auto. eapply ends_inside; eauto. Qed.
End L.

(** What QueryPacket returns. *)
Definition matching (p : packet) (r : packet * option err) : Prop :=
  snd r = None -> p_expect p = true -> p_cmd (fst r) = u8 (p_cmd p + 1).
Definition qbody (p : packet) : sproc (packet * option err) :=
    do (_, e) <- WritePacket p;
    match e with
    | Some e => Ret (zero_packet, Some e)
    | None =>
        ReadC (p_expect p) (fun out e =>
          match e with
          | Some e => Ret (out, Some e)
          | None =>
              if p_expect p && negb (p_cmd out =? u8 (p_cmd p + 1))
              then Ret (out, Some ErrInvalidResponse)
              else do (_, e) <- WriteAck; Ret (out, e)
          end)
    end.
Lemma query_is p : QueryPacket p = with_lock LPm (qbody p).
Proof. reflexivity. Qed.
Lemma mid_qbody L h p : mid L h (qbody p) (fun h' r => h' = h /\ matching p r).
Proof.
  unfold qbody, WritePacket. rewrite marshal_wire. destruct (_ >? 255); cbn [lift bind mid].
  - split; auto. intros X. discriminate.
  - intros r. destruct (w_err r); cbn [bind mid]; [split; auto; intros X; discriminate|].
    intros q [e|]; cbn [mid]; [split; auto; intros X; discriminate|].
    destruct (p_expect p && negb (p_cmd q =? u8 (p_cmd p + 1))) eqn:E; cbn [mid]; [split; auto; intros X; discriminate|].
    unfold WriteAck. cbn [bind mid]. intros r2.
    assert (M : forall e, matching p (q, e)).
    { intros e _ X. cbn [fst]. rewrite X in E. cbn [andb] in E. apply negb_false_iff, Z.eqb_eq in E. auto. }
    destruct (w_err r2); [|destruct (negb (w_n r2 =? len pktAck))]; (split; [reflexivity|apply M]).
Qed.
Lemma crit_query p : crit LPm (QueryPacket p) (matching p).
Proof.
  rewrite query_is. unfold with_lock. cbn [crit]. split; auto. apply mid_ends. eapply mid_weaken; [|apply mid_qbody].
  cbn. intros h r [-> M]. eauto.
Qed.
Lemma mid_query L h p : L <> LPm -> mid L h (QueryPacket p) (fun h' r => h' = h /\ matching p r).
Proof.
  intros N. rewrite query_is. unfold with_lock. cbn [mid]. split; [congruence|]. apply mid_bind.
  eapply mid_weaken; [|apply mid_qbody]. cbn. intros h' r [-> M]. auto.
Qed.

(** Getters. *)
Section Get.
Context {T : Type} (gr : Z) (zero : T) (assert : Response -> option T) (inj : T -> Response) (dec : list byte -> outcome (T * option err))
  (Td : total_dec dec) (N0 : (u8 (gr + 1) =? 0) = false)
  (RT : ResponseType (u8 (gr + 1)) = Some (fun l => omap inj (dec l))) (As : forall v, assert (inj v) = Some v).
Definition fits (r : option Response * option err) : Prop := snd r = None -> exists v, fst r = Some (inj v).
Lemma decode_fits r : matching (EncodeGetRequest gr) r ->
  exists b, (let (qp, e) := r in match e with Some e => Ret (None, Some e) | None => lift (DecodeResponse qp) end) = Ret (S := shared) b /\ fits b.
Proof.
  intros M. destruct r as [q [e|]]; [eexists; split; [reflexivity|]; intros X; discriminate|].
  specialize (M eq_refl eq_refl). cbn [fst EncodeGetRequest p_cmd] in M. unfold DecodeResponse. rewrite M, N0, RT.
  destruct (Td (p_data q)) as (v & e & ->). cbn [omap obind lift]. eexists. split; [reflexivity|]. intros _. cbn. eauto.
Qed.
Lemma assert_fits b : fits b -> exists c,
  (let (resp, e) := b in
   match e with
  | Some e => Ret (zero, Some e)
  | None => match resp with
            | Some r => match assert r with Some v => Ret (v, None) | None => Crash end
            | None => Crash
            end
  end) = Ret (S := shared) c /\ True.
Proof.
  intros F. destruct b as [r [e|]]; [eauto|]. destruct (F eq_refl) as (v & E). cbn in E. subst r. rewrite As. eauto.
Qed.
Lemma crit_getter : crit LPm (getter gr zero assert) (fun _ => True).
Proof.
  unfold getter, getQuery. eapply crit_bind; [eapply crit_bind; [apply crit_query|]|].
  - intros r M. apply decode_fits. auto.
  - intros b F. apply assert_fits. auto.
Qed.
Lemma mid_getter L h : L <> LPm -> mid L h (getter gr zero assert) (fun h' _ => h' = h).
Proof.
  intros N. unfold getter, getQuery. apply mid_bind, mid_bind. eapply mid_weaken; [|apply mid_query; auto].
  cbn beta. intros h' r [-> M]. destruct (decode_fits r M) as (b & E & F). cbv beta in *. destruct r as [q e]. rewrite E. cbn [mid].
  destruct (assert_fits b F) as (c & E2 & _). destruct b as [r2 e2]. rewrite E2. reflexivity.
Qed.
End Get.
Lemma crit_set r : crit LPm (setQuery r) (fun _ => True).
Proof.
  unfold setQuery. destruct (EncodeSetRequest r) as [sr [e|]]; [exact I|].
  eapply crit_bind; [apply crit_query|]. intros [q e] _. eauto.
Qed.
Lemma mid_set L h r : L <> LPm -> mid L h (setQuery r) (fun h' _ => h' = h).
Proof.
  intros N. unfold setQuery. destruct (EncodeSetRequest r) as [sr [e|]]; [reflexivity|].
  apply mid_bind. eapply mid_weaken; [|apply mid_query; auto]. cbn. intros h' [q e] [-> _]. reflexivity.
Qed.

Lemma crit_calling k : crit LPm (calling k) (fun _ => True).
Proof.
  destruct k; cbn [calling]; (eapply crit_bind; [|intros a _; eauto]).
  - eapply crit_getter with (inj := RTemps); eauto using temps_total.
  - eapply crit_getter with (inj := RBypass); eauto using bypass_total.
  - eapply crit_getter with (inj := RFans); eauto using fans_total.
  - eapply crit_getter with (inj := RHours); eauto using hours_total.
  - eapply crit_getter with (inj := RBoot); eauto using boot_total.
  - eapply crit_getter with (inj := RBoot); eauto using boot_total.
  - eapply crit_getter with (inj := RProf); eauto using prof_total.
  - eapply crit_getter with (inj := RErrors); eauto using errors_total.
  - apply crit_set.
  - apply crit_set.
  - apply crit_set.
  - apply crit_query.
Qed.
Lemma crit_profile m v : crit LAm (SetFanProfile m v : sproc (option err)) (fun _ => True).
Proof.
  unfold SetFanProfile. destruct (m >? 3); [exact I|]. destruct (v >? 100); [exact I|]. unfold with_lock. cbn [crit]. split; auto.
  apply mid_ends. apply mid_bind. eapply mid_weaken; [|eapply mid_getter with (inj := RProf); eauto using prof_total; discriminate].
  cbn beta. intros h [fp e] ->. destruct e as [e|]; [cbn; eauto|]. eapply mid_weaken; [|apply mid_set; discriminate].
  cbn. intros h a ->. eauto.
Qed.

(** C38 *)
Lemma calls_serialised ks c s clk xs m rs : only_runs xs ->
  exec xs (spawn (map calling ks) (mkMem c s clk)) = Some m -> Forall2 (fun t r => t_p t = Ret r) (m_ts m) rs ->
  exists l, Permutation l (combine (map calling ks) rs) /\ one_by_one l c (g_conn (m_g m)).
Proof.
  intros O E F. assert (Cr : Forall (critical LPm) (map calling ks)).
  { apply Forall_forall. intros p I. apply in_map_iff in I as (k & <- & _). eapply crit_critical. apply crit_calling. }
  eapply (ainv_end LPm (map calling ks) c m rs); auto. eapply ainv_exec; eauto. apply ainv_init.
Qed.
(** C41 *)
Lemma profiles_serialised (mv : list (Z * Z)) c s clk xs m rs : only_runs xs ->
  let ps := map (fun x => SetFanProfile (fst x) (snd x)) mv in
  exec xs (spawn ps (mkMem c s clk)) = Some m -> Forall2 (fun t r => t_p t = Ret r) (m_ts m) rs ->
  exists l, Permutation l (combine ps rs) /\ one_by_one l c (g_conn (m_g m)).
Proof.
  intros O ps E F. assert (Cr : Forall (critical LAm) ps).
  { apply Forall_forall. intros p I. apply in_map_iff in I as (k & <- & _). eapply crit_critical. apply crit_profile. }
  eapply (ainv_end LAm ps c m rs); auto. eapply ainv_exec; eauto. apply ainv_init.
Qed.
