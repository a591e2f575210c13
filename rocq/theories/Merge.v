(** Concurrent changes on a unit. *)
From Coq Require Import Permutation.
From Verif Require Import ProofBase Proto SpecProto SpecFrame SpecConn SpecLayout ProtoProofs Scanner Conn FrameProofs ReplyProofs ReadProofs Proc Lib QueryProofs
  FrameLemmas LayoutProofs OpLemmas Server SpecServer SpecUnit UnitProofs UnitServer Machine SpecMachine MachineBase MachineInv Atomic AtomicCalls Sections SpecMerge.

Fixpoint tail {A} (k : sproc A) : Prop :=
  match k with
  | Unlock LPm (Ret _) => True
  | WriteC _ k => forall r, tail (k r)
  | ReadC _ k => forall q e, tail (k q e)
  | _ => False
  end.
Lemma tail_until {A} (k : sproc A) : forall w r w', tail k -> run k w = (RDone r, w') -> until k (w_conn w) = Some (Ret r, w_conn w').
Proof.
  induction k as [a| |l k IH|l k IH|l k IH|l k IH|bs k IH|x k IH|k IH|g k IH|k IH|d k IH|c k IH|k IH|b k IH];
    intros w r w' T R; cbn [tail] in T; try contradiction.
  - destruct l; try contradiction. destruct k; try contradiction. cbn [run until] in *.
    destruct (release _ _ _) in R; [|discriminate]. injection R as <- <-. reflexivity.
  - cbn [run until] in *. unfold do_write in R. destruct (conn_write (w_conn w) bs) as [r1 c1].
    apply (IH r1 (set_conn w c1) r w'); auto.
  - cbn [run until] in *. unfold do_read in R. destruct (ReadPacket (w_conn w) x) as [[[q e]|] c1]; [|discriminate].
    apply (IH q e (set_conn w (log_io c1 (Rd x q e))) r w'); auto.
Qed.
Lemma tail_query p : tail (bind (qbody p) (fun a => Unlock LPm (Ret a))).
Proof.
  unfold qbody, WritePacket. rewrite marshal_wire. destruct (_ >? 255); cbn [lift bind tail]; auto.
  intros r. destruct (w_err r); cbn [bind tail]; auto. intros q [e|]; cbn [bind tail]; auto.
  destruct (_ && _); cbn [bind tail]; auto. unfold WriteAck. cbn [bind tail]. intros r2.
  destruct (w_err r2); [|destruct (negb _)]; cbn [bind tail]; auto.
Qed.
Lemma until_query p c : until (bind (qbody p) (fun a => Unlock LPm (Ret a))) c = Some (Ret (fst (query p c)), snd (query p c)).
Proof.
  pose proof (run_query p (mkWorld c init_shared [] 0 [])  eq_refl) as R. rewrite query_is in R. unfold with_lock in R.
  cbn [run w_held can_lock holds negb andb existsb] in R.
  apply tail_until in R; [|apply tail_query]. exact R.
Qed.
Lemma sect_query p : sect false (QueryPacket p) (fun b r => b = false /\ matching p r).
Proof.
  rewrite query_is. unfold with_lock. cbn [sect]. split; auto. apply sect_bind.
  assert (X : sect true (qbody p) (fun b r => b = true /\ matching p r)).
  { unfold qbody, WritePacket. rewrite marshal_wire. destruct (_ >? 255); cbn [lift bind sect].
    - split; auto. intros X. discriminate.
    - split; auto. intros r. destruct (w_err r); cbn [bind sect]; [split; auto; intros X; discriminate|]. split; auto.
      intros q [e|]; cbn [sect]; [split; auto; intros X; discriminate|].
      destruct (p_expect p && negb (p_cmd q =? u8 (p_cmd p + 1))) eqn:E; cbn [sect]; [split; auto; intros X; discriminate|].
      unfold WriteAck. cbn [bind sect]. split; auto. intros r2.
      assert (M : forall e, matching p (q, e)).
      { intros e _ X. cbn [fst]. rewrite X in E. cbn [andb] in E. apply negb_false_iff, Z.eqb_eq in E. auto. }
      destruct (w_err r2); [|destruct (negb (w_n r2 =? len pktAck))]; (split; [reflexivity|apply M]). }
  eapply sect_weaken; [|exact X]. cbn. intros b a [-> M]. auto.
Qed.
Lemma sect_set r : sect false (setQuery r : sproc (option err)) T0.
Proof.
  unfold setQuery. destruct (EncodeSetRequest r) as [sr [e|]]; [reflexivity|]. apply sect_bind.
  eapply sect_weaken; [|apply sect_query]. cbn. intros b [q e] [-> _]. reflexivity.
Qed.
Lemma set_is r sr : EncodeSetRequest r = (sr, None) -> exists k, (setQuery r : sproc (option err)) = Lock LPm k /\
  forall c, until k c = Some (Ret (fst (setq r c)), snd (setq r c)).
Proof.
  intros E. unfold setQuery. rewrite E, query_is. unfold with_lock. cbn [bind]. eexists. split; [reflexivity|].
  intros c. erewrite until_bind by apply until_query. unfold setq. rewrite E. destruct (query sr c) as [[q e] c']. reflexivity.
Qed.
Lemma get_is : exists k, (GetFanProfiles : sproc _) = Lock LPm k /\
  forall c, until k c = Some (Ret (fst (getq 205 zeroProf FanProfiles_Unmarshal c)), snd (getq 205 zeroProf FanProfiles_Unmarshal c)).
Proof.
  unfold GetFanProfiles, getter, getQuery. rewrite query_is. unfold with_lock. cbn [bind]. eexists. split; [reflexivity|].
  intros c. erewrite until_bind by (eapply until_bind; apply until_query). unfold EncodeGetRequest, getFanProfiles, getq.
  destruct (query (mkPacket 205 [] true) c) as [[out e] c'] eqn:Q. cbn [fst snd bind].
  destruct e as [e|]; [reflexivity|]. apply query_cmd in Q; auto. cbn [p_cmd] in Q.
  unfold DecodeResponse. rewrite Q. change (u8 (205 + 1)) with 206. cbn [Z.eqb Pos.eqb ResponseType].
  destruct (prof_total (p_data out)) as (v & e & D). change (ResponseType 206) with (Some (fun l => omap RProf (FanProfiles_Unmarshal l))).
  cbv beta iota. rewrite D. cbn [omap obind lift bind]. destruct e; reflexivity.
Qed.
Lemma sect_get : sect false (GetFanProfiles : sproc _) T0.
Proof.
  unfold GetFanProfiles, getter, getQuery. apply sect_bind, sect_bind. eapply sect_weaken; [|apply sect_query].
  cbn beta. intros b r [-> M].
  destruct (decode_fits getFanProfiles RProf FanProfiles_Unmarshal prof_total eq_refl eq_refl r M) as (d & E & F). destruct r as [q e]. rewrite E. cbn [sect].
  destruct (assert_fits zeroProf (fun r => match r with RProf v => Some v | _ => None end) RProf (fun v => eq_refl) d F) as (x & E2 & _).
  destruct d as [r2 e2]. rewrite E2. reflexivity.
Qed.

(** ** the programs *)
Definition unl (a : option err) : sproc (option err) := Unlock LAm (Ret a).
Definition store (m v : Z) (fp : FanProfiles) : sproc (option err) := setQuery (SRProfiles (change_profile m v fp)).
Definition body (m v : Z) : sproc (option err) :=
  do (cfp, e) <- GetFanProfiles; match e with Some e => Ret (Some e) | None => store m v cfp end.
Lemma one_is m v : 0 <= m <= 3 -> 0 <= v <= 100 -> (SetFanProfile m v : sproc _) = Lock LAm (bind (body m v) unl).
Proof. intros M V. unfold SetFanProfile. replace (m >? 3) with false by lia. replace (v >? 100) with false by lia. reflexivity. Qed.
Lemma sect_changing x : sect false (changing x) T0.
Proof.
  destruct x as [m v|p|v|t]; try apply sect_set. cbn [changing]. unfold SetFanProfile.
  destruct (m >? 3); [reflexivity|]. destruct (v >? 100); [reflexivity|]. unfold with_lock. cbn [sect is_pm]. split; auto.
  apply sect_bind. apply sect_bind. eapply sect_weaken; [|apply sect_get]. intros b [fp [e|]] ->; [split; reflexivity|]. cbn beta iota.
  eapply sect_weaken; [|apply sect_set]. intros b a ->. split; reflexivity.
Qed.
Lemma body_is m v : exists k, bind (body m v) unl = Lock LPm k /\
  forall c, until k c = Some (match snd (fst (getq 205 zeroProf FanProfiles_Unmarshal c)) with
      | Some e => unl (Some e)
      | None => bind (store m v (fst (fst (getq 205 zeroProf FanProfiles_Unmarshal c)))) unl end,
    snd (getq 205 zeroProf FanProfiles_Unmarshal c)).
Proof.
  destruct get_is as (k & E & U). unfold body. rewrite E. cbn [bind]. eexists. split; [reflexivity|]. intros c.
  erewrite until_bind by (eapply until_bind; apply U). cbn [bind].
  destruct (fst (getq 205 zeroProf FanProfiles_Unmarshal c)) as [fp [e|]]; reflexivity.
Qed.

Inductive phase := Todo | Locked | Got (fp : FanProfiles) | Wrote | Finished.
Definition over (ph : phase) : bool := match ph with Wrote | Finished => true | _ => false end.
Definition inner (ph : phase) : bool := match ph with Locked | Got _ | Wrote => true | _ => false end.
Definition shows (x : change) (ph : phase) (t : thread (option err)) : Prop :=
  match ph with
  | Todo => t = mkThread (changing x) []
  | Locked => exists m v, x = One m v /\ t = mkThread (bind (body m v) unl) [(LAm, true)]
  | Got fp => exists m v, x = One m v /\ t = mkThread (bind (store m v fp) unl) [(LAm, true)]
  | Wrote => is_one x = true /\ t = mkThread (unl None) [(LAm, true)]
  | Finished => t = mkThread (Ret None) []
  end.
Fixpoint did (xs : list change) (phs : list phase) : list change :=
  match xs, phs with x :: xs, ph :: phs => (if over ph then [x] else []) ++ did xs phs | _, _ => [] end.
Lemma did_set : forall xs phs i x ph ph', nth_error xs i = Some x -> nth_error phs i = Some ph -> over ph = false -> over ph' = true ->
  Permutation (x :: did xs phs) (did xs (set_nth i ph' phs)).
Proof.
  induction xs as [|y xs IH]; intros [|p phs] [|i] x ph ph' N P O O'; cbn in *; try discriminate.
  - injection N as ->. injection P as ->. rewrite O, O'. reflexivity.
  - specialize (IH phs i x ph ph' N P O O'). destruct (over p); cbn; auto. rewrite <- IH. apply perm_swap.
Qed.
Lemma did_same : forall xs phs i ph ph', nth_error phs i = Some ph -> over ph = over ph' -> did xs (set_nth i ph' phs) = did xs phs.
Proof.
  induction xs as [|y xs IH]; intros [|p phs] [|i] ph ph' P O; cbn in *; try discriminate; auto.
  - injection P as ->. rewrite O. auto.
  - erewrite IH; eauto.
Qed.

Section Unit.
Context (lo : Z) (rel good : bool) (u0 : vent) (xs : list change) (OkX : Forall (change_ok lo) xs).
Definition wrong (t : thread (option err)) : Prop :=
  t_p t = Crash \/ exists e, t_p t = Ret (Some e) \/ t_p t = unl (Some e).
Definition failed (ts : list (thread (option err))) : Prop := exists i t, nth_error ts i = Some t /\ wrong t.
Definition fetched_at (l : list change) (fp : FanProfiles) : Prop :=
  exists l1 l2 u pl, l = l1 ++ l2 /\ Forall (fun x => is_one x = false) l2 /\ merges u0 l1 u /\ vent_ok lo u /\
    describes u pl /\ FanProfiles_Unmarshal pl = Done (fp, None).
Definition minv (ts : list (thread (option err))) (c : conn) : Prop := (failed ts /\ good = false) \/ exists phs l u,
  length phs = length xs /\ length ts = length xs /\
  (forall i x ph t, nth_error xs i = Some x -> nth_error phs i = Some ph -> nth_error ts i = Some t -> shows x ph t) /\
  (forall i j p q, nth_error phs i = Some p -> nth_error phs j = Some q -> inner p = true -> inner q = true -> i = j) /\
  Permutation l (did xs phs) /\ merges u0 l u /\ unit_at lo rel u (c_dev c) /\ vent_ok lo u /\ quiet c /\
  (forall i fp, nth_error phs i = Some (Got fp) -> fetched_at l fp) /\ (good = true -> rel = true /\ clear (c_dev c)).

Lemma failed_step ts c ts' c' : failed ts -> bstep ts c ts' c' -> failed ts'.
Proof.
  intros (i & t & N & W) S. assert (X : forall j q h, nth_error ts j = Some (mkThread q h) -> forall t',
    (j = i -> wrong t') -> failed (set_nth j t' ts)).
  { intros j q h Nj t' H. destruct (Nat.eq_dec j i) as [->|D].
    - exists i, t'. split; auto. eapply nth_set_same; eauto.
    - exists i, t. split; auto. rewrite nth_set_other; auto. }
  destruct S; eapply X; eauto; intros ->; rewrite N in *; match goal with H : Some _ = Some _ |- _ => injection H as -> end;
    unfold wrong, unl in W; cbn [t_p] in W; destruct W as [W|(e & [W|W])]; try discriminate; injection W as -> ->;
    unfold wrong; cbn; eauto.
Qed.
Lemma replace_failed ts i t t' : nth_error ts i = Some t -> wrong t' -> failed (set_nth i t' ts).
Proof. intros N W. exists i, t'. split; auto. eapply nth_set_same; eauto. Qed.

(** one thread moves to another phase *)
Lemma shows_move phs ts i x ph' t' : length phs = length xs -> length ts = length xs ->
  (forall i x ph t, nth_error xs i = Some x -> nth_error phs i = Some ph -> nth_error ts i = Some t -> shows x ph t) ->
  nth_error xs i = Some x -> shows x ph' t' ->
  length (set_nth i ph' phs) = length xs /\ length (set_nth i t' ts) = length xs /\
  forall j x ph t, nth_error xs j = Some x -> nth_error (set_nth i ph' phs) j = Some ph -> nth_error (set_nth i t' ts) j = Some t -> shows x ph t.
Proof.
  intros Lp Lt Sh N S'. rewrite !set_nth_length. splits; auto. intros j y ph t Nj Np Nt.
  apply nth_set_cases in Np as [(<- & -> & _)|[D Np]].
  - apply nth_set_cases in Nt as [(_ & -> & _)|[D Nt]]; [|contradiction]. congruence.
  - rewrite nth_set_other in Nt by auto. eauto.
Qed.
Lemma inner_move phs i ph ph' : (forall i j p q, nth_error phs i = Some p -> nth_error phs j = Some q -> inner p = true -> inner q = true -> i = j) ->
  nth_error phs i = Some ph -> (inner ph' = true -> inner ph = true \/ forall j q, nth_error phs j = Some q -> inner q = false) ->
  forall a b p q, nth_error (set_nth i ph' phs) a = Some p -> nth_error (set_nth i ph' phs) b = Some q -> inner p = true -> inner q = true -> a = b.
Proof.
  intros Ex N H a b p q Na Nb Ia Ib.
  apply nth_set_cases in Na as [(<- & -> & _)|[Da Na]]; apply nth_set_cases in Nb as [(<- & -> & _)|[Db Nb]]; auto.
  - destruct (H Ia) as [X|X]; [eauto|]. rewrite (X _ _ Nb) in Ib. discriminate.
  - destruct (H Ib) as [X|X]; [eauto|]. rewrite (X _ _ Na) in Ia. discriminate.
  - eauto.
Qed.
Lemma set_clear r c : clear (c_dev c) -> clear (c_dev (snd (setq r c))).
Proof.
  intros C. unfold setq. destruct (EncodeSetRequest r) as [p [e|]]; [exact C|]. pose proof (clear_query p c C) as X.
  destruct (query p c) as [[q e] c']. exact X.
Qed.
Lemma get_clear c : clear (c_dev c) -> clear (c_dev (snd (getq 205 zeroProf FanProfiles_Unmarshal c))).
Proof.
  intros C. unfold getq. pose proof (clear_query (mkPacket 205 [] true) c C) as X. destruct (query _ c) as [[q [e|]] c']; [exact X|].
  destruct (FanProfiles_Unmarshal (p_data q)) as [[v [e|]]|]; exact X.
Qed.
Lemma set_sure u c r cmd data u1 : EncodeSetRequest r = (mkPacket cmd data false, None) -> serves lo u cmd data u1 [7; 243] ->
  (length data <= 255)%nat -> unit_at lo rel u (c_dev c) -> quiet c -> rel = true -> fst (setq r c) = None.
Proof.
  intros E S L U Q N. destruct (setq_unit lo rel r cmd data c u u1 E U S L) as (u' & e & c' & X & _ & _ & _ & _ & Ok).
  rewrite X. cbn. auto.
Qed.
(** what a successful write does *)
Lemma write_step u c r cmd data u1 : EncodeSetRequest r = (mkPacket cmd data false, None) -> serves lo u cmd data u1 [7; 243] ->
  (length data <= 255)%nat -> unit_at lo rel u (c_dev c) -> quiet c ->
  fst (setq r c) = None -> unit_at lo rel u1 (c_dev (snd (setq r c))) /\ quiet (snd (setq r c)).
Proof.
  intros E S L U Q N. destruct (setq_unit lo rel r cmd data c u u1 E U S L) as (u' & e & c' & X & U' & _ & _ & Ok & _).
  rewrite X in *. cbn [fst snd] in *. destruct (Ok Q N) as [-> ?]. auto.
Qed.
Lemma store_step l fp u c m v : change_ok lo (One m v) -> fetched_at l fp -> merges u0 l u -> vent_ok lo u ->
  unit_at lo rel u (c_dev c) -> quiet c ->
  (exists sr, EncodeSetRequest (SRProfiles (change_profile m v fp)) = (sr, None)) /\
  (rel = true -> fst (setq (SRProfiles (change_profile m v fp)) c) = None) /\
  (fst (setq (SRProfiles (change_profile m v fp)) c) = None ->
   exists u', merges u0 (l ++ [One m v]) u' /\ vent_ok lo u' /\
     unit_at lo rel u' (c_dev (snd (setq (SRProfiles (change_profile m v fp)) c))) /\ quiet (snd (setq (SRProfiles (change_profile m v fp)) c))).
Proof.
  intros (M & V & Lv) (l1 & l2 & u1 & pl & -> & No & M1 & V1 & D & F) Mg Vu U Q.
  pose proof (profile_request_ok _ _ m v M F) as E. split; [eauto|].
  destruct (profile_step lo u1 pl fp m v M V Lv V1 D F) as (u2 & S & W & V2).
  assert (S' : exists u3, serves lo u 207 (profile_request pl m v) u3 [7; 243] /\ u_out u3 = u_out u2 /\ u_in u3 = u_in u2 /\ u_mode u3 = u_mode u /\ u_comfort u3 = u_comfort u).
  { revert S. generalize (profile_request pl m v). intros data S. inversion S; subst. eexists. split; [apply sv_set_profiles; auto|]. auto. }
  destruct S' as (u3 & S3 & Eo & Ei & Em & Ec).
  split; [intros R; eapply set_sure; eauto; unfold profile_request; simpl; lia|]. intros N. exists u3.
  destruct (write_step u c _ _ _ u3 E S3) as [U3 Q3]; auto. { unfold profile_request. simpl. lia. }
  splits; auto.
  - rewrite <- app_assoc. eapply mg_one; eauto. destruct W as (A1 & A2 & A3 & A4 & A5). unfold with_profile. rewrite Eo, Ei, Em, Ec. cbn [u_mode u_out u_in u_comfort]. auto.
  - destruct V2 as (B1 & B2 & B3 & B4 & _). destruct Vu as (_ & _ & _ & _ & B5 & B6). unfold vent_ok. rewrite Eo, Ei, Em, Ec. splits; auto; apply B5.
Qed.
(** the changes that are a single write *)
Definition request (x : change) : SetRequest := match x with One _ _ => SRSpeed 0 | All p => SRProfiles p | Mode v => SRSpeed v | Warm t => SRComfort (f32_of_Z t) end.
Lemma direct_step l x u c : is_one x = false -> change_ok lo x -> merges u0 l u -> vent_ok lo u -> unit_at lo rel u (c_dev c) -> quiet c ->
  changing x = setQuery (request x) /\ (exists sr, EncodeSetRequest (request x) = (sr, None)) /\
  (rel = true -> fst (setq (request x) c) = None) /\
  (fst (setq (request x) c) = None ->
   exists u', merges u0 (l ++ [x]) u' /\ vent_ok lo u' /\ unit_at lo rel u' (c_dev (snd (setq (request x) c))) /\ quiet (snd (setq (request x) c))).
Proof.
  intros O K Mg Vu U Q. destruct x as [m v|p|v|t]; [discriminate|..]; cbn [request change_ok] in *; split; try reflexivity.
  - split; [eexists; reflexivity|]. split; [intros R; eapply set_sure; eauto; [reflexivity|apply sv_set_profiles; exact K|simpl; lia]|].
    intros N. eexists. splits.
    + apply mg_all. exact Mg.
    + destruct Vu as (_ & _ & _ & _ & B5 & B6). unfold vent_ok. cbn [u_out u_in u_mode u_comfort].
      repeat match goal with H : Forall _ (_ :: _) |- _ => apply Forall_inv in H as ?; apply Forall_inv_tail in H end.
      splits; auto; try (repeat apply Forall_cons; auto; fail); try lia.
    + eapply write_step; eauto; [reflexivity|apply sv_set_profiles; exact K|simpl; lia].
    + eapply write_step; eauto; [reflexivity|apply sv_set_profiles; exact K|simpl; lia].
  - assert (E : EncodeSetRequest (SRSpeed v) = (mkPacket 153 [v] false, None)).
    { unfold EncodeSetRequest. cbn. replace (v >? 4) with false by lia. reflexivity. }
    split; [eauto|]. split; [intros R; eapply set_sure; eauto; [apply sv_speed; exact K|simpl; lia]|]. intros N. eexists. splits.
    + apply mg_mode. exact Mg.
    + destruct Vu as (B1 & B2 & B3 & B4 & B5 & B6). unfold vent_ok. cbn [u_out u_in u_mode u_comfort]. splits; auto; apply K.
    + eapply write_step; eauto; [apply sv_speed; exact K|simpl; lia].
    + eapply write_step; eauto; [apply sv_speed; exact K|simpl; lia].
  - pose proof (comfort_encode t K) as E. assert (B : byte_ok (2 * (t + 20))) by (unfold byte_ok; lia).
    split; [eauto|]. split; [intros R; eapply set_sure; eauto; [apply sv_comfort; exact B|simpl; lia]|]. intros N. eexists. splits.
    + apply mg_warm. exact Mg.
    + apply (warmed_ok lo u t Vu K).
    + eapply write_step; eauto; [apply sv_comfort; exact B|simpl; lia].
    + eapply write_step; eauto; [apply sv_comfort; exact B|simpl; lia].
Qed.
Lemma fetched_more l x fp : fetched_at l fp -> is_one x = false -> fetched_at (l ++ [x]) fp.
Proof.
  intros (l1 & l2 & u & pl & -> & F & R) O. exists l1, (l2 ++ [x]), u, pl. rewrite <- app_assoc. splits; try tauto.
  apply Forall_app. auto.
Qed.
Lemma minv_step ts c ts' c' : minv ts c -> bstep ts c ts' c' -> minv ts' c'.
Proof.
  intros [[Fa Gf]|(phs & l & u & Lp & Lt & Sh & Ex & Pm & Mg & U & Vu & Q & Ft & Gd)] S; [left; split; auto; eapply failed_step; eauto|].
  assert (At : forall i t, nth_error ts i = Some t -> exists x ph, nth_error xs i = Some x /\ nth_error phs i = Some ph /\ shows x ph t /\ change_ok lo x).
  { intros i t N. assert (Li : (i < length xs)%nat) by (rewrite <- Lt; apply nth_error_Some; congruence).
    destruct (nth_error xs i) as [x|] eqn:X; [|apply nth_error_None in X; lia].
    destruct (nth_error phs i) as [ph|] eqn:P; [|apply nth_error_None in P; lia].
    exists x, ph. splits; eauto. eapply Forall_nth_error; eauto. }
  destruct S as [ts c i l0 k h Nl N Fr|ts c i l0 k h h' N R|ts c i l0 k h N R|ts c i k k' h c' N Un].
  - (* lock *)
    destruct (At _ _ N) as (x & ph & Nx & Np & S & K). destruct ph as [| |fp| |]; cbn [shows] in S.
    + destruct x as [m v|p|v|t].
      * cbn [changing] in S. destruct K as (M & V & _). rewrite (one_is m v M V) in S. injection S as -> -> ->. right.
        destruct (shows_move phs ts i (One m v) Locked (mkThread (bind (body m v) unl) [(LAm, true)]) Lp Lt Sh Nx) as (A1 & A2 & A3); [cbn; eauto|].
        exists (set_nth i Locked phs), l, u. splits; auto.
        -- eapply inner_move; eauto. intros _. right. intros j q Nq. destruct (inner q) eqn:I; auto. exfalso.
           assert (Lj : (j < length ts)%nat) by (rewrite Lt, <- Lp; apply nth_error_Some; congruence).
           destruct (nth_error ts j) as [t|] eqn:Tj; [|apply nth_error_None in Tj; lia].
           destruct (At _ _ Tj) as (y & ph & Ny & Np' & S & _). rewrite Nq in Np'. injection Np' as <-.
           rewrite free_in in Fr. apply (Fr (t_h t) true); [apply in_map; eapply nth_error_In; eauto|].
           destruct q; try discriminate; cbn [shows] in S; [destruct S as (? & ? & _ & ->)|destruct S as (? & ? & _ & ->)|destruct S as (_ & ->)]; left; auto.
        -- erewrite did_same; eauto.
        -- intros j fp Nj. apply nth_set_cases in Nj as [(_ & X & _)|[_ Nj]]; [discriminate|eauto].
      * exfalso. destruct (direct_step l (All p) u c eq_refl K Mg Vu U Q) as (E & (sr & E2) & _). destruct (set_is _ _ E2) as (k2 & E3 & _).
        rewrite E, E3 in S. injection S as -> _ _. auto.
      * exfalso. destruct (direct_step l (Mode v) u c eq_refl K Mg Vu U Q) as (E & (sr & E2) & _). destruct (set_is _ _ E2) as (k2 & E3 & _).
        rewrite E, E3 in S. injection S as -> _ _. auto.
      * exfalso. destruct (direct_step l (Warm t) u c eq_refl K Mg Vu U Q) as (E & (sr & E2) & _). destruct (set_is _ _ E2) as (k2 & E3 & _).
        rewrite E, E3 in S. injection S as -> _ _. auto.
    + exfalso. destruct S as (m & v & -> & S). destruct (body_is m v) as (k2 & E & _). rewrite E in S. injection S as -> _ _. auto.
    + exfalso. destruct S as (m & v & -> & S). destruct (store_step l fp u c m v K (Ft _ _ Np) Mg Vu U Q) as ((sr & E) & _).
      destruct (set_is _ _ E) as (k2 & E2 & _). unfold store in S. rewrite E2 in S. injection S as -> _ _. auto.
    + exfalso. destruct S as [_ S]. discriminate.
    + exfalso. discriminate.
  - (* unlock *)
    destruct (At _ _ N) as (x & ph & Nx & Np & S & K). destruct ph as [| |fp| |]; cbn [shows] in S.
    + exfalso. destruct x as [m v|p|v|t].
      * cbn [changing] in S. destruct K as (M & V & _). rewrite (one_is m v M V) in S. discriminate.
      * destruct (direct_step l (All p) u c eq_refl K Mg Vu U Q) as (E & (sr & E2) & _). destruct (set_is _ _ E2) as (k2 & E3 & _).
        rewrite E, E3 in S. discriminate.
      * destruct (direct_step l (Mode v) u c eq_refl K Mg Vu U Q) as (E & (sr & E2) & _). destruct (set_is _ _ E2) as (k2 & E3 & _).
        rewrite E, E3 in S. discriminate.
      * destruct (direct_step l (Warm t) u c eq_refl K Mg Vu U Q) as (E & (sr & E2) & _). destruct (set_is _ _ E2) as (k2 & E3 & _).
        rewrite E, E3 in S. discriminate.
    + exfalso. destruct S as (m & v & -> & S). destruct (body_is m v) as (k2 & E & _). rewrite E in S. discriminate.
    + exfalso. destruct S as (m & v & -> & S). destruct (store_step l fp u c m v K (Ft _ _ Np) Mg Vu U Q) as ((sr & E) & _).
      destruct (set_is _ _ E) as (k2 & E2 & _). unfold store in S. rewrite E2 in S. discriminate.
    + destruct S as [O S]. injection S as -> -> ->. cbn in R. injection R as <-. right.
      destruct (shows_move phs ts i x Finished (mkThread (Ret None) []) Lp Lt Sh Nx) as (A1 & A2 & A3); [reflexivity|].
      exists (set_nth i Finished phs), l, u. splits; auto.
      * eapply inner_move; eauto; discriminate.
      * erewrite did_same; eauto.
      * intros j fp Nj. apply nth_set_cases in Nj as [(_ & X & _)|[_ Nj]]; [discriminate|eauto].
    + exfalso. discriminate.
  - (* the lock is held *)
    exfalso. destruct (At _ _ N) as (x & ph & Nx & Np & S & K). destruct ph as [| |fp| |]; cbn [shows] in S.
    + destruct x as [m v|p|v|t].
      * cbn [changing] in S. destruct K as (M & V & _). rewrite (one_is m v M V) in S. discriminate.
      * destruct (direct_step l (All p) u c eq_refl K Mg Vu U Q) as (E & (sr & E2) & _). destruct (set_is _ _ E2) as (k2 & E3 & _).
        rewrite E, E3 in S. discriminate.
      * destruct (direct_step l (Mode v) u c eq_refl K Mg Vu U Q) as (E & (sr & E2) & _). destruct (set_is _ _ E2) as (k2 & E3 & _).
        rewrite E, E3 in S. discriminate.
      * destruct (direct_step l (Warm t) u c eq_refl K Mg Vu U Q) as (E & (sr & E2) & _). destruct (set_is _ _ E2) as (k2 & E3 & _).
        rewrite E, E3 in S. discriminate.
    + destruct S as (m & v & -> & S). destruct (body_is m v) as (k2 & E & _). rewrite E in S. discriminate.
    + destruct S as (m & v & -> & S). destruct (store_step l fp u c m v K (Ft _ _ Np) Mg Vu U Q) as ((sr & E) & _).
      destruct (set_is _ _ E) as (k2 & E2 & _). unfold store in S. rewrite E2 in S. discriminate.
    + destruct S as [O S]. injection S as -> -> ->. cbn in R. discriminate.
    + discriminate.
  - (* section *)
    destruct (At _ _ N) as (x & ph & Nx & Np & S & K). destruct ph as [| |fp| |]; cbn [shows] in S.
    + destruct (is_one x) eqn:O.
      * exfalso. destruct x as [m v|p|v|t]; try discriminate. cbn [changing] in S. destruct K as (M & V & _). rewrite (one_is m v M V) in S. discriminate.
      * destruct (direct_step l x u c O K Mg Vu U Q) as (E & (sr & E2) & Sure & Ok). destruct (set_is _ _ E2) as (k2 & E3 & Un2).
        rewrite E, E3 in S. injection S as -> ->. rewrite Un2 in Un. injection Un as <- <-.
        destruct (fst (setq (request x) c)) as [e|] eqn:R.
        { left. split; [eapply replace_failed; eauto; right; exists e; left; reflexivity|].
          destruct good; auto. destruct (Gd eq_refl) as [-> _]. specialize (Sure eq_refl). discriminate. }
        destruct (Ok eq_refl) as (u' & Mg' & Vu' & U' & Q'). right.
        destruct (shows_move phs ts i x Finished (mkThread (Ret None) []) Lp Lt Sh Nx) as (A1 & A2 & A3); [reflexivity|].
        exists (set_nth i Finished phs), (l ++ [x]), u'. splits; auto.
        -- eapply inner_move; eauto; discriminate.
        -- rewrite <- (did_set xs phs i x Todo Finished Nx Np eq_refl eq_refl), <- Pm. symmetry. apply Permutation_cons_append.
        -- intros j fp Nj. apply nth_set_cases in Nj as [(_ & X & _)|[_ Nj]]; [discriminate|]. apply fetched_more; eauto.
        -- intros G. destruct (Gd G). auto using set_clear.
    + destruct S as (m & v & -> & S). destruct (body_is m v) as (k2 & E & Un2). rewrite E in S. injection S as -> ->.
      rewrite Un2 in Un. injection Un as <- <-.
      destruct (profiles_unit lo rel c u U Vu) as (fp & e & c2 & G & U2 & Ok & Sure). pose proof (get_clear c) as Cl. rewrite G in *. cbn [fst snd].
      cbn [snd] in Cl. destruct e as [e|].
      { left. split; [eapply replace_failed; eauto; right; exists e; right; reflexivity|].
        destruct good; auto. destruct (Gd eq_refl) as [-> Cd]. specialize (Sure eq_refl Q (clear_legible _ _ Cd)). discriminate. }
      destruct (Ok Q eq_refl) as (Q2 & pl & D & F). right.
      destruct (shows_move phs ts i (One m v) (Got fp) (mkThread (bind (store m v fp) unl) [(LAm, true)]) Lp Lt Sh Nx) as (A1 & A2 & A3); [cbn; eauto|].
      exists (set_nth i (Got fp) phs), l, u. splits; auto.
      * eapply inner_move; eauto.
      * erewrite did_same; eauto.
      * intros j fp' Nj. apply nth_set_cases in Nj as [(_ & X & _)|[_ Nj]]; [|eauto]. injection X as ->.
        exists l, [], u, pl. rewrite app_nil_r. splits; auto.
      * intros G0. destruct (Gd G0). auto.
    + destruct S as (m & v & -> & S). destruct (store_step l fp u c m v K (Ft _ _ Np) Mg Vu U Q) as ((sr & E) & Sure & Ok).
      destruct (set_is _ _ E) as (k2 & E2 & Un2). unfold store in S. rewrite E2 in S. cbn [bind] in S. injection S as -> ->.
      erewrite until_bind in Un by apply Un2. injection Un as <- <-. cbn [bind].
      destruct (fst (setq (SRProfiles (change_profile m v fp)) c)) as [e|] eqn:R.
      { left. split; [eapply replace_failed; eauto; right; exists e; right; reflexivity|].
        destruct good; auto. destruct (Gd eq_refl) as [-> _]. specialize (Sure eq_refl). discriminate. }
      destruct (Ok eq_refl) as (u' & Mg' & Vu' & U' & Q'). right.
      destruct (shows_move phs ts i (One m v) Wrote (mkThread (unl None) [(LAm, true)]) Lp Lt Sh Nx) as (A1 & A2 & A3); [cbn; eauto|].
      exists (set_nth i Wrote phs), (l ++ [One m v]), u'. splits; auto.
      * eapply inner_move; eauto.
      * rewrite <- (did_set xs phs i (One m v) (Got fp) Wrote Nx Np eq_refl eq_refl), <- Pm. symmetry. apply Permutation_cons_append.
      * intros j fp' Nj. apply nth_set_cases in Nj as [(_ & X & _)|[D Nj]]; [discriminate|]. exfalso. apply D. apply (Ex i j (Got fp) (Got fp')); auto.
      * intros G. destruct (Gd G). auto using set_clear.
    + exfalso. destruct S as [_ S]. discriminate.
    + exfalso. discriminate.
Qed.
Lemma minv_steps ts c ts' c' : minv ts c -> bsteps ts c ts' c' -> minv ts' c'.
Proof. intros M B. induction B; auto. eapply minv_step; eauto. Qed.
End Unit.

Lemma did_none xs : did xs (map (fun _ => Todo) xs) = [].
Proof. induction xs; cbn; auto. Qed.
Lemma did_all xs : forall phs, length phs = length xs -> Forall (fun ph => over ph = true) phs -> did xs phs = xs.
Proof.
  induction xs as [|x xs IH]; intros [|ph phs] L F; cbn in *; try discriminate; auto.
  inversion F; subst. rewrite H1, IH; auto.
Qed.
Lemma Forall2_len {A B} (R : A -> B -> Prop) l l' : Forall2 R l l' -> length l = length l'.
Proof. induction 1; cbn; auto. Qed.
Lemma changes_finish lo rel good u xs c s clk its m rs : Forall (change_ok lo) xs -> quiet c -> unit_at lo rel u (c_dev c) -> vent_ok lo u ->
  only_runs its -> exec its (spawn (map changing xs) (mkMem c s clk)) = Some m -> Forall2 (fun t r => t_p t = Ret r) (m_ts m) rs ->
  (good = true -> rel = true /\ clear (c_dev c)) -> good = true \/ Forall (fun r => r = None) rs ->
  exists l u', Forall (fun r => r = None) rs /\ Permutation l xs /\ merges u l u' /\ unit_at lo rel u' (c_dev (g_conn (m_g m))) /\ quiet (g_conn (m_g m)).
Proof.
  intros Ok Q U V O E F0 Gd Gn. set (ts0 := map (fun p => mkThread p []) (map changing xs) : list (thread (option err))).
  assert (B : bsteps ts0 c (m_ts m) (g_conn (m_g m))).
  { apply (binv_end ts0 c m rs); auto.
    eapply binv_exec; [|exact O|exact E]. apply binv_init. apply Forall_map, Forall_forall. intros x _. apply sect_changing. }
  assert (I : minv lo rel good u xs (m_ts m) (g_conn (m_g m))).
  { eapply minv_steps; [exact Ok| |exact B]. right. exists (map (fun _ => Todo) xs), [], u. unfold ts0. rewrite !map_length. splits; auto.
    - intros i x ph t Nx Np Nt. rewrite map_map, nth_error_map, Nx in Nt. rewrite nth_error_map, Nx in Np. cbn in *.
      injection Np as <-. injection Nt as <-. reflexivity.
    - intros i j p q Np. rewrite nth_error_map in Np. destruct (nth_error xs i); [|discriminate]. injection Np as <-. discriminate.
    - rewrite did_none. auto.
    - constructor.
    - intros i fp Np. rewrite nth_error_map in Np. destruct (nth_error xs i); discriminate. }
  assert (F : forall i t, nth_error (m_ts m) i = Some t -> exists r, t_p t = Ret r /\ nth_error rs i = Some r).
  { clear - F0. induction F0 as [|t r ts rs P F IH]; intros [|i] t1 N; cbn in *; try discriminate; eauto. injection N as <-. eauto. }
  destruct I as [((i & t & N & W) & Gf)|(phs & l & u' & Lp & Lt & Sh & _ & Pm & Mg & U' & _ & Q' & _)].
  - exfalso. destruct (F _ _ N) as (r & Pr & Nr). destruct Gn as [X|Fn]; [congruence|].
    eapply Forall_nth_error in Fn; eauto. cbn in Fn. destruct W as [W|(e & [W|W])]; unfold unl in W; congruence.
  - assert (Ov : forall i ph, nth_error phs i = Some ph -> ph = Finished).
    {  intros i ph N.
    assert (Li : (i < length xs)%nat) by (rewrite <- Lp; apply nth_error_Some; congruence).
    destruct (nth_error xs i) as [x|] eqn:X; [|apply nth_error_None in X; lia].
    destruct (nth_error (m_ts m) i) as [t|] eqn:T; [|apply nth_error_None in T; lia].
    pose proof (Sh _ _ _ _ X N T) as S. destruct (F _ _ T) as (r & Pr & Nr). clear F. rename Pr into F. destruct ph as [| |fp| |]; auto; exfalso; cbn [shows] in S.
    + subst t. cbn [t_p] in F. pose proof (Forall_nth_error _ _ _ _ Ok X) as K. destruct x as [m1 v|p|v|tt0]; cbn [changing change_ok] in *.
      * destruct K as (M & Vv & _). rewrite (one_is m1 v M Vv) in F. discriminate.
      * destruct (set_is (SRProfiles p) _ eq_refl) as (k & E3 & _). unfold SetFanProfiles in F. congruence.
      * assert (E2 : EncodeSetRequest (SRSpeed v) = (mkPacket 153 [v] false, None)).
        { unfold EncodeSetRequest. cbn. replace (v >? 4) with false by lia. reflexivity. }
        destruct (set_is _ _ E2) as (k & E3 & _). unfold SetSpeed in F. congruence.
      * destruct (set_is _ _ (comfort_encode tt0 K)) as (k & E3 & _). unfold SetComfort in F. congruence.
    + destruct S as (m1 & v & _ & ->). destruct (body_is m1 v) as (k & E3 & _). cbn [t_p] in F. congruence.
    + destruct S as (m1 & v & _ & ->). cbn [t_p] in F. unfold store in F. unfold setQuery in F.
      destruct (EncodeSetRequest _) as [sr [e|]]; [discriminate|]. rewrite query_is in F. discriminate.
    + destruct S as (_ & ->). discriminate. }
    exists l, u'. splits; auto.
    + apply Forall_forall. intros r I. apply In_nth_error in I as [i Nr].
      assert (Li : (i < length (m_ts m))%nat) by (rewrite (Forall2_len _ _ _ F0); apply nth_error_Some; congruence).
      destruct (nth_error (m_ts m) i) as [t|] eqn:T; [|apply nth_error_None in T; lia].
      destruct (nth_error phs i) as [ph|] eqn:P; [|apply nth_error_None in P; lia].
      destruct (nth_error xs i) as [x|] eqn:X; [|apply nth_error_None in X; lia].
      pose proof (Sh _ _ _ _ X P T) as S. rewrite (Ov _ _ P) in S. cbn [shows] in S. subst t.
      destruct (F _ _ T) as (r' & E1 & E2). cbn in E1. congruence.
    + rewrite Pm, did_all; auto. apply Forall_forall. intros ph I. apply In_nth_error in I as [i N]. rewrite (Ov _ _ N). reflexivity.
Qed.

Lemma changes_merge lo rel u xs c s clk its m : Forall (change_ok lo) xs -> quiet c -> unit_at lo rel u (c_dev c) -> vent_ok lo u ->
  only_runs its -> exec its (spawn (map changing xs) (mkMem c s clk)) = Some m -> Forall (fun t => t_p t = Ret None) (m_ts m) ->
  exists l u', Permutation l xs /\ merges u l u' /\ unit_at lo rel u' (c_dev (g_conn (m_g m))).
Proof.
  intros Ok Q U V O E F.
  destruct (changes_finish lo rel false u xs c s clk its m (map (fun _ => None) (m_ts m)) Ok Q U V O E) as (l & u' & _ & P & M & U' & _);
    [| |right|eauto].
  - clear - F. induction F; cbn; constructor; auto.
  - discriminate.
  - apply Forall_map. apply Forall_forall. auto.
Qed.
Lemma changes_succeed lo u xs c s clk its m rs : Forall (change_ok lo) xs -> lined lo c u ->
  only_runs its -> exec its (spawn (map changing xs) (mkMem c s clk)) = Some m -> Forall2 (fun t r => t_p t = Ret r) (m_ts m) rs ->
  Forall (fun r => r = None) rs.
Proof.
  intros Ok (Q & U & C & V) O E F.
  destruct (changes_finish lo true true u xs c s clk its m rs Ok Q U V O E F) as (l & u' & R & _); auto.
Qed.

(** Only changes of single profiles: in some order. *)
Lemma with_profile_at m v u u' i : 0 <= m <= 3 -> (i < 4)%nat -> with_profile (Z.to_nat m) v u u' ->
  if Z.of_nat i =? m then nth i (u_out u') 0 = v /\ nth i (u_in u') 0 = v
  else nth i (u_out u') 0 = nth i (u_out u) 0 /\ nth i (u_in u') 0 = nth i (u_in u) 0.
Proof.
  intros M I (_ & _ & _ & _ & W). destruct (W i I) as [A B]. destruct (Nat.eqb_spec i (Z.to_nat m)); destruct (Z.eqb_spec (Z.of_nat i) m); try lia; auto.
Qed.
Lemma merges_ones u0 l u : merges u0 l u -> Forall (fun x => is_one x = true) l -> forall lo, Forall (change_ok lo) l ->
  u_mode u = u_mode u0 /\ u_comfort u = u_comfort u0 /\ forall i, (i < 4)%nat ->
    (exists v, In (One (Z.of_nat i) v) l /\ nth i (u_out u) 0 = v /\ nth i (u_in u) 0 = v) \/
    ((forall v, ~ In (One (Z.of_nat i) v) l) /\ nth i (u_out u) 0 = nth i (u_out u0) 0 /\ nth i (u_in u) 0 = nth i (u_in u0) 0).
Proof.
  intros M. induction M as [|l u p M IH|l u v M IH|l u t M IH|l mid u u1 u2 m v M IH M1 IH1 No W]; intros O lo K.
  - split; auto.
  - apply Forall_app in O as [_ O]. inversion O. discriminate.
  - apply Forall_app in O as [_ O]. inversion O. discriminate.
  - apply Forall_app in O as [_ O]. inversion O. discriminate.
  - assert (mid = []) as ->.
    { apply Forall_app in O as [_ O]. apply Forall_app in O as [O _]. destruct mid; auto. inversion O; inversion No; subst. congruence. }
    rewrite app_nil_r in *. cbn [app] in *. apply Forall_app in O as [O _]. apply Forall_app in K as [K Ko].
    destruct (IH O lo K) as (Md & Mc & Pr). destruct (IH1 O lo K) as (Md1 & Mc1 & _). clear IH IH1. inversion Ko; subst. destruct H1 as (Mm & _).
    split; [destruct W as (_ & _ & E & _); rewrite E; auto|]. split; [destruct W as (_ & _ & _ & E & _); rewrite E; auto|]. intros i Hi. pose proof (with_profile_at m v _ u2 i Mm Hi W) as A. cbn [u_out u_in] in A.
    destruct (Z.eqb_spec (Z.of_nat i) m) as [<-|N].
    + left. exists v. split; auto. apply in_or_app. right. left. auto.
    + destruct A as [A1 A2]. rewrite A1, A2. destruct (Pr i Hi) as [(w & I & B)|(I & B)].
      * left. exists w. split; auto. apply in_or_app. auto.
      * right. split; auto. intros w J. apply in_app_or in J as [J|[J|[]]]; [eapply I; eauto|]. injection J as J _. auto.
Qed.
Lemma profiles_effect lo rel u (mv : list (Z * Z)) c s clk its m : Forall (fun x => 0 <= fst x <= 3 /\ 0 <= snd x <= 100 /\ lo <= snd x) mv ->
  quiet c -> unit_at lo rel u (c_dev c) -> vent_ok lo u -> only_runs its ->
  exec its (spawn (map (fun x => SetFanProfile (fst x) (snd x)) mv) (mkMem c s clk)) = Some m -> Forall (fun t => t_p t = Ret None) (m_ts m) ->
  exists u', unit_at lo rel u' (c_dev (g_conn (m_g m))) /\ u_mode u' = u_mode u /\ u_comfort u' = u_comfort u /\ forall i, (i < 4)%nat ->
    (exists v, In (Z.of_nat i, v) mv /\ nth i (u_out u') 0 = v /\ nth i (u_in u') 0 = v) \/
    ((forall v, ~ In (Z.of_nat i, v) mv) /\ nth i (u_out u') 0 = nth i (u_out u) 0 /\ nth i (u_in u') 0 = nth i (u_in u) 0).
Proof.
  intros Ok Q U V O E F. set (xs := map (fun x => One (fst x) (snd x)) mv).
  assert (Kx : Forall (change_ok lo) xs) by (apply Forall_map; eapply Forall_impl; [|exact Ok]; auto).
  destruct (changes_merge lo rel u xs c s clk its m Kx Q U V O) as (l & u' & P & M & U'); auto.
  { unfold xs. rewrite map_map. exact E. }
  assert (In1 : forall i v, In (One i v) l <-> In (i, v) mv).
  { intros i v. split; intros I.
    - apply (Permutation_in _ P) in I. apply in_map_iff in I as ([a b] & E1 & I). cbn in E1. injection E1 as -> ->. auto.
    - apply (Permutation_in _ (Permutation_sym P)). apply in_map_iff. exists (i, v). auto. }
  destruct (merges_ones u l u' M) with (lo := lo) as (Md & Mc & Pr).
  - apply Forall_forall. intros x I. apply (Permutation_in _ P) in I. apply in_map_iff in I as (y & <- & _). reflexivity.
  - apply Forall_forall. intros x I. apply (Permutation_in _ P) in I. eapply Forall_forall in Kx; eauto.
  - exists u'. splits; auto. intros i Hi. destruct (Pr i Hi) as [(v & I & B)|(I & B)].
    + left. exists v. rewrite <- In1. auto.
    + right. split; auto. intros v. rewrite <- In1. auto.
Qed.
