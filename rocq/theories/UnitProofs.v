(** Queries on a unit that follows the protocol. *)
From Verif Require Import ProofBase Proto SpecProto SpecFrame SpecConn SpecLayout SpecUnit ProtoProofs Scanner Conn
  FrameProofs ReplyProofs ReadProofs Proc Lib QueryProofs FrameLemmas LayoutProofs OpLemmas Server SpecServer ServerProofs ServerLemmas.

Lemma serves_len lo u cmd data u' a : serves lo u cmd data u' a -> len a <= 4096.
Proof.
  assert (R : forall k pl, (length pl <= 255)%nat -> len (reply k pl) <= 4096).
  { intros k pl L. unfold reply, wire, len. rewrite !app_length, doubled_length. cbn [length].
    pose proof (count_occ_bound Z.eq_dec 7 pl). lia. }
  intros H. inversion H; subst; try (unfold len; simpl; lia); apply R; auto.
  - match goal with D : describes _ _ |- _ => destruct D as (-> & _) end. lia.
  - match goal with D : measures _ _ |- _ => destruct D as (-> & _) end. lia.
Qed.
Lemma nonempty_few chunks : Forall (fun bs : list Z => bs <> []) chunks -> few_empty chunks.
Proof.
  intros F a b ->. apply Forall_app in F as [_ F]. apply Forall_app in F as [F _].
  inversion F; subst. congruence.
Qed.
Lemma nonempty_concat chunks : Forall (fun bs : list Z => bs <> []) chunks -> concat chunks = [] -> chunks = [].
Proof. intros F E. destruct chunks as [|x r]; auto. simpl in E. apply app_eq_nil in E as [-> _]. inversion F; congruence. Qed.

Lemma read_dev c x o c' : ReadPacket c x = (o, c') -> c_dev c' = c_dev c.
Proof. intros R. apply read_packet_inv in R as ((D & _) & _). exact D. Qed.

Definition served lo u p u' := exists a, serves lo u (p_cmd p) (p_data p) u' a.

Lemma read_silent c x : c_pend c = [] -> c_orph c = [] -> fst (ReadPacket c x) = Done (zero_packet, Some ErrTimeout).
Proof.
  intros P O. change (Done (zero_packet, Some ErrTimeout)) with (pure_read x (concat [])).
  apply read_pieces; auto. unfold total, len. simpl. lia. simpl. auto.
Qed.

Lemma query_unit lo b p c u : unit_at lo b u (c_dev c) -> (exists u', served lo u p u') -> (length (p_data p) <= 255)%nat ->
  exists u' out e c', query p c = ((out, e), c') /\ unit_at lo b u' (c_dev c') /\
    (u' = u \/ served lo u p u') /\
    (b = true -> served lo u p u') /\
    (quiet c -> e = None -> exists a, serves lo u (p_cmd p) (p_data p) u' a /\
       pure_read (p_expect p) a = Done (out, None) /\ (pure_rest (p_expect p) a = [] -> quiet c')) /\
    (b = true -> quiet c -> exists a, serves lo u (p_cmd p) (p_data p) u' a /\
       (exists d' chunks r, react (c_dev c) (framed (p_cmd p) (p_data p)) = (d', pieces chunks, r) /\ concat chunks = a) /\
       forall q, pure_read (p_expect p) a = Done (q, None) -> (p_expect p = true -> p_cmd q = u8 (p_cmd p + 1)) ->
       out = q /\ e = None).
Proof.
  intros U (u0 & a0 & S0) L. destruct U as [Rq _].
  destruct (Rq (p_cmd p) (p_data p)) as (u' & d' & evs & r & Re & T & U'); [eauto|].
  exists u'. unfold query. replace (_ >? 255) with false by lia.
  unfold conn_write at 1. rewrite frame_framed, Re.
  assert (Sv : (u' = u \/ served lo u p u') /\ (b = true -> served lo u p u')).
  { unfold served. inversion T; subst; split; try (intros; congruence); eauto. }
  destruct Sv as [Sv1 Sv2].
  assert (Lost : evs = [] -> b = true -> exists a, serves lo u (p_cmd p) (p_data p) u' a).
  { intros _ B. destruct (Sv2 B) as (a & A). eauto. }
  destruct (w_err r) as [e|] eqn:Er.
  { exists zero_packet, (Some e). eexists. split; [reflexivity|]. splits; auto.
    - intros _ X. discriminate.
    - intros B. inversion T; subst; simpl in Er; congruence. }
  match goal with |- context [ReadPacket ?x _] => set (c1 := x) end.
  destruct (ReadPacket c1 (p_expect p)) as [o c2] eqn:R1.
  pose proof (read_dev _ _ _ _ R1) as D2.
  pose proof (read_packet_inv _ _ _ _ R1) as (_ & q & e & _ & _ & -> & _).
  assert (Q : quiet c -> exists chunks, evs = pieces chunks /\ c_pend c1 = pieces chunks /\ c_orph c1 = []
     /\ (Forall (fun bs => bs <> []) chunks) /\ (chunks = [] \/ serves lo u (p_cmd p) (p_data p) u' (concat chunks))
     /\ (b = true -> serves lo u (p_cmd p) (p_data p) u' (concat chunks))).
  { intros [P O]. unfold c1. cbn [c_pend c_orph]. rewrite P, O. cbn [app].
    inversion T; subst.
    - exists chunks. splits; auto.
    - exists []. splits; auto. congruence.
    - exists []. splits; auto. congruence. }
  assert (Qr : quiet c -> exists chunks, evs = pieces chunks /\ Forall (fun bs => bs <> []) chunks /\
     (b = true -> serves lo u (p_cmd p) (p_data p) u' (concat chunks)) /\
     (pure_read (p_expect p) (concat chunks) = Done (q, e)) /\
     (e = None -> serves lo u (p_cmd p) (p_data p) u' (concat chunks) /\
        (pure_rest (p_expect p) (concat chunks) = [] -> c_pend c2 = [] /\ c_orph c2 = []))).
  { intros Qt. destruct (Q Qt) as (chunks & E & P & O & F & Sc & Sb). exists chunks.
    assert (Tl : total chunks <= 4096).
    { unfold total. destruct Sc as [-> |Sc]; [unfold len; simpl; lia|apply serves_len in Sc; exact Sc]. }
    destruct (read_pieces_rest chunks c1 (p_expect p) P O Tl (few_empty_ok _ (nonempty_few _ F))) as [H1 H2].
    rewrite R1 in H1, H2. cbn [fst snd] in H1, H2. splits; auto. intros ->. split.
    - destruct Sc as [-> |Sc]; auto. discriminate.
    - symmetry in H1. destruct (H2 _ H1) as (used & ch & buf & Eu & -> & Rest). intros Z. rewrite Z in Rest.
      apply app_eq_nil in Rest as [_ Rest]. cbn [c_pend c_orph].
      rewrite Eu in F. apply Forall_app in F as [_ F]. apply nonempty_concat in Rest; auto. subst ch. auto. }
  cbv zeta. destruct e as [e|].
  { eexists; eexists; eexists. split; [reflexivity|]. cbn [log_io c_dev]. rewrite D2. splits; auto.
    - discriminate.
    - intros B Qt. destruct (Qr Qt) as (chunks & -> & _ & Sb & Pr & _). exists (concat chunks). splits; [auto|exists d', chunks, r; auto|].
      intros q' H _. congruence. }
  destruct (_ && _) eqn:X.
  { eexists; eexists; eexists. split; [reflexivity|]. cbn [log_io c_dev]. rewrite D2. splits; auto.
    - discriminate.
    - intros B Qt. destruct (Qr Qt) as (chunks & -> & _ & Sb & Pr & _). exists (concat chunks). splits; [auto|exists d', chunks, r; auto|].
      intros q' H C. assert (q' = q) by congruence. subst q'. apply andb_true_iff in X as [X1 X2].
      apply C in X1. apply negb_true_iff, Z.eqb_neq in X2. congruence. }
  unfold conn_write. cbn [log_io c_dev]. rewrite D2. unfold c1. cbn [c_dev].
  destruct U' as [Rq' (d2 & r2 & Ra & Rl & U2)]. rewrite Ra.
  eexists; eexists; eexists. split; [reflexivity|]. cbn [c_dev c_pend c_orph]. splits; auto.
  - intros Qt Ea. destruct (Qr Qt) as (chunks & _ & _ & Sb & Pr & H). destruct (H eq_refl) as [Sc Z].
    exists (concat chunks). splits; auto. intros Re0. destruct (Z Re0) as [Z1 Z2]. unfold quiet. cbn [log_io c_pend c_orph]. rewrite Z1, Z2. split; reflexivity.
  - intros B Qt. destruct (Qr Qt) as (chunks & -> & _ & Sb & Pr & _). exists (concat chunks). splits; [auto|exists d', chunks, r; auto|].
    intros q' H _. rewrite Rl by auto. split; [congruence|reflexivity].
Qed.

(** ** reading *)
Definition reads : list Z := [205; 11; 103; 105; 209; 217; 221; 223].
Lemma vent_describes lo u : vent_ok lo u -> exists pl, describes u pl.
Proof.
  destruct u as [o i m k]. unfold vent_ok. cbn [u_out u_in u_mode]. intros (Lo & Li & Bo & Bi & Bm & _).
  do 4 (destruct o as [|? o]; [discriminate|]). destruct o; [|discriminate].
  do 4 (destruct i as [|? i]; [discriminate|]). destruct i; [|discriminate].
  exists [z; z0; z1; z3; z4; z5; 0; 0; m; 0; z2; z6; 0; 0]. unfold describes. cbn [u_out u_in u_mode]. splits; auto; try reflexivity.
  unfold bytes_ok in *. repeat match goal with H : Forall _ (_ :: _) |- _ => apply Forall_inv in H as ?; apply Forall_inv_tail in H end.
  repeat constructor; auto; unfold byte_ok in *; lia.
Qed.
Lemma vent_measures lo u : vent_ok lo u -> exists pl, measures u pl.
Proof.
  intros (_ & _ & _ & _ & _ & B). exists [u_comfort u; 0; 0; 0; 0; 0; 0; 0; 0]. unfold measures. splits; auto.
  unfold bytes_ok. repeat constructor; auto; unfold byte_ok in *; lia.
Qed.
Lemma serves_read lo u gr : vent_ok lo u -> In gr reads -> exists u', served lo u (mkPacket gr [] true) u'.
Proof.
  intros V I. exists u. unfold served. cbn [p_cmd p_data]. destruct I as [<- |I].
  - destruct (vent_describes lo u V) as (pl & D). eexists. apply sv_profiles. exact D.
  - destruct (Z.eq_dec gr 209) as [->|N].
    + destruct (vent_measures lo u V) as (pl & D). eexists. apply sv_temps. exact D.
    + exists (reply (gr + 1) []). apply sv_other; auto; [|constructor|simpl; lia]. simpl in *. intuition auto.
Qed.
Lemma served_read lo u gr u' a : serves lo u gr [] u' a -> u' = u /\ exists pl, a = reply (gr + 1) pl /\
  (gr = 205 -> describes u pl) /\ (gr = 209 -> measures u pl).
Proof.
  intros H. inversion H; subst; (split; [reflexivity|]).
  - exists pl. splits; auto. discriminate.
  - exists pl. splits; auto. discriminate.
  - exists pl. splits; auto; intros ->; simpl in H0; exfalso; intuition discriminate.
Qed.

Definition legible_to (gr : Z) (d : device) : Prop :=
  forall d' chunks r pl, react d (framed gr []) = (d', pieces chunks, r) -> concat chunks = reply (gr + 1) pl ->
    readable (gr + 1) pl.
Lemma query_read lo b gr c u : unit_at lo b u (c_dev c) -> vent_ok lo u -> In gr reads ->
  exists out e c', query (mkPacket gr [] true) c = ((out, e), c') /\ unit_at lo b u (c_dev c') /\
    (quiet c -> e = None -> quiet c' /\ p_cmd out = gr + 1 /\ (gr = 205 -> describes u (p_data out)) /\ (gr = 209 -> measures u (p_data out))) /\
    (b = true -> quiet c -> legible_to gr (c_dev c) -> e = None).
Proof.
  intros U V I. assert (G : u8 (gr + 1) = gr + 1) by (simpl in I; intuition subst; reflexivity).
  destruct (query_unit lo b (mkPacket gr [] true) c u U (serves_read lo u gr V I) ltac:(simpl; lia))
    as (u' & out & e & c' & Q & U' & Sv & _ & Ok & Rl). cbn [p_cmd p_data p_expect] in *.
  assert (u' = u) as ->. { destruct Sv as [|(a & S)]; auto. apply served_read in S as [-> _]. reflexivity. }
  exists out, e, c'. splits; auto.
  - intros Qt E. destruct (Ok Qt E) as (a & S & Pr & Z). apply served_read in S as (_ & pl & -> & D & D9).
    destruct (clean_dec (wire (gr + 1) pl)) as [C|C].
    + rewrite wire_clean in C. rewrite pure_rest_reply in Z by auto.
      rewrite <- (app_nil_r (reply _ _)), reply_readable in Pr by auto. injection Pr as <-. cbn [p_cmd p_data].
      splits; auto.
    + rewrite wire_clean in C. apply reply_unreadable with (extra := []) in C as (e' & C).
      rewrite app_nil_r in C. congruence.
  - intros B Qt Lg. destruct (Rl B Qt) as (a & S & (d' & chunks & r & Re & Ca) & Rl'). apply served_read in S as (_ & pl & -> & D).
    specialize (Lg d' chunks r pl Re Ca).
    apply (Rl' (mkPacket (gr + 1) pl false)); auto.
    rewrite <- (app_nil_r (reply _ _)). apply reply_readable; auto.
Qed.

Lemma getq_unit {T} lo b gr (zero : T) dec c u : unit_at lo b u (c_dev c) -> vent_ok lo u -> In gr reads ->
  unit_at lo b u (c_dev (snd (getq gr zero dec c))).
Proof.
  intros U V I. unfold getq. destruct (query_read lo b gr c u U V I) as (out & e & c' & -> & U' & _).
  destruct e; auto. destruct (dec (p_data out)) as [[v [e|]]|]; auto.
Qed.

Lemma describes_reports u pl fp : describes u pl -> FanProfiles_Unmarshal pl = Done (fp, None) -> reports u fp.
Proof.
  intros (L & B & O & I & M) D. apply prof_decodes in D as (_ & Lay). unfold profiles_layout in Lay.
  unfold reports. rewrite O, I, M. destruct Lay as (-> & -> & -> & -> & -> & -> & -> & -> & _ & _ & -> & _). auto.
Qed.
Lemma describes_decodes u pl : describes u pl -> exists fp, FanProfiles_Unmarshal pl = Done (fp, None).
Proof.
  intros (L & _). do 14 (destruct pl as [|? pl]; [discriminate|]). destruct pl; [|discriminate].
  eexists. reflexivity.
Qed.

Lemma profiles_unit lo b c u : unit_at lo b u (c_dev c) -> vent_ok lo u ->
  exists fp e c', getq 205 zeroProf FanProfiles_Unmarshal c = ((fp, e), c') /\ unit_at lo b u (c_dev c') /\
    (quiet c -> e = None -> quiet c' /\ exists pl, describes u pl /\ FanProfiles_Unmarshal pl = Done (fp, None)) /\
    (b = true -> quiet c -> legible (c_dev c) -> e = None).
Proof.
  intros U V. unfold getq. destruct (query_read lo b 205 c u U V ltac:(simpl; auto)) as (out & e & c' & -> & U' & Ok & Rl).
  destruct e as [e|].
  { exists zeroProf, (Some e), c'. splits; auto. discriminate. }
  destruct (prof_total (p_data out)) as (fp & e & D). rewrite D. destruct e as [e|].
  - exists zeroProf, (Some e), c'. splits; auto. discriminate.
    intros B Qt Lg. exfalso. destruct (Ok Qt eq_refl) as (_ & _ & De & _). destruct (describes_decodes _ _ (De eq_refl)) as (fp' & X). congruence.
  - exists fp, None, c'. splits; auto. intros Qt _. destruct (Ok Qt eq_refl) as (Q' & _ & De & _). split; auto. exists (p_data out). auto.
Qed.

(** ** setting *)
Lemma served_set lo u cmd data u1 u2 a : serves lo u cmd data u1 [7; 243] -> serves lo u cmd data u2 a -> u2 = u1 /\ a = [7; 243].
Proof.
  intros H1 H2. inversion H1; subst; try (inversion H2; subst; auto; fail).
Qed.
Lemma setq_unit lo b r cmd data c u u1 : EncodeSetRequest r = (mkPacket cmd data false, None) ->
  unit_at lo b u (c_dev c) -> serves lo u cmd data u1 [7; 243] -> (length data <= 255)%nat ->
  exists u' e c', setq r c = (e, c') /\ unit_at lo b u' (c_dev c') /\ (u' = u \/ u' = u1) /\
    (b = true -> u' = u1) /\ (quiet c -> e = None -> u' = u1 /\ quiet c') /\ (b = true -> quiet c -> e = None).
Proof.
  intros E U S L. unfold setq. rewrite E.
  destruct (query_unit lo b (mkPacket cmd data false) c u U (ex_intro _ u1 (ex_intro _ [7; 243] S)) L)
    as (u' & out & e & c' & -> & U' & Sv & Sb & Ok & Rl). cbn [p_cmd p_data p_expect] in *.
  exists u', e, c'. splits; auto.
  - destruct Sv as [|(a & A)]; auto. right. eapply served_set; eauto.
  - intros B. destruct (Sb B) as (a & A). eapply served_set; eauto.
  - intros Qt Ee. destruct (Ok Qt Ee) as (a & A & _ & Z). destruct (served_set lo _ _ _ _ _ _ S A) as [-> ->].
    split; auto.
  - intros B Qt. destruct (Rl B Qt) as (a & A & _ & H). destruct (served_set lo _ _ _ _ _ _ S A) as [-> ->].
    eapply (H zero_packet); [reflexivity|discriminate].
Qed.

Lemma profile_step lo u pl fp m v : 0 <= m <= 3 -> 0 <= v <= 100 -> lo <= v -> vent_ok lo u -> describes u pl ->
  FanProfiles_Unmarshal pl = Done (fp, None) ->
  exists u1, serves lo u 207 (profile_request pl m v) u1 [7; 243] /\ with_profile (Z.to_nat m) v u u1 /\ vent_ok lo u1.
Proof.
  intros M V Lv K D F. destruct D as (L & B & O & I & Mo). unfold profile_request. cbn [profile_offsets map].
  destruct K as (_ & _ & Ko & Ki & Km & Kc). rewrite O in Ko. rewrite I in Ki.
  repeat match goal with H : Forall _ (_ :: _) |- _ => apply Forall_inv in H as ?; apply Forall_inv_tail in H end.
  assert (Bv : lo <= v /\ byte_ok v) by (unfold byte_ok; lia).
  eexists. split; [apply sv_set_profiles|].
  - repeat apply Forall_cons; try apply Forall_nil; destruct (_ =? _); auto.
  - split.
    + unfold with_profile. cbn [u_out u_in u_mode u_comfort]. splits; auto. intros i Hi. rewrite O, I.
      assert (m = 0 \/ m = 1 \/ m = 2 \/ m = 3) as [-> |[-> |[-> | ->]]] by lia;
      (assert (i = 0 \/ i = 1 \/ i = 2 \/ i = 3)%nat as [-> |[-> |[-> | ->]]] by lia; split; reflexivity).
    + unfold vent_ok. cbn [u_out u_in u_mode u_comfort]. splits; auto; try lia;
      (repeat apply Forall_cons; try apply Forall_nil; destruct (_ =? _); auto).
Qed.

Lemma fprofile_unit lo b m v c u : unit_at lo b u (c_dev c) -> vent_ok lo u -> 0 <= m <= 3 -> 0 <= v <= 100 -> lo <= v -> quiet c ->
  exists u' e c', fprofile m v c = (e, c') /\ unit_at lo b u' (c_dev c') /\ vent_ok lo u' /\
    (u' = u \/ with_profile (Z.to_nat m) v u u') /\
    (e = None -> with_profile (Z.to_nat m) v u u' /\ quiet c') /\ (b = true -> legible (c_dev c) -> e = None).
Proof.
  intros U V M Vr Lv Qt. unfold fprofile. replace (m >? 3) with false by lia. replace (v >? 100) with false by lia.
  destruct (profiles_unit lo b c u U V) as (fp & e & c1 & -> & U1 & Ok & Rl).
  destruct e as [e|].
  { exists u, (Some e), c1. splits; auto. discriminate. }
  destruct (Ok Qt eq_refl) as (Q1 & pl & D & F).
  destruct (profile_step lo u pl fp m v M Vr Lv V D F) as (u1 & S & W & V1).
  pose proof (profile_request_ok _ _ m v M F) as E.
  destruct (setq_unit lo b _ _ _ c1 u u1 E U1 S) as (u' & e & c2 & -> & U2 & Or & B & Ok2 & Rl2).
  { unfold profile_request. simpl. lia. }
  exists u', e, c2. splits; auto.
  - destruct Or as [-> | ->]; auto.
  - destruct Or as [-> | ->]; auto.
  - intros X. destruct (Ok2 Q1 X) as [-> ?]. auto.
Qed.
