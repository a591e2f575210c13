(** Proofs behind C78-C80. *)
From Verif Require Import ProofBase Proto SpecProto SpecFrame SpecConn SpecLayout SpecServer SpecUnit ProtoProofs Scanner Conn FrameProofs ReplyProofs ReadProofs Proc Lib QueryProofs
  FrameLemmas LayoutProofs OpLemmas Server ServerProofs ServerLemmas UnitProofs Machine SpecMachine MachineBase ThreadLogic MachineInv MachineClaims SpecFresh SpecTrack FreshLogic FreshInv OwnLogic OwnInv
  MomentLogic MomentInv FreshClaims TrackLogic TrackInv.

(** ** the conversation *)
Lemma framed_data c1 d1 c2 d2 : framed c1 d1 = framed c2 d2 -> c1 = c2 /\ d1 = d2.
Proof.
  intros H. unfold framed, wire in H. injection H as E _ H. split; auto. rewrite <- !app_assoc in H.
  assert (X : doubled d1 ++ [cksum_byte c1 d1] = doubled d2 ++ [cksum_byte c2 d2]).
  { apply (app_inv_tail [7; 15]). rewrite <- !app_assoc. exact H. }
  apply app_inj_tail in X as [X _]. rewrite <- (unescape_doubled d1), <- (unescape_doubled d2). congruence.
Qed.
Lemma course_last rs k u l x k2 u2 : course rs k u (l ++ [x]) k2 u2 -> exists k1 u1, course rs k u l k1 u1 /\ turns rs u1 k1 x k2 u2.
Proof.
  intros C. remember (l ++ [x]) as l0 eqn:E. destruct C as [|l1 k1 u1 y k2 u2 C T]; [destruct l; discriminate|].
  apply app_inj_tail in E as [-> ->]. eauto.
Qed.
Lemma course_split rs k u a : forall b k2 u2, course rs k u (a ++ b) k2 u2 -> exists k1 u1, course rs k u a k1 u1 /\ course rs k1 u1 b k2 u2.
Proof.
  induction b as [|x b IH] using rev_ind; intros k2 u2 C.
  - rewrite app_nil_r in C. exists k2, u2. split; auto. constructor.
  - rewrite app_assoc in C. apply course_last in C as (k1 & u1 & C & T). destruct (IH _ _ C) as (k0 & u0 & C0 & C1).
    exists k0, u0. split; auto. econstructor; eauto.
Qed.
Lemma course_cons rs k u x l k2 u2 : course rs k u (x :: l) k2 u2 -> exists k1 u1, turns rs u k x k1 u1 /\ course rs k1 u1 l k2 u2.
Proof.
  intros C. apply (course_split rs k u [x] l) in C as (k1 & u1 & C & C1). exists k1, u1. split; auto.
  apply (course_last rs k u [] x) in C as (k0 & u0 & C & T). inversion C; subst; auto. destruct l0; discriminate.
Qed.
Definition altered (rs : list rpc) (u : vent) (cmd : Z) (data : list Z) (u' : vent) : Prop :=
  (exists t, cmd = 211 /\ data = [2 * (t mod 256 + 20)] /\ u' = mkVent (u_out u) (u_in u) (u_mode u) (2 * (t mod 256 + 20)) /\
     In (SetComfortTempR t) rs /\ t <= 255 /\ t mod 256 <= 107) \/
  (exists a b v, cmd = 153 /\ data = [v] /\ u' = mkVent (u_out u) (u_in u) v (u_comfort u) /\ In (SetFanSpeedR a b) rs /\ meant a v) \/
  (exists m t o1 o2 o3 o4 i1 i2 i3 i4, cmd = 207 /\ data = [o1; o2; o3; i1; i2; i3; o4; i4] /\
     u' = mkVent [o1; o2; o3; o4] [i1; i2; i3; i4] (u_mode u) (u_comfort u) /\ In (SetFanProfileR m t) rs /\ acceptable m t /\
     with_profile (Z.to_nat (m mod 256 - 1)) (t mod 256) u u').
Lemma wr_inj a r b q : Wr a r = Wr b q -> a = b /\ r = q.
Proof. intros E. split; congruence. Qed.
Lemma turn_write rs u k cmd data r k' u' : turns rs u k (Wr (framed cmd data) r) k' u' ->
  k = Idle /\ w_err r = None /\
  ((In cmd asking /\ data = [] /\ k' = Awaiting (Some cmd) /\ u' = u) \/ (k' = Awaiting None /\ altered rs u cmd data u')).
Proof.
  intros T. remember (Wr (framed cmd data) r) as y eqn:E.
  destruct T as [gr G|gr pl B D5 D9|t I Th T|a b v I M|m t o1 o2 o3 o4 i1 i2 i3 i4 I M u1 d1 W| |]; try discriminate.
  - apply wr_inj in E as [E <-]. apply framed_data in E as [-> <-]. auto 10.
  - apply wr_inj in E as [E <-]. apply framed_data in E as [<- <-]. split; auto. split; auto. right. split; auto. left. exists t. auto 10.
  - apply wr_inj in E as [E <-]. apply framed_data in E as [<- <-]. split; auto. split; auto. right. split; auto. right. left. exists a, b, v. auto 10.
  - apply wr_inj in E as [E <-]. apply framed_data in E as [<- <-]. split; auto. split; auto. right. split; auto. right. right.
    exists m, t, o1, o2, o3, o4, i1, i2, i3, i4. splits; auto; reflexivity.
Qed.
Lemma turn_ack rs u k r k' u' : turns rs u k (Wr ack_seq r) k' u' -> r = mkWres 2 None.
Proof.
  intros T. remember (Wr ack_seq r) as y eqn:E.
  destruct T; try discriminate; apply wr_inj in E as [E <-]; try (exfalso; eapply framed_not_ack; exact E); auto.
Qed.
Lemma turn_read rs u k x p e k' u' : turns rs u k (Rd x p e) k' u' ->
  u' = u /\ e = None /\ ((exists gr, k = Awaiting (Some gr) /\ x = true /\ p_cmd p = gr + 1 /\ bytes_ok (p_data p) /\
    (gr = 205 -> describes u (p_data p)) /\ (gr = 209 -> measures u (p_data p))) \/ (k = Awaiting None /\ x = false)).
Proof. intros T. inversion T; subst; auto. split; auto. split; auto. left. exists gr. cbn [p_cmd p_data]. auto 10. Qed.

(** Every exchange succeeds, and what it reads is right. *)
Lemma course_exchange rs k u a x b k' u' cmd data ex p e : course rs k u (a ++ x ++ b) k' u' -> exchange cmd data ex p e x -> (length data <= 255)%nat ->
  e = None /\ (ex = true -> data = [] -> exists u1, (cmd = 205 -> describes u1 (p_data p)) /\ (cmd = 209 -> measures u1 (p_data p))).
Proof.
  intros C X Ld. apply course_split in C as (k1 & u1 & _ & C). apply course_split in C as (k2 & u2 & C & _).
  destruct X as [L|r e L W|r e L W|r p L W X N|r p r2 e L W M A1 A2 A3].
  - lia.
  - apply course_cons in C as (k3 & u3 & T & _). apply turn_write in T as (_ & E & _). congruence.
  - apply course_cons in C as (k3 & u3 & _ & C). apply course_cons in C as (k4 & u4 & T & _). apply turn_read in T as (_ & E & _). discriminate.
  - apply course_cons in C as (k3 & u3 & T & C). apply course_cons in C as (k4 & u4 & T2 & _). subst ex.
    apply turn_write in T as (_ & _ & T). apply turn_read in T2 as (_ & _ & [(gr & K & _ & P & _)|(_ & Y)]); [|discriminate].
    destruct T as [(G & _ & K2 & _)|(K2 & _)]; rewrite K in K2; [|discriminate]. injection K2 as ->. destruct N. rewrite P.
    symmetry. apply Z.mod_small. simpl in G. intuition lia.
  - apply course_cons in C as (k3 & u3 & T & C). apply course_cons in C as (k4 & u4 & T2 & C). apply course_cons in C as (k5 & u5 & T3 & _).
    apply turn_ack in T3. subst r2. split; [apply A1; auto|]. intros -> ->. exists u3.
    apply turn_write in T as (_ & _ & T). apply turn_read in T2 as (_ & _ & [(gr & K & _ & P & B & D5 & D9)|(_ & Y)]); [|discriminate].
    destruct T as [(G & _ & K2 & _)|(K2 & _)]; rewrite K in K2; [|discriminate]. injection K2 as ->. auto.
Qed.
Lemma course_queries rs k u a l b k' u' c : course rs k u (a ++ l ++ b) k' u' -> telling c -> queries_ok c l.
Proof.
  intros C T a' x b' -> (p & e & X).
  assert (C' : course rs k u ((a ++ a') ++ x ++ b' ++ b) k' u') by (rewrite <- !app_assoc in *; exact C).
  destruct (course_exchange _ _ _ _ _ _ _ _ _ _ _ _ _ C' X ltac:(simpl; lia)) as (-> & D). destruct (D eq_refl eq_refl) as (u1 & D5 & D9).
  unfold fetched. rewrite (exchange_replies _ _ _ _ _ _ (request c) X). rewrite Z.eqb_refl. cbn [andb filter].
  destruct T as [-> | ->]; cbn [accepted].
  - destruct (D9 eq_refl) as (-> & _). discriminate.
  - destruct (D5 eq_refl) as (-> & _). discriminate.
Qed.

(** Where a fetch is found in the log. *)
Lemma replies_pos req pl : forall l, In pl (replies_to req l) -> exists a p b, l = a ++ [Rd true p None] ++ b /\ p_data p = pl /\ p_cmd p = (req + 1) mod 256.
Proof.
  induction l as [|x l IH]; intros I; [destruct I|]. cbn [replies_to] in I.
  assert (Again : In pl (replies_to req l) -> exists a p b, x :: l = a ++ [Rd true p None] ++ b /\ p_data p = pl /\ p_cmd p = (req + 1) mod 256).
  { intros J. destruct (IH J) as (a & p & b & -> & P). exists (x :: a), p, b. auto. }
  destruct l as [|[bs w|[] p [e|]] l]; auto. destruct l as [|[bs w|? ? ?] l]; auto.
  destruct (_ && _) eqn:E; auto. destruct I as [<-|I]; auto. exists [x], p, (Wr bs w :: l).
  rewrite !andb_true_iff in E. destruct E as (_ & E). split; auto. split; auto. lia.
Qed.
Lemma fetched_pos c pl l : In pl (fetched c l) -> exists a p b, l = a ++ [Rd true p None] ++ b /\ p_data p = pl /\ p_cmd p = (request c + 1) mod 256.
Proof. intros I. apply filter_In in I as [I _]. apply replies_pos. auto. Qed.
Lemma course_legal rs k u l k' u' c : course rs k u l k' u' -> Forall bytes_ok (fetched c l).
Proof.
  intros C. apply Forall_forall. intros pl I. apply fetched_pos in I as (a & p & b & -> & <- & _).
  apply course_split in C as (k1 & u1 & _ & C). apply course_cons in C as (k2 & u2 & T & _).
  apply turn_read in T as (_ & _ & [(gr & _ & _ & _ & B & _)|(_ & X)]); [auto|discriminate].
Qed.
(** The state a fetch shows. *)
Lemma course_shows rs k u l p k' u' c v : course rs k u (l ++ [Rd true p None]) k' u' -> telling c -> p_cmd p = (request c + 1) mod 256 ->
  layout_of c (p_data p) v -> shown u' c (message v).
Proof.
  intros C T P L. apply course_last in C as (k1 & u1 & _ & C). apply turn_read in C as (-> & _ & [(gr & -> & _ & G & B & D5 & D9)|(_ & X)]); [|discriminate].
  destruct T as [-> | ->]; destruct v; try contradiction; cbn [layout_of message] in *.
  - assert (gr = 209) by (change ((request CTemp + 1) mod 256) with 210 in P; lia). destruct (D9 H) as (_ & _ & E). constructor. cbn [pbComfort].
    rewrite E. apply L.
  - assert (gr = 205) by (change ((request CProf + 1) mod 256) with 206 in P; lia). destruct (D5 H) as (_ & _ & E1 & E2 & E3).
    destruct L as (L1 & L2 & L3 & L4 & L5 & L6 & L7 & L8 & L9 & L10 & L11 & _). constructor; cbn; congruence.
Qed.

(** ** every part of the log was the log at some moment *)
Lemma moment lo rs L0 k0 u0 : lo <= 15 -> forall ys wait u k m m' l1 l2, inv L0 rs wait m -> tracks lo rs L0 k0 u0 u k m ->
  exec ys m = Some m' -> log (m_g m') = log (m_g m) ++ l1 ++ l2 ->
  exists ys1 ys2 m1 u1 k1 wait1, ys = ys1 ++ ys2 /\ exec ys1 m = Some m1 /\ exec ys2 m1 = Some m' /\ log (m_g m1) = log (m_g m) ++ l1 /\
    course rs k u l1 k1 u1 /\ inv L0 rs wait1 m1 /\ tracks lo rs L0 k0 u0 u1 k1 m1.
Proof.
  intros Lo. induction ys as [|x ys IH]; intros wait u k m m' l1 l2 Iv T E El; cbn in E.
  - injection E as <-. rewrite <- (app_nil_r (log (m_g m))) in El at 1. apply app_inv_head in El. symmetry in El. apply app_eq_nil in El as [-> ->].
    exists [], [], m, u, k, wait. splits; auto; [rewrite app_nil_r; auto|constructor].
  - destruct (exec1 m x) as [m1|] eqn:E1; [|discriminate]. destruct (inv_step _ _ _ _ _ _ Iv E1) as (w' & Nx & Iv').
    destruct (tracks_step lo Lo rs L0 k0 u0 L0 wait w' u k m x m1 Iv T E1 Nx) as (u' & k' & T' & more & Em & Cm & Lm).
    destruct l1 as [|y l1].
    { exists [], (x :: ys), m, u, k, wait. cbn. rewrite E1. splits; auto; [rewrite app_nil_r; auto|constructor]. }
    assert (Next : exists l, log (m_g m') = log (m_g m1) ++ l ++ l2 /\ y :: l1 = more ++ l).
    { destruct more as [|z [|]]; [| |cbn in Lm; lia].
      - exists (y :: l1). rewrite Em, app_nil_r. auto.
      - destruct (exec_log _ _ _ E) as (rest & Er). rewrite Em in *. rewrite Er, <- app_assoc in El. apply app_inv_head in El. cbn in El. injection El as -> ->.
        exists l1. rewrite Er. auto. }
    destruct Next as (l & El' & Ey). destruct (IH _ _ _ _ _ _ _ Iv' T' E El') as (ys1 & ys2 & m2 & u2 & k2 & w2 & -> & X1 & X2 & X3 & X4 & X5 & X6).
    exists (x :: ys1), ys2, m2, u2, k2, w2. cbn. rewrite E1, Ey. splits; auto.
    + rewrite X3, Em, <- app_assoc. reflexivity.
    + eapply course_app; eauto.
Qed.

Lemma tracks_in lo rs L0 k0 u0 u k m : tracks lo rs L0 k0 u0 u k m -> unit_in lo m u.
Proof. intros ((A & _ & C) & _). split; auto. Qed.

(** C78 *)
Lemma unit_course lo rs c clk u xs m : lo <= 15 -> lined lo c u -> exec xs (serve rs c clk) = Some m ->
  exists l k' u', log_of m = c_log c ++ l /\ course rs Idle u l k' u' /\ unit_in lo m u'.
Proof.
  intros Lo L E. destruct (unit_tracked lo rs c clk u xs m Lo L E) as (u' & k' & w & _ & T). pose proof (tracks_in _ _ _ _ _ _ _ _ T) as U.
  destruct T as (_ & _ & (l & El & C) & _). exists l, k', u'. auto.
Qed.

(** The same from some moment on. *)
Lemma course_from lo rs c clk u xs m0 ys m : lo <= 15 -> lined lo c u -> exec xs (serve rs c clk) = Some m0 -> exec ys m0 = Some m ->
  exists wait u0 k0 l k' u', inv (c_log c) rs wait m0 /\ tracks lo rs (c_log c) Idle u u0 k0 m0 /\ log_of m = log_of m0 ++ l /\ course rs k0 u0 l k' u'.
Proof.
  intros Lo L Ex Ey. destruct (unit_tracked lo rs c clk u xs m0 Lo L Ex) as (u0 & k0 & w & Iv & T).
  destruct (exec_log _ _ _ Ey) as (l & El).
  destruct (moment lo rs _ _ _ Lo ys w u0 k0 m0 m l [] Iv T Ey) as (ys1 & ys2 & m1 & u1 & k1 & w1 & _ & _ & _ & _ & C & _); [rewrite app_nil_r; exact El|].
  exists w, u0, k0, l, k1, u1. auto.
Qed.

Lemma setter_errors lo rs c clk u xs m0 ys m i r e : lo <= 15 -> lined lo c u -> exec xs (serve rs c clk) = Some m0 -> waits i xs ->
  exec ys m0 = Some m -> nth_error rs i = Some r -> answered m i (RespErr (Internal e)) ->
  (exists a b, r = SetFanSpeedR a b /\ e = ErrSetPollFailed) \/ (exists t, r = SetComfortTempR t /\ t <= 255 /\ 107 < t mod 256 /\ e = LibErr ErrTooHigh).
Proof.
  intros Lo L Ex W Ey Ri A.
  destruct (rpc_on_wire rs c clk xs m0 ys m i r _ Ex W Ey Ri A) as (l & ls & El & D & Em).
  destruct (course_from lo rs c clk u xs m0 ys m Lo L Ex Ey) as (w & u0 & k0 & l' & k' & u' & _ & _ & El' & C).
  rewrite El in El'. apply app_inv_head in El'. subst l'.
  assert (X : forall x cmd data ex p e0, In x ls -> exchange cmd data ex p (Some e0) x -> (length data <= 255)%nat -> False).
  { intros x cmd data ex p e0 I Xc Ld. destruct (embedded_in x ls l Em I) as (a & b & ->).
    destruct (course_exchange _ _ _ _ _ _ _ _ _ _ _ _ _ C Xc Ld). discriminate. }
  inversion D; subst.
  - destruct k; contradiction.
  - right. eauto 10.
  - exfalso. eapply X; [left; reflexivity|eauto|simpl; lia].
  - exfalso. eapply X; [left; reflexivity|eauto|simpl; lia].
  - left. eauto.
  - exfalso. destruct e' as [e'|]; [eapply X; [left; reflexivity|eauto|simpl; lia]|].
    destruct (embedded_in l0 [l0] l Em (or_introl eq_refl)) as (a & b & ->).
    match goal with H : exchange 205 _ _ _ _ _ |- _ => destruct (course_exchange _ _ _ _ _ _ _ _ _ _ _ _ _ C H ltac:(simpl; lia)) as (_ & Y) end.
    destruct (Y eq_refl eq_refl) as (u1 & D5 & _). match goal with H : None = None -> _ |- _ => apply (H eq_refl) end. apply (D5 eq_refl).
  - exfalso. eapply X; [right; left; reflexivity|eauto|]. unfold profile_request. rewrite map_length. cbn. lia.
Qed.

(** C79 *)
Lemma altered_achieved rs u cmd data u' q b : change q b cmd data -> altered rs u cmd data u' -> achieved u' q b.
Proof.
  intros Ch A. inversion Ch as [t o T1 T2|a b' o t M|m t o pl [M T] Lp]; subst; destruct A as [A|[A|A]].
  - destruct A as (t' & _ & E & -> & _). constructor; auto. cbn. injection E as E. lia.
  - destruct A as (? & ? & ? & E & _). discriminate.
  - destruct A as (? & ? & ? & ? & ? & ? & ? & ? & ? & ? & E & _). discriminate.
  - destruct A as (? & E & _). discriminate.
  - destruct A as (a' & b1 & v & _ & E & -> & _). injection E as <-. constructor; auto.
  - destruct A as (? & ? & ? & ? & ? & ? & ? & ? & ? & ? & E & _). discriminate.
  - destruct A as (? & E & _). discriminate.
  - destruct A as (? & ? & ? & E & _). discriminate.
  - destruct A as (m' & t' & o1 & o2 & o3 & o4 & i1 & i2 & i3 & i4 & _ & E & -> & _). unfold profile_request in E. cbn [profile_offsets map] in E.
    injection E as <- <- <- <- <- <- <- <-.
    constructor; [split; auto| |]; cbn [u_out u_in]; remember (m mod 256) as v; assert (v = 1 \/ v = 2 \/ v = 3 \/ v = 4) as [-> |[-> |[-> | ->]]] by lia; reflexivity.
Qed.
Lemma change_data q b cmd data : change q b cmd data -> data <> [] /\ (length data <= 255)%nat.
Proof. intros C. destruct C; (split; [discriminate|simpl; lia]). Qed.
Lemma wire_change q b ls : does_on_wire q b ls -> modified b -> exists cmd data p x, change q b cmd data /\ exchange cmd data false p None x /\ In x ls.
Proof.
  intros D M. inversion D; subst; cbn in M; try contradiction.
  - destruct k, b; contradiction.
  - eexists 211, _, p, l. split; [constructor; auto|]. split; [eauto|left; auto].
  - eexists 153, _, p, l. split; [constructor; auto|]. split; [eauto|left; auto].
  - exists 207, (profile_request (p_data p) (m mod 256 - 1) (t mod 256)), q0, l2. split; [constructor; auto|]. split; [auto|right; left; auto].
Qed.

Lemma change_moment lo rs L0 k0 u0 wait u k ys m m' q b cmd data p a x l : lo <= 15 -> inv L0 rs wait m -> tracks lo rs L0 k0 u0 u k m ->
  exec ys m = Some m' -> log (m_g m') = log (m_g m) ++ a ++ x ++ l -> change q b cmd data -> exchange cmd data false p None x ->
  exists ys1 ys2 m1 u1 k1 wait1 l1, ys = ys1 ++ ys2 /\ exec ys1 m = Some m1 /\ exec ys2 m1 = Some m' /\ log (m_g m') = log (m_g m1) ++ l1 ++ l /\
    inv L0 rs wait1 m1 /\ tracks lo rs L0 k0 u0 u1 k1 m1 /\ achieved u1 q b.
Proof.
  intros Lo Iv T E El Ch X. destruct (change_data _ _ _ _ Ch) as [Nd Ld]. remember (None : option err) as e eqn:Ee.
  assert (Sp : exists r x', x = [Wr (framed cmd data) r] ++ x').
  { destruct X; try discriminate; cbn; eauto. }
  destruct Sp as (r & x' & ->).
  destruct (moment lo rs L0 k0 u0 Lo ys wait u k m m' (a ++ [Wr (framed cmd data) r]) (x' ++ l) Iv T E) as (ys1 & ys2 & m1 & u1 & k1 & w1 & -> & E1 & E2 & El1 & C & Iv1 & T1).
  { rewrite El, <- !app_assoc. reflexivity. }
  exists ys1, ys2, m1, u1, k1, w1, x'. splits; auto.
  - rewrite El, El1, <- !app_assoc. reflexivity.
  - apply course_last in C as (k2 & u2 & _ & Tn). apply turn_write in Tn as (_ & _ & [(_ & Y & _)|(_ & A)]); [contradiction|]. eapply altered_achieved; eauto.
Qed.
Lemma change_takes_effect lo rs c clk u xs m0 ys m j q b : lo <= 15 -> lined lo c u -> exec xs (serve rs c clk) = Some m0 -> waits j xs ->
  exec ys m0 = Some m -> nth_error rs j = Some q -> answered m j b -> modified b ->
  exists ys1 ys2 m1 u1, ys = ys1 ++ ys2 /\ exec ys1 m0 = Some m1 /\ unit_in lo m1 u1 /\ achieved u1 q b.
Proof.
  intros Lo L Ex W Ey Rj A M. destruct (rpc_on_wire rs c clk xs m0 ys m j q _ Ex W Ey Rj A) as (l & ls & El & D & Em).
  destruct (wire_change _ _ _ D M) as (cmd & data & p & x & Ch & X & I). destruct (embedded_in x ls l Em I) as (a & z & ->).
  destruct (course_from lo rs c clk u xs m0 ys m Lo L Ex Ey) as (w & u0 & k0 & _ & _ & _ & Iv & T & _).
  destruct (change_moment lo rs _ _ _ w u0 k0 ys m0 m q b cmd data p a x z Lo Iv T Ey El Ch X) as (ys1 & ys2 & m1 & u1 & k1 & w1 & l1 & -> & E1 & _ & _ & _ & T1 & Ac).
  exists ys1, ys2, m1, u1. splits; auto. eapply tracks_in; eauto.
Qed.

(** C80 *)
Lemma lined_legal lo rs c clk u xs m : lo <= 15 -> lined lo c u -> c_log c = [] -> exec xs (serve rs c clk) = Some m -> legal m.
Proof.
  intros Lo L El E k. destruct (unit_course lo rs c clk u xs m Lo L E) as (l & k' & u' & El' & C & _). rewrite El in El'. unfold log_of in El'. rewrite El'.
  eapply course_legal; eauto.
Qed.
Lemma lined_queries lo rs c clk u xs m0 ys m k l : lo <= 15 -> lined lo c u -> exec xs (serve rs c clk) = Some m0 -> exec ys m0 = Some m ->
  telling k -> log_of m = log_of m0 ++ l -> queries_ok k l.
Proof.
  intros Lo L Ex Ey T El. destruct (course_from lo rs c clk u xs m0 ys m Lo L Ex Ey) as (w & u0 & k0 & l' & k' & u' & _ & _ & El' & C).
  rewrite El in El'. apply app_inv_head in El'. subst l'. eapply (course_queries rs k0 u0 [] l []); eauto. rewrite app_nil_r. exact C.
Qed.
(** The moment a fetch was read. *)
Lemma fetch_moment lo rs L0 k0 u0 wait u k ys m m' c pl v l : lo <= 15 -> inv L0 rs wait m -> tracks lo rs L0 k0 u0 u k m ->
  exec ys m = Some m' -> log (m_g m') = log (m_g m) ++ l -> telling c -> In pl (fetched c l) -> layout_of c pl v ->
  exists ys1 ys2 m1 u1 l1, ys = ys1 ++ ys2 /\ exec ys1 m = Some m1 /\ log (m_g m1) = log (m_g m) ++ l1 /\ (exists k1, course rs k u l1 k1 u1) /\
    unit_in lo m1 u1 /\ shown u1 c (message v).
Proof.
  intros Lo Iv T E El Tl I Ly. apply fetched_pos in I as (a & p & b & -> & <- & P).
  destruct (moment lo rs L0 k0 u0 Lo ys wait u k m m' (a ++ [Rd true p None]) b Iv T E) as (ys1 & ys2 & m1 & u1 & k1 & w1 & -> & E1 & E2 & El1 & C & Iv1 & T1).
  { rewrite El, <- !app_assoc. reflexivity. }
  exists ys1, ys2, m1, u1, (a ++ [Rd true p None]). splits; eauto; [eapply tracks_in; eauto|]. eapply course_shows; eauto.
Qed.
Lemma exec_app_inv {A} : forall ys1 ys2 (m m' : machine A), exec (ys1 ++ ys2) m = Some m' -> exists m1, exec ys1 m = Some m1 /\ exec ys2 m1 = Some m'.
Proof.
  induction ys1 as [|x ys1 IH]; intros ys2 m m' E; cbn in *; [eauto|]. destruct (exec1 m x); [|discriminate]. eauto.
Qed.
Lemma shows_after lo k rs c clk u xs m1 ys m2 zs m i j q b a : lo <= 15 -> lined lo c u -> c_log c = [] ->
  exec xs (serve rs c clk) = Some m1 -> waits j xs -> exec ys m1 = Some m2 -> waits i (xs ++ ys) -> exec zs m2 = Some m ->
  nth_error rs j = Some q -> answered m2 j b -> modified b -> In k (refreshed q) -> telling k ->
  nth_error rs i = Some (getter_rpc k) -> answered m i a ->
  exists s1 s2 s3 n1 n2 u1 u2 l k1 k2, ys ++ zs = s1 ++ s2 ++ s3 /\ exec s1 m1 = Some n1 /\ unit_in lo n1 u1 /\ achieved u1 q b /\
    exec s2 n1 = Some n2 /\ log_of n2 = log_of n1 ++ l /\ course rs k1 u1 l k2 u2 /\ unit_in lo n2 u2 /\ shown u2 k a.
Proof.
  intros Lo L Z Ex Wj Ey Wi Ez Rj B Mb Ik Tk Ri A.
  pose proof (exec_join _ _ _ _ _ Ey Ez) as Eyz.
  destruct (read_back_after k rs c clk xs m1 ys m2 zs m i j q b a) as (cmd & data & l & x & l' & p & pl & v & Ch & El & X & Ip & Ly & Ea); auto.
  { apply (lined_legal lo rs c clk u (xs ++ ys ++ zs) m); auto. eapply exec_join; [exact Ex|exact Eyz]. }
  { intros l El. apply (lined_queries lo rs c clk u xs m1 ys m2 k l); auto. }
  destruct (course_from lo rs c clk u xs m1 _ m Lo L Ex Eyz) as (w & u0 & k0 & _ & _ & _ & Iv & T & _).
  destruct (change_moment lo rs _ _ _ w u0 k0 (ys ++ zs) m1 m q b cmd data p l x l' Lo Iv T Eyz El Ch X) as (s1 & s2 & n1 & u1 & k1 & w1 & l1 & Es & E1 & E2 & El1 & Iv1 & T1 & Ac).
  destruct (fetch_moment lo rs _ _ _ w1 u1 k1 s2 n1 m k pl v (l1 ++ l') Lo Iv1 T1 E2 El1 Tk) as (t1 & t2 & n2 & u2 & l2 & -> & F1 & F2 & (k2 & F3) & F4 & F5); auto.
  { pose proof (fetched_in k l1 l' [] pl Ip) as Y. rewrite app_nil_r in Y. exact Y. }
  exists s1, t1, t2, n1, n2, u1, u2, l2, k1, k2. splits; auto; [eapply tracks_in; eauto|]. subst a. exact F5.
Qed.
Lemma shows_flushed lo k rs c clk u xs m1 ys m2 zs m i j t b a : lo <= 15 -> lined lo c u -> c_log c = [] ->
  exec xs (serve rs c clk) = Some m1 -> waits j xs -> exec ys m1 = Some m2 -> waits i (xs ++ ys) -> exec zs m2 = Some m ->
  nth_error rs j = Some (FlushCacheR t) -> answered m2 j b -> In k (flushes t) -> telling k ->
  nth_error rs i = Some (getter_rpc k) -> answered m i a ->
  exists s1 s2 n1 u1, ys ++ zs = s1 ++ s2 /\ exec s1 m1 = Some n1 /\ unit_in lo n1 u1 /\ shown u1 k a.
Proof.
  intros Lo L Z Ex Wj Ey Wi Ez Rj B Ik Tk Ri A.
  pose proof (exec_join _ _ _ _ _ Ey Ez) as Eyz.
  destruct (read_after_flush k rs c clk xs m1 ys m2 zs m i j t b a) as (l & pl & v & El & Ip & Ly & Ea); auto.
  { apply (lined_legal lo rs c clk u (xs ++ ys ++ zs) m); auto. eapply exec_join; [exact Ex|exact Eyz]. }
  { intros l El. apply (lined_queries lo rs c clk u xs m1 ys m2 k l); auto. }
  destruct (course_from lo rs c clk u xs m1 _ m Lo L Ex Eyz) as (w & u0 & k0 & _ & _ & _ & Iv & T & _).
  destruct (fetch_moment lo rs _ _ _ w u0 k0 (ys ++ zs) m1 m k pl v l Lo Iv T Eyz El Tk Ip Ly) as (t1 & t2 & n2 & u2 & l2 & E & F1 & F2 & F3 & F4 & F5).
  exists t1, t2, n2, u2. subst a. auto.
Qed.

(** With one aim only, the answer shows it. *)
Lemma course_comfort rs t k u l k' u' : (forall t', In (SetComfortTempR t') rs -> t' <= 255 -> t' mod 256 <= 107 -> t' mod 256 = t mod 256) -> u_comfort u = 2 * (t mod 256 + 20) ->
  course rs k u l k' u' -> u_comfort u' = 2 * (t mod 256 + 20).
Proof.
  intros S E C. induction C as [|l k1 u1 x k2 u2 C IH T]; auto. destruct T as [| |t' I T1 T2| | | |]; auto. cbn [u_comfort]. rewrite (S t' I T1 T2). auto.
Qed.
Lemma course_mode rs v k u l k' u' : (forall a b, In (SetFanSpeedR a b) rs -> a <> 0 /\ a mod 256 = v) -> u_mode u = v -> course rs k u l k' u' -> u_mode u' = v.
Proof.
  intros S E C. induction C as [|l k1 u1 x k2 u2 C IH T]; auto. destruct T as [| | |a b w I [_ M]| | |]; auto. cbn [u_mode]. destruct (S a b I) as [N <-]. auto.
Qed.
Lemma course_profile rs m t k u l k' u' : (forall m' t', In (SetFanProfileR m' t') rs -> m' mod 256 = m mod 256 -> t' mod 256 = t mod 256) -> 1 <= m mod 256 <= 4 ->
  let i := Z.to_nat (m mod 256 - 1) in nth i (u_out u) 0 = t mod 256 -> nth i (u_in u) 0 = t mod 256 -> course rs k u l k' u' ->
  nth i (u_out u') 0 = t mod 256 /\ nth i (u_in u') 0 = t mod 256.
Proof.
  intros S M i E1 E2 C. induction C as [|l k1 u1 x k2 u2 C [IH1 IH2] T]; auto.
  destruct T as [| | | |m' t' o1 o2 o3 o4 i1 i2 i3 i4 I [Am At] u2 dd W| |]; auto. cbv zeta in *. fold u2 in W.
  destruct W as (_ & _ & _ & _ & W). destruct (W i ltac:(unfold i; lia)) as [W1 W2]. rewrite W1, W2.
  destruct (Nat.eqb_spec i (Z.to_nat (m' mod 256 - 1))) as [Ei|]; auto. assert (m' mod 256 = m mod 256) by (unfold i in Ei; lia).
  rewrite (S m' t' I H). auto.
Qed.
Lemma comfort_shown lo rs c clk u xs m1 ys m2 zs m i j t o t' a : lo <= 15 -> lined lo c u -> c_log c = [] ->
  exec xs (serve rs c clk) = Some m1 -> waits j xs -> exec ys m1 = Some m2 -> waits i (xs ++ ys) -> exec zs m2 = Some m ->
  nth_error rs j = Some (SetComfortTempR t) -> 0 <= t -> answered m2 j (RespComfort true o t') ->
  (forall t0, In (SetComfortTempR t0) rs -> t0 <= 255 -> t0 mod 256 <= 107 -> t0 = t) ->
  nth_error rs i = Some GetTempsRPC -> answered m i a -> exists p, a = RespTemps p /\ f32_is (pbComfort p) t.
Proof.
  intros Lo L Z Ex Wj Ey Wi Ez Rj T0 B S Ri A.
  destruct (shows_after lo CTemp rs c clk u xs m1 ys m2 zs m i j _ _ a Lo L Z Ex Wj Ey Wi Ez Rj B I (or_introl eq_refl) (or_introl eq_refl) Ri A)
    as (s1 & s2 & s3 & n1 & n2 & u1 & u2 & l & k1 & k2 & _ & _ & _ & Ac & _ & _ & C & _ & Sh).
  inversion Ac as [t1 o1 T1 E| |]; subst. inversion Sh as [p F|]; subst. exists p. split; auto.
  rewrite (course_comfort rs t' k1 u1 l k2 u2) in F; auto; [|intros t1 I1 X1 X2; rewrite (S t1 I1 X1 X2); reflexivity].
  replace (2 * (t' mod 256 + 20) / 2 - 20) with t' in F; auto. rewrite Z.mul_comm, Z.div_mul, Z.mod_small by lia. lia.
Qed.
Lemma profile_shown lo rs c clk u xs m1 ys m2 zs m i j p t o t' a : lo <= 15 -> lined lo c u -> c_log c = [] ->
  exec xs (serve rs c clk) = Some m1 -> waits j xs -> exec ys m1 = Some m2 -> waits i (xs ++ ys) -> exec zs m2 = Some m ->
  nth_error rs j = Some (SetFanProfileR p t) -> 1 <= p <= 4 -> 15 <= t <= 100 -> answered m2 j (RespProfile true o t') ->
  (forall p0 t0, In (SetFanProfileR p0 t0) rs -> p0 mod 256 = p -> t0 mod 256 = t) ->
  nth_error rs i = Some GetFanProfilesRPC -> answered m i a -> exists q, a = RespProf q /\
    nth (Z.to_nat (p - 1)) [pbOutAway q; pbOutLow q; pbOutMid q; pbOutHigh q] 0 = t /\
    nth (Z.to_nat (p - 1)) [pbInAway q; pbInLow q; pbInMid q; pbInHigh q] 0 = t.
Proof.
  intros Lo L Z Ex Wj Ey Wi Ez Rj P0 T0 B S Ri A.
  assert (Ep : p mod 256 = p) by (apply Z.mod_small; lia). assert (Et : t mod 256 = t) by (apply Z.mod_small; lia).
  destruct (shows_after lo CProf rs c clk u xs m1 ys m2 zs m i j _ _ a Lo L Z Ex Wj Ey Wi Ez Rj B I (or_introl eq_refl) (or_intror eq_refl) Ri A)
    as (s1 & s2 & s3 & n1 & n2 & u1 & u2 & l & k1 & k2 & _ & _ & _ & Ac & _ & _ & C & _ & Sh).
  inversion Ac as [| |m0 t1 o1 Acc E1 E2]; subst. inversion Sh as [|q F1 F2 F3]; subst. exists q. split; auto. rewrite F1, F2.
  pose proof (course_profile rs p t' k1 u1 l k2 u2) as CP. cbv zeta in CP. rewrite Ep, Et in CP. rewrite Ep, Et in E1, E2. apply CP; auto.
Qed.
Lemma speed_shown lo rs c clk u xs m1 ys m2 zs m i j v b o v' a : lo <= 15 -> lined lo c u -> c_log c = [] ->
  exec xs (serve rs c clk) = Some m1 -> waits j xs -> exec ys m1 = Some m2 -> waits i (xs ++ ys) -> exec zs m2 = Some m ->
  nth_error rs j = Some (SetFanSpeedR v b) -> answered m2 j (RespSpeed true o v') ->
  (forall v0 b0, In (SetFanSpeedR v0 b0) rs -> v0 = v) -> v <> 0 ->
  nth_error rs i = Some GetFanProfilesRPC -> answered m i a -> exists q, a = RespProf q /\ pbCurrentMode q = v mod 256.
Proof.
  intros Lo L Z Ex Wj Ey Wi Ez Rj B S N Ri A.
  destruct (shows_after lo CProf rs c clk u xs m1 ys m2 zs m i j _ _ a Lo L Z Ex Wj Ey Wi Ez Rj B I (or_intror (or_introl eq_refl)) (or_intror eq_refl) Ri A)
    as (s1 & s2 & s3 & n1 & n2 & u1 & u2 & l & k1 & k2 & _ & _ & _ & Ac & _ & _ & C & _ & Sh).
  inversion Ac as [|a1 b1 o1 t1 [M1 M2] E1|]; subst. inversion Sh as [|q F1 F2 F3]; subst. exists q. split; auto. rewrite F3.
  apply (course_mode rs (v mod 256) k1 u1 l k2 u2); auto. intros a0 b0 I0. rewrite (S a0 b0 I0). auto.
Qed.

(** Whatever a getter shows, the unit was like that at one moment. *)
Lemma shows_moment lo k rs c clk u xs m i a : lo <= 15 -> lined lo c u -> c_log c = [] -> exec xs (serve rs c clk) = Some m -> telling k ->
  nth_error rs i = Some (getter_rpc k) -> answered m i a ->
  a = message (blank k) \/ exists xs1 xs2 m1 u1, xs = xs1 ++ xs2 /\ exec xs1 (serve rs c clk) = Some m1 /\ unit_in lo m1 u1 /\ shown u1 k a.
Proof.
  intros Lo L Z Ex Tk Ri A. destruct (snapshot rs c clk xs m i k a Ex (lined_legal _ _ _ _ _ _ _ Lo L Z Ex) Ri A) as (v & -> & [-> |(pl & Ip & Ly)]); [auto|].
  right. destruct (fetch_moment lo rs (c_log c) Idle u None u Idle xs (serve rs c clk) m k pl v (log (m_g m)) Lo) as (t1 & t2 & n2 & u2 & l2 & E & F1 & F2 & F3 & F4 & F5); auto.
  - apply inv_init. reflexivity.
  - apply tracks_init. auto.
  - cbn. rewrite Z. reflexivity.
  - exists t1, t2, n2, u2. auto.
Qed.

(** Two fetches in order. *)
Lemma replies_order req pl pl' f : forall l rest, filter f (replies_to req l) = pl :: rest -> In pl' (pl :: rest) ->
  exists a p b, l = a ++ [Rd true p None] ++ b /\ p_data p = pl /\ p_cmd p = (req + 1) mod 256 /\
    (pl' = pl \/ In pl' (replies_to req b)).
Proof.
  induction l as [|x l IH]; intros rest E I; [discriminate|]. cbn [replies_to] in E.
  assert (Again : filter f (replies_to req l) = pl :: rest -> exists a p b, x :: l = a ++ [Rd true p None] ++ b /\ p_data p = pl /\ p_cmd p = (req + 1) mod 256 /\
    (pl' = pl \/ In pl' (replies_to req b))).
  { intros J. destruct (IH _ J I) as (a & p & b & -> & P). exists (x :: a), p, b. auto. }
  destruct l as [|[bs w|[] p [e|]] l]; auto. destruct l as [|[bs w|? ? ?] l]; auto.
  destruct (_ && _) eqn:C; auto. cbn [filter] in E. destruct (f (p_data p)) eqn:Fp; auto. injection E as <- <-.
  exists [x], p, (Wr bs w :: l). rewrite !andb_true_iff in C. destruct C as (_ & C). split; auto. split; auto. split; [lia|].
  destruct I as [<-|I]; auto. right. apply filter_In in I as [I _]. cbn [replies_to] in I.
  destruct l as [|y l]; [destruct I|]. exact I.
Qed.
Lemma shows_order lo k rs c clk u xs m0 ys m i j a b : lo <= 15 -> lined lo c u -> c_log c = [] ->
  exec xs (serve rs c clk) = Some m0 -> waits i xs -> exec ys m0 = Some m -> telling k ->
  nth_error rs j = Some (getter_rpc k) -> answered m0 j b -> nth_error rs i = Some (getter_rpc k) -> answered m i a ->
  b = message (blank k) \/
  exists s1 s2 s3 n1 n2 u1 u2 l k1 k2, xs ++ ys = s1 ++ s2 ++ s3 /\ exec s1 (serve rs c clk) = Some n1 /\ unit_in lo n1 u1 /\ shown u1 k b /\
    exec s2 n1 = Some n2 /\ log_of n2 = log_of n1 ++ l /\ course rs k1 u1 l k2 u2 /\ unit_in lo n2 u2 /\ shown u2 k a.
Proof.
  intros Lo L Z Ex W Ey Tk Rj B Ri A. pose proof (exec_join _ _ _ _ _ Ex Ey) as E.
  destruct (never_older k rs c clk xs m0 ys m i j a b Ex W Ey (lined_legal _ _ _ _ _ _ _ Lo L Z E) Rj B Ri A)
    as [-> |(l1 & l2 & l3 & pl & v & pl' & w & El0 & Hd & Ly & -> & El & Ip & Ly' & ->)]; [auto|]. right.
  destruct (fetched_parts k l2 l3) as (st & Est). destruct (fetched k l2) as [|pl0 r0]; [discriminate|]. injection Hd as ->. rewrite Est in Ip.
  destruct (replies_order (request k) pl pl' (accepted k) (l2 ++ l3) _ Est Ip) as (x & p & y & Exy & Pd & Pc & Or).
  assert (El' : log (m_g m) = log (m_g (serve rs c clk)) ++ ((l1 ++ x ++ [Rd true p None]) ++ y)).
  { unfold log_of in El. cbn. rewrite Z. cbn. rewrite El, Exy, <- !app_assoc. reflexivity. }
  destruct (moment lo rs (c_log c) Idle u Lo (xs ++ ys) None u Idle (serve rs c clk) m (l1 ++ x ++ [Rd true p None]) y) as (s1 & s2 & n1 & u1 & k1 & w1 & Es & E1 & E2 & L1 & C1 & Iv1 & T1); auto.
  { apply inv_init. reflexivity. }
  { apply tracks_init. auto. }
  assert (S1 : forall z, layout_of k pl z -> shown u1 k (message z)).
  { intros z Lz. rewrite app_assoc in C1. rewrite <- Pd in Lz. eapply course_shows; eauto. }
  destruct Or as [-> |Or].
  - exists s1, [], s2, n1, n1, u1, u1, [], k1, k1. cbn [app exec]. rewrite app_nil_r.
    split; [exact Es|]. split; [exact E1|]. split; [eapply tracks_in; eauto|]. split; [apply S1; exact Ly|]. split; [auto|]. split; [auto|].
    split; [constructor|]. split; [eapply tracks_in; eauto|]. apply S1. exact Ly'.
  - apply replies_pos in Or as (x2 & p2 & y2 & -> & Pd2 & Pc2).
    destruct (moment lo rs (c_log c) Idle u Lo s2 w1 u1 k1 n1 m (x2 ++ [Rd true p2 None]) y2) as (s2' & s3 & n2 & u2 & k2 & w2 & -> & E3 & E4 & L2 & C2 & Iv2 & T2); auto.
    { rewrite El', L1, <- !app_assoc. reflexivity. }
    exists s1, s2', s3, n1, n2, u1, u2, (x2 ++ [Rd true p2 None]), k1, k2.
    split; [exact Es|]. split; [exact E1|]. split; [eapply tracks_in; eauto|]. split; [apply S1; exact Ly|]. split; [exact E3|]. split; [exact L2|].
    split; [exact C2|]. split; [eapply tracks_in; eauto|]. rewrite <- Pd2 in Ly'. eapply course_shows; eauto.
Qed.

(** The state of a unit can be told from outside. *)
Lemma pieces_inj a b : pieces a = pieces b -> a = b.
Proof.
  revert b. induction a as [|x a IH]; intros [|y b] E; cbn in E; try discriminate; auto. injection E as -> E. f_equal; auto.
Qed.
Lemma reply_data c1 d1 c2 d2 : reply c1 d1 = reply c2 d2 -> d1 = d2.
Proof. intros E. unfold reply in E. apply app_inv_head in E. apply framed_data in E. tauto. Qed.
Lemma unit_unique lo u u' d : unit_at lo true u d -> unit_at lo true u' d -> vent_ok lo u -> vent_ok lo u' -> u = u'.
Proof.
  intros A A' V V'.
  assert (S5 : forall v, vent_ok lo v -> exists v' an, serves lo v 205 [] v' an).
  { intros [o i m t] (L1 & L2 & F1 & F2 & M & _). cbn in *.
    destruct o as [|o1 [|o2 [|o3 [|o4 [|]]]]]; try discriminate. destruct i as [|i1 [|i2 [|i3 [|i4 [|]]]]]; try discriminate.
    do 2 eexists. apply (sv_profiles _ _ [o1; o2; o3; i1; i2; i3; 0; 0; m; 0; o4; i4; 0; 0]).
    repeat match goal with H : Forall _ (_ :: _) |- _ => inversion H; clear H; subst end.
    split; [reflexivity|]. split; [|auto]. repeat constructor; unfold byte_ok in *; lia. }
  assert (S9 : forall v, vent_ok lo v -> exists v' an, serves lo v 209 [] v' an).
  { intros v (_ & _ & _ & _ & _ & B). do 2 eexists. apply (sv_temps _ _ [u_comfort v; 0; 0; 0; 0; 0; 0; 0; 0]).
    split; [reflexivity|]. split; [|auto]. repeat constructor; unfold byte_ok in *; lia. }
  assert (One : forall v cmd, unit_at lo true v d -> (exists v' an, serves lo v cmd [] v' an) -> exists d' chunks r v' an, react d (framed cmd []) = (d', pieces chunks, r) /\
    serves lo v cmd [] v' an /\ concat chunks = an).
  { intros v cmd [R _] S. destruct (R cmd [] S) as (v' & d' & evs & r & E & T & _). inversion T; subst; try discriminate. do 5 eexists. eauto. }
  destruct (One u 205 A (S5 u V)) as (d1 & c1 & r1 & v1 & a1 & R1 & X1 & C1). destruct (One u' 205 A' (S5 u' V')) as (d2 & c2 & r2 & v2 & a2 & R2 & X2 & C2).
  rewrite R1 in R2. injection R2 as _ E _. apply pieces_inj in E. subst c2.
  destruct (One u 209 A (S9 u V)) as (d3 & c3 & r3 & v3 & a3 & R3 & X3 & C3). destruct (One u' 209 A' (S9 u' V')) as (d4 & c4 & r4 & v4 & a4 & R4 & X4 & C4).
  rewrite R3 in R4. injection R4 as _ E _. apply pieces_inj in E. subst c4. subst a2 a1 a3 a4.
  assert (I5 : forall v v' an, serves lo v 205 [] v' an -> exists pl, describes v pl /\ an = reply 206 pl).
  { intros v v' an S. inversion S; subst; eauto. match goal with H : In 205 _ |- _ => cbn in H; lia end. }
  assert (I9 : forall v v' an, serves lo v 209 [] v' an -> exists pl, measures v pl /\ an = reply 210 pl).
  { intros v v' an S. inversion S; subst; eauto. match goal with H : In 209 _ |- _ => cbn in H; lia end. }
  destruct (I5 _ _ _ X1) as (pl & (_ & _ & P1 & P2 & P3) & F1). destruct (I5 _ _ _ X2) as (pl' & (_ & _ & Q1 & Q2 & Q3) & F2).
  destruct (I9 _ _ _ X3) as (pt & (_ & _ & P4) & F3). destruct (I9 _ _ _ X4) as (pt' & (_ & _ & Q4) & F4).
  assert (pl = pl') as <- by (apply (reply_data 206 pl 206 pl'); congruence). assert (pt = pt') as <- by (apply (reply_data 210 pt 210 pt'); congruence).
  clear - P1 P2 P3 P4 Q1 Q2 Q3 Q4. destruct u as [x1 x2 x3 x4], u' as [y1 y2 y3 y4]. cbn [u_out u_in u_mode u_comfort] in *. congruence.
Qed.
