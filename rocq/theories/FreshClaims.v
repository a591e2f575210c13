(** Proofs behind C75-C77. *)
From Verif Require Import ProofBase Proto SpecProto SpecFrame SpecConn SpecLayout SpecServer ProtoProofs Scanner Conn ReadProofs Proc Lib QueryProofs
  FrameLemmas Server ServerProofs ServerLemmas ServerTimes Machine SpecMachine MachineBase ThreadLogic MachineInv MachineClaims
  Samples SamplesServer SamplesMachine SpecFresh SamplesFresh FreshLogic FreshInv OwnLogic OwnInv MomentLogic MomentInv.

Lemma legal_part {A} (m : machine A) k a b : legal m -> log_of m = a ++ b -> Forall bytes_ok (fetched k a).
Proof.
  intros L E. specialize (L k). unfold log_of in E. rewrite E in L. destruct (fetched_parts k a b) as (s & Es). rewrite Es in L.
  rewrite Forall_app in L. tauto.
Qed.

(** ** what the latest fetch brought *)
Lemma latest_current k l : Forall bytes_ok (fetched k l) -> current k l (latest k l) /\ umsg (latest k l) = message (latest k l).
Proof.
  intros B. pose proof (fetched_decodes k l) as D. unfold current, latest, lastrec. rewrite Forall_forall in B, D.
  destruct (rev (fetched k l)) as [|pl r] eqn:E; [split; [auto|destruct k; reflexivity]|].
  assert (I : In pl (fetched k l)) by (apply in_rev; rewrite E; left; auto).
  destruct (D pl I) as (v & Dv). rewrite Dv. pose proof (decodes_layout _ _ _ Dv (B pl I)) as Ly. split; auto.
  apply umsg_typed. eapply layout_typed; eauto.
Qed.
Lemma current_part k a b v : fetched k b <> [] -> current k (a ++ b) v -> exists pl, In pl (fetched k b) /\ layout_of k pl v.
Proof.
  intros N C. unfold current in C. destruct (fetched_parts k a b) as (st & E). rewrite E in C. rewrite !rev_app_distr in C.
  destruct (rev (fetched k b)) as [|pl r] eqn:R.
  - destruct N. rewrite <- (rev_involutive (fetched k b)), R. reflexivity.
  - cbn [app] in C. exists pl. split; auto. apply in_rev. rewrite R. left. auto.
Qed.
Lemma storing_stores k rs : storing k rs -> forall r, In r rs -> stores k r.
Proof. intros S r I E m t ->. exact (S E m t I). Qed.

(** C75 *)
Lemma linear_read k rs c clk xs m0 ys m i a : storing k rs -> c_log c = [] ->
  exec xs (serve rs c clk) = Some m0 -> waits i xs -> exec ys m0 = Some m -> legal m ->
  nth_error rs i = Some (getter_rpc k) -> answered m i a ->
  exists ys1 ys2 m1 v, ys = ys1 ++ ys2 /\ exec ys1 m0 = Some m1 /\ a = message v /\ current k (log_of m1) v.
Proof.
  intros St E0 Ex W Ey Lg Ri A.
  destruct (fresh_run k rs c clk xs m0 ys m i a (storing_stores _ _ St) E0 Ex (waits_run _ _ W) Ey Ri A) as (ys1 & ys2 & m1 & -> & E1 & ->).
  exists ys1, ys2, m1, (latest k (log_of m1)). split; auto. split; auto.
  assert (E2 : exec ys2 m1 = Some m).
  { clear -Ey E1. revert m0 Ey E1. induction ys1 as [|x ys1 IH]; intros m0 Ey E1; cbn in *; [congruence|].
    destruct (exec1 m0 x); [|discriminate]. eauto. }
  destruct (exec_log _ _ _ E2) as (more & Em).
  destruct (latest_current k (log_of m1)) as [C U]; auto. eapply legal_part; eauto.
Qed.
Lemma exec_cut {A} ys1 ys2 : forall (m0 m1 m : machine A), exec (ys1 ++ ys2) m0 = Some m -> exec ys1 m0 = Some m1 -> exec ys2 m1 = Some m.
Proof.
  induction ys1 as [|x ys1 IH]; intros m0 m1 m Ey E1; cbn in *; [congruence|]. destruct (exec1 m0 x); [|discriminate]. eauto.
Qed.
Lemma exec_join {A} ys1 ys2 : forall (m0 m1 m : machine A), exec ys1 m0 = Some m1 -> exec ys2 m1 = Some m -> exec (ys1 ++ ys2) m0 = Some m.
Proof.
  induction ys1 as [|x ys1 IH]; intros m0 m1 m E1 E2; cbn in *; [congruence|]. destruct (exec1 m0 x); [|discriminate]. eauto.
Qed.
Lemma legal_before ys (m0 m : machine resp) : exec ys m0 = Some m -> legal m -> legal m0.
Proof. intros E L k. destruct (exec_log _ _ _ E) as (more & Em). eapply legal_part; eauto. Qed.
Lemma reads_agree k rs c clk xs m0 ys m i j a b : storing k rs -> c_log c = [] ->
  exec xs (serve rs c clk) = Some m0 -> waits i xs -> exec ys m0 = Some m -> legal m ->
  nth_error rs j = Some (getter_rpc k) -> answered m0 j b -> nth_error rs i = Some (getter_rpc k) -> answered m i a ->
  exists l1 l2 l3 v w, log_of m = l1 ++ l2 ++ l3 /\ b = message v /\ current k l1 v /\ a = message w /\ current k (l1 ++ l2) w.
Proof.
  intros St E0 Ex W Ey Lg Rj B Ri A.
  destruct (linear_read k rs c clk [] _ xs m0 j b St E0 eq_refl ltac:(constructor) Ex (legal_before _ _ _ Ey Lg) Rj B)
    as (xs1 & xs2 & m1 & v & -> & E1 & -> & C1).
  destruct (linear_read k rs c clk _ _ ys m i a St E0 Ex W Ey Lg Ri A) as (ys1 & ys2 & m2 & w & -> & E2 & -> & C2).
  destruct (exec_log _ _ _ (exec_cut _ _ _ _ _ Ex E1)) as (p1 & P1). destruct (exec_log _ _ _ E2) as (p2 & P2).
  destruct (exec_log _ _ _ (exec_cut _ _ _ _ _ Ey E2)) as (p3 & P3). unfold log_of in *.
  exists (log (m_g m1)), (p1 ++ p2), p3, v, w. rewrite P3, P2, P1, <- !app_assoc. splits; auto.
  rewrite P2, P1, <- app_assoc in C2. exact C2.
Qed.
Lemma cache_current k rs c clk xs m : storing k rs -> c_log c = [] -> exec xs (serve rs c clk) = Some m -> legal m ->
  at_rest m k -> current k (log_of m) (cached (g_sh (m_g m)) k).
Proof.
  intros St E0 Ex Lg [R1 R2].
  assert (U : upto k (fun _ => True) (fun _ _ _ => True) m).
  { eapply upto_run; [apply (inv_init (c_log c) rs c clk eq_refl)|apply upto_init; [apply storing_stores; exact St|exact E0]|exact Ex|auto]. }
  destruct U as (Co & _). unfold settled in Co. rewrite Co.
  - apply latest_current. apply (Lg k).
  - rewrite rfree_in. intros h I. unfold hs_of in I. destruct I as [<-|I].
    + unfold wk_h. destruct (m_wk m) as [w|] eqn:W; [apply R2; auto|intros []].
    + apply in_map_iff in I as (t & <- & I). auto.
Qed.

(** C77 *)
Lemma embedded_split x l2 : forall l1 s, embedded (l1 ++ x :: l2) s -> exists a b, s = a ++ x ++ b /\ embedded l2 b.
Proof.
  induction l1 as [|y l1 IH]; intros s E; cbn in E; inversion E; subst; [eauto|].
  match goal with H : embedded (l1 ++ _) _ |- _ => destruct (IH _ H) as (u & w & -> & Em) end.
  exists (a ++ y ++ u), w. rewrite <- !app_assoc. auto.
Qed.
Lemma embedded_in x ls l : embedded ls l -> In x ls -> exists a b, l = a ++ x ++ b.
Proof. intros E I. apply in_split in I as (l1 & l2 & ->). destruct (embedded_split _ _ _ _ E) as (a & b & -> & _). eauto. Qed.
Lemma log_skip (a b : list io) : skipn (length a) (a ++ b) = b.
Proof. rewrite skipn_app, skipn_all, Nat.sub_diag. reflexivity. Qed.
Lemma getter_moment k rs c clk xs m0 ys m i a :
  exec xs (serve rs c clk) = Some m0 -> waits i xs -> exec ys m0 = Some m -> nth_error rs i = Some (getter_rpc k) -> answered m i a ->
  exists ys1 ys2 mb v, ys = ys1 ++ ys2 /\ exec ys1 m0 = Some mb /\ at_rest mb k /\ cached (g_sh (m_g mb)) k = v /\ a = umsg v.
Proof.
  intros Ex W Ey Ri A. destruct (request_told k rs c clk _ m0 ys m i _ a Ex W Ey Ri A) as (s & ls & _ & _ & T & _).
  destruct T as [_ T]; [intros t; destruct k; discriminate|]. destruct (T eq_refl) as (v & (mb & sb & (ys1 & ys2 & -> & E) & Rb & Cv & _) & _ & Ea).
  exists ys1, ys2, mb, v. auto.
Qed.
Lemma read_newer k rs c clk xs ma l b ys mb zs m v a : exec xs (serve rs c clk) = Some ma -> at_rest ma k -> log (m_g ma) = l ++ b ->
  newer k (length l) (log (m_g ma)) (cached (g_sh (m_g ma)) k) -> exec ys ma = Some mb -> at_rest mb k ->
  cached (g_sh (m_g mb)) k = v -> a = umsg v -> exec zs mb = Some m -> legal m ->
  exists l' pl, log_of m = l ++ l' /\ In pl (fetched k l') /\ layout_of k pl v /\ a = message v.
Proof.
  intros Ex Ra El Na Ey Rb Cv -> Ez Lg.
  assert (Nb : newer k (length l) (log (m_g mb)) v).
  { rewrite <- Cv. eapply stays_newer; eauto. rewrite El, app_length. lia. }
  destruct (exec_log _ _ _ Ey) as (p1 & P1). destruct (exec_log _ _ _ Ez) as (p2 & P2). unfold log_of in *.
  destruct Nb as (pl & Ip & D). rewrite P1, El, <- app_assoc, log_skip in Ip.
  assert (I2 : In pl (fetched k (b ++ p1 ++ p2))).
  { rewrite app_assoc. apply (fetched_in k [] (b ++ p1) p2). auto. }
  assert (B : bytes_ok pl).
  { specialize (Lg k). rewrite Forall_forall in Lg. apply Lg. rewrite P2, P1, El, <- !app_assoc.
    rewrite <- (app_nil_r (b ++ p1 ++ p2)) in *. apply fetched_in. rewrite app_nil_r in *. exact I2. }
  pose proof (decodes_layout _ _ _ D B) as Ly. exists (b ++ p1 ++ p2), pl. rewrite P2, P1, El, <- !app_assoc. splits; auto.
  apply umsg_typed. eapply layout_typed; eauto.
Qed.
Lemma read_back_after k rs c clk xs m1 ys m2 zs m i j q b a :
  exec xs (serve rs c clk) = Some m1 -> waits j xs -> exec ys m1 = Some m2 -> waits i (xs ++ ys) -> exec zs m2 = Some m -> legal m ->
  nth_error rs j = Some q -> answered m2 j b -> modified b -> In k (refreshed q) ->
  (forall l, log_of m2 = log_of m1 ++ l -> queries_ok k l) ->
  nth_error rs i = Some (getter_rpc k) -> answered m i a ->
  exists cmd data l x l' p pl v, change q b cmd data /\ log_of m = log_of m1 ++ l ++ x ++ l' /\ exchange cmd data false p None x /\
    In pl (fetched k l') /\ layout_of k pl v /\ a = message v.
Proof.
  intros Ex Wj Ey Wi Ez Lg Rj B Mb Ik Ok Ri A.
  destruct (request_told k rs c clk xs m1 ys m2 j q b Ex Wj Ey Rj B) as (s & ls & Es & Em & T & _).
  destruct T as [T _]; [intros t ->; destruct Ik|].
  destruct (T Mb Ik) as (l1 & x & l2 & cmd & data & p & -> & Ch & X & G).
  destruct (getter_moment k rs c clk _ m2 zs m i a (exec_join _ _ _ _ _ Ex Ey) Wi Ez Ri A) as (zs1 & zs2 & mb & v & -> & E3 & Rb & Cv & Ea).
  destruct G as [(y & Iy & Qy & Fy)|(pre & y & post & pl & w & -> & Ip & D & (ma & s' & (ys1 & ys2 & -> & E1) & Ra & Cw & El & Em'))].
  - exfalso. destruct (embedded_in y _ _ Em) as (u & z & ->); [apply in_app_iff; right; right; auto|].
    exact (Ok _ Es u y z eq_refl Qy Fy).
  - destruct (embedded_split _ _ _ _ Em') as (u & z & -> & Em2). destruct (embedded_split _ _ _ _ Em2) as (u2 & z2 & -> & _).
    destruct (read_newer k rs c clk (xs ++ ys1) ma (log (m_g m1) ++ u ++ x) (u2 ++ y ++ z2) (ys2 ++ zs1) mb zs2 m v a) as (l' & pl' & E' & Ip' & Ly & Ev); auto.
    + eapply exec_join; eauto.
    + rewrite El, <- !app_assoc. reflexivity.
    + rewrite Cw. exists pl. split; auto. rewrite El. replace (log (m_g m1) ++ u ++ x ++ u2 ++ y ++ z2) with ((log (m_g m1) ++ u ++ x) ++ u2 ++ y ++ z2)
        by (rewrite <- !app_assoc; reflexivity). rewrite log_skip. apply fetched_in. auto.
    + eapply exec_join; [eapply exec_cut; eauto|exact E3].
    + eapply exec_cut; eauto.
    + exists cmd, data, u, x, l', p, pl', v. splits; auto. rewrite E'. unfold log_of. rewrite <- !app_assoc. reflexivity.
Qed.
Lemma read_after_flush k rs c clk xs m1 ys m2 zs m i j t b a :
  exec xs (serve rs c clk) = Some m1 -> waits j xs -> exec ys m1 = Some m2 -> waits i (xs ++ ys) -> exec zs m2 = Some m -> legal m ->
  nth_error rs j = Some (FlushCacheR t) -> answered m2 j b -> In k (flushes t) ->
  (forall l, log_of m2 = log_of m1 ++ l -> queries_ok k l) ->
  nth_error rs i = Some (getter_rpc k) -> answered m i a ->
  exists l pl v, log_of m = log_of m1 ++ l /\ In pl (fetched k l) /\ layout_of k pl v /\ a = message v.
Proof.
  intros Ex Wj Ey Wi Ez Lg Rj B Ik Ok Ri A.
  destruct (request_told k rs c clk xs m1 ys m2 j _ b Ex Wj Ey Rj B) as (s & ls & Es & Em & _ & G). specialize (G t eq_refl Ik).
  destruct (getter_moment k rs c clk _ m2 zs m i a (exec_join _ _ _ _ _ Ex Ey) Wi Ez Ri A) as (zs1 & zs2 & mb & v & -> & E3 & Rb & Cv & Ea).
  destruct G as [(y & Iy & Qy & Fy)|(pre & y & post & pl & w & -> & Ip & D & (ma & s' & (ys1 & ys2 & -> & E1) & Ra & Cw & El & Em'))].
  - exfalso. destruct (embedded_in y _ _ Em Iy) as (u & z & ->). exact (Ok _ Es u y z eq_refl Qy Fy).
  - destruct (embedded_split _ _ _ _ Em') as (u2 & z2 & -> & _).
    destruct (read_newer k rs c clk (xs ++ ys1) ma (log (m_g m1)) (u2 ++ y ++ z2) (ys2 ++ zs1) mb zs2 m v a) as (l' & pl' & E' & Ip' & Ly & Ev); auto.
    + eapply exec_join; eauto.
    + rewrite Cw. exists pl. split; auto. rewrite El, log_skip. apply fetched_in. auto.
    + eapply exec_join; [eapply exec_cut; eauto|exact E3].
    + eapply exec_cut; eauto.
    + exists l', pl', v. splits; auto.
Qed.

(** C75 without conditions *)
Lemma first_fetch k pl : forall l, In pl (fetched k l) -> exists l1 l2, l = l1 ++ l2 /\ hd_error (fetched k l2) = Some pl.
Proof.
  induction l as [|x l IH]; intros I; [destruct I|].
  assert (C : fetched k (x :: l) = fetched k l \/ exists p, fetched k (x :: l) = p :: fetched k l).
  { unfold fetched. destruct l as [|[|[|] p [|]] [|[|] z]]; auto. cbn [replies_to]. destruct (_ && _); auto. cbn [filter].
    destruct (accepted k (p_data p)); eauto. }
  destruct C as [C|(p & C)].
  - rewrite C in I. destruct (IH I) as (l1 & l2 & -> & H). exists (x :: l1), l2. auto.
  - rewrite C in I. destruct I as [->|I].
    + exists [], (x :: l). rewrite C. auto.
    + destruct (IH I) as (l1 & l2 & -> & H). exists (x :: l1), l2. auto.
Qed.
Lemma never_older k rs c clk xs m0 ys m i j a b :
  exec xs (serve rs c clk) = Some m0 -> waits i xs -> exec ys m0 = Some m -> legal m ->
  nth_error rs j = Some (getter_rpc k) -> answered m0 j b -> nth_error rs i = Some (getter_rpc k) -> answered m i a ->
  b = message (blank k) \/
  exists l1 l2 l3 pl v pl' w, log_of m0 = l1 ++ l2 /\ hd_error (fetched k l2) = Some pl /\ layout_of k pl v /\ b = message v /\
    log_of m = l1 ++ l2 ++ l3 /\ In pl' (fetched k (l2 ++ l3)) /\ layout_of k pl' w /\ a = message w.
Proof.
  intros Ex W Ey Lg Rj B Ri A.
  destruct (getter_moment k rs c clk [] _ xs m0 j b eq_refl ltac:(constructor) Ex Rj B) as (xs1 & xs2 & ma & v & -> & E1 & Ra & Cv & Eb).
  destruct (getter_moment k rs c clk _ m0 ys m i a Ex W Ey Ri A) as (ys1 & ys2 & mb & w & -> & E2 & Rb & Cw & Ea).
  pose proof (exec_cut _ _ _ _ _ Ex E1) as X2. pose proof (exec_cut _ _ _ _ _ Ey E2) as Y2.
  destruct (rest_content k rs c clk xs1 ma E1 Ra) as [E|(pl & Ip & D)].
  { left. rewrite Eb, <- Cv, E. destruct k; reflexivity. }
  right. cbn [skipn] in Ip. destruct (first_fetch k pl _ Ip) as (l1 & l2 & El & Hd).
  assert (Ip2 : In pl (fetched k l2)) by (destruct (fetched k l2); [discriminate|]; injection Hd as ->; left; auto).
  assert (Bp : bytes_ok pl).
  { pose proof (legal_before _ _ _ (exec_join _ _ _ _ _ X2 Ey) Lg k) as La. rewrite Forall_forall in La. apply La. exact Ip. }
  rewrite Cv in D. pose proof (decodes_layout _ _ _ D Bp) as Ly.
  destruct (read_newer k rs c clk xs1 ma l1 l2 (xs2 ++ ys1) mb ys2 m w a) as (l' & pl' & E' & Ip' & Lw & Ew); auto.
  { exists pl. rewrite El, log_skip, Cv. auto. }
  { eapply exec_join; eauto. }
  destruct (exec_log _ _ _ X2) as (p1 & P1). destruct (exec_log _ _ _ Ey) as (p2 & P2). unfold log_of in *.
  destruct (fetched_parts k l2 p1) as (st & Est).
  assert (El' : l' = l2 ++ p1 ++ p2) by (rewrite P2, P1, El, <- !app_assoc in E'; apply app_inv_head in E'; auto). subst l'.
  exists l1, (l2 ++ p1), p2, pl, v, pl', w. rewrite P1, El, <- !app_assoc. splits; auto.
  - rewrite Est. destruct (fetched k l2); [discriminate|]. exact Hd.
  - rewrite Eb. apply umsg_typed. eapply layout_typed; eauto.
Qed.

(** ** the exception: SetFanProfile *)
Lemma early_witness : exists m0 m, exec early_before early_start = Some m0 /\ exec early_after m0 = Some m /\
  answered m 1 (message (blank CProf)) /\ log_of m = log_of m0 /\ fetched CProf (log_of m0) = [prof_payload 2] /\
  forall c, fetched c (log_of m) = if cache_eqb c CProf then [prof_payload 2] else [].
Proof.
  assert (X : match exec early_before early_start with
    | Some m0 => match exec early_after m0 with
      | Some m => nth_error (results m) 1 = Some (Some (message (blank CProf))) /\ log_of m = log_of m0 /\
          fetched CProf (log_of m0) = [prof_payload 2] /\
          map (fun c => fetched c (log_of m)) [CBoot; CBypass; CTemp; CFans; CProf; CErr] = [[]; []; []; []; [prof_payload 2]; []]
      | None => False
      end
    | None => False
    end) by (vm_compute; auto).
  destruct (exec early_before early_start) as [m0|]; [|contradiction]. destruct (exec early_after m0) as [m|] eqn:E; [|contradiction].
  destruct X as (R & L & F & M). exists m0, m. splits; auto.
  - unfold results in R. rewrite nth_error_map in R. destruct (nth_error (m_ts m) 1) as [t|] eqn:T; [|discriminate].
    exists t. split; auto. cbn [option_map] in R. destruct (t_p t); try discriminate. injection R as ->. reflexivity.
  - intros c. cbn [map] in M. injection M as M1 M2 M3 M4 M5 M6. destruct c; cbn; auto.
Qed.
Lemma linear_refuted : exists rs c xs m0 ys m i a, c_log c = [] /\ exec xs (serve rs c 0) = Some m0 /\ waits i xs /\
  exec ys m0 = Some m /\ legal m /\ nth_error rs i = Some (getter_rpc CProf) /\ answered m i a /\
  ~ exists ys1 ys2 m1 v, ys = ys1 ++ ys2 /\ exec ys1 m0 = Some m1 /\ a = message v /\ current CProf (log_of m1) v.
Proof.
  destruct early_witness as (m0 & m & E1 & E2 & A & L & F & Al). do 2 eexists. exists early_before, m0, early_after, m, 1%nat. eexists.
  split; [|split; [exact E1|]]; [reflexivity|]. splits; eauto.
  - repeat constructor; discriminate.
  - intros c. fold (log_of m). rewrite Al. destruct (cache_eqb c CProf); [|constructor]. constructor; [|constructor].
    unfold prof_payload. repeat (constructor; [red; lia|]). constructor.
  - intros (ys1 & ys2 & m1 & v & Es & E & Ev & C). rewrite Es in E2.
    destruct (exec_log _ _ _ E) as (p1 & P1). destruct (exec_log _ _ _ (exec_cut _ _ _ _ _ E2 E)) as (p2 & P2).
    unfold log_of in *. rewrite L, P1, <- app_assoc in P2. rewrite <- (app_nil_r (log (m_g m0))) in P2 at 1. apply app_inv_head in P2.
    symmetry in P2. apply app_eq_nil in P2 as [-> ->]. rewrite app_nil_r in P1. rewrite P1 in C. unfold current in C. rewrite F in C.
    cbn [rev app] in C. destruct v; cbn in C; try contradiction. destruct C as (C & _). cbn in Ev. injection Ev as Ev _. cbn in C. lia.
Qed.

(** Every query of this log succeeds. *)
Lemma exchange_starts cmd data e p err l : exchange cmd data e p err l -> (length data <= 255)%nat ->
  exists r t, l = Wr (framed cmd data) r :: t.
Proof. intros X L. inversion X; subst; [lia|eauto..]. Qed.
Lemma query_first k x r l : one_query k x -> forall b, Wr (framed (request k) []) r :: l = x ++ b -> w_err r = None ->
  forall p l', l = Rd true p None :: l' -> p_cmd p = (request k + 1) mod 256 -> forall r2 l'', l' = Wr ack_seq r2 :: l'' ->
  w_err r2 = None -> w_n r2 = 2 -> accepted k (p_data p) = true -> fetched k x <> [].
Proof.
  intros (p0 & e & X) b E W p l' -> C r2 l'' -> W2 N2 Ac. inversion X; subst.
  - cbn in H. lia.
  - cbn [app] in E. congruence.
  - cbn [app] in E. congruence.
  - cbn [app] in E. congruence.
  - cbn [app] in E. assert (r0 = r /\ p = p0 /\ r1 = r2) as (-> & -> & ->) by (repeat split; congruence). unfold fetched. cbn [replies_to].
    assert (O : ok_io (Wr (framed (request k) []) r) (framed (request k) []) = true).
    { unfold ok_io. rewrite W. destruct (list_eq_dec Z.eq_dec (framed (request k) []) (framed (request k) [])); [reflexivity|congruence]. }
    assert (O2 : ok_io (Wr ack_seq r2) ack_seq = true) by (unfold ok_io; rewrite W2; reflexivity).
    rewrite O, O2, N2, C. cbn [andb Z.eqb Pos.eqb filter]. rewrite Z.eqb_refl. cbn [filter]. rewrite Ac. discriminate.
Qed.
Lemma warm_queries m1 m2 l : exec warm_before warm_start = Some m1 -> exec warm_during m1 = Some m2 ->
  log_of m2 = log_of m1 ++ l -> queries_ok CTemp l.
Proof.
  intros E1 E2 El.
  assert (X : match exec warm_before warm_start with
    | Some m1 => match exec warm_during m1 with Some m2 => skipn (length (log_of m1)) (log_of m2) | None => [] end
    | None => []
    end = [Wr [7; 240; 0; 211; 1; 84; 213; 7; 15] (mkWres 9 None); Rd false zero_packet None; Wr [7; 243] (mkWres 2 None);
           Wr [7; 240; 0; 209; 0; 126; 7; 15] (mkWres 8 None); Rd true (mkPacket 210 [80; 50; 60; 70; 45; 15; 40; 40; 40] false) None; Wr [7; 243] (mkWres 2 None);
           Wr [7; 240; 0; 209; 0; 126; 7; 15] (mkWres 8 None); Rd true (mkPacket 210 [84; 50; 60; 70; 45; 15; 40; 40; 40] false) None; Wr [7; 243] (mkWres 2 None)])
    by (vm_compute; reflexivity).
  rewrite E1, E2, El, skipn_app, skipn_all, Nat.sub_diag in X. cbn [app skipn] in X. subst l.
  intros a x b E O. pose proof O as (p & e & Ex). destruct (exchange_starts _ _ _ _ _ _ Ex) as (r & t & Et); [cbn; lia|].
  destruct a as [|? a]; [subst x; cbn in E; discriminate|]. injection E as _ E.
  destruct a as [|? a]; [subst x; cbn in E; discriminate|]. injection E as _ E.
  destruct a as [|? a]; [subst x; cbn in E; discriminate|]. injection E as _ E.
  destruct a as [|? a]; [cbn [app] in E; refine (query_first CTemp x _ _ O b E _ _ _ eq_refl _ _ _ eq_refl _ _ _); reflexivity|]. injection E as _ E.
  destruct a as [|? a]; [subst x; cbn in E; discriminate|]. injection E as _ E.
  destruct a as [|? a]; [subst x; cbn in E; discriminate|]. injection E as _ E.
  destruct a as [|? a]; [cbn [app] in E; refine (query_first CTemp x _ _ O b E _ _ _ eq_refl _ _ _ eq_refl _ _ _); reflexivity|]. injection E as _ E.
  destruct a as [|? a]; [subst x; cbn in E; discriminate|]. injection E as _ E.
  destruct a as [|? a]; [subst x; cbn in E; discriminate|]. injection E as _ E.
  subst x. destruct a; cbn in E; discriminate.
Qed.
Lemma prof_queries m1 m2 l : exec warm_before prof_start = Some m1 -> exec prof_during m1 = Some m2 ->
  log_of m2 = log_of m1 ++ l -> queries_ok CProf l.
Proof.
  intros E1 E2 El.
  assert (X : match exec warm_before prof_start with
    | Some m1 => match exec prof_during m1 with Some m2 => skipn (length (log_of m1)) (log_of m2) | None => [] end
    | None => []
    end = [Wr [7; 240; 0; 205; 0; 122; 7; 15] (mkWres 8 None); Rd true (mkPacket 206 [15; 35; 50; 15; 35; 50; 35; 35; 2; 1; 70; 70; 0; 0] false) None; Wr [7; 243] (mkWres 2 None);
           Wr [7; 240; 0; 207; 8; 20; 35; 50; 20; 35; 50; 70; 70; 226; 7; 15] (mkWres 16 None); Rd false zero_packet None; Wr [7; 243] (mkWres 2 None);
           Wr [7; 240; 0; 205; 0; 122; 7; 15] (mkWres 8 None); Rd true (mkPacket 206 [20; 35; 50; 20; 35; 50; 35; 35; 2; 1; 70; 70; 0; 0] false) None; Wr [7; 243] (mkWres 2 None)])
    by (vm_compute; reflexivity).
  rewrite E1, E2, El, log_skip in X. subst l.
  intros a x b E O. pose proof O as (p & e & Ex). destruct (exchange_starts _ _ _ _ _ _ Ex) as (r & t & Et); [cbn; lia|].
  destruct a as [|? a]; [cbn [app] in E; refine (query_first CProf x _ _ O b E _ _ _ eq_refl _ _ _ eq_refl _ _ _); reflexivity|]. injection E as _ E.
  destruct a as [|? a]; [subst x; cbn in E; discriminate|]. injection E as _ E.
  destruct a as [|? a]; [subst x; cbn in E; discriminate|]. injection E as _ E.
  destruct a as [|? a]; [subst x; cbn in E; discriminate|]. injection E as _ E.
  destruct a as [|? a]; [subst x; cbn in E; discriminate|]. injection E as _ E.
  destruct a as [|? a]; [subst x; cbn in E; discriminate|]. injection E as _ E.
  destruct a as [|? a]; [cbn [app] in E; refine (query_first CProf x _ _ O b E _ _ _ eq_refl _ _ _ eq_refl _ _ _); reflexivity|]. injection E as _ E.
  destruct a as [|? a]; [subst x; cbn in E; discriminate|]. injection E as _ E.
  destruct a as [|? a]; [subst x; cbn in E; discriminate|]. injection E as _ E.
  subst x. destruct a; cbn in E; discriminate.
Qed.
