(** Lemmas behind PropertiesUnit.v (C21, C22, C30, C31). *)
From Verif Require Import ProofBase Proto SpecProto SpecFrame SpecConn SpecLayout SpecUnit ProtoProofs Scanner Conn
  FrameProofs ReplyProofs ReadProofs Proc Lib QueryProofs FrameLemmas FrameExamples LayoutProofs OpLemmas
  Server SpecServer ServerProofs ServerLemmas ServerOps ServerClaims UnitProofs UnitServer Samples SamplesServer SamplesUnit.

(** ** the simulated unit is a unit *)
Lemma request_framed cmd data : request_of (framed cmd data) = Some (cmd, data).
Proof.
  unfold request_of, framed. cbn [app]. rewrite app_length. cbn [length].
  replace (length (wire cmd data) + 2 - 2)%nat with (length (wire cmd data) + 0)%nat by lia.
  rewrite firstn_app_2. cbn [firstn]. rewrite app_nil_r, unmarshal_wire. reflexivity.
Qed.
Lemma acceptable_spec lo l : acceptable lo l = true <-> Forall (fun x => lo <= x /\ byte_ok x) l.
Proof.
  unfold acceptable. rewrite forallb_forall, Forall_forall. unfold byte_ok. split; intros H x I; specialize (H x I); lia.
Qed.
Lemma profiles_describe lo u : vent_ok lo u -> describes u (profiles_of u).
Proof.
  destruct u as [o i m]. unfold vent_ok. cbn [u_out u_in u_mode]. intros (Lo & Li & Bo & Bi & Bm).
  do 4 (destruct o as [|? o]; [discriminate|]). destruct o; [|discriminate].
  do 4 (destruct i as [|? i]; [discriminate|]). destruct i; [|discriminate].
  unfold describes, profiles_of. cbn [u_out u_in u_mode nth]. splits; auto; try reflexivity.
  repeat match goal with H : Forall _ (_ :: _) |- _ => apply Forall_inv in H as ?; apply Forall_inv_tail in H end.
  unfold byte_ok in *. repeat constructor; unfold byte_ok; lia.
Qed.
Lemma one_piece (bs : list Z) : bs <> [] -> Forall (fun b : list Z => b <> []) [bs].
Proof. intros H. constructor; auto. Qed.

Lemma temps_measure u : byte_ok (u_comfort u) -> measures u (temps_of u).
Proof.
  intros B. unfold measures, temps_of. splits; auto. unfold bytes_ok. repeat constructor; auto; unfold byte_ok in *; lia.
Qed.
Lemma sim_served lo fans u cmd data u' evs a : simulate lo fans u (framed cmd data) = (u', evs) ->
  serves lo u cmd data u' a -> evs = [Data a None] -> a <> [] ->
  takes lo true u cmd data u' evs (mkWres (len (framed cmd data)) None).
Proof.
  intros _ S -> N. change [Data a None] with (pieces [a]). apply tk_served with (answer := a); auto using one_piece. simpl. apply app_nil_r.
Qed.
Lemma sim_answers lo fans u cmd data u0 a0 : bytes_ok fans -> (length fans <= 255)%nat -> vent_ok lo u -> serves lo u cmd data u0 a0 ->
  exists u' a, simulate lo fans u (framed cmd data) = (u', [Data a None]) /\ serves lo u cmd data u' a /\ a <> [] /\ vent_ok lo u'.
Proof.
  intros Bf Lf V S. unfold simulate. rewrite request_framed. destruct S as [pl D|o1 o2 o3 i1 i2 i3 o4 i4 F|v Hv|pl D|t Ht|req pl Ir Bp Lp].
      - exists u, (reply 206 (profiles_of u)). splits; auto; try discriminate. apply sv_profiles. eapply profiles_describe; eauto.
      - pose proof (proj2 (acceptable_spec _ _) F) as A. rewrite A.
        eexists; eexists. splits; [reflexivity|apply sv_set_profiles; exact F|discriminate|].
        repeat match goal with H : Forall _ (_ :: _) |- _ => apply Forall_inv in H as ?; apply Forall_inv_tail in H end.
        destruct V as (_ & _ & _ & _ & Vm & Vc). unfold vent_ok. cbn [u_out u_in u_mode u_comfort]. splits; auto; lia.
      - replace ((0 <=? v) && (v <=? 4)) with true by lia. eexists; eexists. splits; [reflexivity|apply sv_speed; exact Hv|discriminate|].
        destruct V as (? & ? & ? & ? & Vm & Vc). unfold vent_ok. cbn [u_out u_in u_mode u_comfort]. splits; auto; lia.
      - exists u, (reply 210 (temps_of u)). splits; auto; try discriminate. apply sv_temps. apply temps_measure. apply V.
      - unfold byte_ok in Ht. replace ((0 <=? t) && (t <? 256)) with true by lia.
        eexists; eexists. splits; [reflexivity|apply sv_comfort; exact Ht|discriminate|].
        destruct V as (? & ? & ? & ? & Vm & Vc). unfold vent_ok. cbn [u_out u_in u_mode u_comfort]. splits; auto; lia.
      - assert (O : forall pl', bytes_ok pl' -> (length pl' <= 255)%nat -> serves lo u req [] u (reply (req + 1) pl'))
          by (intros; apply sv_other; auto).
        simpl in Ir; intuition subst;
        (eexists; eexists; splits; [reflexivity| |discriminate|auto]);
        apply O; auto; try (simpl; lia); try (repeat constructor; discriminate); constructor.
Qed.
Lemma simulator_unit lo fans : bytes_ok fans -> (length fans <= 255)%nat ->
  forall u, vent_ok lo u -> unit_at lo true u (simulator lo fans u).
Proof.
  intros Bf Lf. cofix IH. intros u V. constructor.
  - intros cmd data (u0 & a0 & S).
    destruct (sim_answers lo fans u cmd data u0 a0 Bf Lf V S) as (u' & a & E & Sv & N & V').
    exists u', (simulator lo fans u'), [Data a None], (mkWres (len (framed cmd data)) None).
    split; [|split].
    + cbn [react simulator]. rewrite E. reflexivity.
    + eapply sim_served; eauto.
    + apply IH. exact V'.
  - exists (simulator lo fans u), (mkWres 2 None). split; [reflexivity|]. split; [auto|]. apply IH. exact V.
Qed.

(** ** and everything it sends is readable *)
Fixpoint cleanb (l : list Z) : bool :=
  match l with
  | a :: (c :: _) as r => negb ((a =? 7) && ((c =? 243) || (c =? 240) || (c =? 15))) && cleanb r
  | _ => true
  end.
Lemma cleanb_clean l : cleanb l = true -> clean l.
Proof.
  intros H a c b E C. revert l H E. induction a as [|x a IH]; intros l H ->; cbn [app] in H.
  - cbn in H. unfold ctl in C. destruct C as [-> |[-> | ->]]; discriminate.
  - apply (IH (a ++ 7 :: c :: b)); auto. cbn [cleanb] in H. destruct (a ++ 7 :: c :: b); [reflexivity|].
    apply andb_true_iff in H. apply H.
Qed.
Lemma no7_clean l k : Forall (fun x => x <> 7) l -> clean (l ++ [k]).
Proof.
  intros F a c b E _. assert (A : l = a ++ 7 :: removelast (c :: b)).
  { assert (N : 7 :: c :: b <> []) by discriminate.
    replace l with (removelast (l ++ [k])) by (rewrite removelast_last; auto). rewrite E, removelast_app by auto. reflexivity. }
  subst l. apply Forall_app in F as [_ F]. apply Forall_inv in F. auto.
Qed.
Lemma profiles_readable u : vent_ok 15 u -> readable 206 (profiles_of u).
Proof.
  destruct u as [o i m kt]. unfold vent_ok. cbn [u_out u_in u_mode]. intros (Lo & Li & Bo & Bi & Bm & _).
  do 4 (destruct o as [|? o]; [discriminate|]). destruct o; [|discriminate].
  do 4 (destruct i as [|? i]; [discriminate|]). destruct i; [|discriminate].
  unfold readable, fields. set (k := cksum_byte _ _). rewrite !app_comm_cons. apply no7_clean.
  unfold profiles_of. cbn [u_out u_in u_mode nth length]. clearbody k.
  repeat match goal with H : Forall _ (_ :: _) |- _ => apply Forall_inv in H as ?; apply Forall_inv_tail in H end.
  repeat apply Forall_cons; try apply Forall_nil; lia.
Qed.
Lemma temps_readable u : readable 210 (temps_of u).
Proof.
  unfold readable, fields. set (k := cksum_byte _ _). clearbody k. generalize (u_comfort u). intros b.
  unfold temps_of. cbn [length]. intros a c r E C.
  destruct a as [|x a]; [discriminate|]. cbn [app] in E. injection E as _ E.
  destruct a as [|y a]; [discriminate|]. cbn [app] in E. injection E as _ E.
  destruct a as [|z a]; cbn [app] in E.
  - injection E as _ <- _. unfold ctl in C. lia.
  - injection E as _ E. assert (N : clean ([60; 70; 72; 66; 15; 40; 40; 40] ++ [k])) by (apply no7_clean; repeat constructor; lia).
    exact (N a c r E C).
Qed.
Lemma sent_readable c0 p0 : readable c0 p0 -> forall chunks cmd pl, [Data (reply c0 p0) None] = pieces chunks ->
  concat chunks = reply cmd pl -> readable cmd pl.
Proof.
  intros R chunks cmd pl E C. destruct chunks as [|x [|y r]]; try discriminate. injection E as <-.
  cbn [concat] in C. rewrite app_nil_r in C. unfold reply in C. apply app_inv_head, app_inv_head, app_inv_tail in C.
  apply wire_clean. rewrite <- C. apply wire_clean. exact R.
Qed.
Lemma ack_sent chunks cmd pl : ack_now = pieces chunks -> concat chunks = reply cmd pl -> readable cmd pl.
Proof. intros E C. destruct chunks as [|x [|y r]]; try discriminate. injection E as <-. discriminate. Qed.
Lemma none_sent chunks cmd pl : [] = pieces chunks -> concat chunks = reply cmd pl -> readable cmd pl.
Proof. intros E C. destruct chunks; discriminate. Qed.
Lemma simulate_readable fans u bs u' evs : readable 12 fans -> vent_ok 15 u -> simulate 15 fans u bs = (u', evs) ->
  vent_ok 15 u' /\ forall chunks cmd pl, evs = pieces chunks -> concat chunks = reply cmd pl -> readable cmd pl.
Proof.
  intros Rf V S.
  assert (Sn : vent_ok 15 u /\ forall chunks cmd pl, [] = pieces chunks -> concat chunks = reply cmd pl -> readable cmd pl)
    by (split; [auto|exact none_sent]).
  assert (Sa : vent_ok 15 u /\ forall chunks cmd pl, ack_now = pieces chunks -> concat chunks = reply cmd pl -> readable cmd pl)
    by (split; [auto|exact ack_sent]).
  assert (Sr : forall c p, readable c p -> vent_ok 15 u /\ forall chunks cmd pl, [Data (reply c p) None] = pieces chunks -> concat chunks = reply cmd pl -> readable cmd pl)
    by (split; [auto|apply sent_readable; auto]).
  assert (Cc : forall c p, cleanb (fields c p) = true -> readable c p) by (intros; apply cleanb_clean; auto).
  assert (Rp := profiles_readable u V). assert (Rt := temps_readable u).
  assert (Sv : forall v, (if (0 <=? v) && (v <=? 4) then (mkVent (u_out u) (u_in u) v (u_comfort u), ack_now) else (u, [])) = (u', evs) ->
    vent_ok 15 u' /\ forall chunks cmd pl, evs = pieces chunks -> concat chunks = reply cmd pl -> readable cmd pl).
  { intros v H. destruct ((0 <=? v) && (v <=? 4)) eqn:B; injection H as <- <-; auto. split; [|exact ack_sent].
    destruct V as (? & ? & ? & ? & _ & ?). unfold vent_ok. cbn [u_out u_in u_mode u_comfort]. splits; auto; lia. }
  assert (Sc : forall v, (if (0 <=? v) && (v <? 256) then (mkVent (u_out u) (u_in u) (u_mode u) v, ack_now) else (u, [])) = (u', evs) ->
    vent_ok 15 u' /\ forall chunks cmd pl, evs = pieces chunks -> concat chunks = reply cmd pl -> readable cmd pl).
  { intros v H. destruct ((0 <=? v) && (v <? 256)) eqn:B; injection H as <- <-; auto. split; [|exact ack_sent].
    destruct V as (? & ? & ? & ? & ? & _). unfold vent_ok, byte_ok. cbn [u_out u_in u_mode u_comfort]. splits; auto; lia. }
  assert (Sp : forall o1 o2 o3 i1 i2 i3 o4 i4, (if acceptable 15 [o1; o2; o3; i1; i2; i3; o4; i4]
      then (mkVent [o1; o2; o3; o4] [i1; i2; i3; i4] (u_mode u) (u_comfort u), ack_now) else (u, [])) = (u', evs) ->
    vent_ok 15 u' /\ forall chunks cmd pl, evs = pieces chunks -> concat chunks = reply cmd pl -> readable cmd pl).
  { intros o1 o2 o3 i1 i2 i3 o4 i4 H. destruct (acceptable _ _) eqn:B; injection H as <- <-; auto. split; [|exact ack_sent].
    apply acceptable_spec in B. repeat match goal with H : Forall _ (_ :: _) |- _ => apply Forall_inv in H as ?; apply Forall_inv_tail in H end.
    destruct V as (_ & _ & _ & _ & Vm & Vc). unfold vent_ok. cbn [u_out u_in u_mode u_comfort].
    splits; auto; repeat apply Forall_cons; try apply Forall_nil; auto; lia. }
  unfold simulate in S. destruct (request_of bs) as [[cmd data]|]; [|injection S as <- <-; exact Sn].
  clear V.
  assert (R : forall c p, readable c p -> (u, [Data (reply c p) None]) = (u', evs) ->
    vent_ok 15 u' /\ forall chunks cmd pl, evs = pieces chunks -> concat chunks = reply cmd pl -> readable cmd pl)
    by (intros c p Hr Hs; injection Hs as <- <-; auto).
  assert (D : forall l, (u, l) = (u', evs) -> l = [] \/ l = ack_now ->
    vent_ok 15 u' /\ forall chunks cmd pl, evs = pieces chunks -> concat chunks = reply cmd pl -> readable cmd pl)
    by (intros l Hs [-> | ->]; injection Hs as <- <-; auto).
  repeat (match type of S with
  | match ?x with _ => _ end = _ => destruct x
  end; try (apply D in S; [exact S|auto]; fail);
       try (apply Sv in S; exact S); try (apply Sc in S; exact S); try (apply Sp in S; exact S);
       try (apply R in S; [exact S|first [exact Rf|exact Rp|exact Rt|apply Cc; reflexivity]])).
Qed.
Lemma simulator_clear fans : readable 12 fans -> forall u, vent_ok 15 u -> clear (simulator 15 fans u).
Proof.
  intros Rf. cofix IH. intros u V. constructor. intros bs d' evs r E. cbn [react simulator] in E.
  destruct (simulate 15 fans u bs) as [u' evs'] eqn:S. injection E as <- <- <-.
  destruct (simulate_readable fans u bs u' evs' Rf V S) as [V' H]. split; [exact H|]. apply IH. exact V'.
Qed.

(** ** C21 *)
Lemma profile_on_unit lo b (w : world unit) u m v :
  w_held w = [] -> quiet (w_conn w) -> unit_at lo b u (c_dev (w_conn w)) -> vent_ok lo u ->
  0 <= m <= 3 -> 0 <= v <= 100 -> lo <= v ->
  exists e w' u', run (SetFanProfile m v) w = (RDone e, w') /\ w_held w' = [] /\
    unit_at lo b u' (c_dev (w_conn w')) /\ (u' = u \/ with_profile (Z.to_nat m) v u u') /\
    (e = None -> with_profile (Z.to_nat m) v u u' /\ quiet (w_conn w') /\
       exists fp e2 w2, run GetFanProfiles w' = (RDone (fp, e2), w2) /\ (e2 = None -> reports u' fp) /\
         (b = true -> legible (c_dev (w_conn w')) -> e2 = None)) /\
    (b = true -> legible (c_dev (w_conn w)) -> e = None).
Proof.
  intros H Q U V M Vr Lo.
  destruct (fprofile_unit lo b m v (w_conn w) u U V M Vr Lo Q) as (u' & e & c' & F & U' & V' & Or & Ok & Rl).
  exists e, (set_conn w c'), u'. rewrite run_SetFanProfile, F by (rewrite H; reflexivity). cbn [fst snd set_conn w_held w_conn].
  splits; auto. intros E. destruct (Ok E) as [W Q']. splits; auto.
  rewrite run_GetFanProfiles by (destruct w; cbn in *; subst; reflexivity). cbn [w_conn set_conn].
  destruct (profiles_unit lo b c' u' U' V') as (fp & e2 & c2 & -> & U2 & Ok2 & Rl2).
  cbn [fst snd]. eexists; eexists; eexists. splits; [reflexivity| |auto].
  intros E2. destruct (Ok2 Q' E2) as (_ & pl & D & Un). eapply describes_reports; eauto.
Qed.

(** ** C22 *)
Lemma lookup_changed p m m' t : 1 <= m <= 4 -> 1 <= m' <= 4 ->
  Lookup (change_profile (m - 1) t p) m' = if m' =? m then (t, t, None) else Lookup p m'.
Proof.
  intros M M'. assert (m = 1 \/ m = 2 \/ m = 3 \/ m = 4) as [-> |[-> |[-> | ->]]] by lia;
  assert (m' = 1 \/ m' = 2 \/ m' = 3 \/ m' = 4) as [-> |[-> |[-> | ->]]] by lia; reflexivity.
Qed.
Lemma reports_lookup u p m : reports u p -> 1 <= m <= 4 ->
  Lookup p m = (nth (Z.to_nat (m - 1)) (u_in u) 0, nth (Z.to_nat (m - 1)) (u_out u) 0, None).
Proof.
  intros (<- & <- & _) M. assert (m = 1 \/ m = 2 \/ m = 3 \/ m = 4) as [-> |[-> |[-> | ->]]] by lia; reflexivity.
Qed.
Lemma numbering lo w m t u : lo <= 15 -> idle w -> synced lo w u -> 1 <= m <= 4 -> 15 <= t <= 100 ->
  exists r w', run (handle (SetFanProfileR m t)) w = (RDone r, w') /\
  forall o, r = RespProfile true o t ->
    (exists u', synced lo w' u' /\ with_profile (Z.to_nat (m - 1)) t u u') /\
    (forall m', 1 <= m' <= 4 ->
       Lookup (sh_prof (w_sh w')) m' = if m' =? m then (t, t, None) else Lookup (sh_prof (w_sh w)) m') /\
    (forall w2 md o2 t2, run (handle (SetFanSpeedR m false)) w' = (RDone (RespSpeed md o2 t2), w2) ->
       exists u2, synced lo w2 u2 /\ u_mode u2 = m /\ (md = true -> fans_at t t w2)).
Proof.
  intros Lo I S M T. destruct (run_rpc (SetFanProfileR m t) w I) as [R I']; [discriminate|].
  cbn [f_rpc fst snd] in *. rewrite R. eexists; eexists. split; [reflexivity|]. intros o E.
  destruct (profile_synced lo m t w u Lo S) as (u' & S' & P). destruct (P _ _ _ E M T) as (_ & W & _).
  specialize (W eq_refl).
  assert (L : forall m', 1 <= m' <= 4 -> Lookup (sh_prof (w_sh (snd (f_profile m t w)))) m' =
                 if m' =? m then (t, t, None) else Lookup (sh_prof (w_sh w)) m').
  { intros m' M'. rewrite (reports_lookup u' _ m') by (auto; apply S'). rewrite (reports_lookup u _ m') by (auto; apply S).
    destruct W as (_ & _ & _ & _ & W). destruct (W (Z.to_nat (m' - 1)) ltac:(lia)) as [-> ->].
    destruct (Z.eqb_spec m' m) as [->|N]; [rewrite Nat.eqb_refl; reflexivity|].
    replace (Z.to_nat (m' - 1) =? Z.to_nat (m - 1))%nat with false by (symmetry; apply Nat.eqb_neq; lia). reflexivity. }
  splits; auto.
  - exists u'. auto.
  - intros w2 md o2 t2 R2. destruct (run_rpc (SetFanSpeedR m false) _ I') as [Rs _]; [discriminate|].
    rewrite Rs in R2. cbn [f_rpc] in R2. injection R2 as F <-.
    destruct (speed_synced lo m false _ u' S') as (u2 & S2 & P2); [rewrite F; discriminate|].
    destruct (P2 _ _ _ F) as [Um Fa]. exists u2.
    assert (t2 = m) as ->.
    { unfold f_speed, modifySpeed in F. replace (m =? 0) with false in F by lia. cbn [negb andb] in F.
      replace (u8 m) with m in F by (symmetry; apply Z.mod_small; lia).
      replace ((m <? 1) || (m >? 4)) with false in F by lia. cbv zeta in F.
      assert (Eu : u32 m = m) by (apply Z.mod_small; lia).
      destruct (negb _); [|injection F as _ _ <-; exact Eu]. destruct (setq _ _) as [[e|] cn]; [discriminate|].
      destruct (f_updpoll _ _ _) as [[e|] w2]; [discriminate|]. injection F as _ _ <-. exact Eu. }
    splits; auto. intros Md. specialize (Fa Md).
    pose proof (L m ltac:(lia)) as Lm. rewrite Z.eqb_refl in Lm. rewrite lookup_percent in Lm by lia. injection Lm as Li Lo'.
    rewrite Li, Lo' in Fa. exact Fa.
Qed.

(** ** C30 *)
Lemma undisturbed_synced lo w w' : undisturbed w w' -> lo <= 15 -> forall u, idle w -> synced lo w u ->
  idle w' /\ exists u', synced lo w' u'.
Proof.
  intros Un Lo. induction Un as [w|o w w1 w2 N R Un IH]; intros u I S; [eauto|].
  destruct (run_op o w I) as [Ro I1]. rewrite R in Ro. injection Ro as ->.
  destruct (op_synced lo o w u Lo S) as (u1 & S1).
  { intros a r ->. specialize (N a r eq_refl). destruct (run_rpc (SetFanSpeedR a r) w I) as [Rs _]; [discriminate|].
    rewrite Rs in N. cbn [fst f_rpc] in N. intros E. apply N. rewrite E. reflexivity. }
  eapply IH; eauto.
Qed.
Lemma start_up lo w u : idle w -> lined lo (w_conn w) u ->
  exists w', run StartCaches w = (RDone tt, w') /\ idle w' /\ synced lo w' u.
Proof.
  intros I L. destruct (run_op OStart w I) as [R I']. cbn [perform f_op] in *. eexists. splits; [exact R|exact I'|].
  apply start_synced. exact L.
Qed.
Lemma speed_arg n w md o t : 1 <= n <= 255 -> fst (f_speed n false w) = RespSpeed md o t -> t = n.
Proof.
  intros N F. unfold f_speed, modifySpeed in F. replace (n =? 0) with false in F by lia. cbn [negb andb] in F.
  replace (u8 n) with n in F by (symmetry; apply Z.mod_small; lia).
  assert (Eu : u32 n = n) by (apply Z.mod_small; lia). cbv zeta in F.
  destruct ((n <? 1) || (n >? 4)); [discriminate|].
  destruct (negb _); [|injection F as _ _ <-; exact Eu]. destruct (setq _ _) as [[e|] cn]; [discriminate|].
  destruct (f_updpoll _ _ _) as [[e|] w2]; [discriminate|]. injection F as _ _ <-. exact Eu.
Qed.
Lemma speed_on_unit lo w u n md o t w0 w1 w2 : lo <= 15 -> idle w -> lined lo (w_conn w) u ->
  run StartCaches w = (RDone tt, w0) -> undisturbed w0 w1 -> 1 <= n <= 255 ->
  run (handle (SetFanSpeedR n false)) w1 = (RDone (RespSpeed md o t), w2) ->
  exists u2, lined lo (w_conn w2) u2 /\ u_mode u2 = n.
Proof.
  intros Lo I L St Un N R. destruct (start_up lo w u I L) as (w' & St' & I' & S). rewrite St' in St. injection St as ->.
  destruct (undisturbed_synced lo w0 w1 Un Lo u I' S) as (I1 & u1 & S1).
  destruct (run_rpc (SetFanSpeedR n false) w1 I1) as [Rs _]; [discriminate|]. rewrite Rs in R. cbn [f_rpc] in R.
  injection R as F <-. pose proof (speed_arg n w1 md o t N F) as ->.
  destruct (speed_synced lo n false w1 u1 S1) as (u2 & S2 & P2); [rewrite F; discriminate|].
  exists u2. split; [apply S2|]. apply (P2 _ _ _ F).
Qed.
Lemma speed_modified lo b w u n o t w2 : idle w -> unit_at lo b u (c_dev (w_conn w)) -> vent_ok lo u ->
  (b = true \/ quiet (w_conn w)) -> 1 <= n <= 255 ->
  run (handle (SetFanSpeedR n false)) w = (RDone (RespSpeed true o t), w2) ->
  exists u2, unit_at lo b u2 (c_dev (w_conn w2)) /\ u_mode u2 = n /\ u_in u2 = u_in u /\ u_out u2 = u_out u /\ u_comfort u2 = u_comfort u.
Proof.
  intros I U V Bq N R. destruct (run_rpc (SetFanSpeedR n false) w I) as [Rs _]; [discriminate|]. rewrite Rs in R. cbn [f_rpc] in R.
  injection R as F <-. pose proof (speed_arg n w true o t N F) as ->.
  destruct (speed_unit lo b w n false u U V) as (u2 & U2 & _ & Ui & Uo & Uc & P). destruct (P _ _ _ F) as (_ & Pm & _).
  exists u2. splits; auto.
Qed.

(** ** C31 *)
Lemma profile_modified lo b w u m t o w2 : idle w -> quiet (w_conn w) -> unit_at lo b u (c_dev (w_conn w)) -> vent_ok lo u ->
  1 <= m <= 4 -> 15 <= t <= 100 -> lo <= t ->
  run (handle (SetFanProfileR m t)) w = (RDone (RespProfile true o t), w2) ->
  exists u2, unit_at lo b u2 (c_dev (w_conn w2)) /\ with_profile (Z.to_nat (m - 1)) t u u2.
Proof.
  intros I Q U V M T Lo R. destruct (run_rpc (SetFanProfileR m t) w I) as [Rs _]; [discriminate|]. rewrite Rs in R. cbn [f_rpc] in R.
  injection R as F <-. destruct (profile_unit lo b w m t u U V Q M T Lo) as (u2 & U2 & _ & _ & P).
  destruct (P _ _ _ F) as (_ & W & _). exists u2. auto.
Qed.
Lemma profile_history lo w u m t md o w0 w1 w2 : lo <= 15 -> idle w -> lined lo (w_conn w) u ->
  run StartCaches w = (RDone tt, w0) -> undisturbed w0 w1 -> 1 <= m <= 4 -> 15 <= t <= 100 ->
  run (handle (SetFanProfileR m t)) w1 = (RDone (RespProfile md o t), w2) ->
  exists u2, lined lo (w_conn w2) u2 /\ nth (Z.to_nat (m - 1)) (u_in u2) 0 = t /\
    (md = true -> nth (Z.to_nat (m - 1)) (u_out u2) 0 = t).
Proof.
  intros Lo I L St Un M T R. destruct (start_up lo w u I L) as (w' & St' & I' & S). rewrite St' in St. injection St as ->.
  destruct (undisturbed_synced lo w0 w1 Un Lo u I' S) as (I1 & u1 & S1).
  destruct (run_rpc (SetFanProfileR m t) w1 I1) as [Rs _]; [discriminate|]. rewrite Rs in R. cbn [f_rpc] in R.
  injection R as F <-. destruct (profile_synced lo m t w1 u1 Lo S1) as (u2 & S2 & P). destruct (P _ _ _ F M T) as (Ip & W & _).
  exists u2. splits; [apply S2| |].
  - destruct S2 as (_ & _ & Ri & _). unfold in_percent in Ip. rewrite Ri in Ip. exact Ip.
  - intros Md. destruct (W Md) as (_ & _ & _ & _ & W'). destruct (W' (Z.to_nat (m - 1)) ltac:(lia)) as [-> _].
    rewrite Nat.eqb_refl. reflexivity.
Qed.

(** ** witnesses *)
Lemma vent2_ok : vent_ok 15 vent2.
Proof. unfold vent_ok, vent2, byte_ok. cbn. splits; auto; try lia; repeat apply Forall_cons; try apply Forall_nil; lia. Qed.
Lemma simulated_lined fans : bytes_ok fans -> (length fans <= 255)%nat -> readable 12 fans -> lined 15 (w_conn (simulated fans)) vent2.
Proof.
  intros B L R. unfold lined. splits; [split; reflexivity| | |apply vent2_ok].
  - apply simulator_unit; auto using vent2_ok.
  - apply simulator_clear; auto using vent2_ok.
Qed.
Lemma fans_payload_fine : bytes_ok fans_payload /\ (length fans_payload <= 255)%nat /\ readable 12 fans_payload.
Proof.
  splits; [|simpl; lia|apply cleanb_clean; reflexivity].
  unfold fans_payload. repeat apply Forall_cons; try apply Forall_nil; unfold byte_ok; lia.
Qed.
(** The state of a unit at the end of a quiet line is what it answers. *)
Lemma unit_mode lo b (w : world shared) u : idle w -> unit_at lo b u (c_dev (w_conn w)) -> vent_ok lo u -> quiet (w_conn w) ->
  forall fp, fst (run GetFanProfiles w) = RDone (fp, None) -> reports u fp.
Proof.
  intros I U V Q fp. rewrite run_GetFanProfiles by (rewrite I; reflexivity).
  destruct (profiles_unit lo b (w_conn w) u U V) as (fp' & e & c' & -> & _ & Ok & _). cbn [fst snd].
  intros E. injection E as <- ->. destruct (Ok Q eq_refl) as (_ & pl & D & Un). eapply describes_reports; eauto.
Qed.
Lemma start_unit lo b w u : idle w -> unit_at lo b u (c_dev (w_conn w)) -> vent_ok lo u ->
  let w' := snd (run StartCaches w) in idle w' /\ unit_at lo b u (c_dev (w_conn w')).
Proof.
  intros I U V. destruct (run_op OStart w I) as [R I']. cbn [perform f_op] in *. cbv zeta. rewrite R. split; auto. apply seq_unit; auto.
Qed.
Lemma speed_keeps lo b w u n : idle w -> unit_at lo b u (c_dev (w_conn w)) -> vent_ok lo u ->
  let w' := snd (run (handle (SetFanSpeedR n false)) w) in exists u', idle w' /\ unit_at lo b u' (c_dev (w_conn w')) /\ vent_ok lo u'.
Proof.
  intros I U V. destruct (run_rpc (SetFanSpeedR n false) w I) as [R I']; [discriminate|]. cbv zeta. rewrite R. cbn [snd f_rpc] in *.
  destruct (speed_unit lo b w n false u U V) as (u' & U' & V' & _). exists u'. auto.
Qed.
Lemma speed_refuted : exists w u w0 w1 w2 u2,
  idle w /\ lined 15 (w_conn w) u /\ run StartCaches w = (RDone tt, w0) /\
  run (handle (SetFanSpeedR 3 false)) w0 = (RDone (RespErr (Internal ErrSetPollFailed)), w1) /\
  run (handle (SetFanSpeedR 2 false)) w1 = (RDone (RespSpeed false 2 2), w2) /\
  unit_at 15 true u2 (c_dev (w_conn w2)) /\ u_mode u2 = 3.
Proof.
  set (w := simulated fans_payload). set (w0 := snd (run StartCaches w)).
  set (w1 := snd (run (handle (SetFanSpeedR 3 false)) w0)). set (w2 := snd (run (handle (SetFanSpeedR 2 false)) w1)).
  destruct fans_payload_fine as (B & Ln & Rd). pose proof (simulated_lined _ B Ln Rd) as L.
  assert (I : idle w) by reflexivity. assert (U : unit_at 15 true vent2 (c_dev (w_conn w))) by (unfold lined in L; destruct L as (_ & Lu & _); exact Lu).
  destruct (start_unit 15 true w vent2 I U vent2_ok) as [I0 U0]. fold w0 in I0, U0.
  destruct (speed_keeps 15 true w0 vent2 3 I0 U0 vent2_ok) as (u1 & I1 & U1 & V1). fold w1 in I1, U1.
  destruct (speed_keeps 15 true w1 u1 2 I1 U1 V1) as (u2 & I2 & U2 & V2). fold w2 in I2, U2.
  exists w, vent2, w0, w1, w2, u2. split; [exact I|]. split; [exact L|].
  assert (P : forall A (p : sproc A) w r, fst (run p w) = RDone r -> run p w = (RDone r, snd (run p w)))
    by (intros A p w' r H; destruct (run p w') as [x y]; cbn in *; congruence).
  split; [apply P; vm_compute; reflexivity|]. split; [apply P; vm_compute; reflexivity|]. split; [apply P; vm_compute; reflexivity|].
  split; [exact U2|].
  assert (Q : quiet (w_conn w2)) by (split; vm_compute; reflexivity).
  assert (E : exists fp, fst (run GetFanProfiles w2) = RDone (fp, None) /\ CurrentMode fp = 3)
    by (exists (match fst (run GetFanProfiles w2) with RDone (fp, _) => fp | _ => zeroProf end); split; vm_compute; reflexivity).
  destruct E as (fp & E & <-). destruct (unit_mode 15 true w2 u2 I2 U2 V2 Q fp E) as (_ & _ & M). symmetry. exact M.
Qed.
Lemma profile_keeps lo b w u m t : idle w -> quiet (w_conn w) -> unit_at lo b u (c_dev (w_conn w)) -> vent_ok lo u ->
  1 <= m <= 4 -> 15 <= t <= 100 -> lo <= t ->
  let w' := snd (run (handle (SetFanProfileR m t)) w) in exists u', idle w' /\ unit_at lo b u' (c_dev (w_conn w')) /\ vent_ok lo u'.
Proof.
  intros I Q U V M T Lo. destruct (run_rpc (SetFanProfileR m t) w I) as [R I']; [discriminate|]. cbv zeta. rewrite R. cbn [snd f_rpc] in *.
  destruct (profile_unit lo b w m t u U V Q M T Lo) as (u' & U' & V' & _). exists u'. auto.
Qed.
Lemma profile_refuted : exists w u w0 w1 u1,
  idle w /\ lined 15 (w_conn w) u /\ run StartCaches w = (RDone tt, w0) /\
  run (handle (SetFanProfileR 3 50)) w0 = (RDone (RespProfile false 50 50), w1) /\
  unit_at 15 true u1 (c_dev (w_conn w1)) /\ nth 2 (u_in u1) 0 = 50 /\ nth 2 (u_out u1) 0 = 40.
Proof.
  set (w := simulated fans_payload). set (w0 := snd (run StartCaches w)).
  set (w1 := snd (run (handle (SetFanProfileR 3 50)) w0)).
  destruct fans_payload_fine as (B & Ln & Rd). pose proof (simulated_lined _ B Ln Rd) as L.
  assert (I : idle w) by reflexivity. assert (U : unit_at 15 true vent2 (c_dev (w_conn w))) by (unfold lined in L; destruct L as (_ & Lu & _); exact Lu).
  destruct (start_unit 15 true w vent2 I U vent2_ok) as [I0 U0]. fold w0 in I0, U0.
  assert (Q0 : quiet (w_conn w0)) by (split; vm_compute; reflexivity).
  destruct (profile_keeps 15 true w0 vent2 3 50 I0 Q0 U0 vent2_ok ltac:(lia) ltac:(lia) ltac:(lia)) as (u1 & I1 & U1 & V1). fold w1 in I1, U1.
  exists w, vent2, w0, w1, u1. split; [exact I|]. split; [exact L|].
  assert (P : forall A (p : sproc A) w r, fst (run p w) = RDone r -> run p w = (RDone r, snd (run p w)))
    by (intros A p w' r H; destruct (run p w') as [x y]; cbn in *; congruence).
  split; [apply P; vm_compute; reflexivity|]. split; [apply P; vm_compute; reflexivity|]. split; [exact U1|].
  assert (Q : quiet (w_conn w1)) by (split; vm_compute; reflexivity).
  assert (E : exists fp, fst (run GetFanProfiles w1) = RDone (fp, None) /\ InMid fp = 50 /\ OutMid fp = 40)
    by (exists (match fst (run GetFanProfiles w1) with RDone (fp, _) => fp | _ => zeroProf end); split; [|split]; vm_compute; reflexivity).
  destruct E as (fp & E & <- & <-). destruct (unit_mode 15 true w1 u1 I1 U1 V1 Q fp E) as (Ro & Ri & _). rewrite <- Ro, <- Ri. auto.
Qed.

(** ** examples *)
Lemma small_ok fans : length fans = 6%nat -> forallb (fun b => (0 <=? b) && (b <? 256)) fans = true -> cleanb (fields 12 fans) = true ->
  bytes_ok fans /\ (length fans <= 255)%nat /\ readable 12 fans.
Proof.
  intros L B C. splits; [|lia|apply cleanb_clean; exact C].
  apply Forall_forall. rewrite forallb_forall in B. intros x I. specialize (B x I). unfold byte_ok. lia.
Qed.
Lemma vent2_unit : let w := world0 (simulator 0 fans_payload vent2) in
  quiet (w_conn w) /\ unit_at 0 true vent2 (c_dev (w_conn w)) /\ vent_ok 0 vent2.
Proof.
  assert (V : vent_ok 0 vent2).
  { pose proof vent2_ok as (? & ? & Fo & Fi & ?). unfold vent_ok. splits; auto; try (apply H1);
      (eapply Forall_impl; [|eassumption]); cbv beta; intros ? [? ?]; split; auto; lia. }
  cbv zeta. splits; [split; reflexivity| |exact V]. apply simulator_unit; [apply fans_payload_fine|apply fans_payload_fine|exact V].
Qed.
Lemma synced_60 : synced 15 (snd (run StartCaches (simulated [60; 60; 8; 0; 9; 0]))) vent2.
Proof.
  destruct (small_ok [60; 60; 8; 0; 9; 0] eq_refl eq_refl eq_refl) as (B & Ln & R).
  destruct (start_up 15 _ vent2 (eq_refl : idle (simulated [60; 60; 8; 0; 9; 0])) (simulated_lined _ B Ln R)) as (w' & E & _ & S).
  rewrite E. exact S.
Qed.
Lemma speed_example : let w := simulated [50; 40; 8; 0; 9; 0] in
  let w0 := snd (run StartCaches w) in
  let w1 := snd (run (perform (ORpc (SetFanSpeedR 3 false))) w0) in
  lined 15 (w_conn w) vent2 /\ undisturbed w0 w1 /\
  fst (run (handle (SetFanSpeedR 3 false)) w0) = RDone (RespSpeed true 2 3) /\
  fst (run (handle (SetFanSpeedR 3 false)) w1) = RDone (RespSpeed false 3 3).
Proof.
  cbv zeta. destruct (small_ok [50; 40; 8; 0; 9; 0] eq_refl eq_refl eq_refl) as (B & Ln & R).
  split; [apply simulated_lined; auto|]. split; [|split; vm_compute; reflexivity].
  set (w0 := snd (run StartCaches _)).
  apply un_step with (o := ORpc (SetFanSpeedR 3 false)) (w1 := snd (run (perform (ORpc (SetFanSpeedR 3 false))) w0)); [| |apply un_refl].
  - intros a r E. injection E as <- <-. assert (H : fst (run (handle (SetFanSpeedR 3 false)) w0) = RDone (RespSpeed true 2 3)) by (vm_compute; reflexivity).
    rewrite H. discriminate.
  - assert (H : fst (run (perform (ORpc (SetFanSpeedR 3 false))) w0) = RDone tt) by (vm_compute; reflexivity).
    destruct (run (perform (ORpc (SetFanSpeedR 3 false))) w0) as [x y]. cbn [fst snd] in *. congruence.
Qed.
Lemma simulated_fans : lined 15 (w_conn (simulated fans_payload)) vent2.
Proof. destruct fans_payload_fine as (B & L & R). apply simulated_lined; auto. Qed.
Lemma cache_follows lo w u w0 w1 : lo <= 15 -> idle w -> lined lo (w_conn w) u ->
  run StartCaches w = (RDone tt, w0) -> undisturbed w0 w1 ->
  exists u1 m, lined lo (w_conn w1) u1 /\ run (handle GetFanProfilesRPC) w1 = (RDone (RespProf m), w1) /\
    [pbOutAway m; pbOutLow m; pbOutMid m; pbOutHigh m] = u_out u1 /\
    [pbInAway m; pbInLow m; pbInMid m; pbInHigh m] = u_in u1 /\ pbCurrentMode m = u_mode u1.
Proof.
  intros Lo I L St Un. destruct (start_up lo w u I L) as (w' & St' & I' & S). rewrite St' in St. injection St as ->.
  destruct (undisturbed_synced lo w0 w1 Un Lo u I' S) as (I1 & u1 & L1 & R1).
  destruct (run_rpc GetFanProfilesRPC w1 I1) as [R _]; [discriminate|]. cbn [f_rpc fst snd cached umsg] in R.
  eexists; eexists. split; [exact L1|]. split; [exact R|]. destruct L1 as (_ & _ & _ & _ & _ & Bo & Bi & Bm & _).
  cbn [pbOutAway pbOutLow pbOutMid pbOutHigh pbInAway pbInLow pbInMid pbInHigh pbCurrentMode].
  destruct R1 as (Ro & Ri & Rm). rewrite <- Ro in Bo. rewrite <- Ri in Bi. rewrite <- Ro, <- Ri, <- Rm. rewrite <- Rm in Bm.
  assert (B : forall x, 0 <= x < 256 -> u32 x = x) by (intros; apply Z.mod_small; lia).
  repeat match goal with H : Forall _ (_ :: _) |- _ => apply Forall_inv in H as ?; apply Forall_inv_tail in H end.
  unfold byte_ok in *. rewrite !B by lia. auto.
Qed.

(** ** C71 *)
Lemma comfort_modified lo b w u t o t' w2 : idle w -> unit_at lo b u (c_dev (w_conn w)) -> vent_ok lo u -> (b = true \/ quiet (w_conn w)) ->
  0 <= t -> run (handle (SetComfortTempR t)) w = (RDone (RespComfort true o t'), w2) ->
  exists u2, unit_at lo b u2 (c_dev (w_conn w2)) /\ u_comfort u2 = 2 * (t + 20) /\ u_mode u2 = u_mode u /\ u_in u2 = u_in u /\ u_out u2 = u_out u.
Proof.
  intros I U V Bq T R. destruct (run_rpc (SetComfortTempR t) w I) as [Rs _]; [discriminate|]. rewrite Rs in R. cbn [f_rpc] in R.
  injection R as F <-. destruct (comfort_unit lo b w t u U V T) as (u2 & U2 & _ & Ui & Uo & Um & _ & P).
  destruct (P _ _ _ F) as (_ & _ & Pm & _). destruct (Pm eq_refl) as [_ Pm']. exists u2. splits; auto.
Qed.
Lemma start_temps lo w u : idle w -> lined lo (w_conn w) u ->
  exists w', run StartCaches w = (RDone tt, w') /\ idle w' /\ tempered lo w' u.
Proof.
  intros I L. destruct (run_op OStart w I) as [R I']. cbn [perform f_op] in *. eexists. splits; [exact R|exact I'|].
  apply start_tempered. exact L.
Qed.
Lemma history_tempered lo ops : lo <= 15 -> forall w u h w', idle w -> tempered lo w u -> history ops w = (h, w') ->
  idle w' /\ exists u', tempered lo w' u'.
Proof.
  intros Lo. induction ops as [|o ops IH]; intros w u h w' I S H; cbn [history] in H.
  - injection H as _ <-. eauto.
  - destruct (run_op o w I) as [Ro I1]. rewrite Ro in H. cbn [snd] in H.
    destruct (history ops (f_op o w)) as [h2 w2] eqn:E. injection H as _ <-.
    destruct (op_tempered lo o w u Lo S) as (u1 & S1). eapply IH; eauto.
Qed.
Lemma temps_follow lo w u w0 ops h w1 : lo <= 15 -> idle w -> lined lo (w_conn w) u ->
  run StartCaches w = (RDone tt, w0) -> history ops w0 = (h, w1) ->
  exists u1 m, lined lo (w_conn w1) u1 /\ run (handle GetTempsRPC) w1 = (RDone (RespTemps m), w1) /\
    f32_is (pbComfort m) (u_comfort u1 / 2 - 20).
Proof.
  intros Lo I L St H. destruct (start_temps lo w u I L) as (w' & St' & I' & S). rewrite St' in St. injection St as ->.
  destruct (history_tempered lo ops Lo w0 u h w1 I' S H) as (I1 & u1 & L1 & R1).
  destruct (run_rpc GetTempsRPC w1 I1) as [R _]; [discriminate|]. cbn [f_rpc fst snd cached umsg] in R.
  eexists; eexists. split; [exact L1|]. split; [exact R|]. exact R1.
Qed.
Lemma comfort_history lo w u t w0 ops h w1 : lo <= 15 -> idle w -> lined lo (w_conn w) u ->
  run StartCaches w = (RDone tt, w0) -> history ops w0 = (h, w1) -> 0 <= t <= 107 ->
  exists md o w2 u2, run (handle (SetComfortTempR t)) w1 = (RDone (RespComfort md o t), w2) /\ lined lo (w_conn w2) u2 /\
    u_comfort u2 / 2 - 20 = t /\ (md = true -> u_comfort u2 = 2 * (t + 20)) /\ (md = false -> w2 = w1).
Proof.
  intros Lo I L St H T. destruct (start_temps lo w u I L) as (w' & St' & I' & S). rewrite St' in St. injection St as ->.
  destruct (history_tempered lo ops Lo w0 u h w1 I' S H) as (I1 & u1 & S1).
  destruct (run_rpc (SetComfortTempR t) w1 I1) as [Rs _]; [discriminate|]. cbn [f_rpc] in Rs.
  destruct (comfort_tempered lo t w1 u1 S1) as (u2 & S2 & P).
  assert (E : exists md o, fst (f_comfort t w1) = RespComfort md o t /\ (md = false -> snd (f_comfort t w1) = w1)).
  { assert (U8 : u8 t = t) by (apply Z.mod_small; lia).
    destruct (comfort_good lo t w1 u1 ltac:(apply S1)) as [[_ Nm]|(_ & Fs & _)]; [|rewrite Fs; eexists; eexists; split; [reflexivity|discriminate]].
    revert Nm. unfold f_comfort. cbv zeta. replace (t >? 255) with false by lia. rewrite U8.
    destruct (_ =? t) eqn:C; cbn [negb fst snd]; [eauto|]. intros Nm. exfalso.
    destruct (setq_good lo _ _ _ (w_conn w1) u1 (warmed u1 t) (comfort_encode t T) ltac:(apply S1)
      (sv_comfort lo u1 (2 * (t + 20)) ltac:(unfold byte_ok; lia)) ltac:(simpl; lia)) as (cn & Sq & L').
    { apply warmed_ok; [apply S1|exact T]. }
    rewrite Sq in Nm. cbn [fst] in Nm. destruct (Nm _ _ _ eq_refl). discriminate. }
  destruct E as (md & o & E & Eq). rewrite E in Rs. destruct (P _ _ _ E T) as (P1 & P2 & _).
  exists md, o, (snd (f_comfort t w1)), u2. splits; auto. apply S2.
Qed.
Lemma warm_ok k : byte_ok k -> vent_ok 15 (vent_warm k).
Proof. intros B. unfold vent_ok, vent_warm, byte_ok. cbn. splits; auto; try lia; try apply B; repeat apply Forall_cons; try apply Forall_nil; lia. Qed.
Lemma warm_lined k : byte_ok k -> lined 15 (w_conn (simulated_warm k)) (vent_warm k).
Proof.
  intros K. destruct fans_payload_fine as (B & L & R). unfold lined. splits; [split; reflexivity| | |apply warm_ok; auto].
  - apply simulator_unit; auto using warm_ok.
  - apply simulator_clear; auto using warm_ok.
Qed.
Lemma warm_unchanged k t o : byte_ok k -> 0 <= t ->
  fst (run StartCaches (simulated_warm k)) = RDone tt ->
  fst (run (handle (SetComfortTempR t)) (snd (run StartCaches (simulated_warm k)))) = RDone (RespComfort false o t) ->
  exists w u w0 w1 u1, idle w /\ lined 15 (w_conn w) u /\ run StartCaches w = (RDone tt, w0) /\
    run (handle (SetComfortTempR t)) w0 = (RDone (RespComfort false o t), w1) /\
    unit_at 15 true u1 (c_dev (w_conn w1)) /\ u_comfort u1 = k.
Proof.
  intros B T R0 R1. set (w := simulated_warm k) in *. set (w0 := snd (run StartCaches w)) in *. set (w1 := snd (run (handle (SetComfortTempR t)) w0)).
  assert (I : idle w) by reflexivity. pose proof (warm_lined k B) as L. fold w in L.
  assert (U : unit_at 15 true (vent_warm k) (c_dev (w_conn w))) by (unfold lined in L; destruct L as (_ & Lu & _); exact Lu).
  destruct (start_unit 15 true w _ I U (warm_ok k B)) as [I0 U0]. fold w0 in I0, U0.
  assert (P : forall A (p : sproc A) w r, fst (run p w) = RDone r -> run p w = (RDone r, snd (run p w)))
    by (intros A p w' r H; destruct (run p w') as [x y]; cbn in *; congruence).
  apply P in R0, R1. fold w0 in R0. fold w1 in R1.
  destruct (comfort_unit 15 true w0 t _ U0 (warm_ok k B) T) as (u1 & U1 & _ & _ & _ & _ & _ & Q).
  destruct (run_rpc (SetComfortTempR t) w0 I0) as [Rs _]; [discriminate|]. rewrite Rs in R1. cbn [f_rpc] in R1. injection R1 as F W.
  destruct (Q _ _ _ F) as (_ & _ & _ & Qf). destruct (Qf eq_refl) as [-> _].
  exists w, (vent_warm k), w0, w1, (vent_warm k). splits; auto.
  - rewrite Rs. cbn [f_rpc]. congruence.
  - rewrite <- W. exact U1.
Qed.
Lemma half_degree : exists w u w0 w1 u1, idle w /\ lined 15 (w_conn w) u /\ run StartCaches w = (RDone tt, w0) /\
  run (handle (SetComfortTempR 21)) w0 = (RDone (RespComfort false 21 21), w1) /\
  unit_at 15 true u1 (c_dev (w_conn w1)) /\ u_comfort u1 = 83.
Proof. apply warm_unchanged; [unfold byte_ok; lia|lia|vm_compute; reflexivity|vm_compute; reflexivity]. Qed.
Lemma below_zero : exists w u w0 w1 u1, idle w /\ lined 15 (w_conn w) u /\ run StartCaches w = (RDone tt, w0) /\
  run (handle (SetComfortTempR 251)) w0 = (RDone (RespComfort false 4294967291 251), w1) /\
  unit_at 15 true u1 (c_dev (w_conn w1)) /\ u_comfort u1 = 30.
Proof. apply warm_unchanged; [unfold byte_ok; lia|lia|vm_compute; reflexivity|vm_compute; reflexivity]. Qed.
