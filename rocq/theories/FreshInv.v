(** The invariant of all interleavings behind C75: the record in a cache nobody is writing is the
    latest one fetched. *)
From Verif Require Import ProofBase Proto SpecProto SpecFrame SpecConn SpecLayout SpecServer ProtoProofs Scanner Conn ReadProofs Proc Lib QueryProofs
  FrameLemmas Server ServerProofs ServerLemmas ServerTimes Machine SpecMachine MachineBase ThreadLogic MachineInv MachineClaims FreshLogic.

Section Fresh.
Context (k : cache).
Notation log g := (c_log (g_conn g)).

(** The locks held for writing. *)
Definition wl (h : held) : list lockid := map fst (filter snd h).
Lemma in_fst (h : held) l : In (l, true) h -> In l (wl h).
Proof. intros I. apply in_map_iff. exists (l, true). split; auto. apply filter_In. auto. Qed.
(** [Hist]: what the latest fetch has brought at the moments considered. *)
Definition tracks_one {A} (Hist : rec -> Prop) (g : mem) (t : thread A) (R : (rec -> Prop) -> A -> Prop) : Prop :=
  exists kn x y (H : rec -> Prop), (forall z, H z -> Hist z) /\ NoDup (wl (t_h t)) /\
    (In (LC k, true) (t_h t) -> cached (g_sh g) k = x) /\
    (In (LPm, true) (t_h t) -> exists l0, log g = l0 ++ kn /\ starts kn /\
       (In (LC k, true) (t_h t) -> latest k l0 = y) /\ (~ In (LC k, true) (t_h t) -> fetched k kn = [])) /\
    (~ In (LPm, true) (t_h t) -> In (LC k, true) (t_h t) -> latest k (log g) = y) /\
    fr k (t_h t) kn x y H (t_p t) (fun h' _ _ _ H' a => h' = [] /\ R H' a).

Definition settled (hs : list held) (g : mem) : Prop :=
  rfree hs (LC k) = true -> cached (g_sh g) k = latest k (log g).
(** What a step of one goroutine does to the rest of the world. *)
Definition influence {A} (t t' : thread A) (g g' : mem) : Prop :=
  (log g' = log g \/ In (LPm, true) (t_h t)) /\
  (~ In (LC k, true) (t_h t) -> cached (g_sh g') k = cached (g_sh g) k /\ latest k (log g') = latest k (log g)) /\
  (In (LC k, true) (t_h t) -> ~ In (LC k, true) (t_h t') -> cached (g_sh g') k = latest k (log g')).

Lemma holds_not h l b : holds h l b = false <-> ~ In (l, b) h.
Proof. rewrite <- holds_in. destruct (holds h l b); split; congruence. Qed.

Lemma step_tracks {A} hs (t t' : thread A) g g' Hist R :
  tracks_one Hist g t R -> tstep hs t g = Some (t', g') -> In (t_h t) hs -> settled hs g ->
  Hist (latest k (log g)) ->
  tracks_one Hist g' t' R /\ influence t t' g g'.
Proof.
  intros (kn & x & y & H & HH & Nd & Vx & Vl & Vy & F) St Ih Co Hn.
  destruct t as [p h]. unfold tstep in St. cbn [t_p t_h] in *.
  assert (Same : forall t1 : thread A, t_h t1 = h -> influence (mkThread p h) t1 g g).
  { intros t1 E1. unfold influence. cbn [t_h]. rewrite E1. splits; auto; intros; contradiction. }
  destruct p as [a| |l q|l q|l q|l q|bs q|e q|q|f q|q|d q|c q|q|b q]; cbn [fr] in F; try discriminate.
  - (* Lock *)
    destruct (free hs l) eqn:Fr; [|discriminate]. injection St as <- <-.
    rewrite free_in in Fr. assert (Nl : ~ In l (wl h)).
    { intros I. apply in_map_iff in I as ([l1 b] & E & I). cbn in E. subst l1. apply filter_In in I as [I _]. exact (Fr h b Ih I). }
    split.
    + destruct (lock_eqb l (LC k)) eqn:E.
      * apply lock_eqb_eq in E. subst l.
        assert (C : cached (g_sh g) k = latest k (log g)) by (apply Co; rewrite rfree_in; intros; apply Fr; auto).
        exists kn, (latest k (log g)), (latest k (log g)), Hist. cbn [t_h t_p]. split; [auto|]. split; [|split; [auto|]; split; [|split; [auto|]]].
        -- constructor; auto.
        -- intros [I|I]; [discriminate|]. destruct (Vl I) as (l0 & L & S & _ & Fe). exists l0. split; [auto|]. split; [auto|]. split.
           ++ intros _. rewrite L, latest_app by auto. rewrite Fe; [reflexivity|].
              intros X. apply Nl. eapply in_fst; eauto.
           ++ intros X. destruct X. left. auto.
        -- apply (F (latest k (log g)) Hist); auto. intros _. split; auto. apply latest_kind.
      * assert (D : l <> LC k) by (intros ->; rewrite lock_eqb_refl in E; discriminate).
        assert (Ix : In (LC k, true) ((l, true) :: h) <-> In (LC k, true) h).
        { split; [intros [I|I]; [congruence|auto]|right; auto]. }
        exists (after l kn), x, y, H. cbn [t_h t_p]. split; [auto|]. split; [|split; [|split; [|split]]].
        -- constructor; auto.
        -- intros I. apply Vx. tauto.
        -- intros I. destruct (lock_eqb l LPm) eqn:P.
           ++ apply lock_eqb_eq in P. subst l. exists (log g). cbn [after]. rewrite app_nil_r. split; [auto|]. split; [|split; [|auto]].
              ** exact Logic.I.
              ** intros J. apply Vy; [|tauto]. intros X. apply Nl. eapply in_fst; eauto.
           ++ assert (D2 : l <> LPm) by (intros ->; discriminate).
              assert (J : In (LPm, true) h) by (destruct I as [I|I]; [congruence|auto]).
              destruct (Vl J) as (l0 & L & S & V1 & V2). exists l0.
              assert (Ea : after l kn = kn) by (destruct l; try reflexivity; congruence).
              rewrite Ea. splits; auto; intros X; [apply V1|apply V2]; tauto.
        -- intros X I. apply Vy; [intros J; apply X; right; auto|tauto].
        -- apply (F x H); auto. congruence.
    + unfold influence. cbn [t_h]. splits; auto. intros I N. destruct N. right. auto.
  - (* Unlock *)
    destruct F as (h' & -> & Xy & F). rewrite release_head in St. injection St as <- <-.
    change (wl ((l, true) :: h')) with (l :: wl h') in Nd. apply NoDup_cons_iff in Nd as [Nl Nd].
    destruct (lock_eqb l (LC k)) eqn:E.
    + apply lock_eqb_eq in E. subst l. cbn [after is_pm andb] in F. destruct (Xy eq_refl) as [-> Np].
      specialize (Vx (or_introl eq_refl)).
      assert (Nk : ~ In (LC k, true) h') by (intros X; apply Nl; eapply in_fst; eauto).
      assert (La : latest k (log g) = y).
      { apply Vy; [|left; auto]. intros [J|J]; [discriminate|contradiction]. }
      split.
      * exists kn, y, y, H. cbn [t_h t_p]. splits; auto; intros; contradiction.
      * unfold influence. cbn [t_h]. splits; auto. intros _ _. congruence.
    + assert (D : l <> LC k) by (intros ->; rewrite lock_eqb_refl in E; discriminate).
      assert (Ix : In (LC k, true) ((l, true) :: h') <-> In (LC k, true) h').
      { split; [intros [I|I]; [congruence|auto]|right; auto]. }
      split.
      2:{ unfold influence. cbn [t_h]. splits; auto. intros I N. tauto. }
      destruct (lock_eqb l LPm) eqn:P.
      * apply lock_eqb_eq in P. subst l. cbn [after is_pm andb] in F.
        assert (Np : ~ In (LPm, true) h') by (intros X; apply Nl; eapply in_fst; eauto).
        destruct (Vl (or_introl eq_refl)) as (l0 & L & S & V1 & V2).
        eexists [], x, _, H. cbn [t_h t_p]. split; [exact HH|]. split; [exact Nd|]. split; [intros I; apply Vx; tauto|].
        split; [intros I; contradiction|]. split; [|exact F]. intros _ I.
        rewrite mine_pm. rewrite (proj2 (holds_in h' (LC k) true) I). rewrite L, latest_app by auto. rewrite V1 by tauto. reflexivity.
      * assert (D2 : l <> LPm) by (intros ->; discriminate).
        assert (Ea : after l kn = kn) by (destruct l; try reflexivity; congruence).
        assert (Ei : is_pm l = false) by (destruct l; try reflexivity; congruence).
        rewrite Ea, Ei in F. cbn [andb] in F.
        exists kn, x, y, H. cbn [t_h t_p]. split; [auto|]. split; [auto|]. split; [|split; [|split; [|auto]]].
        -- intros I. apply Vx. tauto.
        -- intros I. destruct (Vl (or_intror I)) as (l0 & L & S & V1 & V2). exists l0. splits; auto; intros X; [apply V1|apply V2]; tauto.
        -- intros X I. apply Vy; [|tauto]. intros [J|J]; [congruence|contradiction].
  - (* RLock *)
    destruct (rfree hs l) eqn:Fr; [|discriminate]. injection St as <- <-.
    assert (Ix : forall l', In (l', true) ((l, false) :: h) <-> In (l', true) h).
    { intros l'. split; [intros [I|I]; [congruence|auto]|right; auto]. }
    split.
    + exists kn, x, y, H. cbn [t_h t_p]. split; [auto|]. split; [auto|]. split; [intros I; apply Vx, Ix; auto|]. split; [|split; [|auto]].
      * intros I. apply Ix in I. destruct (Vl I) as (l0 & L & S & V1 & V2). exists l0. splits; auto; intros X; [apply V1|apply V2]; rewrite Ix in X; auto.
      * rewrite !Ix. auto.
    + unfold influence. cbn [t_h]. rewrite ?Ix. splits; auto; intros I N; exfalso; apply N; apply Ix; auto.
  - (* RUnlock *)
    destruct F as (h' & -> & F). rewrite release_head_f in St. injection St as <- <-.
    change (wl ((l, false) :: h')) with (wl h') in Nd.
    assert (Ix : forall l', In (l', true) ((l, false) :: h') <-> In (l', true) h').
    { intros l'. split; [intros [I|I]; [congruence|auto]|right; auto]. }
    split.
    + exists kn, x, y, H. cbn [t_h t_p]. split; [auto|]. split; [auto|]. split; [intros I; apply Vx, Ix; auto|]. split; [|split; [|auto]].
      * intros I. apply Ix in I. destruct (Vl I) as (l0 & L & S & V1 & V2). exists l0. splits; auto; intros X; [apply V1|apply V2]; rewrite Ix; auto.
      * rewrite !Ix in Vy. auto.
    + unfold influence. cbn [t_h]. rewrite ?Ix. splits; auto; intros I N; exfalso; apply N; apply Ix; auto.
  - (* WriteC *)
    destruct F as [Ip F]. destruct (conn_write (g_conn g) bs) as [r cn] eqn:W. injection St as <- <-.
    apply write_log in W. destruct (Vl Ip) as (l0 & E0 & S0 & V1 & V2). destruct (F r) as (S1 & Fe & F1).
    assert (Fe' : ~ In (LC k, true) h -> fetched k (kn ++ [Wr bs r]) = []) by (intros X; apply Fe, holds_not; auto).
    split.
    + exists (kn ++ [Wr bs r]), x, y, H. cbn [t_h t_p g_sh g_conn]. splits; auto; [|intros; contradiction].
      intros _. exists l0. rewrite W, E0, app_assoc. splits; auto.
    + unfold influence. cbn [t_h g_sh g_conn]. splits; auto; [|intros; contradiction]. intros X. split; auto.
      rewrite W, E0, <- app_assoc, !latest_app by auto. rewrite Fe', V2 by auto. reflexivity.
  - (* ReadC *)
    destruct F as [Ip F]. destruct (ReadPacket (g_conn g) e) as [o cn] eqn:W.
    pose proof (read_packet_inv _ _ _ _ W) as (_ & p & r & _ & _ & -> & _). injection St as <- <-.
    apply read_log in W as [W Z]. destruct (Vl Ip) as (l0 & E0 & S0 & V1 & V2). destruct (F p r Z) as (S1 & Fe & F1).
    assert (Fe' : ~ In (LC k, true) h -> fetched k (kn ++ [Rd e p r]) = []) by (intros X; apply Fe, holds_not; auto).
    split.
    + exists (kn ++ [Rd e p r]), x, y, H. cbn [t_h t_p g_sh]. splits; auto; [|intros; contradiction].
      intros _. exists l0. cbn [g_conn]. rewrite W, E0, app_assoc. splits; auto.
    + unfold influence. cbn [t_h g_sh]. splits; auto; [|intros; contradiction]. intros X. split; auto.
      cbn [g_conn]. rewrite W, E0, <- app_assoc, !latest_app by auto. rewrite Fe', V2 by auto. reflexivity.
  - (* Get *)
    injection St as <- <-. split; [|apply Same; reflexivity]. exists kn, x, y, H. cbn [t_h t_p]. splits; auto.
    apply F. intros M. apply Vx. apply holds_in. auto.
  - (* Put *)
    destruct F as (x' & F1 & F2 & F). injection St as <- <-. split.
    + exists kn, x', y, H. cbn [t_h t_p g_sh g_conn]. splits; auto. intros I. apply F1; auto. apply holds_in. auto.
    + unfold influence. cbn [t_h g_sh g_conn]. splits; auto; [|intros; contradiction]. intros X. split; auto. apply F2, holds_not. auto.
  - injection St as <- <-. split; [|apply Same; reflexivity]. exists kn, x, y, H. cbn [t_h t_p]. splits; auto.
  - injection St as <- <-. split; [|apply Same; reflexivity]. exists kn, x, y, H. cbn [t_h t_p]. splits; auto.
Qed.
Lemma tracks_hist {A} (Hist Hist' : rec -> Prop) g (t : thread A) R : (forall z, Hist z -> Hist' z) ->
  tracks_one Hist g t R -> tracks_one Hist' g t R.
Proof. intros S (kn & x & y & H & HH & T). exists kn, x, y, H. split; auto. Qed.
Lemma tracks_other {A B} (t t' : thread A) (u : thread B) g g' Hist R :
  influence t t' g g' -> (forall l b, In (l, true) (t_h t) -> ~ In (l, b) (t_h u)) ->
  tracks_one Hist g u R -> tracks_one Hist g' u R.
Proof.
  intros (Lg & O & _) D (kn & x & y & H & HH & Nd & Vx & Vl & Vy & F). exists kn, x, y, H.
  assert (O' : In (LC k, true) (t_h u) -> cached (g_sh g') k = cached (g_sh g) k /\ latest k (log g') = latest k (log g)).
  { intros I. apply O. intros J. exact (D _ _ J I). }
  split; [auto|]. split; [auto|]. split; [|split; [|split; [|auto]]].
  - intros I. destruct (O' I) as [-> _]. auto.
  - intros I. destruct Lg as [->|Lg]; [auto|]. destruct (D _ _ Lg I).
  - intros N I. destruct (O' I) as [_ ->]. auto.
Qed.
Lemma tracks_clock {A} g clk (t : thread A) Hist R : tracks_one Hist g t R -> tracks_one Hist (mkMem (g_conn g) (g_sh g) clk) t R.
Proof. intros H. exact H. Qed.
Lemma tracks_start {A} g (p : sproc A) Hist (R : (rec -> Prop) -> A -> Prop) x :
  fr k [] [] x x (fun _ => False) p (fun h' _ _ _ H' a => h' = [] /\ R H' a) -> tracks_one Hist g (mkThread p []) R.
Proof.
  intros F. exists [], x, x, (fun _ => False). cbn [t_h t_p]. splits; auto; try contradiction. constructor.
Qed.
Lemma calm_tracks {A} g (p : sproc A) Hist : calm k [] p -> tracks_one Hist g (mkThread p []) (fun _ _ => True).
Proof.
  intros C. apply tracks_start with (x := blank k). eapply fr_weaken; [|apply C; split; [reflexivity|intros []]].
  cbn. auto.
Qed.
Lemma settled_step {A} hs n (t t' : thread A) g g' :
  nth_error hs n = Some (t_h t) -> settled hs g -> influence t t' g g' -> settled (set_nth n (t_h t') hs) g'.
Proof.
  intros N Co (Lg & O & G) Fr. rewrite rfree_in in Fr.
  destruct (holds (t_h t) (LC k) true) eqn:Hd.
  - apply holds_in in Hd. apply G; auto. apply Fr. eapply nth_error_In. eapply nth_set_same; eauto.
  - apply holds_not in Hd. destruct (O Hd) as [-> ->]. apply Co. rewrite rfree_in. intros h I.
    apply In_nth_error in I as (j & J). destruct (Nat.eq_dec n j) as [<-|D].
    + rewrite N in J. injection J as <-. auto.
    + apply Fr. eapply nth_error_In. rewrite nth_set_other; eauto.
Qed.

(** ** the whole server *)
Definition upto (Hist : rec -> Prop) (Rs : nat -> (rec -> Prop) -> resp -> Prop) (m : machine resp) : Prop :=
  settled (hs_of m) (m_g m) /\
  (forall i t, nth_error (m_ts m) i = Some t -> tracks_one Hist (m_g m) t (Rs i)) /\
  match m_wk m with Some w => tracks_one Hist (m_g m) w (fun _ _ => True) | None => True end.

Lemma upto_step L0 rs wait m x m' Hist Rs : inv L0 rs wait m -> upto Hist Rs m -> Hist (latest k (log (m_g m))) ->
  exec1 m x = Some m' -> upto Hist Rs m'.
Proof.
  intros (Ln & X & _ & _ & _) (Co & Th & Wk) Hn H. destruct x as [i| |d|tk|i|i]; cbn [exec1] in H.
  - (* Run *)
    destruct (nth_error (m_ts m) i) as [t|] eqn:Ni; [|discriminate]. rewrite tstep_hs in H.
    destruct (tstep (hs_of m) t (m_g m)) as [[t' g']|] eqn:S; [|discriminate]. injection H as <-.
    assert (Nh : nth_error (hs_of m) (Datatypes.S i) = Some (t_h t)) by (cbn; rewrite nth_error_map, Ni; reflexivity).
    destruct (step_tracks _ _ _ _ _ _ _ (Th _ _ Ni) S (nth_error_In _ _ Nh) Co Hn) as [T' Ef].
    assert (Hs : hs_of (mkMachine g' (set_nth i t' (m_ts m)) (m_wk m)) = set_nth (Datatypes.S i) (t_h t') (hs_of m)).
    { unfold hs_of. cbn [m_ts set_nth wk_h m_wk]. rewrite set_nth_map. reflexivity. }
    unfold upto. rewrite Hs. cbn [m_ts m_g m_wk]. splits.
    + eapply settled_step; eauto.
    + intros j tj Tj. apply nth_set_cases in Tj as [(<- & -> & _)|[Dj Tj]]; [exact T'|].
      eapply tracks_other; eauto. intros l b I. eapply (X (Datatypes.S i) (Datatypes.S j)); eauto. cbn. rewrite nth_error_map, Tj. reflexivity.
    + destruct (m_wk m) as [w|] eqn:W; auto. eapply tracks_other; eauto. intros l b I. eapply (X (Datatypes.S i) 0%nat); eauto.
      cbn. unfold wk_h. rewrite W. reflexivity.
  - (* RunWk *)
    destruct (m_wk m) as [w|] eqn:W; [|discriminate]. destruct w as [p h]. cbn [t_p t_h] in H.
    assert (Cs : (p = Ret tt /\ h = [] /\ m' = mkMachine (m_g m) (m_ts m) None) \/
      exists t' g', tstep (hs_of m) (mkThread p h) (m_g m) = Some (t', g') /\ m' = mkMachine g' (m_ts m) (Some t')).
    { destruct p as [[]| | | | | | | | | | | | | |]; try destruct h; 
        try (rewrite tstep_hs in H; destruct (tstep (hs_of m) _ (m_g m)) as [[t' g']|]; [|discriminate]; injection H as <-; eauto; fail).
      injection H as <-. auto. }
    clear H. destruct Cs as [(-> & -> & ->)|(t' & g' & S & ->)].
    + assert (Hs : hs_of (mkMachine (m_g m) (m_ts m) None) = hs_of m) by (unfold hs_of, wk_h; rewrite W; reflexivity).
      unfold upto. rewrite Hs. cbn [m_ts m_g m_wk]. splits; auto.
    + assert (Nh : nth_error (hs_of m) 0 = Some h) by (cbn; unfold wk_h; rewrite W; reflexivity).
      destruct (step_tracks _ _ _ _ _ _ _ Wk S (nth_error_In _ _ Nh) Co Hn) as [T' Ef].
      assert (Hs : hs_of (mkMachine g' (m_ts m) (Some t')) = set_nth 0 (t_h t') (hs_of m)) by reflexivity.
      unfold upto. rewrite Hs. cbn [m_ts m_g m_wk]. splits; auto.
      * eapply settled_step; eauto. exact Nh.
      * intros j tj Tj. eapply tracks_other; eauto. intros l b I. eapply (X 0%nat (Datatypes.S j)); eauto.
        cbn. rewrite nth_error_map, Tj. reflexivity.
  - (* Pass *)
    injection H as <-. unfold upto. change (hs_of _) with (hs_of m). cbn [m_ts m_g m_wk]. splits; auto.
  - (* Tick *)
    destruct (m_wk m) eqn:W; [discriminate|]. injection H as <-.
    assert (Hs : hs_of (mkMachine (m_g m) (m_ts m) (Some (mkThread (on_tick tk) []))) = hs_of m) by (unfold hs_of, wk_h; rewrite W; reflexivity).
    unfold upto. rewrite Hs. cbn [m_ts m_g m_wk]. splits; auto. apply calm_tracks, calm_tick.
  - (* Flush *)
    destruct (m_wk m) eqn:W; [discriminate|]. destruct (nth_error (m_ts m) i) as [[p h]|] eqn:Ni; [|discriminate]. cbn [t_p t_h] in H.
    destruct p as [| | | | | | | | | | | |c q| |]; try discriminate. injection H as <-.
    match goal with |- upto _ _ ?q => assert (Hs : hs_of q = hs_of m) end.
    { unfold hs_of, wk_h. cbn [m_ts m_wk t_h]. rewrite W, set_nth_map. cbn [t_h]. f_equal.
      clear -Ni. revert i Ni. induction (m_ts m) as [|a l IH]; intros [|i] Ni; cbn in *; try discriminate.
      - injection Ni as ->. reflexivity.
      - rewrite IH; auto. }
    unfold upto. rewrite Hs. cbn [m_ts m_g m_wk]. splits; auto.
    + intros j tj Tj. apply nth_set_cases in Tj as [(<- & -> & _)|[Dj Tj]]; [|auto].
      destruct (Th _ _ Ni) as (kn & x & y & H & T). exists kn, x, y, H. cbn [t_h t_p fr] in *. tauto.
    + apply calm_tracks, calm_flush.
  - (* Succ *)
    destruct (m_wk m) as [[pw hw]|] eqn:W; [|discriminate]. destruct (nth_error (m_ts m) i) as [[p h]|] eqn:Ni; [|discriminate].
    cbn [t_p t_h] in H.
    destruct pw as [| | | | | | | | | | | | | |b kw]; try discriminate.
    destruct p as [| | | | | | | | | | | | |q|]; try discriminate. injection H as <-.
    match goal with |- upto _ _ ?q => assert (Hs : hs_of q = hs_of m) end.
    { unfold hs_of, wk_h. cbn [m_ts m_wk t_h]. rewrite W, set_nth_map. cbn [t_h]. f_equal.
      clear -Ni. revert i Ni. induction (m_ts m) as [|a l IH]; intros [|i] Ni; cbn in *; try discriminate.
      - injection Ni as ->. reflexivity.
      - rewrite IH; auto. }
    unfold upto. rewrite Hs. cbn [m_ts m_g m_wk]. splits; auto.
    + intros j tj Tj. apply nth_set_cases in Tj as [(<- & -> & _)|[Dj Tj]]; [|auto].
      destruct (Th _ _ Ni) as (kn & x & y & H & T). exists kn, x, y, H. cbn [t_h t_p fr] in *.
      destruct T as (T1 & T2 & T3 & T4 & T5 & T6 & T7). splits; auto.
    + destruct Wk as (kn & x & y & H & T). exists kn, x, y, H. cbn [t_h t_p fr] in *. tauto.
Qed.
Lemma upto_run L0 rs Hist Rs : forall ys wait m m', inv L0 rs wait m -> upto Hist Rs m -> exec ys m = Some m' ->
  (forall a b m1, ys = a ++ b -> exec a m = Some m1 -> Hist (latest k (log (m_g m1)))) -> upto Hist Rs m'.
Proof.
  induction ys as [|x ys IH]; intros wait m m' Iv U E Hn; cbn in E.
  - injection E as <-. auto.
  - destruct (exec1 m x) as [m1|] eqn:E1; [|discriminate]. destruct (inv_step _ _ _ _ _ _ Iv E1) as (w' & _ & Iv').
    apply (IH w' m1 m'); auto.
    + apply (upto_step L0 rs wait m x m1 Hist Rs); auto. apply (Hn [] (x :: ys) m); auto.
    + intros a b m2 -> Ea. apply (Hn (x :: a) b m2); auto. cbn. rewrite E1. auto.
Qed.

(** Forgetting about the history. *)
Lemma fr_forget {A} (p : sproc A) : forall h kn x y H H2 (Q : held -> A -> Prop),
  fr k h kn x y H p (fun h' _ _ _ _ a => Q h' a) -> fr k h kn x y H2 p (fun h' _ _ _ _ a => Q h' a).
Proof.
  induction p as [a| |l q IH|l q IH|l q IH|l q IH|bs q IH|e q IH|q IH|f q IH|q IH|d q IH|c q IH|q IH|b q IH];
    intros h kn x y H H2 Q F; cbn [fr] in *; auto.
  - intros v H' S V. apply (IH _ _ _ _ (fun z => H z \/ H' z)). apply F; [auto|]. intros E. destruct (V E). auto.
  - destruct F as (h' & E & X & F). exists h'. splits; auto. eapply IH; eauto.
  - eapply IH; eauto.
  - destruct F as (h' & E & F). exists h'. split; auto. eapply IH; eauto.
  - destruct F as (I & F). split; auto. intros r. destruct (F r) as (S & O & G). splits; auto. eapply IH; eauto.
  - destruct F as (I & F). split; auto. intros p r Z. destruct (F p r Z) as (S & O & G). splits; auto. eapply IH; eauto.
  - intros s M. eapply IH; eauto.
  - destruct F as (x' & M & N & F). exists x'. splits; auto. eapply IH; eauto.
  - intros t. eapply IH; eauto.
  - eapply IH; eauto.
  - destruct F. split; auto. eapply IH; eauto.
  - destruct F as [E F]. split; auto. intros b. eapply IH; eauto.
  - destruct F. split; auto. eapply IH; eauto.
Qed.
Lemma tracks_forget {A} Hist Hist' g (t : thread A) :
  tracks_one Hist g t (fun _ _ => True) -> tracks_one Hist' g t (fun _ _ => True).
Proof.
  intros (kn & x & y & H & HH & Nd & Vx & Vl & Vy & F). exists kn, x, y, (fun _ => False). splits; auto; [contradiction|].
  eapply (fr_forget _ _ _ _ _ H _ (fun h' _ => h' = [] /\ True)). exact F.
Qed.

Lemma upto_init rs c clk : (forall r, In r rs -> stores k r) -> c_log c = [] -> upto (fun _ => True) (fun _ _ _ => True) (serve rs c clk).
Proof.
  intros N E. unfold upto, serve. cbn [m_ts m_g m_wk]. splits.
  - intros _. cbn [g_sh g_conn]. rewrite E. destruct k; reflexivity.
  - intros i t Ti. rewrite nth_error_map in Ti. destruct (nth_error rs i) as [r|] eqn:Ri; [|discriminate]. injection Ti as <-.
    apply calm_tracks, calm_rpc. apply N. eapply nth_error_In; eauto.
  - apply calm_tracks, calm_caches.
Qed.
(** A goroutine that has not run is where it began. *)
Lemma untouched i p : (forall c q, p <> SendFlush c q) -> (forall q, p <> RecvSucc q) ->
  forall xs (m m' : machine resp), exec xs m = Some m' -> ~ In (Run i) xs ->
  nth_error (m_ts m) i = Some (mkThread p []) -> nth_error (m_ts m') i = Some (mkThread p []).
Proof.
  intros N1 N2. induction xs as [|x xs IH]; intros m m' E N T; cbn in E; [injection E as <-; auto|].
  destruct (exec1 m x) as [m1|] eqn:E1; [|discriminate]. eapply IH; eauto; [intros I; apply N; right; auto|].
  destruct x as [j| |d|tk|j|j]; cbn [exec1] in E1.
  - destruct (nth_error (m_ts m) j) as [t|]; [|discriminate]. destruct (tstep _ _ _) as [[t' g']|]; [|discriminate]. injection E1 as <-.
    cbn [m_ts]. rewrite nth_set_other; auto. intros ->. apply N. left. auto.
  - destruct (m_wk m) as [w|]; [|discriminate]. destruct (t_p w) as [[]| | | | | | | | | | | | | |], (t_h w);
      try (destruct (tstep _ _ _) as [[t' g']|]; [|discriminate]); injection E1 as <-; auto.
  - injection E1 as <-. auto.
  - destruct (m_wk m); [discriminate|]. injection E1 as <-. auto.
  - destruct (m_wk m); [discriminate|]. destruct (nth_error (m_ts m) j) as [[pj hj]|] eqn:Nj; [|discriminate]. cbn [t_p] in E1.
    destruct pj; try discriminate. injection E1 as <-. cbn [m_ts]. rewrite nth_set_other; auto. intros ->.
    rewrite T in Nj. injection Nj as E2 _. eapply N1; eauto.
  - destruct (m_wk m) as [w|]; [|discriminate]. destruct (nth_error (m_ts m) j) as [[pj hj]|] eqn:Nj; [|discriminate]. cbn [t_p] in E1.
    destruct (t_p w); try discriminate. destruct pj; try discriminate. injection E1 as <-. cbn [m_ts]. rewrite nth_set_other; auto. intros ->.
    rewrite T in Nj. injection Nj as E2. eapply N2; eauto.
Qed.

Lemma fresh_run rs c clk xs m0 ys m i a : (forall r, In r rs -> stores k r) -> c_log c = [] ->
  exec xs (serve rs c clk) = Some m0 -> ~ In (Run i) xs -> exec ys m0 = Some m ->
  nth_error rs i = Some (getter_rpc k) -> answered m i a ->
  exists ys1 ys2 m1, ys = ys1 ++ ys2 /\ exec ys1 m0 = Some m1 /\ a = umsg (latest k (log (m_g m1))).
Proof.
  intros N E0 Ex Nr Ey Ri (t & Ti & Tp).
  set (Hist := fun z => exists ys1 ys2 m1, ys = ys1 ++ ys2 /\ exec ys1 m0 = Some m1 /\ z = latest k (log (m_g m1))).
  set (Rs := fun j (H : rec -> Prop) (a : resp) => if Nat.eqb j i then exists v, H v /\ kind k v /\ a = umsg v else True).
  destruct (inv_exec _ _ _ _ _ _ (inv_init (c_log c) rs c clk eq_refl) Ex) as (w0 & _ & I0).
  assert (U0 : upto (fun _ => True) (fun _ _ _ => True) m0).
  { eapply upto_run; [apply (inv_init (c_log c) rs c clk eq_refl)|apply upto_init; auto|exact Ex|auto]. }
  assert (T0 : nth_error (m_ts m0) i = Some (mkThread (handle (getter_rpc k)) [])).
  { eapply untouched; eauto; [destruct k; discriminate|destruct k; discriminate|].
    unfold serve. cbn [m_ts]. rewrite nth_error_map, Ri. reflexivity. }
  assert (U1 : upto Hist Rs m0).
  { destruct U0 as (S0 & Th & Wk). unfold upto. splits; auto.
    - intros j tj Tj. unfold Rs. destruct (Nat.eqb_spec j i) as [->|D].
      + rewrite T0 in Tj. injection Tj as <-. apply tracks_start with (x := blank k).
        apply own_getter.
      + eapply tracks_forget; eauto.
    - destruct (m_wk m0); auto. eapply tracks_forget; eauto. }
  assert (U : upto Hist Rs m).
  { eapply upto_run; [exact I0|exact U1|exact Ey|]. intros ya yb m1 Es E1. exists ya, yb, m1. auto. }
  destruct U as (_ & Th & _). specialize (Th _ _ Ti). unfold Rs in Th. rewrite Nat.eqb_refl in Th.
  destruct t as [p h]. cbn [t_p] in Tp. subst p. destruct Th as (kn & x & y & H & HH & _ & _ & _ & _ & F).
  cbn in F. destruct F as (_ & v & Hv & _ & ->). destruct (HH _ Hv) as (ys1 & ys2 & m1 & Es & E1 & ->).
  exists ys1, ys2, m1. auto.
Qed.
End Fresh.
