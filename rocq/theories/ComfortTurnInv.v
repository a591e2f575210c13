(** The comfort temperature in every interleaving of the server (C125). *)
From Verif Require Import ProofBase Proto SpecProto SpecFrame SpecConn SpecLayout SpecServer SpecUnit SpecTrack SpecSpeed ProtoProofs Scanner Conn Proc Lib QueryProofs
  FrameLemmas LayoutProofs OpLemmas Server ServerProofs ServerLemmas UnitProofs Machine SpecMachine MachineBase ThreadLogic MachineInv SpecFresh FreshLogic FreshInv OwnLogic OwnInv TrackLogic TrackInv TrackClaims
  SpecComfortTurns ComfortTurnLogic.

Section Comfort.
Context (lo : Z) (Lo : lo <= 15) (rs : list rpc).

(** What a goroutine knows; [hist]: the temperatures the unit has had. *)
Definition knows {A} (hist : list Z) (k : talk) (pe : pending) (lw : asked) (sn : list Z) (t : thread A) : Prop :=
  (forall a, lw = Some a -> In (LPm, true) (t_h t) /\ k = Awaiting a) /\
  (pe <> None -> In (LC CTemp, true) (t_h t)) /\
  (forall w, pe = Some (Some w) -> In w hist) /\ incl sn hist.
Definition record (x : seat) (hist : list Z) (u : vent) (g : mem) : Prop := (x <> Starting -> In (shownT (g_sh g)) hist) /\ warmth u = last hist 0.
Inductive goes {A} (may : option Z) (lv : bool) (t t' : thread A) (hist sn sn' : list Z) : list Z -> seat -> seat -> Prop :=
| go_on x : (x = Before \/ sn' = sn) -> (forall q, t_p t <> Lock LTemp q) -> (forall a, t_p t <> Ret a) -> (In (LTemp, true) (t_h t) -> In (LTemp, true) (t_h t')) ->
    goes may lv t t' hist sn sn' hist x x
| go_start : sn' = sn -> goes may lv t t' hist sn sn' hist Starting Before
| go_in q : lv = true -> t_p t = Lock LTemp q -> sn' = sn -> In (LTemp, true) (t_h t') -> goes may lv t t' hist sn sn' hist Before (Seated None)
| go_set v : may = Some v -> sn' = sn -> (In (LTemp, true) (t_h t) -> In (LTemp, true) (t_h t')) -> goes may lv t t' hist sn sn' (hist ++ [v]) (Seated None) (Seated (Some v))
| go_out w a : lv = true -> t_p t' = Ret a -> sn' = sn -> goes may lv t t' hist sn sn' hist (Seated w) (After w).

Lemma write_holds {A} u k g bs q h : track rs u k g (mkThread (WriteC bs q : sproc A) h) -> In (LPm, true) h.
Proof. intros (ph & am & kw & Hp & _ & _ & F). cbn [t_p t_h us] in *. apply Hp. destruct ph; try contradiction; discriminate. Qed.
Lemma read_holds {A} u k g bs q h : track rs u k g (mkThread (ReadC bs q : sproc A) h) -> In (LPm, true) h.
Proof. intros (ph & am & kw & Hp & _ & _ & F). cbn [t_p t_h us] in *. apply Hp. destruct ph; try contradiction; discriminate. Qed.
Lemma read_goes {A} u k g bs q h cn : track rs u k g (mkThread (ReadC bs q : sproc A) h) -> ReadPacket (g_conn g) bs = (Panic, cn) -> False.
Proof.
  intros (ph & am & kw & Hp & _ & _ & F) W. cbn [t_p t_h us] in *. destruct ph as [| |a|]; try contradiction. destruct (Hp ltac:(discriminate)) as (_ & Q & _).
  assert (Ex : bs = match a with Some _ => true | None => false end) by (destruct a; apply F).
  destruct (read_line a u _ bs _ cn Q Ex W) as (_ & _ & O). destruct a; [destruct O as (pl & _ & _ & O & _)|]; discriminate.
Qed.
Lemma course_nil k u k' u' : course rs k u [] k' u' -> k' = k /\ u' = u.
Proof. intros C. inversion C; subst; auto. destruct l; discriminate. Qed.
Lemma course_single k u x k' u' : course rs k u [x] k' u' -> turns rs u k x k' u'.
Proof. intros C. apply (course_last rs k u [] x) in C as (k1 & u1 & C & T). apply course_nil in C as [-> ->]. exact T. Qed.
Lemma app_same {T} (l m : list T) : l = l ++ m -> m = [].
Proof. intros E. rewrite <- (app_nil_r l) in E at 1. apply app_inv_head in E. auto. Qed.
Lemma app_one {T} (l m : list T) x : l ++ [x] = l ++ m -> m = [x].
Proof. intros E. apply app_inv_head in E. auto. Qed.
Lemma turn_result u k cmd data r k' u' : turns rs u k (Wr (framed cmd data) r) k' u' -> r = mkWres (len (framed cmd data)) None.
Proof.
  intros T. remember (Wr (framed cmd data) r) as y eqn:E. destruct T; try discriminate; apply wr_inj in E as [E <-]; try (rewrite <- E; reflexivity).
Qed.
Lemma turn_acks u k r k' u' : turns rs u k (Wr [7; 243] r) k' u' -> r = mkWres 2 None /\ k' = Idle /\ u' = u.
Proof.
  intros T. remember (Wr [7; 243] r) as y eqn:E.
  destruct T; try discriminate; apply wr_inj in E as [E <-]; try (exfalso; eapply framed_not_ack; exact E); auto.
Qed.
Lemma turn_reads u k x p e k' u' : turns rs u k (Rd x p e) k' u' -> u' = u /\ k' = Unacked /\ e = None /\
  ((exists gr, k = Awaiting (Some gr) /\ x = true /\ p = mkPacket (gr + 1) (p_data p) false /\ (gr = 209 -> measures u (p_data p))) \/
   (k = Awaiting None /\ x = false /\ p = zero_packet)).
Proof. intros T. inversion T; subst; splits; auto. left. exists gr. cbn [p_data]. auto 10. Qed.
Lemma last_in (hist : list Z) : hist <> [] -> In (last hist 0) hist.
Proof. intros N. destruct (exists_last N) as (l & x & ->). rewrite last_last. apply in_or_app. right. left. reflexivity. Qed.

Lemma sp_step {A} may hs (t t' : thread A) hist u u' k k' g g' more x pe lw sn (Q : spost A) lv :
  hist <> [] -> track rs u k g t -> record x hist u g -> knows hist k pe lw sn t -> sp may x pe lw sn (t_p t) Q lv ->
  tstep hs t g = Some (t', g') -> log g' = log g ++ more -> course rs k u more k' u' ->
  exists hist' x' pe' lw' sn', record x' hist' u' g' /\ knows hist' k' pe' lw' sn' t' /\ sp may x' pe' lw' sn' (t_p t') Q lv /\
    (k' = k \/ In (LPm, true) (t_h t)) /\ goes may lv t t' hist sn sn' hist' x x'.
Proof.
  intros Hn Tr (Cl & Wu) (Kl & Kp & Kw & Ks) F St Lg Co. destruct t as [p h]. unfold tstep in St. cbn [t_p t_h] in *.
  assert (Keep : forall t' : thread A, (forall q, p <> Lock LTemp q) -> (forall a, p <> Ret a) -> (In (LTemp, true) h -> In (LTemp, true) (t_h t')) -> goes may lv (mkThread p h) t' hist sn sn hist x x).
  { intros t1 N1 N2 L. constructor; auto. }
  assert (Rc : record x hist u g) by (split; auto).
  destruct p as [a| |l q|l q|l q|l q|bs q|e q|q|f q|q|d q|c q|q|b q]; cbn [sp] in F; try discriminate.
  - (* Lock *)
    destruct (free hs l) eqn:Fl; [|discriminate]. injection St as <- <-. apply app_same in Lg. subst more. apply course_nil in Co as [-> ->].
    assert (Gen : l <> LTemp -> forall pe', (pe' <> None -> In (LC CTemp, true) ((l, true) :: h)) -> (forall w, pe' = Some (Some w) -> In w hist) ->
       sp may x pe' lw sn q Q lv -> exists hist' x' pe' lw' sn', record x' hist' u g /\ knows hist' k pe' lw' sn' (mkThread q ((l, true) :: h)) /\ sp may x' pe' lw' sn' q Q lv /\
       (k = k \/ In (LPm, true) h) /\ goes may lv (mkThread (Lock l q) h) (mkThread q ((l, true) :: h)) hist sn sn' hist' x x').
    { intros Nf pe' X1 X2 X3. exists hist, x, pe', lw, sn. splits; auto; [|apply Keep; [congruence|discriminate|]; cbn [t_h]; intros; right; auto].
      split; [intros a E; destruct (Kl a E); split; auto; right; auto|]. auto. }
    assert (Kp' : pe <> None -> In (LC CTemp, true) ((l, true) :: h)) by (intros N; right; auto).
    destruct l as [| | | |c]; try (apply (Gen ltac:(discriminate) pe); auto; fail).
    + destruct F as (Lv & -> & -> & -> & F).
      exists hist, (Seated None), None, None, sn. splits; auto.
      * split; auto. intros _. apply Cl. discriminate.
      * split; [discriminate|]. split; [congruence|]. split; [discriminate|]. auto.
      * econstructor; [exact Lv|reflexivity|reflexivity|]. left. reflexivity.
    + destruct c; try (apply (Gen ltac:(discriminate) pe); auto; fail). destruct F as (-> & F). apply (Gen ltac:(discriminate) (Some None)); auto; [intros _; left; reflexivity|discriminate].
  - (* Unlock *)
    destruct (release h l true) as [h'|] eqn:Re; injection St as <- <-; apply app_same in Lg; subst more; apply course_nil in Co as [-> ->].
    2: { exists hist, x, pe, lw, sn. splits; auto; [split; auto|exact I|apply Keep; [discriminate|discriminate|auto]]. }
    assert (Kr : forall l', l' <> l -> In (l', true) h -> In (l', true) h') by (intros l' N I; eapply release_keeps; eauto; congruence).
    assert (Gen : l <> LTemp -> forall pe' lw', (forall a, lw' = Some a -> In (LPm, true) h' /\ k = Awaiting a) -> (pe' <> None -> In (LC CTemp, true) h') -> (forall w, pe' = Some (Some w) -> In w hist) ->
       sp may x pe' lw' sn q Q lv -> exists hist' x' pe' lw' sn', record x' hist' u g /\ knows hist' k pe' lw' sn' (mkThread q h') /\ sp may x' pe' lw' sn' q Q lv /\
       (k = k \/ In (LPm, true) h) /\ goes may lv (mkThread (Unlock l q) h) (mkThread q h') hist sn sn' hist' x x').
    { intros Nf pe' lw' X0 X1 X2 X3. exists hist, x, pe', lw', sn. splits; auto; [split; auto|apply Keep; [discriminate|discriminate|]; cbn [t_h]; intros I; apply Kr; auto]. }
    assert (Kl' : l <> LPm -> forall a, lw = Some a -> In (LPm, true) h' /\ k = Awaiting a) by (intros N a E; destruct (Kl a E); split; auto).
    assert (Kp' : l <> LC CTemp -> pe <> None -> In (LC CTemp, true) h') by (intros N N'; apply Kr; auto).
    destruct l as [| | | |c].
    + destruct F as (-> & F). apply (Gen ltac:(discriminate) pe None); auto; [discriminate|apply Kp'; discriminate].
    + apply (Gen ltac:(discriminate) pe lw); auto; [apply Kl'; discriminate|apply Kp'; discriminate].
    + apply (Gen ltac:(discriminate) pe lw); auto; [apply Kl'; discriminate|apply Kp'; discriminate].
    + destruct F as (Lv & w & a & -> & -> & -> & -> & F). exists hist, (After w), None, None, sn. splits; auto.
      * split; auto. intros _. apply Cl. discriminate.
      * split; [discriminate|]. split; [congruence|]. split; [discriminate|]. auto.
      * econstructor; eauto; reflexivity.
    + destruct c; try (apply (Gen ltac:(discriminate) pe lw); try exact F; try exact Kw; [apply Kl'; discriminate|apply Kp'; discriminate]).
      apply (Gen ltac:(discriminate) None lw); try exact F; try (apply Kl'; discriminate); try congruence; discriminate.
  - (* RLock *)
    destruct (rfree hs l); [|discriminate]. injection St as <- <-. apply app_same in Lg. subst more. apply course_nil in Co as [-> ->].
    exists hist, x, pe, lw, sn. splits; auto; [|apply Keep; [discriminate|discriminate|]; cbn [t_h]; intros; right; auto].
    split; [intros a E; destruct (Kl a E); split; auto; right; auto|]. split; [intros N; right; auto|]. auto.
  - (* RUnlock *)
    destruct (release h l false) as [h'|] eqn:Re; injection St as <- <-; apply app_same in Lg; subst more; apply course_nil in Co as [-> ->].
    2: { exists hist, x, pe, lw, sn. splits; auto; [split; auto|exact I|apply Keep; [discriminate|discriminate|auto]]. }
    assert (Kr : forall l', In (l', true) h -> In (l', true) h') by (intros l' I; eapply release_keeps; eauto; congruence).
    exists hist, x, pe, lw, sn. splits; auto; [|apply Keep; [discriminate|discriminate|auto]].
    split; [intros a E; destruct (Kl a E); split; auto|]. split; auto.
  - (* WriteC *)
    pose proof (write_holds _ _ _ _ _ _ Tr) as Hpm.
    destruct (conn_write (g_conn g) bs) as [r cn] eqn:W. injection St as <- <-. cbn [g_conn] in Lg. rewrite (write_log _ _ _ _ W) in Lg.
    apply app_one in Lg. subst more. apply course_single in Co.
    destruct F as [(gr & G & -> & F)|[(v & Ma & -> & -> & -> & F)|[(cmd & data & N & D & -> & F)|[-> F]]]].
    + pose proof (turn_result _ _ _ _ _ _ _ Co). subst r. apply turn_write in Co as (-> & We & [(_ & _ & -> & ->)|(_ & A1)]).
      2: { destruct A1 as [(? & _ & X & _)|[(? & ? & ? & _ & X & _)|(? & ? & ? & ? & ? & ? & ? & ? & ? & ? & _ & X & _)]]; discriminate. }
      exists hist, x, pe, (Some (Some gr)), sn. splits; auto; [|apply Keep; [discriminate|discriminate|auto]].
      split; [intros a E; injection E as <-; auto|]. auto.
    + pose proof (turn_result _ _ _ _ _ _ _ Co). subst r. apply turn_write in Co as (-> & We & [(_ & X & _)|(-> & A1)]); [discriminate|].
      assert (Um : u_comfort u' = 2 * (v + 20)).
      { destruct A1 as [(? & _ & X & -> & _)|[(? & ? & v1 & X & _)|(? & ? & ? & ? & ? & ? & ? & ? & ? & ? & X & _)]]; try discriminate. injection X as X. cbn [u_comfort]. lia. }
      exists (hist ++ [v]), (Seated (Some v)), None, (Some None), sn. splits; auto.
      * split; [intros _; apply in_or_app; left; apply Cl; discriminate|]. rewrite last_last. unfold warmth. rewrite Um. replace (2 * (v + 20)) with ((v + 20) * 2) by lia. rewrite Z.div_mul by lia. lia.
      * split; [intros a E; injection E as <-; auto|]. split; [congruence|]. split; [discriminate|]. apply incl_appl. exact Ks.
      * constructor; auto.
    + pose proof (turn_result _ _ _ _ _ _ _ Co). subst r. apply turn_write in Co as (-> & We & [(_ & X & _)|(-> & A1)]); [contradiction|].
      assert (Um : u_comfort u' = u_comfort u).
      { destruct A1 as [(? & X & _)|[(? & ? & v1 & _ & _ & -> & _)|(? & ? & ? & ? & ? & ? & ? & ? & ? & ? & _ & _ & -> & _)]]; try reflexivity. contradiction. }
      exists hist, x, pe, (Some None), sn. splits; auto.
      * split; auto. unfold warmth. rewrite Um. exact Wu.
      * split; [intros a E; injection E as <-; auto|]. auto.
      * apply Keep; [discriminate|discriminate|auto].
    + apply turn_acks in Co as (-> & -> & ->). exists hist, x, pe, None, sn. splits; auto; [|apply Keep; [discriminate|discriminate|auto]]. split; [discriminate|]. auto.
  - (* ReadC *)
    pose proof (read_holds _ _ _ _ _ _ Tr) as Hpm.
    destruct lw as [a|]; [|contradiction]. destruct (Kl a eq_refl) as [_ ->].
    destruct (ReadPacket (g_conn g) e) as [[[p e0]|] cn] eqn:W.
    2: { exfalso. eapply read_goes; eauto. }
    injection St as <- <-. pose proof (read_log _ _ _ _ _ W) as [Lr _]. cbn [g_conn] in Lg. rewrite Lr in Lg. apply app_one in Lg. subst more.
    apply course_single in Co. apply turn_reads in Co as (-> & -> & -> & [(gr & Eg & -> & Ep & D5)|(Eg & -> & ->)]); injection Eg as ->.
    + destruct F as [_ F]. specialize (F (p_data p)). rewrite <- Ep in F.
      assert (D : gr = 209 -> length (p_data p) = 9%nat /\ bytes_ok (p_data p) /\ byte_at (p_data p) 0 / 2 - 20 = warmth u).
      { intros E. destruct (D5 E) as (B1 & B2 & B3). unfold warmth. rewrite B3. auto. }
      eexists hist, x, _, None, sn. split; [exact Rc|]. split; [|split; [apply F; intros E; destruct (D E) as (B1 & B2 & _); auto|]].
      * split; [discriminate|]. split; [|split; [|exact Ks]].
        -- destruct pe as [pe|]; [|congruence]. intros _. apply Kp. discriminate.
        -- intros w. destruct pe as [pe|]; [|discriminate]. destruct (Z.eqb_spec gr 209) as [-> |N]; [|apply Kw].
           intros E. injection E as <-. destruct (D eq_refl) as (_ & _ & ->). rewrite Wu. apply last_in. exact Hn.
      * split; [auto|]. apply Keep; [discriminate|discriminate|auto].
    + destruct F as [_ F]. exists hist, x, pe, None, sn. splits; auto; [|apply Keep; [discriminate|discriminate|auto]]. split; [discriminate|]. auto.
  - (* Get *)
    injection St as <- <-. apply app_same in Lg. subst more. apply course_nil in Co as [-> ->].
    exists hist, x, pe, lw, (match x with Before => shownT (g_sh g) :: sn | _ => sn end).
    split; [exact Rc|]. split; [|split; [apply F|split; [auto|]]].
    + split; auto. split; auto. split; auto. destruct x; auto. apply incl_cons; auto. apply Cl. discriminate.
    + constructor; try discriminate; auto. destruct x; auto.
  - (* Put *)
    injection St as <- <-. cbn [g_conn] in Lg. apply app_same in Lg. subst more. apply course_nil in Co as [-> ->].
    destruct F as [[Em F]|(w & -> & Em & F)].
    + exists hist, x, pe, lw, sn. splits; auto; [|split; auto|apply Keep; [discriminate|discriminate|auto]]. split; auto. cbn [g_sh]. rewrite Em. exact Cl.
    + exists hist, (settle x), (Some None), lw, sn. splits; auto; [| |destruct x; try (apply Keep; [discriminate|discriminate|auto]); constructor; reflexivity].
      * split; auto. intros _. cbn [g_sh]. rewrite Em. apply Kw. reflexivity.
      * split; auto. split; [intros _; apply Kp; discriminate|]. split; [discriminate|auto].
  - injection St as <- <-. apply app_same in Lg. subst more. apply course_nil in Co as [-> ->]. exists hist, x, pe, lw, sn. splits; auto; try (split; auto); try apply F; apply Keep; [discriminate|discriminate|auto].
  - injection St as <- <-. apply app_same in Lg. subst more. apply course_nil in Co as [-> ->]. exists hist, x, pe, lw, sn. splits; auto; try (split; auto); try apply F; apply Keep; [discriminate|discriminate|auto].
Qed.

(** ** the whole server *)
Context (v0 : Z).
(** Who holds LTemp, and what it has set. *)
Definition hold := option (nat * option Z).
Definition wrote (hd : hold) : list nat := match hd with Some (i, Some _) => [i] | _ => [] end.
Definition holder (hd : hold) : list nat := match hd with Some (i, _) => [i] | None => [] end.
Definition hist_of (dn : list nat) (hd : hold) : list Z := had rs v0 (dn ++ wrote hd).
Definition place {A} (dn : list nat) (hd : hold) (i : nat) (x : seat) (sn : list Z) (t : thread A) : Prop :=
  match x with
  | Starting => False
  | Before => ~ In i (dn ++ holder hd)
  | Seated w => hd = Some (i, w) /\ incl sn (had rs v0 dn)
  | After w => (exists a, t_p t = Ret a) /\ match w with Some _ => exists l r, dn = l ++ i :: r /\ incl sn (had rs v0 l) | None => ~ In i (dn ++ holder hd) end
  end.
Definition one_ok (dn : list nat) (hd : hold) (k : talk) (i : nat) (q : rpc) (t : thread resp) : Prop :=
  exists x pe lw sn, knows (hist_of dn hd) k pe lw sn t /\ sp (sets q) x pe lw sn (t_p t) (tells q) true /\ place dn hd i x sn t.
Definition wk_ok (hist : list Z) (k : talk) (w : thread unit) : Prop :=
  exists pe lw sn, knows hist k pe lw sn w /\ sp None Before pe lw sn (t_p w) (fun _ _ _ _ _ => True) false.
Definition sound_at (hd : hold) (dn : list nat) (u : vent) (k : talk) (m : machine resp) : Prop :=
  record Before (hist_of dn hd) u (m_g m) /\ NoDup (dn ++ holder hd) /\
  (forall i w, hd = Some (i, w) -> (exists t, nth_error (m_ts m) i = Some t /\ In (LTemp, true) (t_h t)) /\ (forall v, w = Some v -> exists q, nth_error rs i = Some q /\ sets q = Some v)) /\
  (forall i q t, nth_error rs i = Some q -> nth_error (m_ts m) i = Some t -> one_ok dn hd k i q t) /\
  (forall w, m_wk m = Some w -> wk_ok (hist_of dn hd) k w) /\ (forall i, In i dn -> nth_error rs i <> None).
Definition sound (u : vent) (k : talk) (m : machine resp) (dn : list nat) : Prop := exists hd, sound_at hd dn u k m.

Lemma tick_ok hist k tk : wk_ok hist k (mkThread (on_tick tk) []).
Proof.
  exists None, None, []. split.
  - split; [discriminate|]. split; [congruence|]. split; [discriminate|]. intros z [].
  - eapply sp_weaken; [| |apply (calm_tick None Before tk eq_refl [] false)]; auto.
Qed.
Lemma flush_ok hist k c : wk_ok hist k (mkThread (FlushCaches c) []).
Proof.
  exists None, None, []. split.
  - split; [discriminate|]. split; [congruence|]. split; [discriminate|]. intros z [].
  - eapply sp_weaken; [| |apply (calm_flush None Before c eq_refl [] false)]; auto.
Qed.
Lemma knows_other {A B} (t : thread A) (v : thread B) hist hist' k k' pe lw sn :
  incl hist hist' -> (k' = k \/ In (LPm, true) (t_h t)) -> (forall l b, In (l, true) (t_h t) -> ~ In (l, b) (t_h v)) ->
  knows hist k pe lw sn v -> knows hist' k' pe lw sn v.
Proof.
  intros In' Ek D (K1 & K2 & K3 & K4). split; [|split; [auto|split; [auto|intros z I; auto]]].
  intros a E. destruct (K1 a E) as [I ->]. split; auto. destruct Ek as [Ek|Ek]; auto. destruct (D LPm true Ek I).
Qed.
Lemma had_ne v is : had rs v is <> [].
Proof. discriminate. Qed.
Lemma had_snoc v is i : had rs v (is ++ [i]) = had rs v is ++ [set_to rs i].
Proof. unfold had. rewrite map_app. reflexivity. Qed.
Lemma sets_to j q v : nth_error rs j = Some q -> sets q = Some v -> set_to rs j = v.
Proof. intros N S. unfold set_to. rewrite N. destruct q; try discriminate. cbn in S. destruct (_ && _); congruence. Qed.
Lemma not_snoc (i j : nat) l : ~ In i l -> i <> j -> ~ In i (l ++ [j]).
Proof. intros N D I. apply in_app_or in I as [I|[E|[]]]; auto. Qed.
Lemma nodup_out (i : nat) l : NoDup (l ++ [i]) -> NoDup l /\ ~ In i l.
Proof. intros N. apply NoDup_remove in N. rewrite app_nil_r in N. exact N. Qed.
Lemma nodup_in (i : nat) l : NoDup l -> ~ In i l -> NoDup (l ++ [i]).
Proof. intros N I. apply NoDup_Add with (a := i) (l := l); [|auto]. rewrite <- (app_nil_r l) at 1. apply Add_app. Qed.

Lemma sound_run L1 wait u k m dn j m' u' k' more L0 k0 u0 : inv L1 rs wait m -> tracks lo rs L0 k0 u0 u k m -> sound u k m dn -> exec1 m (Run j) = Some m' ->
  log (m_g m') = log (m_g m) ++ more -> course rs k u more k' u' -> exists e, sound u' k' m' (dn ++ e).
Proof.
  intros Iv (_ & _ & _ & Th & _) (hd & Rc & Nd & Hh & Ho & Hw & Hr) H Lg Co. destruct Iv as (Ln & X & _ & _ & _). cbn [exec1] in H.
  destruct (nth_error (m_ts m) j) as [t|] eqn:Nj; [|discriminate]. rewrite tstep_hs in H.
  destruct (tstep (hs_of m) t (m_g m)) as [[t' g']|] eqn:S; [|discriminate]. injection H as <-.
  destruct (nth_error rs j) as [q|] eqn:Nq.
  2: { apply nth_error_None in Nq. assert (nth_error (m_ts m) j <> None) as Y by congruence. apply nth_error_Some in Y. lia. }
  assert (Ids : forall t (i : nat), nth_error (m_ts m) i = Some t -> nth_error (hs_of m) (Datatypes.S i) = Some (t_h t)).
  { intros t0 i N. cbn. rewrite nth_error_map, N. reflexivity. }
  assert (Dj : forall i v, i <> j -> nth_error (m_ts m) i = Some v -> forall l b, In (l, true) (t_h t) -> ~ In (l, b) (t_h v)).
  { intros i v Ni Nv l b I. eapply (X (Datatypes.S j) (Datatypes.S i)); eauto. }
  assert (Dw : forall w, m_wk m = Some w -> forall l b, In (l, true) (t_h t) -> ~ In (l, b) (t_h w)).
  { intros w Ew l b I. eapply (X (Datatypes.S j) 0%nat); eauto. cbn. unfold wk_h. rewrite Ew. reflexivity. }
  assert (Fn : free (hs_of m) LTemp = true -> hd = None).
  { intros Fr. destruct hd as [[i s]|]; auto. destruct (Hh i s eq_refl) as ((t0 & N0 & I0) & _). rewrite free_in in Fr.
    destruct (Fr (t_h t0) true); auto. eapply nth_error_In. eapply Ids. exact N0. }
  destruct (Ho j q t Nq Nj) as (x & pe & lw & sn & K & F & Pl).
  assert (Rx : record x (hist_of dn hd) u (m_g m)) by (destruct Rc as [R1 R2]; split; auto; intros _; apply R1; discriminate).
  destruct (sp_step (sets q) (hs_of m) t t' (hist_of dn hd) u u' k k' (m_g m) g' more x pe lw sn (tells q) true (had_ne _ _) (Th t (nth_error_In _ _ Nj)) Rx K F S Lg Co)
    as (hist' & x' & pe' & lw' & sn' & (Rc1 & Rc2) & K' & F' & Ek & Go).
  assert (Alive : forall a, t_p t <> Ret a) by (intros a E; unfold tstep in S; rewrite E in S; discriminate).
  assert (Build : forall hd' e, x' <> Starting -> hist' = hist_of (dn ++ e) hd' -> incl (hist_of dn hd) hist' -> NoDup ((dn ++ e) ++ holder hd') ->
     (forall i w, hd' = Some (i, w) -> i = j /\ In (LTemp, true) (t_h t') /\ (forall v, w = Some v -> exists q, nth_error rs i = Some q /\ sets q = Some v) \/ i <> j /\ hd = Some (i, w)) ->
     place (dn ++ e) hd' j x' sn' t' -> (forall i y sn1 (v : thread resp), i <> j -> place dn hd i y sn1 v -> place (dn ++ e) hd' i y sn1 v) -> (e = [] \/ e = [j]) ->
     exists e, sound u' k' (mkMachine g' (set_nth j t' (m_ts m)) (m_wk m)) (dn ++ e)).
  { intros hd' e B0 B1 B2 B3 B4 B5 B6 B7. exists e, hd'. unfold sound_at. rewrite <- B1. cbn [m_g m_ts m_wk]. splits; auto.
    - split; auto.
    - intros i w E. destruct (B4 i w E) as [(-> & I & Z)|(Ni & E')].
      + split; auto. exists t'. split; auto. eapply nth_set_same. exact Nj.
      + destruct (Hh i w E') as ((t0 & N0 & I0) & Z). split; auto. exists t0. split; auto. rewrite nth_set_other; auto.
    - intros i q0 v Ni Nv. apply nth_set_cases in Nv as [(<- & -> & _)|[Di Nv]].
      + rewrite Nq in Ni. injection Ni as <-. exists x', pe', lw', sn'. rewrite <- B1. auto.
      + destruct (Ho i q0 v Ni Nv) as (y & pe1 & lw1 & sn1 & K1 & F1 & P1). exists y, pe1, lw1, sn1. rewrite <- B1. splits; auto.
        eapply knows_other; [exact B2|exact Ek| |exact K1]. eapply Dj; eauto.
    - intros w Ew. destruct (Hw w Ew) as (pe1 & lw1 & sn1 & K1 & F1). exists pe1, lw1, sn1. split; auto. eapply knows_other; [exact B2|exact Ek| |exact K1]. apply Dw. auto.
    - intros i I. apply in_app_or in I as [I|I]; auto. destruct B7 as [-> | ->]; [destruct I|destruct I as [<-|[]]; congruence]. }
  assert (Own : forall w, hd = Some (j, w) -> In (LTemp, true) (t_h t)).
  { intros w E. destruct (Hh j w E) as ((t0 & N0 & I0) & _). congruence. }
  assert (Oth : forall w i v, hd = Some (j, w) -> hd = Some (i, v) -> i = j) by congruence.
  destruct Go as [x Sn Nl Nr Kp| Sn|q0 Lv Tq Sn I'|v Ma Sn Kp|w a Lv Tp Sn].
  - (* goes on *)
    apply (Build hd []); rewrite ?app_nil_r; auto.
    + destruct x; try discriminate. destruct Pl.
    + apply incl_refl.
    + intros i w E. destruct (Nat.eq_dec i j) as [-> |D]; [left|right; auto]. splits; auto; [eapply Kp, Own; eauto|]. apply (Hh j w E).
    + destruct x as [| |w|w]; cbn [place] in *; auto.
      * destruct Sn as [Sn| ->]; [discriminate|exact Pl].
      * destruct Pl as ((a & Ra) & _). destruct (Nr a Ra).
  - destruct Pl.
  - (* takes LTemp *)
    assert (Hs : hd = None). { apply Fn. unfold tstep in S. rewrite Tq in S. destruct (free _ LTemp); [reflexivity|discriminate]. }
    rewrite Hs in Build, Pl, Nd, K. cbn [place holder] in Pl. rewrite ?app_nil_r in Pl. cbn [holder] in Nd. rewrite app_nil_r in Nd.
    apply (Build (Some (j, None)) []); rewrite ?app_nil_r.
    + discriminate.
    + try rewrite Hs; reflexivity.
    + try rewrite Hs; apply incl_refl.
    + cbn [holder]. apply nodup_in; auto.
    + intros i w E. injection E as <- <-. left. splits; auto. discriminate.
    + cbn [place]. split; auto. rewrite Sn. destruct K as (_ & _ & _ & K). unfold hist_of in K. cbn [wrote] in K. rewrite app_nil_r in K. exact K.
    + intros i y sn1 v Ni P. destruct y as [| |w|w]; cbn [place] in *; auto.
      * rewrite app_nil_r in P. apply not_snoc; auto.
      * destruct P; discriminate.
      * destruct P as [P1 P2]. split; auto. destruct w; auto. rewrite app_nil_r in P2. apply not_snoc; auto.
    + auto.
  - (* sets the unit *)
    destruct Pl as [Hs Ps]. assert (Es : set_to rs j = v) by (eapply sets_to; eauto).
    apply (Build (Some (j, Some v)) []); rewrite ?app_nil_r.
    + discriminate.
    + unfold hist_of. rewrite Hs. cbn [wrote]. rewrite app_nil_r, had_snoc, Es. reflexivity.
    + apply incl_appl, incl_refl.
    + rewrite Hs in Nd. exact Nd.
    + intros i w E. injection E as <- <-. left. splits; auto; [eapply Kp, Own; eauto|]. intros v1 E1. injection E1 as <-. eauto.
    + cbn [place]. rewrite Sn. auto.
    + intros i y sn1 t1 Ni P. destruct y as [| |w|w]; cbn [place] in *; auto.
      * rewrite Hs in P. exact P.
      * destruct P as [P _]. destruct Ni. eapply Oth; eauto.
      * destruct P as [P1 P2]. split; auto. destruct w; auto. rewrite Hs in P2. exact P2.
    + auto.
  - (* releases LTemp *)
    destruct Pl as [Hs Ps]. rewrite Hs in Nd. cbn [holder] in Nd. apply nodup_out in Nd as [Nd Nin]. rewrite Hs in Build. destruct w as [v|].
    + apply (Build None [j]).
      * discriminate.
      * try rewrite Hs; unfold hist_of. cbn [wrote]. rewrite ?app_nil_r. reflexivity.
      * try rewrite Hs; apply incl_refl.
      * cbn [holder]. rewrite ?app_nil_r. apply nodup_in; auto.
      * discriminate.
      * cbn [place]. split; [eauto|]. exists dn, []. rewrite Sn. auto.
      * intros i y sn1 t1 Ni P. destruct y as [| |w|w]; cbn [place holder] in *; auto.
        -- rewrite ?app_nil_r. exact P.
        -- destruct P as [P _]. congruence.
        -- destruct P as [P1 P2]. split; auto. destruct w; [|rewrite ?app_nil_r; exact P2]. destruct P2 as (l & r & -> & P2). exists l, (r ++ [j]). split; auto. rewrite <- app_assoc. reflexivity.
      * auto.
    + apply (Build None []); rewrite ?app_nil_r.
      * discriminate.
      * try rewrite Hs; reflexivity.
      * try rewrite Hs; apply incl_refl.
      * cbn [holder]. rewrite ?app_nil_r. exact Nd.
      * discriminate.
      * cbn [place holder]. rewrite ?app_nil_r. split; eauto.
      * intros i y sn1 t1 Ni P. destruct y as [| |w|w]; cbn [place holder] in *; auto; rewrite ?app_nil_r.
        -- intros I. apply P. apply in_or_app. auto.
        -- destruct P as [P _]. congruence.
        -- destruct P as [P1 P2]. split; auto. destruct w; auto. intros I. apply P2. apply in_or_app. auto.
      * auto.
Qed.

Lemma place_same dn hd i x sn (t t' : thread resp) : (forall a, t_p t <> Ret a) -> place dn hd i x sn t -> place dn hd i x sn t'.
Proof. intros N P. destruct x; cbn [place] in *; auto. destruct P as ((a & R) & _). destruct (N a R). Qed.
Lemma sound_same u k m dn m' : sound u k m dn -> g_sh (m_g m') = g_sh (m_g m) ->
  (forall i t', nth_error (m_ts m') i = Some t' -> exists t, nth_error (m_ts m) i = Some t /\ t_h t' = t_h t /\
     (t' = t \/ (exists c q, t_p t = SendFlush c q /\ t_p t' = q) \/ (exists b q, t_p t = RecvSucc q /\ t_p t' = q b))) ->
  (forall i t, nth_error (m_ts m) i = Some t -> exists t', nth_error (m_ts m') i = Some t' /\ t_h t' = t_h t) ->
  (forall w, m_wk m' = Some w -> (forall hist, (forall w, m_wk m = Some w -> wk_ok hist k w) -> wk_ok hist k w)) -> exists e, sound u k m' (dn ++ e).
Proof.
  intros (hd & Rc & Nd & Hh & Ho & Hw & Hr) Sh Ts Ts' Wk. exists []. rewrite app_nil_r. exists hd. unfold sound_at. splits; auto.
  - unfold record. rewrite Sh. exact Rc.
  - intros i s E. destruct (Hh i s E) as ((t & N & I) & Z). split; auto. destruct (Ts' i t N) as (t' & N' & E'). exists t'. rewrite E'. auto.
  - intros i q t' Nq N'. destruct (Ts i t' N') as (t & N & Eh & Cs). destruct (Ho i q t Nq N) as (x & pe & lw & sn & K & F & P).
    assert (K' : knows (hist_of dn hd) k pe lw sn t') by (unfold knows; rewrite Eh; exact K).
    exists x, pe, lw, sn. destruct Cs as [-> |[(c & q0 & E1 & E2)|(b & q0 & E1 & E2)]]; splits; auto.
    + rewrite E2. rewrite E1 in F. exact F.
    + eapply place_same; [|exact P]. rewrite E1. discriminate.
    + rewrite E2. rewrite E1 in F. apply F.
    + eapply place_same; [|exact P]. rewrite E1. discriminate.
Qed.
Lemma worker_cases (m m' : machine resp) p h : m_wk m = Some (mkThread p h) -> exec1 m RunWk = Some m' ->
  (p = Ret tt /\ h = [] /\ m' = mkMachine (m_g m) (m_ts m) None) \/ exists t' g', tstep (hs_of m) (mkThread p h) (m_g m) = Some (t', g') /\ m' = mkMachine g' (m_ts m) (Some t').
Proof.
  intros W H. cbn [exec1] in H. rewrite W in H. cbn [t_p t_h] in H.
  destruct p as [[]| | | | | | | | | | | | | |]; try destruct h;
    try (rewrite tstep_hs in H; destruct (tstep (hs_of m) _ (m_g m)) as [[t' g']|]; [|discriminate]; injection H as <-; eauto; fail).
  injection H as <-. auto.
Qed.
Lemma sound_step L1 wait u k m dn x m' u' k' more L0 k0 u0 : inv L1 rs wait m -> tracks lo rs L0 k0 u0 u k m -> sound u k m dn -> exec1 m x = Some m' ->
  log (m_g m') = log (m_g m) ++ more -> course rs k u more k' u' -> exists e, sound u' k' m' (dn ++ e).
Proof.
  intros Iv Tr So H Lg Co. destruct x as [j| |d|tk|j|j]; [eapply sound_run; eauto| | | | |].
  - (* RunWk *)
    destruct Tr as (_ & _ & _ & _ & Wt). destruct Iv as (Ln & X & _ & _ & _).
    destruct (m_wk m) as [[p h]|] eqn:W; [|cbn [exec1] in H; rewrite W in H; discriminate].
    destruct (worker_cases m m' p h W H) as [(-> & -> & ->)|(t' & g' & S & ->)]; clear H.
    + cbn [m_g] in Lg. apply app_same in Lg. subst more. apply course_nil in Co as [-> ->]. eapply sound_same; eauto.
      discriminate.
    + destruct So as (hd & Rc & Nd & Hh & Ho & Hw & Hr). destruct (Hw _ W) as (pe & lw & sn & K & F).
      destruct (sp_step None (hs_of m) (mkThread p h) t' (hist_of dn hd) u u' k k' (m_g m) g' more Before pe lw sn (fun _ _ _ _ _ => True) false (had_ne _ _) (Wt _ eq_refl) Rc K F S Lg Co)
        as (hist' & x' & pe' & lw' & sn' & Rc' & K' & F' & Ek & Go).
      assert (Xo : x' = Before /\ hist' = hist_of dn hd).
      { remember Before as x0 eqn:E0 in Go. destruct Go as [| |? Lv| |]; auto; discriminate. }
      destruct Xo as [-> ->].
      exists []. rewrite app_nil_r. exists hd. unfold sound_at. cbn [m_g m_ts m_wk]. splits; auto.
      * intros i q v Nq Nv. destruct (Ho i q v Nq Nv) as (y & pe1 & lw1 & sn1 & K1 & F1 & P1). exists y, pe1, lw1, sn1. splits; auto.
        eapply knows_other; [apply incl_refl|exact Ek| |exact K1].
        intros l b I. eapply (X 0%nat (Datatypes.S i)); [lia| | |exact I]; [cbn; unfold wk_h; rewrite W; reflexivity|]. cbn. rewrite nth_error_map, Nv. reflexivity.
      * intros w Ew. injection Ew as <-. exists pe', lw', sn'. auto.
  - injection H as <-. cbn [m_g g_conn] in Lg. apply app_same in Lg. subst more. apply course_nil in Co as [-> ->]. eapply sound_same; eauto.
  - cbn [exec1] in H. destruct (m_wk m) eqn:W; [discriminate|]. injection H as <-. cbn [m_g] in Lg. apply app_same in Lg. subst more. apply course_nil in Co as [-> ->].
    eapply sound_same; eauto. cbn [m_wk]. intros w Ew hist _. injection Ew as <-. apply tick_ok.
  - cbn [exec1] in H. destruct (m_wk m) eqn:W; [discriminate|]. destruct (nth_error (m_ts m) j) as [[p h]|] eqn:Nj; [|discriminate]. cbn [t_p t_h] in H.
    destruct p as [| | | | | | | | | | | |c q| |]; try discriminate. injection H as <-. cbn [m_g] in Lg. apply app_same in Lg. subst more. apply course_nil in Co as [-> ->].
    eapply sound_same; eauto; cbn [m_ts m_wk m_g].
    + intros i t' N. apply nth_set_cases in N as [(<- & -> & _)|[Di N]]; [|eauto]. eexists. split; [exact Nj|]. split; [reflexivity|]. right. left. cbn [t_p]. eauto.
    + intros i t N. destruct (Nat.eq_dec j i) as [<-|D]; [|rewrite nth_set_other; eauto]. rewrite Nj in N. injection N as <-.
      eexists. split; [eapply nth_set_same; exact Nj|reflexivity].
    + intros w Ew hist _. injection Ew as <-. apply flush_ok.
  - cbn [exec1] in H. destruct (m_wk m) as [[pw hw]|] eqn:W; [|discriminate]. destruct (nth_error (m_ts m) j) as [[p h]|] eqn:Nj; [|discriminate].
    cbn [t_p t_h] in H.
    destruct pw as [| | | | | | | | | | | | | |b kw]; try discriminate.
    destruct p as [| | | | | | | | | | | | |q|]; try discriminate. injection H as <-. cbn [m_g] in Lg. apply app_same in Lg. subst more. apply course_nil in Co as [-> ->].
    eapply sound_same; eauto; cbn [m_ts m_wk m_g].
    + intros i t' N. apply nth_set_cases in N as [(<- & -> & _)|[Di N]]; [|eauto]. eexists. split; [exact Nj|]. split; [reflexivity|]. right. right. cbn [t_p]. eauto.
    + intros i t N. destruct (Nat.eq_dec j i) as [<-|D]; [|rewrite nth_set_other; eauto]. rewrite Nj in N. injection N as <-.
      eexists. split; [eapply nth_set_same; exact Nj|reflexivity].
    + intros w Ew hist Old. injection Ew as <-. destruct (Old _ W) as (pe & lw & sn & K & F). exists pe, lw, sn. split; [exact K|exact F].
Qed.

(** The start: only the worker runs. *)
Definition starting (u : vent) (k : talk) (m : machine resp) : Prop :=
  m_ts m = map (fun r => mkThread (handle r) []) rs /\ warmth u = v0 /\
  match m_wk m with
  | Some w => exists x pe lw sn, (x = Starting \/ x = Before) /\ record x [v0] u (m_g m) /\ knows [v0] k pe lw sn w /\ sp None x pe lw sn (t_p w) (fun x _ _ _ _ => x = Before) false
  | None => In (shownT (g_sh (m_g m))) [v0]
  end.
Lemma starting_step L1 wait u k m x m' u' k' more L0 k0 u0 : just_worker x -> inv L1 rs wait m -> tracks lo rs L0 k0 u0 u k m -> starting u k m -> exec1 m x = Some m' ->
  log (m_g m') = log (m_g m) ++ more -> course rs k u more k' u' -> starting u' k' m'.
Proof.
  intros J Iv Tr (Ets & Wu & So) H Lg Co. destruct x as [j| |d|tk|j|j]; try contradiction.
  - destruct Tr as (_ & _ & _ & _ & Wt).
    destruct (m_wk m) as [[p h]|] eqn:W; [|cbn [exec1] in H; rewrite W in H; discriminate].
    destruct So as (x & pe & lw & sn & Ex & Rc & K & F). destruct (worker_cases m m' p h W H) as [(-> & -> & ->)|(t' & g' & S & ->)]; clear H.
    + cbn [m_g] in Lg. apply app_same in Lg. subst more. apply course_nil in Co as [-> ->]. split; auto. split; auto. cbn [m_wk m_g]. cbn [sp t_p] in F. subst x.
      destruct Rc as [Rc _]. apply Rc. discriminate.
    + destruct (sp_step None (hs_of m) (mkThread p h) t' [v0] u u' k k' (m_g m) g' more x pe lw sn (fun x _ _ _ _ => x = Before) false ltac:(discriminate) (Wt _ eq_refl) Rc K F S Lg Co)
        as (hist' & x' & pe' & lw' & sn' & Rc' & K' & F' & Ek & Go).
      assert (Xo : (x' = Starting \/ x' = Before) /\ hist' = [v0]).
      { destruct Go as [| |? Lv|v Ma|? ? Lv]; auto; try discriminate. }
      destruct Xo as [Ex' ->]. split; auto. split; [apply Rc'|]. cbn [m_wk m_g]. exists x', pe', lw', sn'. auto.
  - injection H as <-. cbn [m_g g_conn] in Lg. apply app_same in Lg. subst more. apply course_nil in Co as [-> ->]. split; auto.
Qed.
Lemma starting_init u c clk : warmth u = v0 -> starting u Idle (serve rs c clk).
Proof.
  intros E. split; [reflexivity|]. split; auto. cbn [serve m_wk m_g]. exists Starting, None, None, []. splits; auto.
  - split; [congruence|exact E].
  - split; [discriminate|]. split; [congruence|]. split; [discriminate|]. intros z [].
  - apply sp_start.
Qed.
Lemma starting_sound u k m : m_wk m = None -> starting u k m -> sound u k m [].
Proof.
  intros W (Ets & Wu & C). rewrite W in C. exists None. unfold sound_at. cbn [holder]. splits; auto.
  - split; [intros _; exact C|exact Wu].
  - constructor.
  - discriminate.
  - intros i q t Nq Nt. rewrite Ets, nth_error_map, Nq in Nt. injection Nt as <-. exists Before, None, None, []. splits.
    + split; [discriminate|]. split; [congruence|]. split; [discriminate|]. intros z [].
    + apply sp_rpc.
    + intros [].
  - congruence.
Qed.
End Comfort.
