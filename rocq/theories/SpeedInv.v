(** The current mode in every interleaving of the server (C122). *)
From Verif Require Import ProofBase Proto SpecProto SpecFrame SpecConn SpecLayout SpecServer SpecUnit SpecTrack SpecSpeed ProtoProofs Scanner Conn Proc Lib QueryProofs
  FrameLemmas LayoutProofs OpLemmas Server ServerProofs ServerLemmas UnitProofs Machine SpecMachine MachineBase ThreadLogic MachineInv SpecFresh FreshLogic FreshInv OwnLogic OwnInv TrackLogic TrackInv TrackClaims SpeedLogic.

Section Speed.
Context (lo : Z) (Lo : lo <= 15) (rs : list rpc).

(** What a goroutine in [x] knows. *)
Definition knows {A} (dirty : bool) (u : vent) (k : talk) (x : seat) (pe : pending) (lw : asked) (t : thread A) : Prop :=
  (forall a, lw = Some a -> In (LPm, true) (t_h t) /\ k = Awaiting a) /\
  (pe <> None -> In (LC CProf, true) (t_h t)) /\
  (forall w, pe = Some (Some w) -> w = u_mode u \/ (dirty = true /\ x = Outside)) /\
  match x with Outside => True | Seated d s v => d = dirty /\ v = u_mode u end.
Definition clean (dirty : bool) (u : vent) (g : mem) : Prop := dirty = false -> mode (g_sh g) = u_mode u.

Definition effect {A} (t : thread A) (x : seat) (dirty dirty' : bool) (u u' : vent) (k k' : talk) : Prop :=
  (k' = k \/ In (LPm, true) (t_h t)) /\
  ((dirty' = dirty /\ u_mode u' = u_mode u) \/ (x <> Outside /\ dirty' = true) \/
   (x <> Outside /\ In (LC CProf, true) (t_h t) /\ u_mode u' = u_mode u)).
Inductive goes {A} (may : bool) (R : leaving A) (t t' : thread A) (dirty dirty' : bool) (u u' : vent) : seat -> seat -> Prop :=
| go_out : (forall q, t_p t <> Lock LFan q) -> goes may R t t' dirty dirty' u u' Outside Outside
| go_on s : (may = false -> u_mode u' = u_mode u) -> (In (LFan, true) (t_h t) -> In (LFan, true) (t_h t')) ->
    goes may R t t' dirty dirty' u u' (Seated dirty s (u_mode u)) (Seated dirty' s (u_mode u'))
| go_in q : (exists s d v a, R s d v a) -> t_p t = Lock LFan q -> In (LFan, true) (t_h t') -> u' = u -> dirty' = dirty ->
    goes may R t t' dirty dirty' u u' Outside (Seated dirty (u_mode u) (u_mode u))
| go_away s a : t_p t = Unlock LFan (Ret a) -> t_p t' = Ret a -> R s dirty (u_mode u) a -> u' = u -> dirty' = dirty ->
    goes may R t t' dirty dirty' u u' (Seated dirty s (u_mode u)) Outside.

Lemma write_holds {A} u k g bs q h : track rs u k g (mkThread (WriteC bs q : sproc A) h) -> In (LPm, true) h.
Proof. intros (ph & am & kw & Hp & _ & _ & F). cbn [t_p t_h us] in *. apply Hp. destruct ph; try contradiction; discriminate. Qed.
Lemma read_holds {A} u k g bs q h : track rs u k g (mkThread (ReadC bs q : sproc A) h) -> In (LPm, true) h.
Proof. intros (ph & am & kw & Hp & _ & _ & F). cbn [t_p t_h us] in *. apply Hp. destruct ph; try contradiction; discriminate. Qed.
Lemma read_goes {A} u k g bs q h cn : track rs u k g (mkThread (ReadC bs q : sproc A) h) -> ReadPacket (g_conn g) bs = (Panic, cn) -> False.
Proof.
  intros (ph & am & kw & Hp & _ & _ & F) W. cbn [t_p t_h us] in *. destruct ph as [| |a|]; try contradiction. destruct (Hp ltac:(discriminate)) as (_ & Q & _).
  assert (Ex : bs = match a with Some _ => true | None => false end) by (destruct a; apply F).
  destruct (read_line a u _ bs _ cn Q Ex W) as (_ & _ & O). destruct a; [destruct O as (pl & _ & _ & O & _)|]; discriminate.
Qed.
Lemma course_nil k u k' u' : course rs k u [] k' u' -> k' = k /\ u' = u.
Proof. intros C. inversion C; subst; auto. destruct l; discriminate. Qed.
Lemma course_single k u x k' u' : course rs k u [x] k' u' -> turns rs u k x k' u'.
Proof. intros C. apply (course_last rs k u [] x) in C as (k1 & u1 & C & T). apply course_nil in C as [-> ->]. exact T. Qed.
Lemma app_same {T} (l m : list T) : l = l ++ m -> m = [].
Proof. intros E. rewrite <- (app_nil_r l) in E at 1. apply app_inv_head in E. auto. Qed.
Lemma app_one {T} (l m : list T) x : l ++ [x] = l ++ m -> m = [x].
Proof. intros E. apply app_inv_head in E. auto. Qed.

Lemma turn_result u k cmd data r k' u' : turns rs u k (Wr (framed cmd data) r) k' u' -> r = mkWres (len (framed cmd data)) None.
Proof.
  intros T. remember (Wr (framed cmd data) r) as y eqn:E. destruct T; try discriminate; apply wr_inj in E as [E <-]; try (rewrite <- E; reflexivity).
Qed.
Lemma turn_acks u k r k' u' : turns rs u k (Wr [7; 243] r) k' u' -> r = mkWres 2 None /\ k' = Idle /\ u' = u.
Proof.
  intros T. remember (Wr [7; 243] r) as y eqn:E.
  destruct T; try discriminate; apply wr_inj in E as [E <-]; try (exfalso; eapply framed_not_ack; exact E); auto.
Qed.
Lemma turn_reads u k x p e k' u' : turns rs u k (Rd x p e) k' u' -> u' = u /\ k' = Unacked /\ e = None /\
  ((exists gr, k = Awaiting (Some gr) /\ x = true /\ p = mkPacket (gr + 1) (p_data p) false /\ (gr = 205 -> describes u (p_data p))) \/
   (k = Awaiting None /\ x = false /\ p = zero_packet)).
Proof. intros T. inversion T; subst; splits; auto. left. exists gr. cbn [p_data]. auto 10. Qed.

Lemma sp_step {A} may hs (t t' : thread A) dirty u u' k k' g g' more x pe lw (Q : spost A) (R : leaving A) :
  (forall a, Q Outside None None a) -> vent_ok lo u -> track rs u k g t -> clean dirty u g -> knows dirty u k x pe lw t -> sp may x pe lw (t_p t) Q R ->
  (x = Outside -> free hs LFan = true -> dirty = false) ->
  tstep hs t g = Some (t', g') -> log g' = log g ++ more -> course rs k u more k' u' ->
  exists dirty' x' pe' lw', clean dirty' u' g' /\ knows dirty' u' k' x' pe' lw' t' /\ sp may x' pe' lw' (t_p t') Q R /\
    effect t x dirty dirty' u u' k k' /\ goes may R t t' dirty dirty' u u' x x'.
Proof.
  intros Qo Vo Tr Cl (Kl & Kp & Kw & Kx) F Fr St Lg Co. destruct t as [p h]. unfold tstep in St. cbn [t_p t_h] in *.
  (* goes on without any change *)
  assert (Keep : forall t' : thread A, (forall q, p <> Lock LFan q) -> (In (LFan, true) h -> In (LFan, true) (t_h t')) -> goes may R (mkThread p h) t' dirty dirty u u x x).
  { intros t1 Nl L. destruct x as [|d s v]; [constructor; exact Nl|]. destruct Kx as [-> ->]. constructor; auto. }
  assert (Still : effect (mkThread p h) x dirty dirty u u k k) by (split; auto).
  destruct p as [a| |l q|l q|l q|l q|bs q|e q|q|f q|q|d q|c q|q|b q]; cbn [sp] in F; try discriminate.
  - (* Lock *)
    destruct (free hs l) eqn:Fl; [|discriminate]. injection St as <- <-. apply app_same in Lg. subst more. apply course_nil in Co as [-> ->].
    assert (Gen : l <> LFan -> forall pe', (pe' <> None -> In (LC CProf, true) ((l, true) :: h)) -> (forall w, pe' = Some (Some w) -> w = u_mode u \/ (dirty = true /\ x = Outside)) ->
       sp may x pe' lw q Q R -> exists dirty' x' pe' lw', clean dirty' u g /\ knows dirty' u k x' pe' lw' (mkThread q ((l, true) :: h)) /\ sp may x' pe' lw' q Q R /\
       effect (mkThread (Lock l q) h) x dirty dirty' u u k k /\ goes may R (mkThread (Lock l q) h) (mkThread q ((l, true) :: h)) dirty dirty' u u x x').
    { intros Nf pe' X1 X2 X3. exists dirty, x, pe', lw. splits; auto; [|apply Keep; [congruence|]; cbn [t_h]; intros; right; auto].
      split; [intros a E; destruct (Kl a E); split; auto; right; auto|]. auto. }
    assert (Kp' : pe <> None -> In (LC CProf, true) ((l, true) :: h)) by (intros N; right; auto).
    destruct l as [| | | |c]; try (apply (Gen ltac:(discriminate) pe); auto; fail).
    + destruct F as (-> & -> & -> & Ex & F). specialize (Fr eq_refl Fl). subst dirty.
      exists false, (Seated false (u_mode u) (u_mode u)), None, None. splits; auto.
      * split; [discriminate|]. split; [congruence|]. split; [discriminate|]. auto.
      * apply F. apply Vo.
      * econstructor; [exact Ex|reflexivity| | |]; auto. left. reflexivity.
    + destruct c; try (apply (Gen ltac:(discriminate) pe); auto; fail). destruct F as (-> & F). apply (Gen ltac:(discriminate) (Some None)); auto; [intros _; left; reflexivity|discriminate].
  - (* Unlock *)
    destruct (release h l true) as [h'|] eqn:Re; injection St as <- <-; apply app_same in Lg; subst more; apply course_nil in Co as [-> ->].
    2: { exists dirty, x, pe, lw. splits; auto; [split; auto|exact I|apply Keep; [discriminate|auto]]. }
    assert (Kr : forall l', l' <> l -> In (l', true) h -> In (l', true) h') by (intros l' N I; eapply release_keeps; eauto; congruence).
    destruct l as [| | | |c].
    + destruct F as (-> & F). exists dirty, x, pe, None. splits; auto; [|apply Keep; [discriminate|]; cbn [t_h]; intros I; apply Kr; auto; discriminate].
      split; [discriminate|]. split; [intros N; apply Kr; auto; discriminate|]. auto.
    + exists dirty, x, pe, lw. splits; auto; [|apply Keep; [discriminate|]; cbn [t_h]; intros I; apply Kr; auto; discriminate].
      split; [intros a E; destruct (Kl a E); split; auto; apply Kr; auto; discriminate|]. split; [intros N; apply Kr; auto; discriminate|]. auto.
    + destruct F as (d & s & v & a & -> & -> & -> & -> & F). destruct Kx as [-> ->].
      exists dirty, Outside, None, None. splits; auto.
      * split; [discriminate|]. split; [congruence|]. split; [discriminate|]. exact I.
      * apply Qo.
      * econstructor; eauto; reflexivity.
    + exists dirty, x, pe, lw. splits; auto; [|apply Keep; [discriminate|]; cbn [t_h]; intros I; apply Kr; auto; discriminate].
      split; [intros a E; destruct (Kl a E); split; auto; apply Kr; auto; discriminate|]. split; [intros N; apply Kr; auto; discriminate|]. auto.
    + destruct c; [| | | |exists dirty, x, None, lw; splits; auto;
         [split; [intros a E; destruct (Kl a E); split; auto; apply Kr; auto; discriminate|]; split; [congruence|]; split; [discriminate|auto]
         |apply Keep; [discriminate|]; cbn [t_h]; intros I; apply Kr; auto; discriminate]|];
      (exists dirty, x, pe, lw; splits; auto; [|apply Keep; [discriminate|]; cbn [t_h]; intros I; apply Kr; auto; discriminate];
       split; [intros a E; destruct (Kl a E); split; auto; apply Kr; auto; discriminate|]; split; [intros N; apply Kr; auto; discriminate|]; auto).
  - (* RLock *)
    destruct (rfree hs l); [|discriminate]. injection St as <- <-. apply app_same in Lg. subst more. apply course_nil in Co as [-> ->].
    exists dirty, x, pe, lw. splits; auto; [|apply Keep; [discriminate|]; cbn [t_h]; intros; right; auto].
    split; [intros a E; destruct (Kl a E); split; auto; right; auto|]. split; [intros N; right; auto|]. auto.
  - (* RUnlock *)
    destruct (release h l false) as [h'|] eqn:Re; injection St as <- <-; apply app_same in Lg; subst more; apply course_nil in Co as [-> ->].
    2: { exists dirty, x, pe, lw. splits; auto; [split; auto|exact I|apply Keep; [discriminate|auto]]. }
    assert (Kr : forall l', In (l', true) h -> In (l', true) h') by (intros l' I; eapply release_keeps; eauto; congruence).
    exists dirty, x, pe, lw. splits; auto; [|apply Keep; [discriminate|auto]].
    split; [intros a E; destruct (Kl a E); split; auto|]. split; auto.
  - (* WriteC *)
    pose proof (write_holds _ _ _ _ _ _ Tr) as Hpm.
    destruct (conn_write (g_conn g) bs) as [r cn] eqn:W. injection St as <- <-. cbn [g_conn] in Lg. rewrite (write_log _ _ _ _ W) in Lg.
    apply app_one in Lg. subst more. apply course_single in Co.
    destruct F as [(gr & G & -> & F)|[(v & s & v0 & Ma & -> & -> & -> & F)|[(cmd & data & N & D & -> & F)|[-> F]]]].
    + pose proof (turn_result _ _ _ _ _ _ _ Co). subst r. apply turn_write in Co as (-> & We & [(_ & _ & -> & ->)|(_ & A1)]).
      2: { destruct A1 as [(? & _ & X & _)|[(? & ? & ? & _ & X & _)|(? & ? & ? & ? & ? & ? & ? & ? & ? & ? & _ & X & _)]]; discriminate. }
      exists dirty, x, pe, (Some (Some gr)). splits; auto; [|split; auto|apply Keep; [discriminate|auto]].
      split; [intros a E; injection E as <-; auto|]. auto.
    + pose proof (turn_result _ _ _ _ _ _ _ Co). subst r. apply turn_write in Co as (-> & We & [(_ & X & _)|(-> & A1)]); [discriminate|].
      assert (Um : u_mode u' = v).
      { destruct A1 as [(? & X & _)|[(? & ? & v1 & _ & X & -> & _)|(? & ? & ? & ? & ? & ? & ? & ? & ? & ? & X & _)]]; try discriminate. injection X as <-. reflexivity. }
      destruct Kx as [<- ->]. exists true, (Seated true s v), None, (Some None). splits; auto.
      * intros X. discriminate.
      * split; [intros a E; injection E as <-; auto|]. split; [congruence|]. split; [discriminate|auto].
      * split; [auto|]. right. left. split; [discriminate|reflexivity].
      * rewrite <- Um. constructor; auto. congruence.
    + pose proof (turn_result _ _ _ _ _ _ _ Co). subst r. apply turn_write in Co as (-> & We & [(_ & X & _)|(-> & A1)]); [contradiction|].
      assert (Um : u_mode u' = u_mode u).
      { destruct A1 as [(? & _ & _ & -> & _)|[(? & ? & v1 & X & _)|(? & ? & ? & ? & ? & ? & ? & ? & ? & ? & _ & _ & -> & _)]]; try reflexivity. contradiction. }
      exists dirty, x, pe, (Some None). splits; auto.
      * unfold clean. rewrite Um. exact Cl.
      * split; [intros a E; injection E as <-; auto|]. rewrite Um. auto.
      * split; auto.
      * destruct x as [|d s v]; [constructor; discriminate|]. destruct Kx as [-> ->]. rewrite <- Um at 2. constructor; auto.
    + apply turn_acks in Co as (-> & -> & ->). exists dirty, x, pe, None. splits; auto; [|split; auto|apply Keep; [discriminate|auto]]. split; [discriminate|]. auto.
  - (* ReadC *)
    pose proof (read_holds _ _ _ _ _ _ Tr) as Hpm.
    destruct lw as [a|]; [|contradiction]. destruct (Kl a eq_refl) as [_ ->].
    destruct (ReadPacket (g_conn g) e) as [[[p e0]|] cn] eqn:W.
    2: { exfalso. eapply read_goes; eauto. }
    injection St as <- <-. pose proof (read_log _ _ _ _ _ W) as [Lr _]. cbn [g_conn] in Lg. rewrite Lr in Lg. apply app_one in Lg. subst more.
    apply course_single in Co. apply turn_reads in Co as (-> & -> & -> & [(gr & Eg & -> & Ep & D5)|(Eg & -> & ->)]); injection Eg as ->.
    + destruct F as [_ F]. specialize (F (p_data p)). rewrite <- Ep in F.
      assert (D : gr = 205 -> length (p_data p) = 14%nat /\ bytes_ok (p_data p) /\ byte_at (p_data p) 8 = u_mode u).
      { intros E. destruct (D5 E) as (B1 & B2 & _ & _ & B5). auto. }
      eexists dirty, x, _, None. split; [exact Cl|]. split; [|split; [apply F; intros E; destruct (D E) as (B1 & B2 & _); auto|]].
      * split; [discriminate|]. split; [|split; [|exact Kx]].
        -- destruct pe as [pe|]; [|congruence]. intros _. apply Kp. discriminate.
        -- intros w. destruct pe as [pe|]; [|discriminate]. destruct (Z.eqb_spec gr 205) as [-> |N]; [|apply Kw].
           intros E. injection E as <-. left. apply D. reflexivity.
      * split; [split; auto|]. apply Keep; auto. discriminate.
    + destruct F as [_ F]. exists dirty, x, pe, None. splits; auto; [|split; auto|apply Keep; [discriminate|auto]]. split; [discriminate|]. auto.
  - injection St as <- <-. apply app_same in Lg. subst more. apply course_nil in Co as [-> ->]. exists dirty, x, pe, lw. splits; auto; [split; auto| |apply Keep; [discriminate|auto]].
    apply F. intros s0 v ->. destruct Kx as [<- ->]. apply Cl. reflexivity.
  - (* Put *)
    injection St as <- <-. cbn [g_conn] in Lg. apply app_same in Lg. subst more. apply course_nil in Co as [-> ->].
    destruct F as [[Em F]|(w & -> & Em & F)].
    + exists dirty, x, pe, lw. splits; auto; [|split; auto|apply Keep; [discriminate|auto]]. unfold clean. cbn [g_sh]. rewrite Em. exact Cl.
    + destruct (Kw w eq_refl) as [-> |(Dt & ->)].
      * destruct x as [|d s v].
        -- exists dirty, Outside, (Some None), lw. splits; auto; [intros _; apply Em|split; auto; split; [intros _; apply Kp; discriminate|split; [discriminate|exact I]]|apply Keep; [discriminate|auto]].
        -- destruct Kx as [-> ->]. exists false, (Seated false s (u_mode u)), (Some None), lw. cbn [settled] in F. splits; auto.
           ++ intros _. apply Em.
           ++ split; auto. split; [intros _; apply Kp; discriminate|]. split; [discriminate|auto].
           ++ split; auto. right. right. split; [discriminate|]. split; [apply Kp; discriminate|reflexivity].
           ++ constructor; auto.
      * exists dirty, Outside, (Some None), lw. splits; auto; [intros X; congruence| |apply Keep; [discriminate|auto]]. split; auto. split; [intros _; apply Kp; discriminate|]. split; [discriminate|exact I].
  - injection St as <- <-. apply app_same in Lg. subst more. apply course_nil in Co as [-> ->]. exists dirty, x, pe, lw. splits; auto; try (split; auto); try apply F; apply Keep; [discriminate|auto].
  - injection St as <- <-. apply app_same in Lg. subst more. apply course_nil in Co as [-> ->]. exists dirty, x, pe, lw. splits; auto; try (split; auto); try apply F; apply Keep; [discriminate|auto].
Qed.

Lemma knows_other {A B} (t : thread A) (v : thread B) x y pe lw dirty dirty' u u' k k' :
  effect t x dirty dirty' u u' k k' -> (forall l b, In (l, true) (t_h t) -> ~ In (l, b) (t_h v)) -> (x <> Outside -> y = Outside) ->
  knows dirty u k y pe lw v -> knows dirty' u' k' (match y with Outside => Outside | Seated _ s _ => Seated dirty' s (u_mode u') end) pe lw v.
Proof.
  intros (Ek & Ed) D Xy (Kl & Kp & Kw & Kx). split; [|split; [|split]].
  - intros a E. destruct (Kl a E) as [I ->]. split; auto. destruct Ek as [-> |I']; auto. destruct (D _ true I' I).
  - exact Kp.
  - intros w E. destruct Ed as [(-> & ->)|[(Xo & ->)|(Xo & I & ->)]].
    + destruct (Kw w E) as [-> |(-> & ->)]; auto.
    + right. rewrite (Xy Xo). auto.
    + destruct (D _ true I). apply Kp. congruence.
  - destruct y as [|d s v0]; auto.
Qed.

(** ** the whole server *)
Context (v0 : Z).
Definition at_seat (dirty : bool) (hd : option (nat * Z)) (u : vent) (i : nat) : seat :=
  match hd with Some (j, s) => if Nat.eqb i j then Seated dirty s (u_mode u) else Outside | None => Outside end.
Definition begun (hd : option (nat * Z)) : list nat := match hd with Some (i, _) => if is_speed rs i then [i] else [] | None => [] end.
Definition reached (hd : option (nat * Z)) (u : vent) : Z := match hd with Some (_, s) => s | None => u_mode u end.
Definition one_ok (dirty : bool) (hd : option (nat * Z)) (u : vent) (k : talk) (js : list nat) (i : nat) (q : rpc) (t : thread resp) : Prop :=
  exists pe lw, knows dirty u k (at_seat dirty hd u i) pe lw t /\ sp (moves q) (at_seat dirty hd u i) pe lw (t_p t) outside (leaves q) /\
    (is_speed rs i = true -> at_seat dirty hd u i = Outside -> if listed i js then exists a, t_p t = Ret a else t = mkThread (handle q) []).
Definition wk_ok (dirty : bool) (u : vent) (k : talk) (w : thread unit) : Prop :=
  exists pe lw, knows dirty u k Outside pe lw w /\ sp false Outside pe lw (t_p w) outside (fun _ _ _ _ => False).
Definition sound_at (dirty : bool) (hd : option (nat * Z)) (dn : list nat) (u : vent) (k : talk) (m : machine resp) (js : list nat) : Prop :=
  clean dirty u (m_g m) /\ (hd = None -> dirty = false) /\ js = dn ++ begun hd /\ steps rs m v0 dn (reached hd u) /\
  (forall i s, hd = Some (i, s) -> (exists t, nth_error (m_ts m) i = Some t /\ In (LFan, true) (t_h t)) /\ (is_speed rs i = false -> s = u_mode u)) /\
  (forall i q t, nth_error rs i = Some q -> nth_error (m_ts m) i = Some t -> one_ok dirty hd u k js i q t) /\
  (forall w, m_wk m = Some w -> wk_ok dirty u k w).
Definition sound (u : vent) (k : talk) (m : machine resp) (js : list nat) : Prop := exists dirty hd dn, sound_at dirty hd dn u k m js.
Definition broken (m : machine resp) (js : list nat) : Prop := exists i, In i js /\ answered m i poll_failed.

Lemma answered_run (m m' : machine resp) x i a : exec1 m x = Some m' -> answered m i a -> answered m' i a.
Proof.
  intros H (t & N & R). destruct x as [j| |d|tk|j|j]; cbn [exec1] in H.
  - destruct (nth_error (m_ts m) j) as [t1|] eqn:Nj; [|discriminate]. destruct (tstep _ t1 _) as [[t' g']|] eqn:S; [|discriminate]. injection H as <-.
    exists t. split; auto. cbn [m_ts]. destruct (Nat.eq_dec j i) as [<-|D]; [|rewrite nth_set_other; auto].
    rewrite N in Nj. injection Nj as <-. unfold tstep in S. rewrite R in S. discriminate.
  - assert (E : m_ts m' = m_ts m).
    { destruct (m_wk m) as [w|]; [|discriminate]. destruct w as [p h]. cbn [t_p t_h] in H.
      destruct p as [[]| | | | | | | | | | | | | |]; try destruct h; try (destruct (tstep _ _ _) as [[t' g']|]; [|discriminate]); injection H as <-; reflexivity. }
    exists t. rewrite E. auto.
  - injection H as <-. exists t. auto.
  - destruct (m_wk m); [discriminate|]. injection H as <-. exists t. auto.
  - destruct (m_wk m); [discriminate|]. destruct (nth_error (m_ts m) j) as [t1|] eqn:Nj; [|discriminate].
    destruct (t_p t1) eqn:P; try discriminate. injection H as <-.
    exists t. split; auto. cbn [m_ts]. destruct (Nat.eq_dec j i) as [<-|D]; [|rewrite nth_set_other; auto]. congruence.
  - destruct (m_wk m); [|discriminate]. destruct (nth_error (m_ts m) j) as [t1|] eqn:Nj; [|discriminate].
    destruct (t_p t0); try discriminate. destruct (t_p t1) eqn:P; try discriminate. injection H as <-.
    exists t. split; auto. cbn [m_ts]. destruct (Nat.eq_dec j i) as [<-|D]; [|rewrite nth_set_other; auto]. congruence.
Qed.
Lemma steps_run (m m' : machine resp) x v is z : exec1 m x = Some m' -> steps rs m v is z -> steps rs m' v is z.
Proof. intros H S. induction S; [constructor|]. econstructor; eauto. eapply answered_run; eauto. Qed.
Lemma steps_snoc (m : machine resp) v is z i q a w : steps rs m v is z -> nth_error rs i = Some q -> answered m i a -> one_step z q a w -> steps rs m v (is ++ [i]) w.
Proof. intros S N A O. induction S; cbn; econstructor; eauto. constructor. Qed.
Lemma broken_run m m' x js : exec1 m x = Some m' -> broken m js -> broken m' (begin_one rs js x).
Proof.
  intros H (i & I & A). exists i. split; [|eapply answered_run; eauto]. destruct x; cbn; auto. destruct (_ && _); auto. apply in_or_app. auto.
Qed.
Lemma listed_in i l : listed i l = true <-> In i l.
Proof.
  unfold listed. rewrite existsb_exists. split; [intros (y & I & E); apply Nat.eqb_eq in E; subst; auto|].
  intros I. exists i. split; auto. apply Nat.eqb_refl.
Qed.
Lemma speed_moves i q : nth_error rs i = Some q -> is_speed rs i = moves q.
Proof. intros N. unfold is_speed. rewrite N. destruct q; reflexivity. Qed.

Lemma tick_ok dirty u k tk : wk_ok dirty u k (mkThread (on_tick tk) []).
Proof.
  exists None, None. split.
  - split; [discriminate|]. split; [congruence|]. split; [discriminate|exact I].
  - eapply calm_outside. apply calm_tick. reflexivity.
Qed.
Lemma flush_ok dirty u k c : wk_ok dirty u k (mkThread (FlushCaches c) []).
Proof.
  exists None, None. split.
  - split; [discriminate|]. split; [congruence|]. split; [discriminate|exact I].
  - eapply calm_outside. apply calm_flush. reflexivity.
Qed.
Lemma effect_out {A} (t : thread A) dirty dirty' u u' k k' : effect t Outside dirty dirty' u u' k k' -> dirty' = dirty /\ u_mode u' = u_mode u.
Proof. intros (_ & [E|[(E & _)|(E & _)]]); auto; congruence. Qed.
Lemma knows_same {A B} (t : thread A) (v : thread B) x y pe lw dirty dirty' u u' k k' :
  effect t x dirty dirty' u u' k k' -> (forall l b, In (l, true) (t_h t) -> ~ In (l, b) (t_h v)) -> (x <> Outside -> y = Outside) ->
  knows dirty u k y pe lw v -> knows dirty' u' k' y pe lw v.
Proof.
  intros E D Xy K. pose proof (knows_other _ _ _ _ _ _ _ _ _ _ _ _ E D Xy K) as K'. destruct y as [|d s v1]; auto.
  assert (x = Outside) by (destruct x; auto; discriminate (Xy ltac:(discriminate))). subst x. destruct (effect_out _ _ _ _ _ _ _ E) as [Ed Eu].
  destruct K as (_ & _ & _ & -> & ->). rewrite <- Ed, <- Eu. exact K'.
Qed.
Lemma one_other {A} (t : thread A) x dirty dirty' hd hd' u u' k k' js js' i q v :
  effect t x dirty dirty' u u' k k' -> (forall l b, In (l, true) (t_h t) -> ~ In (l, b) (t_h v)) -> (x <> Outside -> at_seat dirty hd u i = Outside) ->
  at_seat dirty' hd' u' i = at_seat dirty hd u i -> listed i js' = listed i js -> one_ok dirty hd u k js i q v -> one_ok dirty' hd' u' k' js' i q v.
Proof.
  intros E D Xy Sa Ls (pe & lw & K & F & S). exists pe, lw. rewrite Sa, Ls. splits; auto. eapply knows_same; eauto.
Qed.
Lemma wk_other {A} (t : thread A) x dirty dirty' u u' k k' w :
  effect t x dirty dirty' u u' k k' -> (forall l b, In (l, true) (t_h t) -> ~ In (l, b) (t_h w)) -> wk_ok dirty u k w -> wk_ok dirty' u' k' w.
Proof. intros E D (pe & lw & K & F). exists pe, lw. split; auto. eapply knows_same; eauto. Qed.
Lemma seat_other dirty hd u i j s : hd = Some (j, s) -> i <> j -> at_seat dirty hd u i = Outside.
Proof. intros -> N. cbn. destruct (Nat.eqb_spec i j); congruence. Qed.
Lemma seat_own dirty u j s : at_seat dirty (Some (j, s)) u j = Seated dirty s (u_mode u).
Proof. cbn. rewrite Nat.eqb_refl. reflexivity. Qed.
Lemma seat_in dirty hd u j : at_seat dirty hd u j <> Outside -> exists s, hd = Some (j, s).
Proof. destruct hd as [[i s]|]; cbn; [|congruence]. destruct (Nat.eqb_spec j i) as [-> |N]; [eauto|congruence]. Qed.
Lemma outside_ok {A} (a : A) : @outside A Outside None None a.
Proof. reflexivity. Qed.

Lemma sound_run L1 wait u k m js j m' u' k' more L0 k0 u0 : inv L1 rs wait m -> tracks lo rs L0 k0 u0 u k m -> sound u k m js -> exec1 m (Run j) = Some m' ->
  log (m_g m') = log (m_g m) ++ more -> course rs k u more k' u' -> sound u' k' m' (begin_one rs js (Run j)) \/ broken m' (begin_one rs js (Run j)).
Proof.
  intros Iv ((_ & _ & Vo) & _ & _ & Th & _) (dirty & hd & dn & Cl & Hn & Ej & Sp & Hh & Ho & Hw) H Lg Co. pose proof H as H0. destruct Iv as (Ln & X & _ & _ & _). cbn [exec1] in H.
  destruct (nth_error (m_ts m) j) as [t|] eqn:Nj; [|discriminate]. rewrite tstep_hs in H.
  destruct (tstep (hs_of m) t (m_g m)) as [[t' g']|] eqn:S; [|discriminate]. injection H as <-.
  destruct (nth_error rs j) as [q|] eqn:Nq.
  2: { apply nth_error_None in Nq. assert (nth_error (m_ts m) j <> None) as Y by congruence. apply nth_error_Some in Y. lia. }
  assert (Ids : forall t (i : nat), nth_error (m_ts m) i = Some t -> nth_error (hs_of m) (Datatypes.S i) = Some (t_h t)).
  { intros t0 i N. cbn. rewrite nth_error_map, N. reflexivity. }
  assert (Dj : forall i v, i <> j -> nth_error (m_ts m) i = Some v -> forall l b, In (l, true) (t_h t) -> ~ In (l, b) (t_h v)).
  { intros i v Ni Nv l b I. eapply (X (Datatypes.S j) (Datatypes.S i)); eauto. }
  assert (Dw : forall w, m_wk m = Some w -> forall l b, In (l, true) (t_h t) -> ~ In (l, b) (t_h w)).
  { intros w Ew l b I. eapply (X (Datatypes.S j) 0%nat); eauto. cbn. unfold wk_h. rewrite Ew. reflexivity. }
  assert (Fn : free (hs_of m) LFan = true -> hd = None).
  { intros Fr. destruct hd as [[i s]|]; auto. destruct (Hh i s eq_refl) as ((t0 & N0 & I0) & _). rewrite free_in in Fr.
    destruct (Fr (t_h t0) true); auto. eapply nth_error_In. eapply Ids. exact N0. }
  destruct (Ho j q t Nq Nj) as (pe & lw & K & F & Sj).
  destruct (sp_step (moves q) (hs_of m) t t' dirty u u' k k' (m_g m) g' more _ pe lw outside (leaves q) outside_ok Vo (Th t (nth_error_In _ _ Nj)) Cl K F) as (dirty' & x' & pe' & lw' & Cl' & K' & F' & Ef & Go); auto.
  assert (Alive : forall a, t_p t <> Ret a) by (intros a E; unfold tstep in S; rewrite E in S; discriminate).
  assert (Sm : moves q = is_speed rs j) by (symmetry; apply speed_moves; auto).
  assert (Excl : at_seat dirty hd u j <> Outside -> forall i, i <> j -> at_seat dirty hd u i = Outside).
  { intros N i Ni. apply seat_in in N as (s & ->). eapply seat_other; eauto. }
  set (js' := begin_one rs js (Run j)).
  (* a machine with the given holder *)
  assert (Build : forall hd' dn', (hd' = None -> dirty' = false) -> js' = dn' ++ begun hd' -> steps rs (mkMachine g' (set_nth j t' (m_ts m)) (m_wk m)) v0 dn' (reached hd' u') ->
     (forall i s, hd' = Some (i, s) -> (i = j /\ In (LFan, true) (t_h t') \/ i <> j /\ hd = Some (i, s)) /\ (is_speed rs i = false -> s = u_mode u')) ->
     at_seat dirty' hd' u' j = x' -> (forall i, i <> j -> at_seat dirty' hd' u' i = at_seat dirty hd u i) -> (forall i, i <> j -> listed i js' = listed i js) ->
     (is_speed rs j = true -> x' = Outside -> listed j js' = true /\ exists a, t_p t' = Ret a) ->
     sound u' k' (mkMachine g' (set_nth j t' (m_ts m)) (m_wk m)) js').
  { intros hd' dn' B1 B2 B3 B4 B5 B6 B7 B8. exists dirty', hd', dn'. unfold sound_at. cbn [m_g m_ts m_wk]. splits; auto.
    - intros i s E. destruct (B4 i s E) as [[(-> & I)|(Ni & E')] Z]; (split; [|exact Z]).
      + exists t'. split; auto. eapply nth_set_same. exact Nj.
      + destruct (Hh i s E') as ((t0 & N0 & I0) & _). exists t0. split; auto. rewrite nth_set_other; auto.
    - intros i q0 v Ni Nv. apply nth_set_cases in Nv as [(<- & -> & _)|[Di Nv]].
      + rewrite Nq in Ni. injection Ni as <-. exists pe', lw'. rewrite B5. splits; auto. intros Sb Xo. destruct (B8 Sb Xo) as [-> Y]. exact Y.
      + eapply one_other; [exact Ef| | | | |apply Ho; eauto]; eauto.
    - intros w Ew. eapply wk_other; [exact Ef| |apply Hw; auto]. apply Dw. auto. }
  assert (Ljs : forall i, i <> j -> listed i js' = listed i js).
  { intros i Ni. unfold js', begin_one. destruct (_ && _); auto. unfold listed. rewrite existsb_app. cbn. destruct (Nat.eqb_spec i j); [congruence|]. rewrite !orb_false_r. reflexivity. }
  remember (at_seat dirty hd u j) as x eqn:Ex.
  destruct Go as [Nl|s Mf Fi|q0 Rx Tq Fi -> ->|s a Tp Tp' Rl -> ->].
  - (* outside *)
    assert (Sf : is_speed rs j = false).
    { destruct (is_speed rs j) eqn:Sb; auto. exfalso. specialize (Sj eq_refl eq_refl). destruct (listed j js).
      - destruct Sj as (a & Sj). eapply Alive; eauto.
      - subst t. unfold is_speed in Sb. rewrite Nq in Sb. destruct q; try discriminate. cbn in Nl. unfold SetFanSpeed, with_lock in Nl. eapply Nl. reflexivity. }
    destruct (effect_out _ _ _ _ _ _ _ Ef) as [-> Eu].
    assert (Ejs : js' = js) by (unfold js', begin_one; rewrite Sf; reflexivity).
    assert (Sa : forall i, at_seat dirty hd u' i = at_seat dirty hd u i) by (intros i; unfold at_seat; rewrite Eu; reflexivity).
    left. apply (Build hd dn); auto.
    + rewrite Ejs. exact Ej.
    + eapply steps_run; [exact H0|]. unfold reached. rewrite Eu. exact Sp.
    + intros i s ->. rewrite Eu. split; [|apply (Hh i s eq_refl)]. right. split; auto. intros ->. rewrite seat_own in Ex. discriminate.
    + rewrite Sa. auto.
    + congruence.
  - (* goes on *)
    assert (Hs : hd = Some (j, s)).
    { destruct (seat_in dirty hd u j) as (s' & E); [rewrite <- Ex; discriminate|]. rewrite E in Ex. rewrite seat_own in Ex. injection Ex as <-. exact E. }
    assert (Ejs : js' = js).
    { unfold js', begin_one. destruct (is_speed rs j) eqn:Sb; auto. cbn [andb]. assert (L : listed j js = true); [|rewrite L; reflexivity].
      apply listed_in. rewrite Ej, Hs. cbn [begun]. rewrite Sb. apply in_or_app. right. left. reflexivity. }
    left. apply (Build hd dn).
    + rewrite Hs. discriminate.
    + rewrite Ejs. exact Ej.
    + eapply steps_run; [exact H0|]. rewrite Hs in *. exact Sp.
    + rewrite Hs. intros i s0 E. injection E as <- <-. destruct (Hh j s Hs) as ((t0 & N0 & I0) & Z). rewrite Nj in N0. injection N0 as <-.
      split; [left; split; auto|]. intros Sf. rewrite Mf by congruence. auto.
    + rewrite Hs. apply seat_own.
    + intros i Ni. rewrite !(seat_other _ _ _ _ _ _ Hs Ni). reflexivity.
    + exact Ljs.
    + discriminate.
  - (* takes LFan *)
    assert (Hs : hd = None). { apply Fn. unfold tstep in S. rewrite Tq in S. destruct (free _ LFan); [reflexivity|discriminate]. }
    assert (Lj : is_speed rs j = true -> listed j js = false).
    { intros Sb. specialize (Sj Sb eq_refl). destruct (listed j js); auto. destruct Sj as (a & Sj). destruct (Alive a Sj). }
    left. apply (Build (Some (j, u_mode u)) dn).
    + discriminate.
    + unfold js', begin_one, begun. rewrite Ej, Hs. cbn [begun]. rewrite app_nil_r. destruct (is_speed rs j) eqn:Sb; [|rewrite app_nil_r; reflexivity].
      cbn [andb]. specialize (Lj eq_refl). rewrite Ej, Hs in Lj. cbn [begun] in Lj. rewrite app_nil_r in Lj. rewrite Lj. reflexivity.
    + eapply steps_run; [exact H0|]. rewrite Hs in Sp. exact Sp.
    + intros i s E. injection E as <- <-. split; auto.
    + apply seat_own.
    + intros i Ni. rewrite (seat_other _ _ _ _ _ _ eq_refl Ni). rewrite Hs. reflexivity.
    + exact Ljs.
    + discriminate.
  - (* leaves *)
    assert (Hs : hd = Some (j, s)).
    { destruct (seat_in dirty hd u j) as (s' & E); [rewrite <- Ex; discriminate|]. rewrite E in Ex. rewrite seat_own in Ex. injection Ex as <-. exact E. }
    assert (An : answered (mkMachine g' (set_nth j t' (m_ts m)) (m_wk m)) j a).
    { exists t'. split; auto. cbn [m_ts]. eapply nth_set_same. exact Nj. }
    assert (Ins : is_speed rs j = true -> In j js).
    { intros Sb. rewrite Ej, Hs. cbn [begun]. rewrite Sb. apply in_or_app. right. left. reflexivity. }
    assert (Ejs : js' = js).
    { unfold js', begin_one. destruct (is_speed rs j) eqn:Sb; auto. cbn [andb]. assert (L : listed j js = true); [|rewrite L; reflexivity]. apply listed_in. auto. }
    assert (Fin : forall dn', dirty = false -> js = dn' -> steps rs (mkMachine g' (set_nth j t' (m_ts m)) (m_wk m)) v0 dn' (u_mode u) ->
      sound u k' (mkMachine g' (set_nth j t' (m_ts m)) (m_wk m)) js').
    { intros dn' Df En Sn. apply (Build None dn'); auto.
      - cbn [begun]. rewrite app_nil_r. congruence.
      - discriminate.
      - intros i Ni. rewrite (seat_other _ _ _ _ _ _ Hs Ni). reflexivity.
      - intros Sb _. split; [|eauto]. rewrite Ejs. apply listed_in. auto. }
    destruct (is_speed rs j) eqn:Sb.
    + assert (Eq : exists aa bb, q = SetFanSpeedR aa bb) by (destruct q; try discriminate; eauto). destruct Eq as (aa & bb & ->). cbn [leaves] in Rl.
      destruct Rl as [-> |(-> & Os)].
      * right. exists j. split; auto. rewrite Ejs. auto.
      * left. apply (Fin (dn ++ [j])); auto.
        -- rewrite Ej, Hs. cbn [begun]. rewrite Sb. reflexivity.
        -- rewrite Hs in Sp. cbn [reached] in Sp. eapply steps_snoc; eauto. eapply steps_run; [exact H0|exact Sp].
    + assert (Df : dirty = false) by (destruct q; try discriminate; exact Rl). left. apply (Fin dn); auto.
      * rewrite Ej, Hs. cbn [begun]. rewrite Sb. apply app_nil_r.
      * destruct (Hh j s Hs) as (_ & Z). rewrite <- (Z Sb). rewrite Hs in Sp. eapply steps_run; [exact H0|exact Sp].
Qed.

Lemma sound_same u k m js m' : sound u k m js -> (forall i a, answered m i a -> answered m' i a) -> g_sh (m_g m') = g_sh (m_g m) ->
  (forall i t', nth_error (m_ts m') i = Some t' -> exists t, nth_error (m_ts m) i = Some t /\ t_h t' = t_h t /\
     (t' = t \/ (exists c q, t_p t = SendFlush c q /\ t_p t' = q) \/ (exists b q, t_p t = RecvSucc q /\ t_p t' = q b))) ->
  (forall i t, nth_error (m_ts m) i = Some t -> exists t', nth_error (m_ts m') i = Some t' /\ t_h t' = t_h t) ->
  (forall w, m_wk m' = Some w -> (forall dirty, (forall w, m_wk m = Some w -> wk_ok dirty u k w) -> wk_ok dirty u k w)) -> sound u k m' js.
Proof.
  intros (dirty & hd & dn & Cl & Hn & Ej & Sp & Hh & Ho & Hw) An Sh Ts Ts' Wk. exists dirty, hd, dn. unfold sound_at. splits; auto.
  - unfold clean. rewrite Sh. exact Cl.
  - clear -Sp An. induction Sp; [constructor|]. econstructor; eauto.
  - intros i s E. destruct (Hh i s E) as ((t & N & I) & Z). split; auto. destruct (Ts' i t N) as (t' & N' & E'). exists t'. rewrite E'. auto.
  - intros i q t' Nq N'. destruct (Ts i t' N') as (t & N & Eh & Cs). destruct (Ho i q t Nq N) as (pe & lw & K & F & S).
    assert (K' : knows dirty u k (at_seat dirty hd u i) pe lw t') by (unfold knows; rewrite Eh; exact K).
    assert (Sf : forall p, t_p t = p -> (forall a, p <> Ret a) -> (forall q0, p <> Lock LFan q0) -> is_speed rs i = true -> at_seat dirty hd u i <> Outside).
    { intros p Ep N1 N2 Sb Xo. specialize (S Sb Xo). destruct (listed i js).
      - destruct S as (a & S). apply (N1 a). congruence.
      - subst t. unfold is_speed in Sb. rewrite Nq in Sb. destruct q; try discriminate. cbn in Ep. unfold SetFanSpeed, with_lock in Ep. eapply N2. symmetry. exact Ep. }
    exists pe, lw. destruct Cs as [-> |[(c & q0 & E1 & E2)|(b & q0 & E1 & E2)]]; splits; auto.
    + rewrite E2. rewrite E1 in F. exact F.
    + intros Sb Xo. destruct (Sf _ E1 ltac:(discriminate) ltac:(discriminate) Sb Xo).
    + rewrite E2. rewrite E1 in F. apply F.
    + intros Sb Xo. destruct (Sf _ E1 ltac:(discriminate) ltac:(discriminate) Sb Xo).
Qed.
Lemma sound_step L1 wait u k m js x m' u' k' more L0 k0 u0 : inv L1 rs wait m -> tracks lo rs L0 k0 u0 u k m -> sound u k m js -> exec1 m x = Some m' ->
  log (m_g m') = log (m_g m) ++ more -> course rs k u more k' u' -> sound u' k' m' (begin_one rs js x) \/ broken m' (begin_one rs js x).
Proof.
  intros Iv Tr So H Lg Co. destruct x as [j| |d|tk|j|j]; [eapply sound_run; eauto| | | | |]; cbn [begin_one]; left.
  - (* RunWk *)
    pose proof H as H0. destruct Tr as ((_ & _ & Vo) & _ & _ & _ & Wt). destruct Iv as (Ln & X & _ & _ & _). cbn [exec1] in H.
    destruct (m_wk m) as [w|] eqn:W; [|discriminate]. destruct w as [p h]. cbn [t_p t_h] in H.
    assert (Cs : (p = Ret tt /\ h = [] /\ m' = mkMachine (m_g m) (m_ts m) None) \/
      exists t' g', tstep (hs_of m) (mkThread p h) (m_g m) = Some (t', g') /\ m' = mkMachine g' (m_ts m) (Some t')).
    { destruct p as [[]| | | | | | | | | | | | | |]; try destruct h;
        try (rewrite tstep_hs in H; destruct (tstep (hs_of m) _ (m_g m)) as [[t' g']|]; [|discriminate]; injection H as <-; eauto; fail).
      injection H as <-. auto. }
    clear H. destruct Cs as [(-> & -> & ->)|(t' & g' & S & ->)].
    + cbn [m_g] in Lg. apply app_same in Lg. subst more. apply course_nil in Co as [-> ->]. eapply sound_same; eauto.
      discriminate.
    + destruct So as (dirty & hd & dn & Cl & Hn & Ej & Sp & Hh & Ho & Hw). destruct (Hw _ W) as (pe & lw & K & F).
      assert (Ids : forall t (i : nat), nth_error (m_ts m) i = Some t -> nth_error (hs_of m) (Datatypes.S i) = Some (t_h t)).
      { intros t0 i N. cbn. rewrite nth_error_map, N. reflexivity. }
      assert (Fn : free (hs_of m) LFan = true -> hd = None).
      { intros Fr. destruct hd as [[i s]|]; auto. destruct (Hh i s eq_refl) as ((t0 & N0 & I0) & _). rewrite free_in in Fr.
        destruct (Fr (t_h t0) true); auto. eapply nth_error_In. eapply Ids. exact N0. }
      destruct (sp_step false (hs_of m) (mkThread p h) t' dirty u u' k k' (m_g m) g' more _ pe lw outside (fun _ _ _ _ => False) outside_ok Vo (Wt _ eq_refl) Cl K F) as (dirty' & x' & pe' & lw' & Cl' & K' & F' & Ef & Go); auto.
      destruct (effect_out _ _ _ _ _ _ _ Ef) as [-> Eu].
      assert (Xo : x' = Outside).
      { remember Outside as x0 eqn:E0 in Go. destruct Go as [| |q Ex|]; auto; try discriminate. destruct Ex as (? & ? & ? & ? & []). }
      subst x'.
      assert (Sa : forall i, at_seat dirty hd u' i = at_seat dirty hd u i) by (intros i; unfold at_seat; rewrite Eu; reflexivity).
      exists dirty, hd, dn. unfold sound_at. cbn [m_g m_ts m_wk]. splits; auto.
      * eapply steps_run; [exact H0|]. unfold reached. rewrite Eu. exact Sp.
      * rewrite Eu. exact Hh.
      * intros i q v Nq Nv. eapply one_other; [exact Ef| | | | |apply Ho; eauto]; auto; [|congruence].
        intros l b I. eapply (X 0%nat (Datatypes.S i)); eauto. cbn. unfold wk_h. rewrite W. reflexivity.
      * intros w Ew. injection Ew as <-. exists pe', lw'. auto.
  - injection H as <-. cbn [m_g g_conn] in Lg. apply app_same in Lg. subst more. apply course_nil in Co as [-> ->]. eapply sound_same; eauto.
  - pose proof H as H0. cbn [exec1] in H. destruct (m_wk m) eqn:W; [discriminate|]. injection H as <-. cbn [m_g] in Lg. apply app_same in Lg. subst more. apply course_nil in Co as [-> ->].
    eapply sound_same; eauto. cbn [m_wk]. intros w Ew dirty _. injection Ew as <-. apply tick_ok.
  - pose proof H as H0. cbn [exec1] in H. destruct (m_wk m) eqn:W; [discriminate|]. destruct (nth_error (m_ts m) j) as [[p h]|] eqn:Nj; [|discriminate]. cbn [t_p t_h] in H.
    destruct p as [| | | | | | | | | | | |c q| |]; try discriminate. injection H as <-. cbn [m_g] in Lg. apply app_same in Lg. subst more. apply course_nil in Co as [-> ->].
    eapply sound_same; eauto; cbn [m_ts m_wk m_g].
    + intros i a A. eapply answered_run; eauto.
    + intros i t' N. apply nth_set_cases in N as [(<- & -> & _)|[Di N]]; [|eauto]. eexists. split; [exact Nj|]. split; [reflexivity|]. right. left. cbn [t_p]. eauto.
    + intros i t N. destruct (Nat.eq_dec j i) as [<-|D]; [|rewrite nth_set_other; eauto]. rewrite Nj in N. injection N as <-.
      eexists. split; [eapply nth_set_same; exact Nj|reflexivity].
    + intros w Ew dirty _. injection Ew as <-. apply flush_ok.
  - pose proof H as H0. cbn [exec1] in H. destruct (m_wk m) as [[pw hw]|] eqn:W; [|discriminate]. destruct (nth_error (m_ts m) j) as [[p h]|] eqn:Nj; [|discriminate].
    cbn [t_p t_h] in H.
    destruct pw as [| | | | | | | | | | | | | |b kw]; try discriminate.
    destruct p as [| | | | | | | | | | | | |q|]; try discriminate. injection H as <-. cbn [m_g] in Lg. apply app_same in Lg. subst more. apply course_nil in Co as [-> ->].
    eapply sound_same; eauto; cbn [m_ts m_wk m_g].
    + intros i a A. eapply answered_run; eauto.
    + intros i t' N. apply nth_set_cases in N as [(<- & -> & _)|[Di N]]; [|eauto]. eexists. split; [exact Nj|]. split; [reflexivity|]. right. right. cbn [t_p]. eauto.
    + intros i t N. destruct (Nat.eq_dec j i) as [<-|D]; [|rewrite nth_set_other; eauto]. rewrite Nj in N. injection N as <-.
      eexists. split; [eapply nth_set_same; exact Nj|reflexivity].
    + intros w Ew dirty Old. injection Ew as <-. destruct (Old _ W) as (pe & lw & K & F). exists pe, lw. split; [exact K|exact F].
Qed.

(** The start: only the worker runs. *)
Definition starting (L0 : list io) (u : vent) (k : talk) (m : machine resp) : Prop :=
  m_ts m = map (fun r => mkThread (handle r) []) rs /\
  match m_wk m with
  | Some w => exists dirty x pe lw, x <> Outside /\ clean dirty u (m_g m) /\ knows dirty u k x pe lw w /\ sp false x pe lw (t_p w) (fun x _ _ _ => settled x = x) (fun _ _ _ _ => False)
  | None => clean false u (m_g m)
  end.
Lemma starting_step L1 wait u k m x m' u' k' more L0 k0 u0 : just_worker x -> inv L1 rs wait m -> tracks lo rs L0 k0 u0 u k m -> starting L0 u k m -> exec1 m x = Some m' ->
  log (m_g m') = log (m_g m) ++ more -> course rs k u more k' u' -> starting L0 u' k' m'.
Proof.
  intros J Iv Tr (Ets & So) H Lg Co. destruct x as [j| |d|tk|j|j]; try contradiction.
  - destruct Tr as ((_ & _ & Vo) & _ & _ & _ & Wt). cbn [exec1] in H.
    destruct (m_wk m) as [w|] eqn:W; [|discriminate]. destruct w as [p h]. cbn [t_p t_h] in H.
    assert (Cs : (p = Ret tt /\ h = [] /\ m' = mkMachine (m_g m) (m_ts m) None) \/
      exists t' g', tstep (hs_of m) (mkThread p h) (m_g m) = Some (t', g') /\ m' = mkMachine g' (m_ts m) (Some t')).
    { destruct p as [[]| | | | | | | | | | | | | |]; try destruct h;
        try (rewrite tstep_hs in H; destruct (tstep (hs_of m) _ (m_g m)) as [[t' g']|]; [|discriminate]; injection H as <-; eauto; fail).
      injection H as <-. auto. }
    clear H. destruct So as (dirty & x & pe & lw & Nx & Cl & K & F). destruct Cs as [(-> & -> & ->)|(t' & g' & S & ->)].
    + cbn [m_g] in Lg. apply app_same in Lg. subst more. apply course_nil in Co as [-> ->]. split; auto. cbn [m_wk m_g]. cbn [sp t_p] in F.
      destruct x as [|d s v]; [congruence|]. cbn in F. injection F as F. destruct K as (_ & _ & _ & K & _). subst d. rewrite <- F in Cl. exact Cl.
    + destruct (sp_step false (hs_of m) (mkThread p h) t' dirty u u' k k' (m_g m) g' more _ pe lw (fun x _ _ _ => settled x = x) (fun _ _ _ _ => False) ltac:(reflexivity) Vo (Wt _ eq_refl) Cl K F) as (dirty' & x' & pe' & lw' & Cl' & K' & F' & Ef & Go); auto; [congruence|].
      split; auto. cbn [m_wk m_g]. exists dirty', x', pe', lw'. splits; auto. destruct Go as [| | |? ? ? ? []]; congruence.
  - injection H as <-. cbn [m_g g_conn] in Lg. apply app_same in Lg. subst more. apply course_nil in Co as [-> ->]. split; auto.
Qed.
Lemma starting_sound L0 u k m : m_wk m = None -> starting L0 u k m -> v0 = u_mode u -> sound u k m [].
Proof.
  intros W (Ets & C) E. rewrite W in C. exists false, None, []. unfold sound_at. cbn [begun reached]. splits; auto.
  - rewrite E. constructor.
  - discriminate.
  - intros i q t Nq Nt. rewrite Ets, nth_error_map, Nq in Nt. injection Nt as <-. exists None, None. cbn [at_seat]. splits.
    + split; [discriminate|]. split; [congruence|]. split; [discriminate|exact I].
    + apply sp_rpc.
    + intros _ _. reflexivity.
  - congruence.
Qed.
End Speed.
