(** The current mode and the one in the profile cache in every interleaving of the server, polls failing or not (C128). *)
From Verif Require Import ProofBase Proto SpecProto SpecFrame SpecConn SpecLayout SpecServer SpecUnit SpecTrack SpecSpeed SpecBelief ProtoProofs Scanner Conn Proc Lib QueryProofs
  FrameLemmas LayoutProofs OpLemmas Server ServerProofs ServerLemmas UnitProofs Machine SpecMachine MachineBase ThreadLogic MachineInv SpecFresh FreshLogic FreshInv OwnLogic OwnInv TrackLogic TrackInv TrackClaims
  SpeedLogic SpeedInv BeliefLogic.

Section Belief.
Context (lo : Z) (Lo : lo <= 15) (rs : list rpc).

(** The value [w] may be about to be stored: it is the mode, or was it before whoever holds LFan has changed it. *)
Definition storable (G : option phase) (u : vent) (w : Z) : Prop := w = u_mode u \/ exists b t, G = Some (P2 b w t).
(** What a goroutine in [x] knows. *)
Definition knows {A} (G : option phase) (u : vent) (k : talk) (x : seat) (pe : pending) (lw : asked) (t : thread A) : Prop :=
  (forall a, lw = Some a -> In (LPm, true) (t_h t) /\ k = Awaiting a) /\
  (pe <> None -> In (LC CProf, true) (t_h t)) /\
  (forall w, pe = Some (Some w) -> match x with Outside => storable G u w | Seated _ => w = u_mode u end) /\
  match x with Outside => True | Seated ph => G = Some ph end.
(** Of what the cache shows and the mode; [re b v]: it has come to that, [b] in the cache and [v] in the unit. *)
Definition covered (re : Z -> Z -> Prop) (G : option phase) (u : vent) (g : mem) : Prop :=
  0 <= mode (g_sh g) <= 4 /\
  match G with
  | None | Some P0 => re (mode (g_sh g)) (u_mode u)
  | Some (P1 b v) => re b v /\ v = u_mode u /\ (mode (g_sh g) = b \/ mode (g_sh g) = v)
  | Some (P2 b v t) => re b v /\ u_mode u = t /\ 0 <= v <= 4 /\ (mode (g_sh g) = b \/ mode (g_sh g) = v \/ mode (g_sh g) = t)
  | Some (P3 b v t) => re b v /\ u_mode u = t /\ (mode (g_sh g) = b \/ mode (g_sh g) = v \/ mode (g_sh g) = t)
  | Some (P4 b v t) => re b v /\ u_mode u = t /\ mode (g_sh g) = t
  end.

(** What others have to expect. *)
Definition effect {A} (hs : list held) (t : thread A) (x : seat) (G G' : option phase) (u u' : vent) (k k' : talk) : Prop :=
  (k' = k \/ In (LPm, true) (t_h t)) /\
  (rfree hs (LC CProf) = true \/ forall w, storable G u w -> storable G' u' w) /\
  (x = Outside -> u_mode u' = u_mode u /\ (G' = G \/ G = None)).
Inductive goes {A} (may : bool) (R : leaving A) (t t' : thread A) (G G' : option phase) : seat -> seat -> Prop :=
| go_out : (forall q, t_p t <> Lock LFan q) -> G' = G -> goes may R t t' G G' Outside Outside
| go_on ph ph' : (may = false -> ph = P0 -> ph' = P0) -> (In (LFan, true) (t_h t) -> In (LFan, true) (t_h t')) -> G = Some ph -> G' = Some ph' -> goes may R t t' G G' (Seated ph) (Seated ph')
| go_in q : t_p t = Lock LFan q -> In (LFan, true) (t_h t') -> G' = Some P0 -> goes may R t t' G G' Outside (Seated P0)
| go_away ph a : t_p t = Unlock LFan (Ret a) -> t_p t' = Ret a -> R ph a -> (forall b v t, ph <> P2 b v t) -> G = Some ph -> G' = None -> goes may R t t' G G' (Seated ph) Outside.

Lemma sp_step {A} takes may (re : Z -> Z -> Prop) hs (t t' : thread A) G u u' k k' g g' more x pe lw (Q : spost A) (R : leaving A) :
  (forall b v, re b v -> re v v) ->
  (forall a, Q Outside None None a) -> vent_ok lo u -> track rs u k g t -> covered re G u g -> knows G u k x pe lw t -> sp takes may x pe lw (t_p t) Q R ->
  (x = Outside -> free hs LFan = true -> G = None) ->
  tstep hs t g = Some (t', g') -> log g' = log g ++ more -> course rs k u more k' u' ->
  exists G' x' pe' lw', ((x <> Outside /\ x' = Outside /\ u' = u /\ g' = g) \/ covered re G' u' g') /\ knows G' u' k' x' pe' lw' t' /\ sp takes may x' pe' lw' (t_p t') Q R /\
    effect hs t x G G' u u' k k' /\ goes may R t t' G G' x x' /\ (x = Outside -> x' <> Outside -> takes = true).
Proof.
  intros Re Qo Vo Tr Cv (Kl & Kp & Kw & Kx) F Fr St Lg Co. destruct t as [p h]. unfold tstep in St. cbn [t_p t_h] in *.
  assert (Keep : forall t' : thread A, (forall q, p <> Lock LFan q) -> (In (LFan, true) h -> In (LFan, true) (t_h t')) -> goes may R (mkThread p h) t' G G x x).
  { intros t1 Nl L. destruct x as [|ph]; constructor; auto. }
  assert (Still : effect hs (mkThread p h) x G G u u k k) by (split; auto).
  assert (Xx : x = Outside -> x <> Outside -> takes = true) by congruence.
  destruct p as [a| |l q|l q|l q|l q|bs q|e q|q|f q|q|d q|c q|q|b q]; cbn [sp] in F; try discriminate.
  - (* Lock *)
    destruct (free hs l) eqn:Fl; [|discriminate]. injection St as <- <-. apply app_same in Lg. subst more. apply course_nil in Co as [-> ->].
    assert (Gen : l <> LFan -> forall pe', (pe' <> None -> In (LC CProf, true) ((l, true) :: h)) -> (forall w, pe' = Some (Some w) -> match x with Outside => storable G u w | Seated _ => w = u_mode u end) ->
       sp takes may x pe' lw q Q R -> exists G' x' pe' lw', ((x <> Outside /\ x' = Outside /\ u = u /\ g = g) \/ covered re G' u g) /\ knows G' u k x' pe' lw' (mkThread q ((l, true) :: h)) /\ sp takes may x' pe' lw' q Q R /\
       effect hs (mkThread (Lock l q) h) x G G' u u k k /\ goes may R (mkThread (Lock l q) h) (mkThread q ((l, true) :: h)) G G' x x' /\ (x = Outside -> x' <> Outside -> takes = true)).
    { intros Nf pe' X1 X2 X3. exists G, x, pe', lw. splits; auto; [|apply Keep; [congruence|]; cbn [t_h]; intros; right; auto].
      split; [intros a E; destruct (Kl a E); split; auto; right; auto|]. auto. }
    assert (Kp' : pe <> None -> In (LC CProf, true) ((l, true) :: h)) by (intros N; right; auto).
    destruct l as [| | | |c]; try (apply (Gen ltac:(discriminate) pe); auto; fail).
    + destruct F as (-> & -> & -> & Ex & F). specialize (Fr eq_refl Fl). subst G.
      exists (Some P0), (Seated P0), None, None. splits; auto.
      * split; [discriminate|]. split; [congruence|]. split; [discriminate|]. reflexivity.
      * split; [auto|]. split; [|auto]. right. intros w [-> |(? & ? & X)]; [left; reflexivity|discriminate].
      * econstructor; [reflexivity| |reflexivity]. left. reflexivity.
    + destruct c; try (apply (Gen ltac:(discriminate) pe); auto; fail). destruct F as (-> & F). apply (Gen ltac:(discriminate) (Some None)); auto; [intros _; left; reflexivity|discriminate].
  - (* Unlock *)
    destruct (release h l true) as [h'|] eqn:Rl; injection St as <- <-; apply app_same in Lg; subst more; apply course_nil in Co as [-> ->].
    2: { exists G, x, pe, lw. splits; auto; [split; auto|exact I|apply Keep; [discriminate|auto]]. }
    assert (Kr : forall l', l' <> l -> In (l', true) h -> In (l', true) h') by (intros l' N I; eapply release_keeps; eauto; congruence).
    destruct l as [| | | |c].
    + destruct F as (-> & F). exists G, x, pe, None. splits; auto; [|apply Keep; [discriminate|]; cbn [t_h]; intros I; apply Kr; auto; discriminate].
      split; [discriminate|]. split; [intros N; apply Kr; auto; discriminate|]. auto.
    + exists G, x, pe, lw. splits; auto; [|apply Keep; [discriminate|]; cbn [t_h]; intros I; apply Kr; auto; discriminate].
      split; [intros a E; destruct (Kl a E); split; auto; apply Kr; auto; discriminate|]. split; [intros N; apply Kr; auto; discriminate|]. auto.
    + destruct F as (ph & a & -> & -> & -> & -> & F & Np). subst G.
      exists None, Outside, None, None. splits; auto.
      * left. splits; auto. discriminate.
      * split; [discriminate|]. split; [congruence|]. split; [discriminate|]. exact I.
      * apply Qo.
      * split; [auto|]. split; [|discriminate]. right. intros w [-> |(b & t & X)]; [left; reflexivity|]. injection X as ->. destruct (Np b w t eq_refl).
      * eapply go_away with (a := a); eauto; reflexivity.
    + exists G, x, pe, lw. splits; auto; [|apply Keep; [discriminate|]; cbn [t_h]; intros I; apply Kr; auto; discriminate].
      split; [intros a E; destruct (Kl a E); split; auto; apply Kr; auto; discriminate|]. split; [intros N; apply Kr; auto; discriminate|]. auto.
    + destruct c; [| | | |exists G, x, None, lw; splits; auto;
         [split; [intros a E; destruct (Kl a E); split; auto; apply Kr; auto; discriminate|]; split; [congruence|]; split; [discriminate|auto]
         |apply Keep; [discriminate|]; cbn [t_h]; intros I; apply Kr; auto; discriminate]|];
      (exists G, x, pe, lw; splits; auto; [|apply Keep; [discriminate|]; cbn [t_h]; intros I; apply Kr; auto; discriminate];
       split; [intros a E; destruct (Kl a E); split; auto; apply Kr; auto; discriminate|]; split; [intros N; apply Kr; auto; discriminate|]; auto).
  - (* RLock *)
    destruct (rfree hs l) eqn:Fl; [|discriminate]. injection St as <- <-. apply app_same in Lg. subst more. apply course_nil in Co as [-> ->].
    assert (Same : sp takes may x pe lw q Q R -> exists G' x' pe' lw', ((x <> Outside /\ x' = Outside /\ u = u /\ g = g) \/ covered re G' u g) /\ knows G' u k x' pe' lw' (mkThread q ((l, false) :: h)) /\ sp takes may x' pe' lw' q Q R /\
       effect hs (mkThread (RLock l q) h) x G G' u u k k /\ goes may R (mkThread (RLock l q) h) (mkThread q ((l, false) :: h)) G G' x x' /\ (x = Outside -> x' <> Outside -> takes = true)).
    { intros F'. exists G, x, pe, lw. splits; auto; [|apply Keep; [discriminate|]; cbn [t_h]; intros; right; auto].
      split; [intros a E; destruct (Kl a E); split; auto; right; auto|]. split; [intros N; right; auto|]. auto. }
    destruct l as [| | | |c]; auto. destruct c; auto. destruct x as [|[|b v|b v t|b v t|b v t]]; auto. cbn [passed] in F. subst G.
    exists (Some (P3 b v t)), (Seated (P3 b v t)), pe, lw. splits; auto.
    + right. destruct Cv as (B & C1 & C2 & _ & C3). split; auto.
    + split; [intros a E; destruct (Kl a E); split; auto; right; auto|]. split; [intros N; right; auto|]. auto.
    + split; [auto|]. split; [left; exact Fl|discriminate].
    + constructor; auto; [discriminate|]. intros; right; auto.
    + discriminate.
  - (* RUnlock *)
    destruct (release h l false) as [h'|] eqn:Rl; injection St as <- <-; apply app_same in Lg; subst more; apply course_nil in Co as [-> ->].
    2: { exists G, x, pe, lw. splits; auto; [split; auto|exact I|apply Keep; [discriminate|auto]]. }
    assert (Kr : forall l', In (l', true) h -> In (l', true) h') by (intros l' I; eapply release_keeps; eauto; congruence).
    exists G, x, pe, lw. splits; auto; [|apply Keep; [discriminate|auto]].
    split; [intros a E; destruct (Kl a E); split; auto|]. split; auto.
  - (* WriteC *)
    pose proof (write_holds rs _ _ _ _ _ _ Tr) as Hpm.
    destruct (conn_write (g_conn g) bs) as [r cn] eqn:W. injection St as <- <-. cbn [g_conn] in Lg. rewrite (write_log _ _ _ _ W) in Lg.
    apply app_one in Lg. subst more. apply course_single in Co.
    destruct F as [(gr & G1 & -> & F)|[(v & b & v0 & Ma & -> & -> & -> & F)|[(cmd & data & N & D & -> & F)|[-> F]]]].
    + pose proof (turn_result rs _ _ _ _ _ _ _ Co). subst r. apply turn_write in Co as (-> & We & [(_ & _ & -> & ->)|(_ & A1)]).
      2: { destruct A1 as [(? & _ & X & _)|[(? & ? & ? & _ & X & _)|(? & ? & ? & ? & ? & ? & ? & ? & ? & ? & _ & X & _)]]; discriminate. }
      exists G, x, pe, (Some (Some gr)). splits; auto; [|split; auto|apply Keep; [discriminate|auto]].
      split; [intros a E; injection E as <-; auto|]. auto.
    + pose proof (turn_result rs _ _ _ _ _ _ _ Co). subst r. apply turn_write in Co as (-> & We & [(_ & X & _)|(-> & A1)]); [discriminate|].
      assert (Um : u_mode u' = v).
      { destruct A1 as [(? & X & _)|[(? & ? & v1 & _ & X & -> & _)|(? & ? & ? & ? & ? & ? & ? & ? & ? & ? & X & _)]]; try discriminate. injection X as <-. reflexivity. }
      subst G. destruct Cv as (B & C1 & C2 & C3). exists (Some (P2 b v0 v)), (Seated (P2 b v0 v)), None, (Some None). splits; auto.
      * right. split; [exact B|]. splits; auto; [rewrite C2; apply Vo|rewrite C2; apply Vo|tauto].
      * split; [intros a E; injection E as <-; auto|]. split; [congruence|]. split; [discriminate|reflexivity].
      * split; [auto|]. split; [|discriminate]. right. intros w [-> |(? & ? & X)]; [|discriminate]. right. rewrite <- C2. eauto.
      * constructor; auto; congruence.
      * discriminate.
    + pose proof (turn_result rs _ _ _ _ _ _ _ Co). subst r. apply turn_write in Co as (-> & We & [(_ & X & _)|(-> & A1)]); [contradiction|].
      assert (Um : u_mode u' = u_mode u).
      { destruct A1 as [(? & _ & _ & -> & _)|[(? & ? & v1 & X & _)|(? & ? & ? & ? & ? & ? & ? & ? & ? & ? & _ & _ & -> & _)]]; try reflexivity. contradiction. }
      exists G, x, pe, (Some None). splits; auto.
      * right. unfold covered in *. rewrite Um. exact Cv.
      * split; [intros a E; injection E as <-; auto|]. unfold storable in *. rewrite Um. auto.
      * split; auto. split; auto. right. unfold storable. rewrite Um. auto.
      * apply Keep; [discriminate|auto].
    + apply turn_acks in Co as (-> & -> & ->). exists G, x, pe, None. splits; auto; [|split; auto|apply Keep; [discriminate|auto]]. split; [discriminate|]. auto.
  - (* ReadC *)
    pose proof (read_holds rs _ _ _ _ _ _ Tr) as Hpm.
    destruct lw as [a|]; [|contradiction]. destruct (Kl a eq_refl) as [_ ->].
    destruct (ReadPacket (g_conn g) e) as [[[p e0]|] cn] eqn:W.
    2: { exfalso. eapply read_goes; eauto. }
    injection St as <- <-. pose proof (read_log _ _ _ _ _ W) as [Lr _]. cbn [g_conn] in Lg. rewrite Lr in Lg. apply app_one in Lg. subst more.
    apply course_single in Co. apply turn_reads in Co as (-> & -> & -> & [(gr & Eg & -> & Ep & D5)|(Eg & -> & ->)]); injection Eg as ->.
    + destruct F as [_ F]. specialize (F (p_data p)). rewrite <- Ep in F.
      assert (D : gr = 205 -> length (p_data p) = 14%nat /\ bytes_ok (p_data p) /\ byte_at (p_data p) 8 = u_mode u).
      { intros E. destruct (D5 E) as (B1 & B2 & _ & _ & B5). auto. }
      eexists G, x, _, None. split; [right; exact Cv|]. split; [|split; [apply F; intros E; destruct (D E) as (B1 & B2 & _); auto|]].
      * split; [discriminate|]. split; [|split; [|exact Kx]].
        -- destruct pe as [pe|]; [|congruence]. intros _. apply Kp. discriminate.
        -- intros w. destruct pe as [pe|]; [|discriminate]. destruct (Z.eqb_spec gr 205) as [-> |N]; [|apply Kw].
           intros E. injection E as <-. destruct (D eq_refl) as (_ & _ & ->). destruct x; [left|]; reflexivity.
      * split; [split; auto|]. split; auto. apply Keep; auto. discriminate.
    + destruct F as [_ F]. exists G, x, pe, None. splits; auto; [|split; auto|apply Keep; [discriminate|auto]]. split; [discriminate|]. auto.
  - (* Get *)
    injection St as <- <-. apply app_same in Lg. subst more. apply course_nil in Co as [-> ->].
    destruct F as [F|(-> & Ma & F)].
    + exists G, x, pe, lw. splits; auto; [split; auto|cbn [t_p]; apply F|apply Keep; [discriminate|auto]].
    + subst G. destruct Cv as (B & C). exists (Some (P1 (mode (g_sh g)) (u_mode u))), (Seated (P1 (mode (g_sh g)) (u_mode u))), pe, lw. splits; auto.
      * right. split; auto.
      * split; auto.
      * apply F. exact B.
      * split; auto. split; [|discriminate]. right. intros w [-> |(? & ? & X)]; [left; reflexivity|discriminate].
      * constructor; auto; congruence.
      * discriminate.
  - (* Put *)
    injection St as <- <-. cbn [g_conn] in Lg. apply app_same in Lg. subst more. apply course_nil in Co as [-> ->].
    destruct F as [[Em F]|(w & -> & Em & F)].
    + exists G, x, pe, lw. splits; auto; [|split; auto|apply Keep; [discriminate|auto]]. right. unfold covered. cbn [g_sh]. rewrite Em. exact Cv.
    + assert (Kp1 : In (LC CProf, true) h) by (apply Kp; discriminate). specialize (Kw w eq_refl).
      assert (Bu : 0 <= u_mode u <= 4) by apply Vo. destruct Cv as (B & C).
      assert (Stay : settled x = x -> match G with Some (P3 _ _ _) => x = Outside | _ => True end -> exists G' x' pe' lw', ((x <> Outside /\ x' = Outside /\ u = u /\ mkMem (g_conn g) (f (g_sh g)) (g_clk g) = g) \/ covered re G' u (mkMem (g_conn g) (f (g_sh g)) (g_clk g))) /\
         knows G' u k x' pe' lw' (mkThread q h) /\ sp takes may x' pe' lw' q Q R /\ effect hs (mkThread (Put f q) h) x G G' u u k k /\ goes may R (mkThread (Put f q) h) (mkThread q h) G G' x x' /\ (x = Outside -> x' <> Outside -> takes = true)).
      { intros Es Ns. rewrite Es in F. exists G, x, (Some None), lw. splits; auto.
        - right. assert (Z : w = u_mode u \/ exists b t, G = Some (P2 b w t)) by (destruct x; [exact Kw|left; exact Kw]).
          unfold covered. cbn [g_sh]. rewrite !Em. split.
          + destruct Z as [-> |(b & t & ->)]; [exact Bu|]. apply C.
          + destruct Z as [-> |(b & t & ->)].
            * destruct G as [[|b v|b v t|b v t|b v t]|]; eauto; destruct C as (C1 & C2 & C3); splits; auto; tauto.
            * destruct C as (C1 & C2 & C3 & _). splits; auto; apply C3.
        - split; auto. split; [intros _; apply Kp1|]. split; [discriminate|exact Kx].
        - apply Keep; [discriminate|auto]. }
      destruct x as [|ph]; [apply Stay; destruct G as [[]|]; auto|]. destruct ph as [|b v|b v t|b v t|b v t]; try (apply Stay; [reflexivity|subst G; exact I]).
      cbn [settled] in F. subst G w. destruct C as (C1 & C2 & C3). exists (Some (P4 b v t)), (Seated (P4 b v t)), (Some None), lw. splits; auto.
      * right. unfold covered. cbn [g_sh]. rewrite !Em. splits; auto; lia.
      * split; auto. split; [intros _; apply Kp1|]. split; [discriminate|reflexivity].
      * split; auto. split; [|discriminate]. right. intros w [-> |(? & ? & X)]; [left; reflexivity|discriminate].
      * constructor; auto; congruence.
      * discriminate.
  - injection St as <- <-. apply app_same in Lg. subst more. apply course_nil in Co as [-> ->]. exists G, x, pe, lw. splits; auto; try (split; auto; fail); try apply F; apply Keep; [discriminate|auto].
  - injection St as <- <-. apply app_same in Lg. subst more. apply course_nil in Co as [-> ->]. exists G, x, pe, lw. splits; auto; try (split; auto; fail); try apply F; apply Keep; [discriminate|auto].
Qed.

Lemma knows_other {A B} hs (t : thread A) (v : thread B) x y pe lw G G' u u' k k' :
  effect hs t x G G' u u' k k' -> (forall l b, In (l, true) (t_h t) -> ~ In (l, b) (t_h v)) -> In (t_h v) hs -> (x <> Outside -> y = Outside) ->
  knows G u k y pe lw v -> knows G' u' k' y pe lw v.
Proof.
  intros (Ek & Es & Eo) D Ih Xy (Kl & Kp & Kw & Kx).
  assert (Yx : forall ph, y = Seated ph -> u_mode u' = u_mode u /\ G' = G).
  { intros ph E. assert (X : x = Outside) by (destruct x; auto; rewrite Xy in E by discriminate; discriminate). destruct (Eo X) as [E1 [E2|E2]]; [auto|]. rewrite E in Kx. congruence. }
  split; [|split; [exact Kp|split]].
  - intros a E. destruct (Kl a E) as [I ->]. split; auto. destruct Ek as [-> |I']; auto. destruct (D _ true I' I).
  - intros w E. specialize (Kw w E). destruct y as [|ph].
    + destruct Es as [Rf|Es]; [|apply Es; exact Kw]. exfalso. rewrite rfree_in in Rf. apply (Rf _ Ih). apply Kp. congruence.
    + destruct (Yx ph eq_refl) as [-> _]. exact Kw.
  - destruct y as [|ph]; auto. destruct (Yx ph eq_refl) as [_ ->]. exact Kx.
Qed.

(** ** the whole server *)
Context (v0 : Z).
Definition stage (hd : option (nat * phase)) : option phase := option_map snd hd.
Definition at_seat (hd : option (nat * phase)) (i : nat) : seat :=
  match hd with Some (j, ph) => if Nat.eqb i j then Seated ph else Outside | None => Outside end.
Definition begun (hd : option (nat * phase)) : list nat := match hd with Some (i, _) => if is_speed rs i then [i] else [] | None => [] end.
Definition one_ok (hd : option (nat * phase)) (u : vent) (k : talk) (js : list nat) (i : nat) (q : rpc) (t : thread resp) : Prop :=
  exists pe lw, knows (stage hd) u k (at_seat hd i) pe lw t /\ sp true (moves q) (at_seat hd i) pe lw (t_p t) outside (leaves q) /\
    (is_speed rs i = true -> at_seat hd i = Outside -> if listed i js then exists a, t_p t = Ret a else t = mkThread (handle q) []).
Definition wk_ok (hd : option (nat * phase)) (u : vent) (k : talk) (w : thread unit) : Prop :=
  exists pe lw, knows (stage hd) u k Outside pe lw w /\ sp false false Outside pe lw (t_p w) outside (fun _ _ => False).
Definition sound_at (hd : option (nat * phase)) (dn : list nat) (u : vent) (k : talk) (m : machine resp) (js : list nat) : Prop :=
  covered (taken_all rs m v0 dn) (stage hd) u (m_g m) /\ js = dn ++ begun hd /\
  (forall i ph, hd = Some (i, ph) -> (exists t, nth_error (m_ts m) i = Some t /\ In (LFan, true) (t_h t)) /\ (is_speed rs i = false -> ph = P0)) /\
  (forall i q t, nth_error rs i = Some q -> nth_error (m_ts m) i = Some t -> one_ok hd u k js i q t) /\
  (forall w, m_wk m = Some w -> wk_ok hd u k w).
Definition sound (u : vent) (k : talk) (m : machine resp) (js : list nat) : Prop := exists hd dn, sound_at hd dn u k m js.

Lemma taken_mono (m m' : machine resp) dn b v : (forall i a, answered m i a -> answered m' i a) -> taken_all rs m v0 dn b v -> taken_all rs m' v0 dn b v.
Proof. intros H T. induction T; [constructor|eapply tl_refreshed; eauto|eapply tl_next; eauto]. Qed.
Lemma covered_mono (re re' : Z -> Z -> Prop) G u g : (forall b v, re b v -> re' b v) -> covered re G u g -> covered re' G u g.
Proof. intros H (B & C). split; auto. destruct G as [[|b v|b v t|b v t|b v t]|]; auto; destruct C; auto. Qed.
Lemma refreshing m dn b v : taken_all rs m v0 dn b v -> taken_all rs m v0 dn v v.
Proof. apply tl_refreshed. Qed.
Lemma moves_speed i q : nth_error rs i = Some q -> is_speed rs i = moves q.
Proof. intros N. unfold is_speed. rewrite N. destruct q; reflexivity. Qed.
Lemma tick_ok hd u k tk : wk_ok hd u k (mkThread (on_tick tk) []).
Proof.
  exists None, None. split.
  - split; [discriminate|]. split; [congruence|]. split; [discriminate|exact I].
  - eapply calm_outside. apply calm_tick. reflexivity.
Qed.
Lemma flush_ok hd u k c : wk_ok hd u k (mkThread (FlushCaches c) []).
Proof.
  exists None, None. split.
  - split; [discriminate|]. split; [congruence|]. split; [discriminate|exact I].
  - eapply calm_outside. apply calm_flush. reflexivity.
Qed.
Lemma one_other {A} hs (t : thread A) x hd hd' u u' k k' js js' i q v :
  effect hs t x (stage hd) (stage hd') u u' k k' -> (forall l b, In (l, true) (t_h t) -> ~ In (l, b) (t_h v)) -> In (t_h v) hs -> (x <> Outside -> at_seat hd i = Outside) ->
  at_seat hd' i = at_seat hd i -> listed i js' = listed i js -> one_ok hd u k js i q v -> one_ok hd' u' k' js' i q v.
Proof. intros E D Ih Xy Sa Ls (pe & lw & K & F & S). exists pe, lw. rewrite Sa, Ls. splits; auto. eapply knows_other; eauto. Qed.
Lemma wk_other {A} hs (t : thread A) x hd hd' u u' k k' w :
  effect hs t x (stage hd) (stage hd') u u' k k' -> (forall l b, In (l, true) (t_h t) -> ~ In (l, b) (t_h w)) -> In (t_h w) hs -> wk_ok hd u k w -> wk_ok hd' u' k' w.
Proof. intros E D Ih (pe & lw & K & F). exists pe, lw. split; auto. eapply knows_other; eauto. Qed.
Lemma seat_other hd i j ph : hd = Some (j, ph) -> i <> j -> at_seat hd i = Outside.
Proof. intros -> N. cbn. destruct (Nat.eqb_spec i j); congruence. Qed.
Lemma seat_own j ph : at_seat (Some (j, ph)) j = Seated ph.
Proof. cbn. rewrite Nat.eqb_refl. reflexivity. Qed.
Lemma seat_in hd j : at_seat hd j <> Outside -> exists ph, hd = Some (j, ph).
Proof. destruct hd as [[i s]|]; cbn; [|congruence]. destruct (Nat.eqb_spec j i) as [-> |N]; [eauto|congruence]. Qed.
Lemma seat_of hd j ph : Seated ph = at_seat hd j -> hd = Some (j, ph).
Proof. intros E. destruct (seat_in hd j) as (ph' & H); [rewrite <- E; discriminate|]. rewrite H, seat_own in E. congruence. Qed.
Lemma outside_ok {A} (a : A) : @outside A Outside None None a.
Proof. reflexivity. Qed.

Lemma sound_run L1 wait u k m js j m' u' k' more L0 k0 u0 : inv L1 rs wait m -> tracks lo rs L0 k0 u0 u k m -> sound u k m js -> exec1 m (Run j) = Some m' ->
  log (m_g m') = log (m_g m) ++ more -> course rs k u more k' u' -> sound u' k' m' (begin_one rs js (Run j)).
Proof.
  intros Iv ((_ & _ & Vo) & _ & _ & Th & _) (hd & dn & Cv & Ej & Hh & Ho & Hw) H Lg Co. pose proof H as H0. destruct Iv as (Ln & X & _ & _ & _). cbn [exec1] in H.
  destruct (nth_error (m_ts m) j) as [t|] eqn:Nj; [|discriminate]. rewrite tstep_hs in H.
  destruct (tstep (hs_of m) t (m_g m)) as [[t' g']|] eqn:S; [|discriminate]. injection H as <-.
  destruct (nth_error rs j) as [q|] eqn:Nq.
  2: { apply nth_error_None in Nq. assert (nth_error (m_ts m) j <> None) as Y by congruence. apply nth_error_Some in Y. lia. }
  set (m' := mkMachine g' (set_nth j t' (m_ts m)) (m_wk m)) in *.
  assert (Mono : forall b v, taken_all rs m v0 dn b v -> taken_all rs m' v0 dn b v) by (intros; eapply taken_mono; [|eauto]; intros; eapply answered_run; eauto).
  apply (covered_mono _ _ _ _ _ Mono) in Cv.
  assert (Ids : forall t (i : nat), nth_error (m_ts m) i = Some t -> nth_error (hs_of m) (Datatypes.S i) = Some (t_h t)).
  { intros t0 i N. cbn. rewrite nth_error_map, N. reflexivity. }
  assert (Idw : forall w, m_wk m = Some w -> nth_error (hs_of m) 0 = Some (t_h w)) by (intros w Ew; cbn; unfold wk_h; rewrite Ew; reflexivity).
  assert (Dj : forall i v, i <> j -> nth_error (m_ts m) i = Some v -> forall l b, In (l, true) (t_h t) -> ~ In (l, b) (t_h v)).
  { intros i v Ni Nv l b I. eapply (X (Datatypes.S j) (Datatypes.S i)); eauto. }
  assert (Dw : forall w, m_wk m = Some w -> forall l b, In (l, true) (t_h t) -> ~ In (l, b) (t_h w)).
  { intros w Ew l b I. eapply (X (Datatypes.S j) 0%nat); eauto. }
  assert (Fn : free (hs_of m) LFan = true -> hd = None).
  { intros Fr. destruct hd as [[i s]|]; auto. destruct (Hh i s eq_refl) as ((t0 & N0 & I0) & _). rewrite free_in in Fr.
    destruct (Fr (t_h t0) true); auto. eapply nth_error_In. eapply Ids. exact N0. }
  destruct (Ho j q t Nq Nj) as (pe & lw & K & F & Sj).
  destruct (sp_step true (moves q) (taken_all rs m' v0 dn) (hs_of m) t t' (stage hd) u u' k k' (m_g m) g' more _ pe lw outside (leaves q) (refreshing m' dn) outside_ok Vo (Th t (nth_error_In _ _ Nj)) Cv K F)
    as (G' & x' & pe' & lw' & Cv' & K' & F' & Ef & Go & _); auto; [intros _ Fr; rewrite (Fn Fr); reflexivity|].
  assert (Alive : forall a, t_p t <> Ret a) by (intros a E; unfold tstep in S; rewrite E in S; discriminate).
  assert (Sm : is_speed rs j = moves q) by (apply moves_speed; auto).
  assert (Excl : at_seat hd j <> Outside -> forall i, i <> j -> at_seat hd i = Outside).
  { intros N i Ni. apply seat_in in N as (s & ->). eapply seat_other; eauto. }
  set (js' := begin_one rs js (Run j)).
  (* a machine with the given holder *)
  assert (Build : forall hd' dn', stage hd' = G' -> covered (taken_all rs m' v0 dn') G' u' g' -> js' = dn' ++ begun hd' ->
     (forall i s, hd' = Some (i, s) -> (i = j /\ In (LFan, true) (t_h t') \/ i <> j /\ hd = Some (i, s)) /\ (is_speed rs i = false -> s = P0)) ->
     at_seat hd' j = x' -> (forall i, i <> j -> at_seat hd' i = at_seat hd i) -> (forall i, i <> j -> listed i js' = listed i js) ->
     (is_speed rs j = true -> x' = Outside -> listed j js' = true /\ exists a, t_p t' = Ret a) ->
     sound u' k' m' js').
  { intros hd' dn' B0 B1 B2 B4 B5 B6 B7 B8. exists hd', dn'. unfold sound_at, m'. cbn [m_g m_ts m_wk]. subst G'. splits; auto.
    - intros i s E. destruct (B4 i s E) as [[(-> & I)|(Ni & E')] Z]; (split; [|exact Z]).
      + exists t'. split; auto. eapply nth_set_same. exact Nj.
      + destruct (Hh i s E') as ((t0 & N0 & I0) & _). exists t0. split; auto. rewrite nth_set_other; auto.
    - intros i q0 v Ni Nv. apply nth_set_cases in Nv as [(<- & -> & _)|[Di Nv]].
      + rewrite Nq in Ni. injection Ni as <-. exists pe', lw'. rewrite B5. splits; auto. intros Sb Xo. destruct (B8 Sb Xo) as [-> Y]. exact Y.
      + eapply one_other; [exact Ef| | | | | |apply Ho; eauto]; eauto. eapply nth_error_In. eapply Ids. exact Nv.
    - intros w Ew. eapply wk_other; [exact Ef| | |apply Hw; auto]; [apply Dw; auto|]. eapply nth_error_In. apply Idw. exact Ew. }
  assert (Ljs : forall i, i <> j -> listed i js' = listed i js).
  { intros i Ni. unfold js', begin_one. destruct (_ && _); auto. unfold listed. rewrite existsb_app. cbn. destruct (Nat.eqb_spec i j); [congruence|]. rewrite !orb_false_r. reflexivity. }
  remember (at_seat hd j) as x eqn:Ex.
  destruct Go as [Nl Eg|ph ph' Ph Fi Eg Eg'|q0 Tq Fi Eg'|ph a Tp Tp' Rl Np Eg Eg'].
  - (* outside *)
    assert (Sf : is_speed rs j = false).
    { destruct (is_speed rs j) eqn:Sb; auto. exfalso. specialize (Sj eq_refl eq_refl). destruct (listed j js).
      - destruct Sj as (a & Sj). eapply Alive; eauto.
      - subst t. unfold is_speed in Sb. rewrite Nq in Sb. destruct q; try discriminate. cbn in Nl. unfold SetFanSpeed, with_lock in Nl. eapply Nl. reflexivity. }
    assert (Ejs : js' = js) by (unfold js', begin_one; rewrite Sf; reflexivity).
    destruct Cv' as [(N & _)|Cv']; [congruence|].
    apply (Build hd dn); auto.
    + rewrite Ejs. exact Ej.
    + intros i s E. split; [|apply (Hh i s E)]. right. split; auto. intros ->. rewrite E, seat_own in Ex. discriminate.
    + congruence.
  - (* goes on *)
    pose proof (seat_of _ _ _ Ex) as Hs. destruct Cv' as [(_ & N & _)|Cv']; [congruence|].
    assert (Ejs : js' = js).
    { unfold js', begin_one. destruct (is_speed rs j) eqn:Sb; auto. cbn [andb]. assert (L : listed j js = true); [|rewrite L; reflexivity].
      apply listed_in. rewrite Ej, Hs. cbn [begun]. rewrite Sb. apply in_or_app. right. left. reflexivity. }
    apply (Build (Some (j, ph')) dn); auto.
    + rewrite Ejs, Ej, Hs. reflexivity.
    + intros i s E. injection E as <- <-. destruct (Hh j ph Hs) as ((t0 & N0 & I0) & Z). rewrite Nj in N0. injection N0 as <-. split; [auto|]. intros Sf. apply Ph; auto. congruence.
    + apply seat_own.
    + intros i Ni. rewrite (seat_other _ _ _ _ eq_refl Ni), (seat_other _ _ _ _ Hs Ni). reflexivity.
    + discriminate.
  - (* takes LFan *)
    assert (Hs : hd = None). { apply Fn. unfold tstep in S. rewrite Tq in S. destruct (free _ LFan); [reflexivity|discriminate]. }
    destruct Cv' as [(N & _)|Cv']; [congruence|].
    assert (Lj : is_speed rs j = true -> listed j js = false).
    { intros Sb. specialize (Sj Sb eq_refl). destruct (listed j js); auto. destruct Sj as (a & Sj). destruct (Alive a Sj). }
    apply (Build (Some (j, P0)) dn); auto.
    + unfold js', begin_one, begun. rewrite Ej, Hs. cbn [begun]. rewrite app_nil_r. destruct (is_speed rs j) eqn:Sb; [|rewrite app_nil_r; reflexivity].
      cbn [andb]. specialize (Lj eq_refl). rewrite Ej, Hs in Lj. cbn [begun] in Lj. rewrite app_nil_r in Lj. rewrite Lj. reflexivity.
    + intros i s E. injection E as <- <-. auto.
    + apply seat_own.
    + intros i Ni. rewrite (seat_other _ _ _ _ eq_refl Ni). rewrite Hs. reflexivity.
    + discriminate.
  - (* leaves *)
    pose proof (seat_of _ _ _ Ex) as Hs. clear Cv'.
    assert (Gg : g' = m_g m) by (unfold tstep in S; rewrite Tp in S; destruct (release _ _ _); injection S as _ <-; reflexivity).
    assert (Uu : u' = u) by (unfold m' in Lg; cbn [m_g] in Lg; rewrite Gg in Lg; apply app_same in Lg; rewrite Lg in Co; apply course_nil in Co; apply Co).
    assert (An : answered m' j a) by (exists t'; split; auto; cbn [m_ts m']; eapply nth_set_same; exact Nj).
    assert (Ins : is_speed rs j = true -> In j js).
    { intros Sb. rewrite Ej, Hs. cbn [begun]. rewrite Sb. apply in_or_app. right. left. reflexivity. }
    assert (Ejs : js' = js).
    { unfold js', begin_one. destruct (is_speed rs j) eqn:Sb; auto. cbn [andb]. assert (L : listed j js = true); [|rewrite L; reflexivity]. apply listed_in. auto. }
    rewrite Hs in Cv. cbn [stage option_map snd] in Cv. destruct Cv as (B & C).
    assert (Fin : forall dn', js = dn' -> taken_all rs m' v0 dn' (mode (g_sh (m_g m))) (u_mode u) -> sound u' k' m' js').
    { intros dn' En Tn. apply (Build None dn'); auto.
      - rewrite Eg', Gg, Uu. split; [exact B|exact Tn].
      - cbn [begun]. rewrite app_nil_r. congruence.
      - discriminate.
      - intros i Ni. rewrite (seat_other _ _ _ _ Hs Ni). reflexivity.
      - intros Sb _. split; [|eauto]. rewrite Ejs. apply listed_in. auto. }
    destruct (is_speed rs j) eqn:Sb.
    + assert (Eq : exists aa bb, q = SetFanSpeedR aa bb) by (destruct q; try discriminate; eauto). destruct Eq as (aa & bb & ->). cbn [leaves] in Rl.
      apply (Fin (dn ++ [j])); [rewrite Ej, Hs; cbn [begun]; rewrite Sb; reflexivity|].
      assert (Next : forall b v b' v', taken_all rs m' v0 dn b v -> taken b v (SetFanSpeedR aa bb) a b' v' -> taken_all rs m' v0 (dn ++ [j]) b' v') by (intros; eapply tl_next; eauto).
      destruct ph as [|b v|b v w|b v w|b v w]; try contradiction.
      * destruct C as (C1 & C2 & C3). assert (T : taken_all rs m' v0 (dn ++ [j]) b v).
        { apply (Next _ _ _ _ C1). destruct Rl as [(-> & W)|((y & ->) & W)]; [apply ta_same|apply ta_refused]; exact W. }
        rewrite <- C2. destruct C3 as [-> | ->]; [exact T|eapply tl_refreshed; exact T].
      * destruct C as (C1 & C2 & C3). destruct Rl as (-> & W & N).
        assert (T : forall b', b' = b \/ b' = v -> taken_all rs m' v0 (dn ++ [j]) b' w) by (intros b' E; apply (Next _ _ _ _ C1), ta_failed; auto).
        rewrite C2. destruct C3 as [-> |[-> | ->]]; auto. eapply tl_refreshed. apply (T b). auto.
      * destruct C as (C1 & C2 & C3). destruct Rl as (-> & W & N). rewrite C2, C3. apply (Next _ _ _ _ C1), ta_changed; auto.
    + assert (Ep : ph = P0) by (destruct q; try discriminate; exact Rl). subst ph. apply (Fin dn); auto.
      rewrite Ej, Hs. cbn [begun]. rewrite Sb. apply app_nil_r.
Qed.

Lemma sound_same u k m js m' : sound u k m js -> (forall i a, answered m i a -> answered m' i a) -> g_sh (m_g m') = g_sh (m_g m) ->
  (forall i t', nth_error (m_ts m') i = Some t' -> exists t, nth_error (m_ts m) i = Some t /\ t_h t' = t_h t /\
     (t' = t \/ (exists c q, t_p t = SendFlush c q /\ t_p t' = q) \/ (exists b q, t_p t = RecvSucc q /\ t_p t' = q b))) ->
  (forall i t, nth_error (m_ts m) i = Some t -> exists t', nth_error (m_ts m') i = Some t' /\ t_h t' = t_h t) ->
  (forall w, m_wk m' = Some w -> (forall hd, (forall w, m_wk m = Some w -> wk_ok hd u k w) -> wk_ok hd u k w)) -> sound u k m' js.
Proof.
  intros (hd & dn & Cv & Ej & Hh & Ho & Hw) An Sh Ts Ts' Wk. exists hd, dn. unfold sound_at. splits; auto.
  - apply (covered_mono (taken_all rs m v0 dn)); [intros; eapply taken_mono; eauto|]. unfold covered in *. rewrite Sh. exact Cv.
  - intros i s E. destruct (Hh i s E) as ((t & N & I) & Z). split; [|exact Z]. destruct (Ts' i t N) as (t' & N' & E'). exists t'. rewrite E'. auto.
  - intros i q t' Nq N'. destruct (Ts i t' N') as (t & N & Eh & Cs). destruct (Ho i q t Nq N) as (pe & lw & K & F & S).
    assert (K' : knows (stage hd) u k (at_seat hd i) pe lw t') by (unfold knows; rewrite Eh; exact K).
    assert (Sf : forall p, t_p t = p -> (forall a, p <> Ret a) -> (forall q0, p <> Lock LFan q0) -> is_speed rs i = true -> at_seat hd i <> Outside).
    { intros p Ep N1 N2 Sb Xo. specialize (S Sb Xo). destruct (listed i js).
      - destruct S as (a & S). apply (N1 a). congruence.
      - subst t. unfold is_speed in Sb. rewrite Nq in Sb. destruct q; try discriminate. cbn in Ep. unfold SetFanSpeed, with_lock in Ep. eapply N2. symmetry. exact Ep. }
    exists pe, lw. destruct Cs as [-> |[(c & q0 & E1 & E2)|(b & q0 & E1 & E2)]]; splits; auto.
    + rewrite E2. rewrite E1 in F. exact F.
    + intros Sb Xo. destruct (Sf _ E1 ltac:(discriminate) ltac:(discriminate) Sb Xo).
    + rewrite E2. rewrite E1 in F. apply F.
    + intros Sb Xo. destruct (Sf _ E1 ltac:(discriminate) ltac:(discriminate) Sb Xo).
Qed.
Lemma sound_step L1 wait u k m js x m' u' k' more L0 k0 u0 : inv L1 rs wait m -> tracks lo rs L0 k0 u0 u k m -> sound u k m js -> exec1 m x = Some m' ->
  log (m_g m') = log (m_g m) ++ more -> course rs k u more k' u' -> sound u' k' m' (begin_one rs js x).
Proof.
  intros Iv Tr So H Lg Co. destruct x as [j| |d|tk|j|j]; [eapply sound_run; eauto| | | | |]; cbn [begin_one].
  - (* RunWk *)
    pose proof H as H0. destruct Tr as ((_ & _ & Vo) & _ & _ & _ & Wt). destruct Iv as (Ln & X & _ & _ & _). cbn [exec1] in H.
    destruct (m_wk m) as [w|] eqn:W; [|discriminate]. destruct w as [p h]. cbn [t_p t_h] in H.
    assert (Cs : (p = Ret tt /\ h = [] /\ m' = mkMachine (m_g m) (m_ts m) None) \/
      exists t' g', tstep (hs_of m) (mkThread p h) (m_g m) = Some (t', g') /\ m' = mkMachine g' (m_ts m) (Some t')).
    { destruct p as [[]| | | | | | | | | | | | | |]; try destruct h;
        try (rewrite tstep_hs in H; destruct (tstep (hs_of m) _ (m_g m)) as [[t' g']|]; [|discriminate]; injection H as <-; eauto; fail).
      injection H as <-. auto. }
    clear H. destruct Cs as [(-> & -> & ->)|(t' & g' & S & ->)].
    + cbn [m_g] in Lg. apply app_same in Lg. subst more. apply course_nil in Co as [-> ->]. eapply sound_same; eauto.
      discriminate.
    + destruct So as (hd & dn & Cv & Ej & Hh & Ho & Hw). destruct (Hw _ W) as (pe & lw & K & F).
      set (m' := mkMachine g' (m_ts m) (Some t')) in *.
      assert (Mono : forall b v, taken_all rs m v0 dn b v -> taken_all rs m' v0 dn b v) by (intros; eapply taken_mono; [|eauto]; intros; eapply answered_run; eauto).
      apply (covered_mono _ _ _ _ _ Mono) in Cv.
      assert (Ids : forall t (i : nat), nth_error (m_ts m) i = Some t -> nth_error (hs_of m) (Datatypes.S i) = Some (t_h t)).
      { intros t0 i N. cbn. rewrite nth_error_map, N. reflexivity. }
      assert (Fn : free (hs_of m) LFan = true -> hd = None).
      { intros Fr. destruct hd as [[i s]|]; auto. destruct (Hh i s eq_refl) as ((t0 & N0 & I0) & _). rewrite free_in in Fr.
        destruct (Fr (t_h t0) true); auto. eapply nth_error_In. eapply Ids. exact N0. }
      destruct (sp_step false false (taken_all rs m' v0 dn) (hs_of m) (mkThread p h) t' (stage hd) u u' k k' (m_g m) g' more _ pe lw outside (fun _ _ => False) (refreshing m' dn) outside_ok Vo (Wt _ eq_refl) Cv K F)
        as (G' & x' & pe' & lw' & Cv' & K' & F' & Ef & Go & Tk); auto; [intros _ Fr; rewrite (Fn Fr); reflexivity|].
      assert (Xo : x' = Outside /\ G' = stage hd).
      { remember Outside as x0 eqn:E0 in Go. destruct Go as [Nl Eg| | |]; try discriminate; [auto|]. discriminate (Tk eq_refl ltac:(discriminate)). }
      destruct Xo as [-> ->]. destruct Cv' as [(N & _)|Cv']; [congruence|].
      exists hd, dn. unfold sound_at, m'. cbn [m_g m_ts m_wk]. splits; auto.
      * intros i q v Nq Nv. eapply one_other; [exact Ef| | | | | |apply Ho; eauto]; auto; [|eapply nth_error_In; eapply Ids; exact Nv|congruence].
        intros l b I. eapply (X 0%nat (Datatypes.S i)); eauto. cbn. unfold wk_h. rewrite W. reflexivity.
      * intros w Ew. injection Ew as <-. exists pe', lw'. auto.
  - injection H as <-. cbn [m_g g_conn] in Lg. apply app_same in Lg. subst more. apply course_nil in Co as [-> ->]. eapply sound_same; eauto.
  - pose proof H as H0. cbn [exec1] in H. destruct (m_wk m) eqn:W; [discriminate|]. injection H as <-. cbn [m_g] in Lg. apply app_same in Lg. subst more. apply course_nil in Co as [-> ->].
    eapply sound_same; eauto. cbn [m_wk]. intros w Ew hd _. injection Ew as <-. apply tick_ok.
  - pose proof H as H0. cbn [exec1] in H. destruct (m_wk m) eqn:W; [discriminate|]. destruct (nth_error (m_ts m) j) as [[p h]|] eqn:Nj; [|discriminate]. cbn [t_p t_h] in H.
    destruct p as [| | | | | | | | | | | |c q| |]; try discriminate. injection H as <-. cbn [m_g] in Lg. apply app_same in Lg. subst more. apply course_nil in Co as [-> ->].
    eapply sound_same; eauto; cbn [m_ts m_wk m_g].
    + intros i a A. eapply answered_run; eauto.
    + intros i t' N. apply nth_set_cases in N as [(<- & -> & _)|[Di N]]; [|eauto]. eexists. split; [exact Nj|]. split; [reflexivity|]. right. left. cbn [t_p]. eauto.
    + intros i t N. destruct (Nat.eq_dec j i) as [<-|D]; [|rewrite nth_set_other; eauto]. rewrite Nj in N. injection N as <-.
      eexists. split; [eapply nth_set_same; exact Nj|reflexivity].
    + intros w Ew hd _. injection Ew as <-. apply flush_ok.
  - pose proof H as H0. cbn [exec1] in H. destruct (m_wk m) as [[pw hw]|] eqn:W; [|discriminate]. destruct (nth_error (m_ts m) j) as [[p h]|] eqn:Nj; [|discriminate].
    cbn [t_p t_h] in H.
    destruct pw as [| | | | | | | | | | | | | |b kw]; try discriminate.
    destruct p as [| | | | | | | | | | | | |q|]; try discriminate. injection H as <-. cbn [m_g] in Lg. apply app_same in Lg. subst more. apply course_nil in Co as [-> ->].
    eapply sound_same; eauto; cbn [m_ts m_wk m_g].
    + intros i a A. eapply answered_run; eauto.
    + intros i t' N. apply nth_set_cases in N as [(<- & -> & _)|[Di N]]; [|eauto]. eexists. split; [exact Nj|]. split; [reflexivity|]. right. right. cbn [t_p]. eauto.
    + intros i t N. destruct (Nat.eq_dec j i) as [<-|D]; [|rewrite nth_set_other; eauto]. rewrite Nj in N. injection N as <-.
      eexists. split; [eapply nth_set_same; exact Nj|reflexivity].
    + intros w Ew hd Old. injection Ew as <-. destruct (Old _ W) as (pe & lw & K & F). exists pe, lw. split; [exact K|exact F].
Qed.
Lemma starting_sound L0 u k m : m_wk m = None -> starting rs L0 u k m -> v0 = u_mode u -> vent_ok lo u -> sound u k m [].
Proof.
  intros W (Ets & C) E Vo. rewrite W in C. exists None, []. unfold sound_at. cbn [begun stage option_map]. specialize (C eq_refl). splits; auto.
  - unfold covered. change (mode (g_sh (m_g m))) with (SpeedLogic.mode (g_sh (m_g m))). rewrite C. split; [apply Vo|]. rewrite <- E. constructor.
  - discriminate.
  - intros i q t Nq Nt. rewrite Ets, nth_error_map, Nq in Nt. injection Nt as <-. exists None, None. cbn [at_seat]. splits.
    + split; [discriminate|]. split; [congruence|]. split; [discriminate|exact I].
    + apply sp_rpc.
    + intros _ _. reflexivity.
  - congruence.
Qed.
End Belief.
