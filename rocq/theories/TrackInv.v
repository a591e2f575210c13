(** The unit in every interleaving of the server (C78). *)
From Verif Require Import ProofBase Proto SpecProto SpecFrame SpecConn SpecLayout SpecServer SpecUnit SpecTrack ProtoProofs Scanner Conn FrameProofs ReplyProofs ReadProofs Proc Lib QueryProofs
  FrameLemmas LayoutProofs OpLemmas Server ServerProofs ServerLemmas UnitProofs Machine SpecMachine MachineBase ThreadLogic MachineInv SpecFresh FreshLogic FreshInv OwnLogic OwnInv TrackLogic.

Lemma asking_reads gr : In gr asking -> In gr UnitProofs.reads.
Proof. unfold asking, UnitProofs.reads. simpl. intuition auto 12. Qed.

Section Unit.
Context (lo : Z) (Lo : lo <= 15) (rs : list rpc).

(** The payload shows the percentages of the unit. *)
Definition pct (u : vent) (pl : list Z) : Prop :=
  length pl = 14%nat /\ bytes_ok pl /\
  u_out u = [byte_at pl 0; byte_at pl 1; byte_at pl 2; byte_at pl 10] /\
  u_in u = [byte_at pl 3; byte_at pl 4; byte_at pl 5; byte_at pl 11].
Definition live (c : conn) (u : vent) : Prop := unit_at lo true u (c_dev c) /\ clear (c_dev c) /\ vent_ok lo u.
(** What is on its way on the line. *)
Definition talk_of (ph : phase) : talk := match ph with Asked a => Awaiting a | Heard => Unacked | _ => Idle end.
Definition calm (c : conn) (k : talk) : Prop := SpecConn.quiet c /\ k = Idle.
Definition line (ph : phase) (c : conn) (u : vent) : Prop :=
  match ph with
  | Asked a => exists chunks, c_pend c = pieces chunks /\ c_orph c = [] /\ Forall (fun bs => bs <> []) chunks /\ total chunks <= 4096 /\
      match a with
      | Some gr => exists pl, In gr asking /\ bytes_ok pl /\ concat chunks = reply (gr + 1) pl /\ readable (gr + 1) pl /\ (gr = 205 -> describes u pl) /\ (gr = 209 -> measures u pl)
      | None => concat chunks = [7; 243]
      end
  | _ => SpecConn.quiet c
  end.

Lemma served_ask u gr u' a : serves lo u gr [] u' a -> u' = u /\ exists pl, bytes_ok pl /\ a = reply (gr + 1) pl /\
  (gr = 205 -> describes u pl) /\ (gr = 209 -> measures u pl).
Proof.
  intros H. pose proof (served_read _ _ _ _ _ H) as [-> _]. split; auto. inversion H as [pl D| | |pl M| |req pl I B L]; subst.
  - exists pl. splits; auto; [apply D|discriminate].
  - exists pl. splits; auto; [apply M|discriminate].
  - exists pl. splits; auto; intros ->; simpl in I; intuition discriminate.
Qed.
Lemma profile_turn u pl m t : pct u pl -> vent_ok lo u -> 1 <= m <= 4 -> 15 <= t <= 100 -> exists o1 o2 o3 o4 i1 i2 i3 i4,
  profile_request pl (m - 1) t = [o1; o2; o3; i1; i2; i3; o4; i4] /\
  let u' := mkVent [o1; o2; o3; o4] [i1; i2; i3; i4] (u_mode u) (u_comfort u) in
  with_profile (Z.to_nat (m - 1)) t u u' /\ vent_ok lo u' /\ serves lo u 207 [o1; o2; o3; i1; i2; i3; o4; i4] u' [7; 243].
Proof.
  intros (L & B & O & I) V M T. unfold profile_request. cbn [profile_offsets map].
  destruct V as (_ & _ & Ko & Ki & Km & Kc). rewrite O in Ko. rewrite I in Ki.
  repeat match goal with H : Forall _ (_ :: _) |- _ => apply Forall_inv in H as ?; apply Forall_inv_tail in H end.
  assert (Bv : lo <= t /\ byte_ok t) by (unfold byte_ok; lia).
  do 8 eexists. split; [reflexivity|]. cbv zeta. split; [|split].
  - unfold with_profile. cbn [u_out u_in u_mode u_comfort]. splits; auto. intros i Hi. rewrite O, I.
    assert (m = 1 \/ m = 2 \/ m = 3 \/ m = 4) as [-> |[-> |[-> | ->]]] by lia;
    (assert (i = 0 \/ i = 1 \/ i = 2 \/ i = 3)%nat as [-> |[-> |[-> | ->]]] by lia; split; reflexivity).
  - unfold vent_ok. cbn [u_out u_in u_mode u_comfort]. splits; auto; try lia;
    (repeat apply Forall_cons; try apply Forall_nil; destruct (_ =? _); auto).
  - apply sv_set_profiles. repeat apply Forall_cons; try apply Forall_nil; destruct (_ =? _); auto.
Qed.

Definition track {A} (u : vent) (k : talk) (g : mem) (t : thread A) : Prop :=
  exists ph am kw, (ph <> Away -> In (LPm, true) (t_h t) /\ line ph (g_conn g) u /\ k = talk_of ph) /\ (am = true -> In (LAm, true) (t_h t)) /\
    (forall pl, kw = Some pl -> am = true /\ pct u pl) /\ us rs ph am kw (t_p t) (fun _ _ _ _ => True).
Definition touched {A} (t t' : thread A) (u u' : vent) (k k' : talk) (g g' : mem) : Prop :=
  live (g_conn g') u' /\
  (exists more, log g' = log g ++ more /\ course rs k u more k' u' /\ (length more <= 1)%nat) /\
  (g_conn g' = g_conn g /\ u' = u /\ k' = k \/ In (LPm, true) (t_h t)) /\
  (u_out u' = u_out u /\ u_in u' = u_in u \/ In (LAm, true) (t_h t)) /\
  (In (LPm, true) (t_h t) -> ~ In (LPm, true) (t_h t') -> calm (g_conn g') k').

Lemma course_one u k x k' u' : turns rs u k x k' u' -> course rs k u [x] k' u'.
Proof. intros T. apply (co_snoc rs k u [] k u x k' u'); [constructor|exact T]. Qed.
Lemma mode_ok u v : vent_ok lo u -> 0 <= v <= 4 -> vent_ok lo (mkVent (u_out u) (u_in u) v (u_comfort u)).
Proof. intros (A & B & C & D & E & F) V. unfold vent_ok. cbn. splits; auto; lia. Qed.
Lemma comfort_ok u v : vent_ok lo u -> byte_ok v -> vent_ok lo (mkVent (u_out u) (u_in u) (u_mode u) v).
Proof. intros (A & B & C & D & E & F) V. unfold vent_ok. cbn. splits; auto; lia. Qed.

(** Writing a request. *)
Lemma write_ask g u gr r cn : live (g_conn g) u -> SpecConn.quiet (g_conn g) -> In gr asking -> conn_write (g_conn g) (framed gr []) = (r, cn) ->
  r = mkWres (len (framed gr [])) None /\ live cn u /\ line (Asked (Some gr)) cn u /\ c_log cn = log g ++ [Wr (framed gr []) r].
Proof.
  intros ([Rq _] & [Cl] & V) [P O] G W. destruct (Rq gr []) as (u' & d' & evs & r' & Re & T & U').
  { destruct (serves_read lo u gr V (asking_reads _ G)) as (u' & a & S). cbn in S. eauto. }
  unfold conn_write in W. rewrite Re in W. injection W as <- <-. destruct (Cl _ _ _ _ Re) as [Rd Cd].
  inversion T as [u1 a chunks S Ca F|? ? ? X|? X]; subst; try discriminate.
  pose proof S as S0. apply served_ask in S0 as (-> & pl & Bp & Ea & D5 & D9). pose proof (serves_len _ _ _ _ _ _ S) as Ln.
  split; [reflexivity|]. split; [split; auto|]. split; [|reflexivity].
  exists chunks. cbn [c_pend c_orph]. rewrite P, O. splits; auto. exists pl. splits; auto. eapply Rd; eauto.
Qed.
Lemma write_alter g u cmd data u1 r cn : live (g_conn g) u -> SpecConn.quiet (g_conn g) -> serves lo u cmd data u1 [7; 243] -> vent_ok lo u1 ->
  conn_write (g_conn g) (framed cmd data) = (r, cn) ->
  r = mkWres (len (framed cmd data)) None /\ live cn u1 /\ line (Asked None) cn u1 /\ c_log cn = log g ++ [Wr (framed cmd data) r].
Proof.
  intros ([Rq _] & [Cl] & V) [P O] S1 V1 W. destruct (Rq cmd data) as (u' & d' & evs & r' & Re & T & U'); [eauto|].
  unfold conn_write in W. rewrite Re in W. injection W as <- <-. destruct (Cl _ _ _ _ Re) as [_ Cd].
  inversion T as [u2 a chunks S Ca F|? ? ? X|? X]; subst; try discriminate.
  destruct (served_set lo _ _ _ _ _ _ S1 S) as [-> Ea]. pose proof (serves_len _ _ _ _ _ _ S) as Ln.
  split; [reflexivity|]. split; [split; auto|]. split; [|reflexivity].
  exists chunks. cbn [c_pend c_orph]. rewrite P, O. splits; auto.
Qed.
Lemma alter_turn u kw cmd data : vent_ok lo u -> (forall pl, kw = Some pl -> pct u pl) -> alters rs kw cmd data ->
  exists u1, serves lo u cmd data u1 [7; 243] /\ vent_ok lo u1 /\ turns rs u Idle (Wr (framed cmd data) (mkWres (len (framed cmd data)) None)) (Awaiting None) u1 /\
    (u_out u1 = u_out u /\ u_in u1 = u_in u \/ kw <> None).
Proof.
  intros V K A. inversion A as [t I Th T E|a b v I T E|m t pl I M T E]; subst.
  - assert (B : byte_ok (2 * (t mod 256 + 20))). { pose proof (Z.mod_pos_bound t 256 ltac:(lia)). unfold byte_ok. lia. }
    eexists. split; [apply sv_comfort; exact B|]. split; [apply comfort_ok; auto|]. split; [apply tn_comfort; auto|]. left. auto.
  - eexists. split; [apply sv_speed; lia|]. split; [apply mode_ok; auto; lia|]. split; [eapply tn_speed; [eauto|split; auto]|]. left. auto.
  - destruct (profile_turn u pl (m mod 256) (t mod 256) (K pl eq_refl) V M T) as (o1 & o2 & o3 & o4 & i1 & i2 & i3 & i4 & -> & W & V1 & S).
    eexists. split; [exact S|]. split; [exact V1|]. split; [apply (tn_profile rs u m t); auto; split; auto|]. right. discriminate.
Qed.

(** Reading what is on its way. *)
Lemma read_line a u c x o cn : line (Asked a) c u -> x = (match a with Some _ => true | None => false end) -> ReadPacket c x = (o, cn) ->
  SpecConn.quiet cn /\ c_dev cn = c_dev c /\
  match a with
  | Some gr => exists pl, In gr asking /\ bytes_ok pl /\ o = Done (mkPacket (gr + 1) pl false, None) /\ (gr = 205 -> describes u pl) /\ (gr = 209 -> measures u pl)
  | None => o = Done (zero_packet, None)
  end.
Proof.
  intros (chunks & P & O & F & T & H) -> R.
  destruct (read_pieces_rest chunks c (match a with Some _ => true | None => false end) P O T (few_empty_ok _ (nonempty_few _ F))) as [H1 H2].
  pose proof (read_dev _ _ _ _ R) as D. rewrite R in H1, H2. cbn [fst snd] in H1, H2.
  assert (Q : forall p, pure_read (match a with Some _ => true | None => false end) (concat chunks) = Done (p, None) ->
     pure_rest (match a with Some _ => true | None => false end) (concat chunks) = [] -> SpecConn.quiet cn).
  { intros p E Z. destruct (H2 _ E) as (used & ch & buf & Eu & -> & Rest). rewrite Z in Rest.
    apply app_eq_nil in Rest as [_ Rest]. rewrite Eu in F. apply Forall_app in F as [_ F]. apply nonempty_concat in Rest; auto. subst ch.
    split; reflexivity. }
  destruct a as [gr|].
  - destruct H as (pl & G & Bp & E & Rd & D5 & D9).
    assert (Pr : pure_read true (concat chunks) = Done (mkPacket (gr + 1) pl false, None)).
    { rewrite E, <- (app_nil_r (reply _ _)). apply reply_readable; auto. }
    split; [|split; auto].
    + eapply Q; [exact Pr|]. rewrite E. apply pure_rest_reply; auto.
    + exists pl. splits; auto. congruence.
  - rewrite H in *. split; [eapply Q; reflexivity|]. split; auto.
Qed.

Lemma track_step {A} hs (t t' : thread A) u k g g' : live (g_conn g) u -> (rfree hs LPm = true -> calm (g_conn g) k) ->
  track u k g t -> tstep hs t g = Some (t', g') -> exists u' k', track u' k' g' t' /\ touched t t' u u' k k' g g'.
Proof.
  intros Lv Fr (ph & am & kw & Hp & Ha & Hk & F) St. destruct t as [p h]. unfold tstep in St. cbn [t_p t_h] in *.
  assert (Same : forall t', (In (LPm, true) h -> ~ In (LPm, true) (t_h t') -> calm (g_conn g) k) -> touched (mkThread p h) t' u u k k g g).
  { intros t1 Q. unfold touched. splits; auto. exists []. rewrite app_nil_r. splits; auto. constructor. }
  destruct p as [a| |l q|l q|l q|l q|bs q|x q|q|f q|q|d q|c q|q|b q]; cbn [us] in F; try discriminate.
  - (* Lock *)
    destruct (free hs l) eqn:Fl; [|discriminate]. injection St as <- <-. exists u, k.
    split; [|apply Same; cbn [t_h]; intros I N; destruct N; right; auto]. destruct (is_pm l) eqn:E.
    + destruct F as [-> F]. destruct l; try discriminate. exists Ready, am, kw. cbn [t_h t_p]. split; [|split; [right; auto|auto]].
      intros _. split; [left; auto|]. cbn [line talk_of]. apply Fr. rewrite free_in in Fl. rewrite rfree_in. intros h0 I. apply Fl. auto.
    + destruct (is_am l) eqn:E2.
      * destruct F as [-> F]. destruct l; try discriminate. exists ph, true, kw. cbn [t_h t_p].
        split; [intros N; destruct (Hp N); split; auto; right; auto|]. split; [left; auto|]. split; auto. intros pl K. destruct (Hk pl K). discriminate.
      * exists ph, am, kw. cbn [t_h t_p]. split; [intros N; destruct (Hp N); split; auto; right; auto|]. split; [right; auto|]. auto.
  - (* Unlock *)
    destruct (release h l true) as [h'|] eqn:Re; injection St as <- <-; exists u, k.
    + split.
      * destruct (is_pm l) eqn:E.
        -- destruct F as [-> F]. exists Away, am, kw. cbn [t_h t_p]. split; [congruence|]. split; [|auto].
           intros X. eapply release_keeps; eauto. intros Y. injection Y as <-. discriminate.
        -- assert (Kp : ph <> Away -> In (LPm, true) h' /\ line ph (g_conn g) u /\ k = talk_of ph).
           { intros N. destruct (Hp N) as [I Li]. split; auto. eapply release_keeps; eauto. intros Y. injection Y as <-. discriminate. }
           destruct (is_am l) eqn:E2.
           ++ exists ph, false, None. cbn [t_h t_p]. split; [exact Kp|]. split; [discriminate|]. split; [discriminate|exact F].
           ++ exists ph, am, kw. cbn [t_h t_p]. split; [exact Kp|]. split; [|auto].
              intros X. eapply release_keeps; eauto. intros Y. injection Y as <-. discriminate.
      * apply Same. cbn [t_h]. intros I N. destruct (is_pm l) eqn:E.
        -- destruct F as [-> F]. apply Hp. discriminate.
        -- destruct N. eapply release_keeps; eauto. intros Y. injection Y as <-. discriminate.
    + split; [exists ph, am, kw; cbn [t_h t_p us]; auto|apply Same; cbn [t_h]; intros I N; contradiction].
  - (* RLock *)
    destruct (rfree hs l); [|discriminate]. injection St as <- <-. exists u, k. split.
    + exists ph, am, kw. cbn [t_h t_p]. split; [intros N; destruct (Hp N); split; auto; right; auto|]. split; [right; auto|]. auto.
    + apply Same. cbn [t_h]. intros I N. destruct N. right. auto.
  - (* RUnlock *)
    destruct (release h l false) as [h'|] eqn:Re; injection St as <- <-; exists u, k.
    + assert (Kp : forall l0, In (l0, true) h -> In (l0, true) h') by (intros l0 I; eapply release_keeps; eauto; discriminate).
      split; [|apply Same; cbn [t_h]; intros I N; destruct N; auto].
      exists ph, am, kw. cbn [t_h t_p]. split; [intros N; destruct (Hp N); split; auto|]. split; auto.
    + split; [exists ph, am, kw; cbn [t_h t_p us]; auto|apply Same; cbn [t_h]; intros I N; contradiction].
  - (* WriteC *)
    destruct (conn_write (g_conn g) bs) as [r cn] eqn:W. injection St as <- <-. destruct ph as [| |gr|]; try contradiction.
    + destruct (Hp ltac:(discriminate)) as (I & Q & ->). cbn [line talk_of] in *.
      destruct F as [(gr & G & -> & F)|(cmd & data & G & -> & F)].
      * destruct (write_ask g u gr r cn Lv Q G W) as (-> & Lv' & Li & Lg). exists u, (Awaiting (Some gr)). split.
        -- exists (Asked (Some gr)), am, kw. cbn [t_h t_p g_conn]. auto.
        -- unfold touched. cbn [t_h g_conn]. split; auto. split; [eexists; split; [exact Lg|]; split; [apply course_one, tn_ask; auto|cbn; lia]|].
           split; auto. split; auto. intros _ N. contradiction.
      * assert (Kp : forall pl, kw = Some pl -> pct u pl) by (intros pl K; apply Hk; auto).
        destruct (alter_turn u kw cmd data) as (u1 & S1 & V1 & T1 & Ch); auto; [apply Lv|].
        destruct (write_alter g u cmd data u1 r cn Lv Q S1 V1 W) as (-> & Lv' & Li & Lg). exists u1, (Awaiting None). split.
        -- exists (Asked None), am, None. cbn [t_h t_p g_conn]. split; auto. split; auto. split; [discriminate|auto].
        -- unfold touched. cbn [t_h g_conn]. split; auto. split; [eexists; split; [exact Lg|]; split; [apply course_one; auto|cbn; lia]|].
           split; auto. split; [|intros _ N; contradiction]. destruct Ch as [Ch|Ch]; auto. right. destruct kw as [pl|]; [|congruence]. apply Ha. apply (Hk pl eq_refl).
    + destruct (Hp ltac:(discriminate)) as (I & Q & ->). cbn [line talk_of] in *. destruct F as [-> F].
      destruct Lv as ([_ (d' & r' & Ra & Rl & U')] & [Cl] & V). destruct (Cl _ _ _ _ Ra) as [_ Cd].
      unfold conn_write in W. rewrite Ra in W. injection W as <- <-. rewrite Rl by auto. exists u, Idle.
      assert (Q' : SpecConn.quiet (mkConn d' (c_pend (g_conn g) ++ []) (c_orph (g_conn g)) (log g ++ [Wr [7; 243] (mkWres 2 None)]))).
      { destruct Q as [P O]. split; cbn [c_pend c_orph]; [rewrite P|rewrite O]; reflexivity. }
      split.
      * exists Ready, am, kw. cbn [t_h t_p g_conn]. split; [|auto]. intros _. split; auto.
      * unfold touched. cbn [t_h g_conn]. split; [split; auto|]. split; [eexists; split; [reflexivity|]; split; [apply course_one, tn_ack|cbn; lia]|].
        split; [auto|]. split; [auto|]. intros _ N. contradiction.
  - (* ReadC *)
    destruct ph as [| |a|]; try contradiction. destruct (Hp ltac:(discriminate)) as (I & Q & ->).
    destruct (ReadPacket (g_conn g) x) as [o cn] eqn:W.
    assert (Ex : x = match a with Some _ => true | None => false end) by (destruct a; apply F).
    destruct (read_line a u _ x o cn Q Ex W) as (Qt & Dv & O). cbn [talk_of] in *.
    assert (Lv' : forall y, live (log_io cn y) u) by (intros y; unfold live; cbn [log_io c_dev]; rewrite Dv; exact Lv).
    clear Same. subst x. destruct a as [gr|].
    + destruct O as (pl & G & Bp & -> & D5 & D9). injection St as <- <-. apply read_log in W as [W _]. destruct F as [_ F]. exists u, Unacked.
      assert (X : exists am' kw', (am' = true -> In (LAm, true) h) /\ (forall pl, kw' = Some pl -> am' = true /\ pct u pl) /\
        us rs Heard am' kw' (q (mkPacket (gr + 1) pl false) None) (fun _ _ _ _ => True)).
      { exists am, (if am && (gr =? 205) then Some pl else kw). split; auto. split.
        - intros pl0. destruct (am && (gr =? 205)) eqn:E; [|apply Hk]. intros Y. injection Y as <-. apply andb_true_iff in E as [-> E].
          split; auto. apply Z.eqb_eq in E. destruct (D5 E) as (B1 & B2 & B3 & B4 & _). unfold pct. auto.
        - apply F. intros E. destruct (D5 E) as (B1 & B2 & _). auto. }
      destruct X as (am' & kw' & X1 & X2 & X3). split.
      * exists Heard, am', kw'. cbn [t_h t_p g_conn]. split; [|auto]. intros _. split; auto.
      * unfold touched. cbn [t_h g_conn]. split; auto. split; [eexists; split; [exact W|]; split; [apply course_one, tn_answer; auto|cbn; lia]|].
        split; [auto|]. split; [auto|]. intros _ N. contradiction.
    + subst o. injection St as <- <-. apply read_log in W as [W _]. destruct F as [_ F]. exists u, Unacked. split.
      * exists Heard, am, kw. cbn [t_h t_p g_conn]. split; [|auto]. intros _. split; auto.
      * unfold touched. cbn [t_h g_conn]. split; auto. split; [eexists; split; [exact W|]; split; [apply course_one, tn_done|cbn; lia]|].
        split; [auto|]. split; [auto|]. intros _ N. contradiction.
  - injection St as <- <-. exists u, k. split; [|apply Same; cbn [t_h]; intros I N; contradiction]. exists ph, am, kw. cbn [t_h t_p]. auto.
  - injection St as <- <-. exists u, k. split.
    + exists ph, am, kw. cbn [t_h t_p g_conn]. auto.
    + unfold touched. cbn [t_h g_conn]. split; auto. split; [exists []; rewrite app_nil_r; splits; auto; constructor|]. split; [auto|]. split; [auto|]. intros I N. contradiction.
  - injection St as <- <-. exists u, k. split; [|apply Same; cbn [t_h]; intros I N; contradiction]. exists ph, am, kw. cbn [t_h t_p]. auto.
  - injection St as <- <-. exists u, k. split; [|apply Same; cbn [t_h]; intros I N; contradiction]. exists ph, am, kw. cbn [t_h t_p]. auto.
Qed.
Lemma track_other {A B} (t t' : thread A) (v : thread B) u u' k k' g g' : touched t t' u u' k k' g g' ->
  (forall l b, In (l, true) (t_h t) -> ~ In (l, b) (t_h v)) -> track u k g v -> track u' k' g' v.
Proof.
  intros (_ & _ & C & P & _) D (ph & am & kw & Hp & Ha & Hk & F). exists ph, am, kw. splits; auto.
  - intros N. destruct (Hp N) as [I Li]. split; auto. destruct C as [(-> & -> & ->)|C]; auto. destruct (D _ true C I).
  - intros pl K. destruct (Hk pl K) as [-> (B1 & B2 & B3 & B4)]. split; auto. destruct P as [[P1 P2]|P]; [|destruct (D _ true P (Ha eq_refl))].
    unfold pct. rewrite P1, P2. auto.
Qed.
Lemma track_start {A} u k g (p : sproc A) R : plain rs p R -> track u k g (mkThread p []).
Proof.
  intros P. exists Away, false, None. cbn [t_h t_p]. split; [congruence|]. split; [discriminate|]. split; [discriminate|].
  eapply us_weaken; [|exact P]. auto.
Qed.

(** ** the whole server *)
Context (L0 : list io) (k0 : talk) (u0 : vent).
Definition tracks (u : vent) (k : talk) (m : machine resp) : Prop :=
  live (g_conn (m_g m)) u /\ (rfree (hs_of m) LPm = true -> calm (g_conn (m_g m)) k) /\
  (exists l, log (m_g m) = L0 ++ l /\ course rs k0 u0 l k u) /\
  (forall t, In t (m_ts m) -> track u k (m_g m) t) /\ (forall w, m_wk m = Some w -> track u k (m_g m) w).

Lemma course_app k1 u1 l k2 u2 l' k3 u3 : course rs k1 u1 l k2 u2 -> course rs k2 u2 l' k3 u3 -> course rs k1 u1 (l ++ l') k3 u3.
Proof. intros H1 H2. induction H2; [rewrite app_nil_r; auto|]. rewrite app_assoc. econstructor; eauto. Qed.
Lemma quiet_step {A} hs n (t t' : thread A) u u' k k' g g' : nth_error hs n = Some (t_h t) -> (rfree hs LPm = true -> calm (g_conn g) k) ->
  touched t t' u u' k k' g g' -> rfree (set_nth n (t_h t') hs) LPm = true -> calm (g_conn g') k'.
Proof.
  intros N Q (_ & _ & C & _ & R) Fr. rewrite rfree_in in Fr.
  assert (Nt : ~ In (LPm, true) (t_h t')) by (apply Fr; eapply nth_error_In; eapply nth_set_same; eauto).
  destruct (holds (t_h t) LPm true) eqn:Hd.
  - apply holds_in in Hd. auto.
  - apply not_true_iff_false in Hd. rewrite holds_in in Hd. destruct C as [(-> & -> & ->)|C]; [|contradiction]. apply Q. rewrite rfree_in. intros h I.
    apply In_nth_error in I as (j & J). destruct (Nat.eq_dec n j) as [<-|D].
    + rewrite N in J. injection J as <-. auto.
    + apply Fr. eapply nth_error_In. rewrite nth_set_other; eauto.
Qed.

Lemma tracks_step L1 wait wait' u k m x m' : inv L1 rs wait m -> tracks u k m -> exec1 m x = Some m' -> next wait x = Some wait' ->
  exists u' k', tracks u' k' m' /\ exists more, log (m_g m') = log (m_g m) ++ more /\ course rs k u more k' u' /\ (length more <= 1)%nat.
Proof.
  intros Iv (Lv & Qt & (l & El & Hl) & Th & Wk) H Nx. destruct Iv as (Ln & X & _ & _ & _).
  assert (Zero : exists more, log (m_g m) = log (m_g m) ++ more /\ course rs k u more k u /\ (length more <= 1)%nat).
  { exists []. rewrite app_nil_r. splits; auto. constructor. }
  assert (Ids : forall t (i : nat), nth_error (m_ts m) i = Some t -> nth_error (hs_of m) (Datatypes.S i) = Some (t_h t)).
  { intros t i N. cbn. rewrite nth_error_map, N. reflexivity. }
  destruct x as [j| |d|tk|j|j]; cbn [exec1] in H.
  - (* Run *)
    destruct (nth_error (m_ts m) j) as [t|] eqn:Nj; [|discriminate]. rewrite tstep_hs in H.
    destruct (tstep (hs_of m) t (m_g m)) as [[t' g']|] eqn:S; [|discriminate]. injection H as <-.
    destruct (track_step _ _ _ _ _ _ _ Lv Qt (Th _ (nth_error_In _ _ Nj)) S) as (u' & k' & T' & To). exists u', k'.
    destruct (proj1 (proj2 To)) as (more & Em & Hm & Lm).
    split; [|exists more; auto]. unfold tracks. cbn [m_g m_ts m_wk]. split; [apply To|]. split; [|split; [|split]].
    + assert (Hs : hs_of (mkMachine g' (set_nth j t' (m_ts m)) (m_wk m)) = set_nth (Datatypes.S j) (t_h t') (hs_of m)).
      { unfold hs_of. cbn [m_ts set_nth wk_h m_wk]. rewrite set_nth_map. reflexivity. }
      rewrite Hs. eapply quiet_step; eauto.
    + exists (l ++ more). rewrite Em, El, app_assoc. split; auto. eapply course_app; eauto.
    + intros v I. apply In_nth_error in I as (q & Nq). apply nth_set_cases in Nq as [(<- & -> & _)|[Dq Nq]]; [exact T'|].
      eapply track_other; [exact To| |apply Th; eapply nth_error_In; eauto].
      intros l0 b I. eapply (X (Datatypes.S j) (Datatypes.S q)); eauto.
    + intros w Ew. eapply track_other; [exact To| |apply Wk; auto]. intros l0 b I. eapply (X (Datatypes.S j) 0%nat); eauto.
      cbn. unfold wk_h. rewrite Ew. reflexivity.
  - (* RunWk *)
    destruct (m_wk m) as [w|] eqn:W; [|discriminate]. destruct w as [p h]. cbn [t_p t_h] in H.
    assert (Cs : (p = Ret tt /\ h = [] /\ m' = mkMachine (m_g m) (m_ts m) None) \/
      exists t' g', tstep (hs_of m) (mkThread p h) (m_g m) = Some (t', g') /\ m' = mkMachine g' (m_ts m) (Some t')).
    { destruct p as [[]| | | | | | | | | | | | | |]; try destruct h; 
        try (rewrite tstep_hs in H; destruct (tstep (hs_of m) _ (m_g m)) as [[t' g']|]; [|discriminate]; injection H as <-; eauto; fail).
      injection H as <-. auto. }
    clear H. destruct Cs as [(-> & -> & ->)|(t' & g' & S & ->)].
    + exists u, k. split; [|exact Zero].
      assert (Hs : hs_of (mkMachine (m_g m) (m_ts m) None) = hs_of m) by (unfold hs_of, wk_h; rewrite W; reflexivity).
      unfold tracks. rewrite Hs. cbn [m_g m_ts m_wk]. split; auto. split; auto. split; [eauto|]. split; auto. discriminate.
    + assert (Nh : nth_error (hs_of m) 0 = Some h) by (cbn; unfold wk_h; rewrite W; reflexivity).
      destruct (track_step _ _ _ _ _ _ _ Lv Qt (Wk _ eq_refl) S) as (u' & k' & T' & To). exists u', k'.
      destruct (proj1 (proj2 To)) as (more & Em & Hm & Lm).
      split; [|exists more; auto]. unfold tracks. cbn [m_g m_ts m_wk]. split; [apply To|]. split; [|split; [|split]].
      * assert (Hs : hs_of (mkMachine g' (m_ts m) (Some t')) = set_nth 0 (t_h t') (hs_of m)) by reflexivity.
        rewrite Hs. eapply (quiet_step _ _ (mkThread p h)); eauto.
      * exists (l ++ more). rewrite Em, El, app_assoc. split; auto. eapply course_app; eauto.
      * intros v I. apply In_nth_error in I as (q & Nq).
        eapply track_other; [exact To| |apply Th; eapply nth_error_In; eauto].
        intros l0 b I. eapply (X 0%nat (Datatypes.S q)); eauto.
      * intros w Ew. injection Ew as <-. exact T'.
  - (* Pass *)
    injection H as <-. exists u, k. split; [|exact Zero]. unfold tracks. cbn [m_g m_ts m_wk g_conn]. split; auto. split; auto. split; [eauto|]. auto.
  - (* Tick *)
    destruct (m_wk m) eqn:W; [discriminate|]. injection H as <-. exists u, k. split; [|exact Zero].
    assert (Hs : hs_of (mkMachine (m_g m) (m_ts m) (Some (mkThread (on_tick tk) []))) = hs_of m) by (unfold hs_of, wk_h; rewrite W; reflexivity).
    unfold tracks. unfold spawn. rewrite Hs. cbn [m_g m_ts m_wk]. split; auto. split; auto. split; [eauto|]. split; auto.
    intros w Ew. injection Ew as <-. eapply track_start. apply plain_tick.
  - (* Flush *)
    destruct (m_wk m) eqn:W; [discriminate|]. destruct (nth_error (m_ts m) j) as [[p h]|] eqn:Nj; [|discriminate]. cbn [t_p t_h] in H.
    destruct p as [| | | | | | | | | | | |c q| |]; try discriminate. injection H as <-. exists u, k. split; [|exact Zero].
    unfold tracks. unfold spawn. cbn [m_g m_ts m_wk]. split; auto. split; [|split; [eauto|split]].
    + assert (Hs : hs_of (mkMachine (m_g m) (set_nth j (mkThread q h) (m_ts m)) (Some (mkThread (FlushCaches c) []))) = set_nth (Datatypes.S j) h (hs_of m)).
      { unfold hs_of, wk_h. cbn [m_ts set_nth m_wk t_h]. rewrite set_nth_map, W. reflexivity. }
      rewrite Hs. intros Fr. apply Qt. rewrite rfree_in in *. intros h0 I. apply In_nth_error in I as (i & Nk). apply Fr.
      destruct (Nat.eq_dec (Datatypes.S j) i) as [<-|D].
      * rewrite (Ids _ _ Nj) in Nk. injection Nk as <-. eapply nth_error_In. eapply nth_set_same. apply (Ids _ _ Nj).
      * eapply nth_error_In. rewrite nth_set_other; eauto.
    + intros v I. apply In_nth_error in I as (i & Nk). apply nth_set_cases in Nk as [(<- & -> & _)|[Dk Nk]]; [|apply Th; eapply nth_error_In; eauto].
      destruct (Th _ (nth_error_In _ _ Nj)) as (ph & am & kw & T1 & T2 & T3 & T4). cbn [t_p t_h us] in *. exists ph, am, kw. cbn [t_p t_h]. auto.
    + intros w Ew. injection Ew as <-. eapply track_start. apply plain_flush.
  - (* Succ *)
    destruct (m_wk m) as [[pw hw]|] eqn:W; [|discriminate]. destruct (nth_error (m_ts m) j) as [[p h]|] eqn:Nj; [|discriminate].
    cbn [t_p t_h] in H.
    destruct pw as [| | | | | | | | | | | | | |b kw]; try discriminate.
    destruct p as [| | | | | | | | | | | | |q|]; try discriminate. injection H as <-. exists u, k. split; [|exact Zero].
    unfold tracks. cbn [m_g m_ts m_wk]. split; auto. split; [|split; [eauto|split]].
    + assert (Hs : hs_of (mkMachine (m_g m) (set_nth j (mkThread (q b) h) (m_ts m)) (Some (mkThread kw hw))) = set_nth (Datatypes.S j) h (hs_of m)).
      { unfold hs_of, wk_h. cbn [m_ts set_nth m_wk t_h]. rewrite set_nth_map, W. reflexivity. }
      rewrite Hs. intros Fr. apply Qt. rewrite rfree_in in *. intros h0 I. apply In_nth_error in I as (i & Nk). apply Fr.
      destruct (Nat.eq_dec (Datatypes.S j) i) as [<-|D].
      * rewrite (Ids _ _ Nj) in Nk. injection Nk as <-. eapply nth_error_In. eapply nth_set_same. apply (Ids _ _ Nj).
      * eapply nth_error_In. rewrite nth_set_other; eauto.
    + intros v I. apply In_nth_error in I as (i & Nk). apply nth_set_cases in Nk as [(<- & -> & _)|[Dk Nk]]; [|apply Th; eapply nth_error_In; eauto].
      destruct (Th _ (nth_error_In _ _ Nj)) as (ph & am & kw0 & T1 & T2 & T3 & T4). cbn [t_p t_h us] in *. exists ph, am, kw0. cbn [t_p t_h]. auto.
    + intros w Ew. injection Ew as <-. destruct (Wk _ eq_refl) as (ph & am & kw0 & T1 & T2 & T3 & T4). cbn [t_p t_h us] in *.
      exists ph, am, kw0. cbn [t_p t_h]. auto.
Qed.
Lemma tracks_run L1 : forall ys wait u k m m', inv L1 rs wait m -> tracks u k m -> exec ys m = Some m' -> exists u' k' wait', inv L1 rs wait' m' /\ tracks u' k' m'.
Proof.
  induction ys as [|x ys IH]; intros wait u k m m' Iv T E; cbn in E.
  - injection E as <-. eauto.
  - destruct (exec1 m x) as [m1|] eqn:E1; [|discriminate]. destruct (inv_step _ _ _ _ _ _ Iv E1) as (w' & Nx & Iv').
    destruct (tracks_step L1 wait w' u k m x m1 Iv T E1 Nx) as (u' & k' & T' & _). eapply IH; eauto.
Qed.
End Unit.

Lemma tracks_init lo rs c clk u : lined lo c u -> tracks lo rs (c_log c) Idle u u Idle (serve rs c clk).
Proof.
  intros (Q & U & C & V). unfold tracks, serve. cbn [m_g m_ts m_wk g_conn]. split; [split; auto|]. split; [intros _; split; auto|]. split; [|split].
  - exists []. rewrite app_nil_r. split; auto. constructor.
  - intros t I. apply in_map_iff in I as (r & <- & I). eapply track_start. apply plain_rpc. exact I.
  - intros w E. injection E as <-. eapply track_start. apply plain_caches.
Qed.
Lemma unit_tracked lo rs c clk u xs m : lo <= 15 -> lined lo c u -> exec xs (serve rs c clk) = Some m ->
  exists u' k' wait, inv (c_log c) rs wait m /\ tracks lo rs (c_log c) Idle u u' k' m.
Proof.
  intros Lo L E. eapply tracks_run; eauto; [apply inv_init; reflexivity|apply tracks_init; auto].
Qed.
