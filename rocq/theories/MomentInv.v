(** What was in a cache at the moments when nobody was writing it, in every interleaving (C77). *)
From Verif Require Import ProofBase Proto SpecProto SpecFrame SpecConn SpecLayout SpecServer ProtoProofs Scanner Conn ReadProofs Proc Lib QueryProofs
  FrameLemmas Server ServerProofs ServerLemmas Machine SpecMachine MachineBase ThreadLogic MachineInv MachineClaims SpecFresh FreshLogic FreshInv OwnLogic OwnInv MomentLogic.

(** ** fetches in parts of a log *)
Lemma replies_parts req b : forall a, exists st, replies_to req (a ++ b) = replies_to req a ++ st ++ replies_to req b.
Proof.
  induction a as [|x a (st & IH)]; [exists []; reflexivity|].
  assert (Sp : forall z, exists w, replies_to req (x :: z) = w ++ replies_to req z).
  { intros z. destruct z as [|[|[|] p [|]] [|[|] z]]; try (exists []; reflexivity).
    cbn [replies_to]. destruct (_ && _); [exists [p_data p]|exists []]; reflexivity. }
  destruct a as [|y [|z a]].
  - destruct (Sp b) as (w & Ew). exists w. exact Ew.
  - destruct (Sp ([y] ++ b)) as (w & Ew). exists (w ++ st). change ((x :: [y]) ++ b) with (x :: ([y] ++ b)). rewrite Ew, IH.
    assert (E : replies_to req [x; y] = [] /\ replies_to req [y] = []) by (split; [cbn [replies_to]; destruct y as [|[|] ? [|]]; reflexivity|reflexivity]).
    destruct E as [-> ->]. cbn [app]. rewrite <- app_assoc. reflexivity.
  - exists st. change ((x :: y :: z :: a) ++ b) with (x :: y :: z :: (a ++ b)).
    change ((y :: z :: a) ++ b) with (y :: z :: (a ++ b)) in IH.
    assert (H : forall t, replies_to req (x :: y :: z :: t) = match y, z with
      | Rd true p None, Wr c r2 => if ok_io x (framed req []) && ok_io (Wr c r2) ack_seq && (w_n r2 =? 2) && (p_cmd p =? (req + 1) mod 256)
          then p_data p :: replies_to req (y :: z :: t) else replies_to req (y :: z :: t)
      | _, _ => replies_to req (y :: z :: t)
      end) by (intros t; destruct y as [|[|] ? [|]], z as [|[|] ? [|]]; reflexivity).
    rewrite !H, IH. destruct y as [|[|] p [|]], z as [c r2|]; try reflexivity. destruct (_ && _); reflexivity.
Qed.
Lemma fetched_parts k a b : exists st, fetched k (a ++ b) = fetched k a ++ st ++ fetched k b.
Proof.
  unfold fetched. destruct (replies_parts (request k) b a) as (st & ->). exists (filter (accepted k) st). rewrite !filter_app. reflexivity.
Qed.
Lemma fetched_in k a x b pl : In pl (fetched k x) -> In pl (fetched k (a ++ x ++ b)).
Proof.
  intros I. destruct (fetched_parts k a (x ++ b)) as (s1 & ->). destruct (fetched_parts k x b) as (s2 & ->).
  rewrite !in_app_iff. auto.
Qed.

Section Watch.
Context (k : cache) (arm : option nat).
(** Fetched after the first [n] steps of the log. *)
Definition newer (n : nat) (l : list io) (v : rec) : Prop := exists pl, In pl (fetched k (skipn n l)) /\ decodes k pl = Some v.
Definition since (l : list io) (v : rec) : Prop :=
  (v = blank k \/ newer 0 l v) /\ forall n, arm = Some n -> (n <= length l)%nat /\ newer n l v.
Lemma newer_more n l more v : (n <= length l)%nat -> newer n l v -> newer n (l ++ more) v.
Proof.
  intros L (pl & I & D). exists pl. split; auto. rewrite skipn_app. replace (n - length l)%nat with 0%nat by lia. cbn [skipn].
  apply (fetched_in k [] _ more). auto.
Qed.
Lemma since_more l more v : since l v -> since (l ++ more) v.
Proof.
  intros [B S]. split; [destruct B; [auto|right; apply newer_more; auto; lia]|].
  intros n E. destruct (S n E). split; [rewrite app_length; lia|]. apply newer_more; auto.
Qed.

Definition watched {A} (tr : bool) (L0 : list io) (Hist : moments) (g : mem) (t : thread A) (R : list (list io) -> moments -> A -> Prop) : Prop :=
  exists kn ls ls0 v0 x H, (tr = true -> within H Hist) /\ NoDup (wl (t_h t)) /\ (kn <> None -> In (LPm, true) (t_h t)) /\
    (In (LC k, true) (t_h t) -> cached (g_sh g) k = x /\ exists la s l, log g = la ++ s ++ part kn /\ ls = ls0 ++ l /\ embedded l s /\ since la v0) /\
    (tr = true -> exists s, log g = L0 ++ s ++ part kn /\ embedded ls s) /\
    tg k (t_h t) kn ls ls0 v0 x H (t_p t) (fun h' kn' ls' _ _ _ H' a => h' = [] /\ (tr = true -> kn' = None /\ R ls' H' a)).
Definition rests (hs : list held) (g : mem) : Prop := rfree hs (LC k) = true -> since (log g) (cached (g_sh g) k).
Definition effect {A} (t t' : thread A) (g g' : mem) : Prop :=
  writes_only t g g' /\
  (~ In (LC k, true) (t_h t) -> cached (g_sh g') k = cached (g_sh g) k) /\
  (In (LC k, true) (t_h t) -> ~ In (LC k, true) (t_h t') -> since (log g') (cached (g_sh g') k)).

Lemma cached_kind s c : kind c (cached s c).
Proof. destruct c; exact I. Qed.
Lemma watched_step {A} hs (t t' : thread A) tr L0 (Hist : moments) g g' R :
  watched tr L0 Hist g t R -> tstep hs t g = Some (t', g') -> In (t_h t) hs -> rests hs g ->
  (tr = true -> rfree hs (LC k) = true -> forall ls s, log g = L0 ++ s -> embedded ls s -> Hist ls (cached (g_sh g) k)) ->
  (tr = true -> In (LC k, true) (t_h t) -> ~ In (LC k, true) (t_h t') -> forall ls s, log g' = L0 ++ s -> embedded ls s -> Hist ls (cached (g_sh g') k)) ->
  watched tr L0 Hist g' t' R /\ effect t t' g g'.
Proof.
  intros (kn & ls & ls0 & v0 & x & H & HH & Nd & Vp & Vx & Vt & F) St Ih Co HL HU.
  destruct t as [p h]. unfold tstep in St. cbn [t_p t_h] in *.
  assert (Wo : writes_only (mkThread p h) g g) by (exists []; rewrite app_nil_r; auto).
  assert (Same : forall t1 : thread A, t_h t1 = h -> effect (mkThread p h) t1 g g).
  { intros t1 E1. unfold effect. cbn [t_h]. rewrite E1. split; [exact Wo|]. split; [auto|intros; contradiction]. }
  destruct p as [a| |l q|l q|l q|l q|bs q|e q|q|f q|q|d q|c q|q|b q]; cbn [tg] in F; try discriminate.
  - (* Lock *)
    destruct (free hs l) eqn:Fr; [|discriminate]. injection St as <- <-.
    rewrite free_in in Fr. assert (Nl : ~ In l (wl h)).
    { intros I. apply in_map_iff in I as ([l1 b] & E & I). cbn in E. subst l1. apply filter_In in I as [I _]. exact (Fr h b Ih I). }
    split; [|unfold effect; cbn [t_h]; split; [exact Wo|split; [auto|]]; intros I N; destruct N; right; auto].
    destruct (is_pm l) eqn:P.
    + destruct l; try discriminate. destruct F as [-> F]. exists (Some []), ls, ls0, v0, x, H. cbn [t_h t_p part] in *.
      split; [auto|]. split; [constructor; auto|]. split; [left; auto|]. split; [|split; [exact Vt|exact F]].
      intros [I|I]; [discriminate|]. exact (Vx I).
    + destruct (lock_eqb l (LC k)) eqn:E.
      * apply lock_eqb_eq in E. subst l. destruct F as [-> F].
        assert (Rf : rfree hs (LC k) = true) by (rewrite rfree_in; intros; apply Fr; auto).
        exists None, ls, ls, (cached (g_sh g) k), (cached (g_sh g) k), (if tr then Hist else fun _ _ => True). cbn [t_h t_p part] in *.
        split; [intros ->; apply within_refl|]. split; [constructor; auto|]. split; [congruence|]. split; [|split; [exact Vt|]].
        -- intros _. split; auto. exists (log g), [], []. rewrite !app_nil_r. splits; auto. constructor.
        -- apply F; auto using cached_kind.
           ++ destruct tr; [auto|]. intros ? ? ?. exact I.
           ++ destruct tr; [|exact I]. destruct (Vt eq_refl) as (s & Es & Em). rewrite app_nil_r in Es. eauto.
      * assert (D : l <> LC k) by (intros ->; rewrite lock_eqb_refl in E; discriminate).
        exists kn, ls, ls0, v0, x, H. cbn [t_h t_p]. split; [auto|]. split; [constructor; auto|]. split; [right; auto|]. split; [|auto].
        intros [I|I]; [congruence|]. exact (Vx I).
  - (* Unlock *)
    destruct F as (h' & -> & F). rewrite release_head in St. injection St as <- <-.
    change (wl ((l, true) :: h')) with (l :: wl h') in Nd. apply NoDup_cons_iff in Nd as [Nl Nd].
    assert (Np : ~ In (l, true) h') by (intros X; apply Nl; eapply in_fst; eauto).
    destruct (is_pm l) eqn:P.
    + destruct l; try discriminate. destruct F as (y & -> & F). split.
      * exists None, (ls ++ [y]), ls0, v0, x, H. cbn [t_h t_p part] in *. split; [auto|]. split; [auto|]. split; [congruence|]. split; [|split; [|exact F]].
        -- intros I. destruct (Vx (or_intror I)) as (Ex & la & s & l & El & -> & Em & Sv). split; auto.
           exists la, (s ++ y), (l ++ [y]). rewrite app_nil_r. split; [exact El|]. split; [rewrite <- app_assoc; auto|]. split; [apply embedded_snoc; auto|exact Sv].
        -- intros Ht. destruct (Vt Ht) as (s & Es & Em). exists (s ++ y). rewrite app_nil_r. split; auto using embedded_snoc.
      * unfold effect. cbn [t_h]. split; [exact Wo|]. split; [auto|]. intros [I|I] N; [discriminate|contradiction].
    + destruct (lock_eqb l (LC k)) eqn:E.
      * apply lock_eqb_eq in E. subst l. destruct F as (-> & Wv & F). destruct (Vx (or_introl eq_refl)) as (Ex & la & s & l & El & El2 & Em & Sv).
        cbn [part] in *. rewrite app_nil_r in El. split.
        -- exists None, ls, ls0, v0, x, (if tr then Hist else fun _ _ => True). cbn [t_h t_p part] in *.
           split; [intros ->; apply within_refl|]. split; [auto|]. split; [congruence|]. split; [intros; contradiction|]. split; [exact Vt|].
           apply F.
           ++ destruct tr; [auto|]. intros ? ? ?. exact I.
           ++ destruct tr; [|exact I]. destruct (Vt eq_refl) as (s' & Es & Em'). rewrite app_nil_r in Es. rewrite <- Ex.
              apply (HU eq_refl (or_introl eq_refl) Np ls s'); auto.
        -- unfold effect. cbn [t_h]. split; [exact Wo|]. split; [intros N; destruct N; left; auto|]. intros _ _. rewrite Ex, El.
           destruct Wv as [->|(y & pl & Ey & Ip & D)]; [apply since_more; auto|].
           rewrite El2 in Ey. apply app_inv_head in Ey. subst l. inversion Em as [|? ? a b Em2]; subst.
           destruct Sv as [_ Sv]. split; [right; exists pl; split; auto; cbn [skipn]; rewrite app_assoc; apply fetched_in; auto|].
           intros n En. destruct (Sv n En) as [Ln _]. split; [rewrite app_length; lia|]. exists pl. split; auto.
           rewrite skipn_app. replace (n - length la)%nat with 0%nat by lia. cbn [skipn]. rewrite app_assoc. apply fetched_in. auto.
      * assert (D : l <> LC k) by (intros ->; rewrite lock_eqb_refl in E; discriminate). split.
        -- exists kn, ls, ls0, v0, x, H. cbn [t_h t_p]. split; [auto|]. split; [auto|]. split; [|split; [|auto]].
           ++ intros N. destruct (Vp N) as [I|I]; [injection I as ->; discriminate|auto].
           ++ intros I. exact (Vx (or_intror I)).
        -- unfold effect. cbn [t_h]. split; [exact Wo|]. split; [auto|]. intros [I|I] N; [congruence|contradiction].
  - (* RLock *)
    destruct (rfree hs l) eqn:Fr; [|discriminate]. injection St as <- <-.
    assert (Ix : forall l', In (l', true) ((l, false) :: h) <-> In (l', true) h).
    { intros l'. split; [intros [I|I]; [congruence|auto]|right; auto]. }
    split.
    + exists kn, ls, ls0, v0, x, H. cbn [t_h t_p]. split; [auto|]. split; [exact Nd|]. split; [rewrite Ix; exact Vp|]. split; [rewrite Ix; exact Vx|]. auto.
    + unfold effect. cbn [t_h]. split; [exact Wo|]. split; [auto|]. rewrite ?Ix. intros; contradiction.
  - (* RUnlock *)
    destruct F as (h' & -> & F). rewrite release_head_f in St. injection St as <- <-.
    change (wl ((l, false) :: h')) with (wl h') in Nd.
    assert (Ix : forall l', In (l', true) ((l, false) :: h') <-> In (l', true) h').
    { intros l'. split; [intros [I|I]; [congruence|auto]|right; auto]. }
    rewrite !Ix in *. split.
    + exists kn, ls, ls0, v0, x, H. cbn [t_h t_p]. splits; auto.
    + unfold effect. cbn [t_h]. split; [exact Wo|]. split; [auto|]. rewrite ?Ix. intros; contradiction.
  - (* WriteC *)
    destruct F as (y & -> & F). destruct (conn_write (g_conn g) bs) as [r cn] eqn:W. injection St as <- <-. apply write_log in W. split.
    + exists (Some (y ++ [Wr bs r])), ls, ls0, v0, x, H. cbn [t_h t_p g_sh g_conn part] in *. split; [auto|]. split; [auto|]. split; [intros _; apply Vp; discriminate|].
      split; [|split; [|apply F]].
      * intros I. destruct (Vx I) as (Ex & la & s & l & El & El2 & Em & Sv). split; auto. exists la, s, l. rewrite W, El, <- !app_assoc. auto.
      * intros Ht. destruct (Vt Ht) as (s & Es & Em). exists s. rewrite W, Es, <- !app_assoc. auto.
    + unfold effect. cbn [t_h g_sh]. split; [|split; [auto|intros; contradiction]].
      exists [Wr bs r]. cbn [t_h g_conn]. split; auto. right. apply Vp. discriminate.
  - (* ReadC *)
    destruct F as (y & -> & F). destruct (ReadPacket (g_conn g) e) as [o cn] eqn:W.
    pose proof (read_packet_inv _ _ _ _ W) as (_ & p & r & _ & _ & -> & _). injection St as <- <-.
    apply read_log in W as [W Z]. split.
    + exists (Some (y ++ [Rd e p r])), ls, ls0, v0, x, H. cbn [t_h t_p g_sh part] in *. split; [auto|]. split; [auto|]. split; [intros _; apply Vp; discriminate|].
      split; [|split; [|apply F; auto]].
      * intros I. destruct (Vx I) as (Ex & la & s & l & El & El2 & Em & Sv). split; auto. exists la, s, l. cbn [g_conn]. rewrite W, El, <- !app_assoc. auto.
      * intros Ht. destruct (Vt Ht) as (s & Es & Em). exists s. cbn [g_conn]. rewrite W, Es, <- !app_assoc. auto.
    + unfold effect. cbn [t_h g_sh]. split; [|split; [auto|intros; contradiction]].
      exists [Rd e p r]. cbn [t_h g_conn]. split; auto. right. apply Vp. discriminate.
  - (* Get *)
    injection St as <- <-. split; [|apply Same; reflexivity]. exists kn, ls, ls0, v0, x, H. cbn [t_h t_p]. splits; auto.
    apply F. intros M. apply Vx. apply holds_in. auto.
  - (* Put *)
    destruct F as (x' & F1 & F2 & F). injection St as <- <-. split.
    + exists kn, ls, ls0, v0, x', H. cbn [t_h t_p g_sh g_conn]. splits; auto. intros I. destruct (Vx I) as (Ex & Rest). split; [|exact Rest].
      apply F1; auto. apply holds_in. auto.
    + unfold effect. cbn [t_h g_sh g_conn]. split; [exists []; rewrite app_nil_r; auto|]. split; [|intros; contradiction]. intros X. apply F2, holds_not. auto.
  - injection St as <- <-. split; [|apply Same; reflexivity]. exists kn, ls, ls0, v0, x, H. cbn [t_h t_p]. splits; auto.
  - injection St as <- <-. split; [|apply Same; reflexivity]. exists kn, ls, ls0, v0, x, H. cbn [t_h t_p]. splits; auto.
Qed.
Lemma watched_other {A B} (t t' : thread A) (u : thread B) tr L0 Hist g g' R :
  effect t t' g g' -> (forall l b, In (l, true) (t_h t) -> ~ In (l, b) (t_h u)) -> watched tr L0 Hist g u R -> watched tr L0 Hist g' u R.
Proof.
  intros ((more & Lg & M) & O & _) D (kn & ls & ls0 & v0 & x & H & HH & Nd & Vp & Vx & Vt & F). exists kn, ls, ls0, v0, x, H.
  assert (Ms : kn <> None -> more = []).
  { intros N. destruct M as [M|M]; auto. destruct (D LPm true M). auto. }
  split; [auto|]. split; [auto|]. split; [auto|]. split; [|split; [|auto]].
  - intros I. destruct (Vx I) as (Ex & la & s & l & El & El2 & Em & Sv). split.
    + rewrite O; auto. intros X. exact (D _ _ X I).
    + destruct kn as [y|].
      * rewrite Ms in Lg by discriminate. rewrite app_nil_r in Lg. rewrite Lg. exists la, s, l. auto.
      * exists la, (s ++ more), l. rewrite Lg, El. cbn [part]. rewrite !app_nil_r, <- app_assoc. splits; auto using embedded_right.
  - intros Ht. destruct (Vt Ht) as (s & Es & Em). destruct kn as [y|].
    + rewrite Ms in Lg by discriminate. rewrite app_nil_r in Lg. rewrite Lg. exists s. auto.
    + exists (s ++ more). rewrite Lg, Es. cbn [part]. rewrite !app_nil_r, <- app_assoc. split; auto using embedded_right.
Qed.
Lemma watched_start {A} tr Hist g (p : sproc A) R : tells k [] p R -> watched tr (log g) Hist g (mkThread p []) (fun l N a => R l N a).
Proof.
  intros Y. exists None, [], [], (blank k), (blank k), (fun _ _ => False). cbn [t_h t_p]. split; [intros _ ? ? []|]. split; [constructor|].
  split; [congruence|]. split; [intros []|]. split; [intros _; exists []; cbn; rewrite app_nil_r; split; auto; constructor|].
  eapply tg_weaken; [|apply Y; reflexivity]. cbn beta. intros h' kn' ls' _ _ _ H' a _ (-> & -> & l & -> & HR). split; [auto|]. intros _. split; [auto|]. apply HR. auto.
Qed.
Lemma watched_false {A} L0 Hist g (t : thread A) tr L0' Hist' R R' : watched tr L0 Hist g t R -> watched false L0' Hist' g t R'.
Proof.
  intros (kn & ls & ls0 & v0 & x & H & HH & Nd & Vp & Vx & Vt & F). exists kn, ls, ls0, v0, x, H. splits; auto; try discriminate.
  eapply tg_weaken; [|exact F]. cbn beta. intros h' kn' ls' _ _ _ H' a _ [-> _]. split; [auto|discriminate].
Qed.
Lemma rests_step {A} hs n (t t' : thread A) g g' :
  nth_error hs n = Some (t_h t) -> rests hs g -> effect t t' g g' -> rests (set_nth n (t_h t') hs) g'.
Proof.
  intros N Co ((more & Lg & _) & O & G) Fr. rewrite rfree_in in Fr.
  destruct (holds (t_h t) (LC k) true) eqn:Hd.
  - apply holds_in in Hd. apply G; auto. apply Fr. eapply nth_error_In. eapply nth_set_same; eauto.
  - apply holds_not in Hd. rewrite (O Hd), Lg. apply since_more. apply Co. rewrite rfree_in. intros h I.
    apply In_nth_error in I as (j & J). destruct (Nat.eq_dec n j) as [<-|D].
    + rewrite N in J. injection J as <-. auto.
    + apply Fr. eapply nth_error_In. rewrite nth_set_other; eauto.
Qed.
End Watch.

Lemma got_mono k l (N N' : moments) : within N N' -> got k l N -> got k l N'.
Proof. intros W G. rewrite <- (app_nil_r l). eapply got_left; eauto. Qed.
Lemma told_mono k r l (N N' : moments) a : within N N' -> told k r l N a -> told k r l N' a.
Proof.
  intros W [T1 T2]. split.
  - intros M I. destruct (T1 M I) as (l1 & x & l2 & cmd & data & p & E & C & X & G). exists l1, x, l2, cmd, data, p. splits; auto.
    eapply got_mono; [|exact G]. intros z v. apply W.
  - intros E. destruct (T2 E) as (v & Nv & K & Ea). eauto.
Qed.
Lemma rest_free (m : machine resp) k : at_rest m k <-> rfree (hs_of m) (LC k) = true.
Proof.
  rewrite rfree_in. unfold at_rest, hs_of. split.
  - intros [R1 R2] h [<-|I].
    + unfold wk_h. destruct (m_wk m) as [w|] eqn:W; [apply R2; auto|intros []].
    + apply in_map_iff in I as (t & <- & I). auto.
  - intros F. split.
    + intros t I. apply F. right. apply in_map. auto.
    + intros t E. apply F. left. unfold wk_h. rewrite E. reflexivity.
Qed.

Lemma set_nth_same {T} (l : list T) : forall i x, nth_error l i = Some x -> set_nth i x l = l.
Proof. induction l as [|y l IH]; intros [|i] x E; cbn in *; try discriminate; [congruence|]. rewrite IH; auto. Qed.

(** ** the whole server: goroutine [i] with request [r] is followed *)
Section Follow.
Context (k : cache) (arm : option nat) (on : bool) (L0 : list io) (i : nat) (r : rpc) (Mo : machine resp -> Prop).
Definition hist : moments := fun ls v =>
  exists ma s, Mo ma /\ at_rest ma k /\ cached (g_sh (m_g ma)) k = v /\ log (m_g ma) = L0 ++ s /\ embedded ls s.
Definition fetches (l : list (list io)) (N : moments) : Prop := match r with FlushCacheR t => In k (flushes t) -> got k l N | _ => True end.
Definition done_flush (g : mem) (t : thread resp) : Prop :=
  forall a, t_p t = Ret a -> exists s ls, log g = L0 ++ s /\ embedded ls s /\ fetches ls hist.
Definition waited (wait : option nat) : bool := match wait with Some j => on && (is_flush r && Nat.eqb i j) | None => false end.
Definition watches (wait : option nat) (m : machine resp) : Prop :=
  rests k arm (hs_of m) (m_g m) /\
  (forall j t, nth_error (m_ts m) j = Some t ->
     watched k arm (on && (Nat.eqb j i && negb (is_flush r))) L0 hist (m_g m) t (told k r) /\
     (on = true -> j = i -> is_flush r = true -> done_flush (m_g m) t)) /\
  match m_wk m with
  | Some w => watched k arm (waited wait) L0 hist (m_g m) w (fun l N _ => fetches l N)
  | None => True
  end.
Lemma done_more g g' more t : log g' = log g ++ more -> done_flush g t -> done_flush g' t.
Proof.
  intros E S a Ha. destruct (S a Ha) as (s & ls & Es & Em & D). exists (s ++ more), ls. rewrite E, Es, app_assoc. auto using embedded_right.
Qed.
Lemma hist_at m ls v s : Mo m -> rfree (hs_of m) (LC k) = true -> cached (g_sh (m_g m)) k = v -> log (m_g m) = L0 ++ s -> embedded ls s -> hist ls v.
Proof. intros M F E El Em. exists m, s. splits; auto. apply rest_free. auto. Qed.

Lemma watches_step L1 rs wait wait' m x m' : (on = true -> nth_error rs i = Some r) -> inv L1 rs wait m -> watches wait m -> exec1 m x = Some m' ->
  next wait x = Some wait' -> (on = true -> exists s, log (m_g m) = L0 ++ s) -> (on = true -> Mo m) -> (on = true -> Mo m') ->
  watches wait' m'.
Proof.
  intros Ri Iv (Co & Th & Wk) H Nx Fl Mm Mm'. destruct Iv as (Ln & X & _ & Tok & Wok). destruct x as [j| |d|tk|j|j]; cbn [exec1] in H.
  - (* Run *)
    assert (wait' = wait) as -> by (destruct wait; cbn in Nx; congruence).
    destruct (nth_error (m_ts m) j) as [t|] eqn:Nj; [|discriminate]. rewrite tstep_hs in H.
    destruct (tstep (hs_of m) t (m_g m)) as [[t' g']|] eqn:S; [|discriminate]. injection H as <-.
    assert (Nh : nth_error (hs_of m) (Datatypes.S j) = Some (t_h t)) by (cbn; rewrite nth_error_map, Nj; reflexivity).
    destruct (Th _ _ Nj) as [Tj Sj].
    assert (Hs : hs_of (mkMachine g' (set_nth j t' (m_ts m)) (m_wk m)) = set_nth (Datatypes.S j) (t_h t') (hs_of m))
      by (unfold hs_of, wk_h; cbn [m_wk m_ts set_nth]; rewrite set_nth_map; reflexivity).
    destruct (watched_step k arm (hs_of m) t t' _ _ _ _ _ _ Tj S (nth_error_In _ _ Nh) Co) as [T' W].
    { intros E F ls s Es Em. apply andb_true_iff in E as [E _]. eapply hist_at; eauto. }
    { intros E Ih Nh' ls s Es Em. apply andb_true_iff in E as [E _]. specialize (Mm' E). eapply (hist_at _ _ _ _ Mm'); eauto.
      rewrite Hs, rfree_in. intros h I. apply In_nth_error in I as (n & I). apply nth_set_cases in I as [(_ & -> & _)|[Dn I]]; [auto|].
      eapply (X (Datatypes.S j) n); eauto. }
    unfold watches. rewrite Hs. cbn [m_ts m_g m_wk]. split; [eapply rests_step; eauto|]. split.
    + intros q tq Tq. apply nth_set_cases in Tq as [(<- & -> & _)|[Dj Tq]].
      * split; [exact T'|]. intros On -> Hf. exfalso. unfold is_flush in Hf. specialize (Ri On). destruct r; try discriminate.
        specialize (Tok _ _ _ Ri Nj). cbn [thread_ok] in Tok. destruct t as [p h]. cbn [t_p t_h] in Tok.
        destruct Tok as (_ & [[_ ->]|[[_ ->]|[_ ->]]]); cbn in S; discriminate.
      * destruct (Th _ _ Tq) as [Oq Sq]. split.
        -- eapply watched_other; [exact W| |exact Oq]. intros l b I. eapply (X (Datatypes.S j) (Datatypes.S q)); eauto. cbn. rewrite nth_error_map, Tq. reflexivity.
        -- intros On E Hf. destruct W as ((more & Lg & _) & _). eapply done_more; eauto.
    + destruct (m_wk m) as [w|] eqn:Ew; auto. eapply watched_other; [exact W| |exact Wk]. intros l b I. eapply (X (Datatypes.S j) 0%nat); eauto.
      cbn. unfold wk_h. rewrite Ew. reflexivity.
  - (* RunWk *)
    assert (wait' = wait) as -> by (destruct wait; cbn in Nx; congruence).
    destruct (m_wk m) as [w|] eqn:W; [|discriminate]. destruct w as [p h]. cbn [t_p t_h] in H.
    assert (Cs : (p = Ret tt /\ h = [] /\ m' = mkMachine (m_g m) (m_ts m) None) \/
      exists t' g', tstep (hs_of m) (mkThread p h) (m_g m) = Some (t', g') /\ m' = mkMachine g' (m_ts m) (Some t')).
    { destruct p as [[]| | | | | | | | | | | | | |]; try destruct h; 
        try (rewrite tstep_hs in H; destruct (tstep (hs_of m) _ (m_g m)) as [[t' g']|]; [|discriminate]; injection H as <-; eauto; fail).
      injection H as <-. auto. }
    clear H. assert (Nh : nth_error (hs_of m) 0 = Some h) by (cbn; unfold wk_h; rewrite W; reflexivity).
    destruct Cs as [(-> & -> & ->)|(t' & g' & S & ->)].
    + split; [|split; cbn [m_ts m_g m_wk]; auto]. unfold rests, hs_of, wk_h in *. cbn [m_wk m_ts m_g]. rewrite W in Co. exact Co.
    + assert (Hs : hs_of (mkMachine g' (m_ts m) (Some t')) = set_nth 0 (t_h t') (hs_of m)) by reflexivity.
      destruct (watched_step k arm (hs_of m) (mkThread p h) t' _ _ _ _ _ _ Wk S (nth_error_In _ _ Nh) Co) as [T' Wr].
      { intros E F ls s Es Em. unfold waited in E. destruct wait; [|discriminate]. apply andb_true_iff in E as [E _]. eapply hist_at; eauto. }
      { intros E Ih Nh' ls s Es Em. unfold waited in E. destruct wait; [|discriminate]. apply andb_true_iff in E as [E _]. specialize (Mm' E).
        eapply (hist_at _ _ _ _ Mm'); eauto.
        rewrite Hs, rfree_in. intros h' I. apply In_nth_error in I as (n' & I). apply nth_set_cases in I as [(_ & -> & _)|[Dn I]]; [auto|].
        eapply (X 0%nat n'); eauto. }
      unfold watches. rewrite Hs. cbn [m_ts m_g m_wk]. split; [eapply (rests_step k arm _ _ (mkThread p h)); eauto|]. split; [|exact T'].
      intros q tq Tq. destruct (Th _ _ Tq) as [Oq Sq]. split.
      * eapply watched_other; [exact Wr| |exact Oq]. intros l b I. eapply (X 0%nat (Datatypes.S q)); eauto. cbn. rewrite nth_error_map, Tq. reflexivity.
      * intros On E Hf. destruct Wr as ((more & Lg & _) & _). eapply done_more; eauto.
  - (* Pass *)
    assert (wait' = wait) as -> by (destruct wait; cbn in Nx; congruence).
    injection H as <-. split; [exact Co|]. split; cbn [m_ts m_g m_wk]; auto.
  - (* Tick *)
    destruct (m_wk m) eqn:W; [discriminate|]. injection H as <-.
    assert (wait' = None) as -> by (destruct wait; cbn in Nx; congruence).
    split; [|split]; cbn [m_ts m_g m_wk]; auto.
    + unfold rests, hs_of, wk_h in *. cbn [m_wk m_ts m_g t_h]. rewrite W in Co. exact Co.
    + cbn [waited]. eapply (watched_false k arm (log (m_g m)) hist _ _ false). apply watched_start. apply tells_tick.
  - (* Flush *)
    assert (wait' = Some j) as -> by (destruct wait; cbn in Nx; congruence).
    destruct (m_wk m) eqn:W; [discriminate|]. destruct (nth_error (m_ts m) j) as [[p h]|] eqn:Nj; [|discriminate]. cbn [t_p t_h] in H.
    destruct p as [| | | | | | | | | | | |c q| |]; try discriminate. injection H as <-.
    assert (Hs : map t_h (set_nth j (mkThread q h) (m_ts m)) = map t_h (m_ts m)).
    { rewrite set_nth_map. cbn [t_h]. apply set_nth_same. rewrite nth_error_map, Nj. reflexivity. }
    split; [|split]; cbn [m_ts m_g m_wk].
    + unfold rests, hs_of, wk_h in *. cbn [m_wk m_ts m_g t_h]. rewrite W in Co. rewrite Hs. exact Co.
    + intros n tn Tn. apply nth_set_cases in Tn as [(<- & -> & _)|[Dn Tn]]; [|auto].
      destruct (Th _ _ Nj) as [T Sj]. split; [exact T|].
      intros On -> Hf. unfold is_flush in Hf. specialize (Ri On). destruct r; try discriminate. specialize (Tok _ _ _ Ri Nj). cbn [thread_ok t_p t_h] in Tok.
      destruct Tok as (_ & [[_ E]|[[_ E]|[_ E]]]); try discriminate. injection E as _ ->. intros a Ea. discriminate.
    + destruct (waited (Some j)) eqn:Mi.
      * unfold waited in Mi. apply andb_true_iff in Mi as [On Mi]. apply andb_true_iff in Mi as [Hf E]. apply Nat.eqb_eq in E. subst j.
        destruct (Fl On) as (s & Es). specialize (Ri On). unfold is_flush in Hf.
        destruct r as [| | | | | | | | |t0] eqn:Er; try discriminate. specialize (Tok _ _ _ Ri Nj). cbn [thread_ok t_p t_h] in Tok.
        destruct Tok as (_ & [[_ E]|[[_ E]|[_ E]]]); try discriminate. injection E as -> Eq.
        exists None, [], [], (blank k), (blank k), (fun _ _ => False). cbn [t_h t_p]. split; [intros _ ? ? []|]. split; [constructor|].
        split; [congruence|]. split; [intros []|]. split; [intros _; exists s; cbn; rewrite app_nil_r; split; auto; constructor|].
        eapply tg_weaken; [|apply (tells_flush k [] t0); reflexivity]. cbn beta.
        intros h' kn' ls' _ _ _ H' a _ (-> & -> & l & -> & HR). split; [auto|]. intros _. split; [auto|].
        unfold fetches. rewrite Er. apply HR. auto.
      * eapply (watched_false k arm (log (m_g m)) hist _ _ false). apply watched_start. apply tells_flush.
  - (* Succ *)
    destruct (m_wk m) as [[pw hw]|] eqn:W; [|discriminate]. destruct (nth_error (m_ts m) j) as [[p h]|] eqn:Nj; [|discriminate].
    cbn [t_p t_h] in H.
    destruct pw as [| | | | | | | | | | | | | |b kw]; try discriminate.
    destruct p as [| | | | | | | | | | | | |q|]; try discriminate. injection H as <-.
    destruct wait as [j'|]; [|discriminate]. cbn in Nx. destruct (Nat.eqb_spec j j') as [<-|]; [|discriminate]. injection Nx as <-.
    assert (Hs : map t_h (set_nth j (mkThread (q b) h) (m_ts m)) = map t_h (m_ts m)).
    { rewrite set_nth_map. cbn [t_h]. apply set_nth_same. rewrite nth_error_map, Nj. reflexivity. }
    split; [|split]; cbn [m_ts m_g m_wk].
    + unfold rests, hs_of, wk_h in *. cbn [m_wk m_ts m_g t_h]. rewrite W in Co. cbn [t_h] in Co. rewrite Hs. exact Co.
    + intros n tn Tn. apply nth_set_cases in Tn as [(<- & -> & _)|[Dn Tn]]; [|auto].
      destruct (Th _ _ Nj) as [(kn & ls & ls0 & v0 & y & H & T1 & T2 & T3 & T4 & T5 & T6) Sj].
      split; [exists kn, ls, ls0, v0, y, H; cbn [t_p t_h tg] in *; splits; auto|].
      intros On -> Hf. intros a Ea. cbn [t_p] in Ea. unfold waited in Wk. rewrite Nat.eqb_refl, Hf, On in Wk. cbn [andb] in Wk.
      destruct Wk as (kn' & ls' & ls0' & v0' & y' & H' & A1 & _ & _ & _ & A2 & A3). cbn [t_p tg] in A3. destruct (A2 eq_refl) as (s & Es & Em).
      (* the worker is at its last step *)
      destruct Wok as (c & p0 & h0 & Rc & E0 & F0). injection E0 as E0 <-.
      assert (Kw : kw = Ret tt).
      { destruct F0 as (st & kn0 & _ & _ & _ & _ & S0). cbn [t_p] in S0. destruct p0; cbn [bind] in E0; try discriminate.
        - injection E0 as _ ->. reflexivity.
        - cbn [sp] in S0. destruct S0. }
      subst kw. cbn [tg] in A3. destruct A3 as [_ A3]. destruct (A3 eq_refl) as [-> Q]. cbn [part] in Es. rewrite app_nil_r in Es.
      exists s, ls'. split; auto. split; auto. unfold fetches in *. destruct r as [| | | | | | | | |t0]; auto.
      intros I. eapply got_mono; [apply A1; auto|]. auto.
    + cbn [waited]. apply (watched_false k arm L0 hist _ _ (waited (Some j)) L0 hist (fun l N _ => fetches l N)).
      destruct Wk as (kn & ls & ls0 & v0 & y & H & T). exists kn, ls, ls0, v0, y, H. exact T.
Qed.
Lemma watches_run L1 rs : (on = true -> nth_error rs i = Some r) -> forall ys wait m m', inv L1 rs wait m -> watches wait m ->
  (on = true -> exists s, log (m_g m) = L0 ++ s) -> exec ys m = Some m' ->
  (on = true -> forall ys1 ys2 m1, ys = ys1 ++ ys2 -> exec ys1 m = Some m1 -> Mo m1) ->
  exists wait', inv L1 rs wait' m' /\ watches wait' m'.
Proof.
  intros Ri. induction ys as [|x ys IH]; intros wait m m' Iv O Es E M; cbn in E.
  - injection E as <-. eauto.
  - destruct (exec1 m x) as [m1|] eqn:E1; [|discriminate]. destruct (inv_step _ _ _ _ _ _ Iv E1) as (w' & Nx & Iv').
    apply (IH w' m1 m'); auto.
    + apply (watches_step L1 rs wait w' m x m1 Ri Iv O E1 Nx Es).
      * intros On. apply (M On [] (x :: ys) m); reflexivity.
      * intros On. apply (M On [x] ys m1); cbn; [reflexivity|]. rewrite E1. reflexivity.
    + intros On. destruct (Es On) as (s & Es'). destruct (exec1_log _ _ _ E1) as (more & Em). exists (s ++ more). rewrite Em, Es', app_assoc. auto.
    + intros On ys1 ys2 m2 -> E2. apply (M On (x :: ys1) ys2 m2); auto. cbn. rewrite E1. exact E2.
Qed.
End Follow.

(** Any server that has run: nothing is known of the caches' contents, and nobody is followed. *)
Lemma watches_init k rs c clk i r Mo : watches k None false (c_log c) i r Mo None (serve rs c clk).
Proof.
  unfold watches, serve. cbn [m_ts m_g m_wk]. split; [intros _; split; [left; destruct k; reflexivity|discriminate]|]. split.
  - intros j t Tj. rewrite nth_error_map in Tj. destruct (nth_error rs j) as [q|] eqn:Rj; [|discriminate]. injection Tj as <-. split; [|discriminate].
    cbn [andb].
    assert (C : (exists t, q = FlushCacheR t) \/ forall t, q <> FlushCacheR t) by (destruct q; eauto; right; discriminate).
    destruct C as [(t & ->)|C].
    + exists None, [], [], (blank k), (blank k), (fun _ _ => False). cbn [t_h t_p]. split; [discriminate|]. split; [constructor|]. split; [congruence|]. split; [intros []|].
      split; [discriminate|]. cbn. intros b. split; [auto|discriminate].
    + eapply (watched_false k None (log (mkMem c init_shared clk)) (fun _ _ => True) _ _ false). apply watched_start. apply tells_rpc. auto.
  - cbn [waited]. eapply (watched_false k None (log (mkMem c init_shared clk)) (fun _ _ => True) _ _ false). apply watched_start. apply tells_fill.
Qed.
(** Goroutine [i], which has not begun, is followed from now on. *)
Lemma watches_follow k rs c clk xs m0 i r Mo : exec xs (serve rs c clk) = Some m0 -> waits i xs -> nth_error rs i = Some r ->
  exists wait, inv (c_log c) rs wait m0 /\ watches k None true (log (m_g m0)) i r Mo wait m0.
Proof.
  intros Ex W Ri. pose proof (inv_init (c_log c) rs c clk eq_refl) as I0.
  destruct (inv_exec _ _ _ _ _ _ I0 Ex) as (w0 & Nx & I1).
  destruct (watches_run k None false (c_log c) i r (fun _ => True) (c_log c) rs ltac:(discriminate) xs None _ m0 I0 (watches_init k rs c clk i r _))
    as (w1 & _ & Rs & Th & Wk); try discriminate; auto.
  assert (Nw : w0 <> Some i) by (eapply nexts_flush; eauto; discriminate).
  exists w0. split; auto. split; [|split].
  - exact Rs.
  - intros j tj Tj. destruct (Th _ _ Tj) as [Oj _]. destruct (Nat.eqb_spec j i) as [->|D]; [|split; [eapply watched_false; eauto|congruence]].
    assert (C : (exists t, r = FlushCacheR t) \/ forall t, r <> FlushCacheR t) by (destruct r; eauto; right; discriminate).
    destruct C as [(z & ->)|C].
    + cbn [is_flush negb andb]. split; [eapply watched_false; eauto|]. intros _ _ _.
      assert (E : nth_error (m_ts m0) i = Some (mkThread (FlushCache z) [])).
      { eapply not_begun; eauto. unfold serve. cbn [m_ts]. rewrite nth_error_map, Ri. reflexivity. }
      rewrite Tj in E. injection E as ->. intros b E. discriminate.
    + assert (E : nth_error (m_ts m0) i = Some (mkThread (handle r) [])).
      { eapply untouched; eauto using waits_run.
        - intros z q. destruct r; try discriminate; [|edestruct C; reflexivity].
          cbn [handle]. unfold SetFanProfileRPC. destruct (_ || _); [discriminate|]. destruct (_ || _); discriminate.
        - intros q. destruct r; try discriminate.
          cbn [handle]. unfold SetFanProfileRPC. destruct (_ || _); [discriminate|]. destruct (_ || _); discriminate.
        - unfold serve. cbn [m_ts]. rewrite nth_error_map, Ri. reflexivity. }
      rewrite Tj in E. injection E as ->. split.
      * apply watched_start. apply tells_rpc. auto.
      * intros _ _ Hf. exfalso. destruct r; try discriminate. edestruct C. reflexivity.
  - destruct (m_wk m0); auto. assert (E : waited true i r w0 = false).
    { unfold waited. destruct w0 as [j|]; auto. destruct (Nat.eqb_spec i j) as [->|]; [congruence|]. rewrite andb_false_r. reflexivity. }
    rewrite E. eapply watched_false; eauto.
Qed.

(** Moments of the run [ys] from [m0]. *)
Definition during (m0 : machine resp) (ys : list item) (m : machine resp) : Prop := exists ys1 ys2, ys = ys1 ++ ys2 /\ exec ys1 m0 = Some m.
Lemma request_told k rs c clk xs m0 ys m i r a :
  exec xs (serve rs c clk) = Some m0 -> waits i xs -> exec ys m0 = Some m -> nth_error rs i = Some r -> answered m i a ->
  exists s ls, log (m_g m) = log (m_g m0) ++ s /\ embedded ls s /\
    ((forall t, r <> FlushCacheR t) -> told k r ls (hist k (log (m_g m0)) (during m0 ys)) a) /\
    (forall t, r = FlushCacheR t -> In k (flushes t) -> got k ls (hist k (log (m_g m0)) (during m0 ys))).
Proof.
  intros Ex W Ey Ri (t & Ti & Tp).
  destruct (watches_follow k rs c clk xs m0 i r (during m0 ys) Ex W Ri) as (w0 & I0 & W0).
  destruct (watches_run k None true _ i r _ (c_log c) rs (fun _ => Ri) ys w0 m0 m I0 W0) as (w1 & I1 & _ & Th & _); auto.
  { intros _. exists []. rewrite app_nil_r. auto. }
  { intros _ ys1 ys2 m1 E1 E2. exists ys1, ys2. auto. }
  destruct (Th _ _ Ti) as [Oi Di]. rewrite Nat.eqb_refl in Oi. cbn [andb] in Oi. destruct (is_flush r) eqn:Hf.
  - destruct (Di eq_refl eq_refl eq_refl a Tp) as (s & ls & Es & Em & D). exists s, ls. split; [auto|]. split; [auto|]. unfold fetches in D.
    destruct r as [| | | | | | | | |t0]; try discriminate. split; [intros N; edestruct N; reflexivity|]. intros t1 E. injection E as ->. auto.
  - destruct Oi as (kn & ls & ls0 & v0 & y & H & A1 & _ & _ & _ & A2 & A3). rewrite Tp in A3. cbn [tg] in A3. destruct A3 as [_ A3].
    destruct (A3 eq_refl) as [-> T]. destruct (A2 eq_refl) as (s & Es & Em). cbn [part] in Es. rewrite app_nil_r in Es.
    exists s, ls. split; [auto|]. split; [auto|]. split; [intros _; eapply told_mono; [apply A1; auto|exact T]|].
    intros t0 ->. discriminate.
Qed.
(** What is in the cache at rest is never replaced by something older. *)
Lemma stays_newer k rs c clk xs ma n ys mb : exec xs (serve rs c clk) = Some ma -> at_rest ma k -> (n <= length (log (m_g ma)))%nat ->
  newer k n (log (m_g ma)) (cached (g_sh (m_g ma)) k) -> exec ys ma = Some mb -> at_rest mb k -> newer k n (log (m_g mb)) (cached (g_sh (m_g mb)) k).
Proof.
  intros Ex Ra Ln Na Ey Rb. pose proof (inv_init (c_log c) rs c clk eq_refl) as I0.
  destruct (inv_exec _ _ _ _ _ _ I0 Ex) as (w0 & Nx & I1).
  destruct (watches_run k None false (c_log c) 0 (FlushCacheR 0) (fun _ => True) (c_log c) rs ltac:(discriminate) xs None _ ma I0 (watches_init k rs c clk _ _ _))
    as (w1 & I1' & Rs & Th & Wk); try discriminate; auto.
  assert (Fr : rfree (hs_of ma) (LC k) = true) by (apply rest_free; auto). rewrite rfree_in in Fr.
  assert (Arm : forall A (t : thread A) tr L0 Hi R, watched k None tr L0 Hi (m_g ma) t R -> ~ In (LC k, true) (t_h t) -> watched k (Some n) tr L0 Hi (m_g ma) t R).
  { intros A t tr L0 Hi R (kn & ls & ls0 & v0 & y & H & A1 & A2 & A3 & A4 & A5 & A6) N. exists kn, ls, ls0, v0, y, H. splits; auto. intros I; contradiction. }
  assert (W1 : watches k (Some n) false (c_log c) 0 (FlushCacheR 0) (fun _ => True) w1 ma).
  { split; [|split].
    - intros F. destruct (Rs F) as [B _]. split; [exact B|]. intros n' E. injection E as <-. auto.
    - intros j t Tj. destruct (Th _ _ Tj) as [Oj _]. split; [|discriminate]. apply Arm; auto. apply Fr. right. apply in_map. eapply nth_error_In; eauto.
    - destruct (m_wk ma) as [w|] eqn:Ew; auto. apply Arm; auto. apply Fr. left. unfold wk_h. rewrite Ew. reflexivity. }
  destruct (watches_run k (Some n) false (c_log c) 0 (FlushCacheR 0) (fun _ => True) (c_log c) rs ltac:(discriminate) ys w1 ma mb I1' W1)
    as (w2 & _ & Rs2 & _); try discriminate; auto.
  apply (Rs2 (proj1 (rest_free mb k) Rb)). reflexivity.
Qed.
Lemma rest_content k rs c clk xs ma : exec xs (serve rs c clk) = Some ma -> at_rest ma k ->
  cached (g_sh (m_g ma)) k = blank k \/ newer k 0 (log (m_g ma)) (cached (g_sh (m_g ma)) k).
Proof.
  intros Ex Ra. pose proof (inv_init (c_log c) rs c clk eq_refl) as I0.
  destruct (watches_run k None false (c_log c) 0 (FlushCacheR 0) (fun _ => True) (c_log c) rs ltac:(discriminate) xs None _ ma I0 (watches_init k rs c clk _ _ _))
    as (w1 & _ & Rs & _); try discriminate; auto.
  apply (Rs (proj1 (rest_free ma k) Ra)).
Qed.
