(** What a request does on the connection, in every interleaving (C76). *)
From Verif Require Import ProofBase Proto SpecProto SpecFrame SpecConn SpecLayout SpecServer ProtoProofs Scanner Conn ReadProofs Proc Lib QueryProofs
  FrameLemmas Server ServerProofs ServerLemmas Machine SpecMachine MachineBase ThreadLogic MachineInv MachineClaims SpecFresh FreshLogic FreshInv OwnLogic.

Notation log g := (c_log (g_conn g)).

Lemma embedded_right ls s : embedded ls s -> forall t, embedded ls (s ++ t).
Proof. induction 1; intros t; [constructor|]. rewrite <- !app_assoc. constructor. auto. Qed.
Lemma embedded_snoc ls s : embedded ls s -> forall x, embedded (ls ++ [x]) (s ++ x).
Proof.
  induction 1 as [l|y ys a l _ IH]; intros x.
  - cbn. rewrite <- (app_nil_r x) at 2. constructor. constructor.
  - cbn [app]. rewrite <- !app_assoc. constructor. auto.
Qed.
Lemma release_keeps h l b h' x : release h l b = Some h' -> In x h -> x <> (l, b) -> In x h'.
Proof.
  revert h'. induction h as [|[l1 b1] h IH]; intros h' R I N; cbn in R; [discriminate|].
  destruct (lock_eqb l1 l && Bool.eqb b1 b) eqn:E.
  - injection R as <-. apply andb_true_iff in E as [E1 E2]. apply lock_eqb_eq in E1. apply eqb_prop in E2. subst.
    destruct I as [<-|I]; [congruence|auto].
  - destruct (release h l b) as [r|]; [|discriminate]. injection R as <-. destruct I as [<-|I]; [left; auto|right; eauto].
Qed.

(** Nothing is ever taken out of the log. *)
Lemma tstep_log {A} hs (t t' : thread A) g g' : tstep hs t g = Some (t', g') -> exists more, log g' = log g ++ more.
Proof.
  assert (Same : exists more, log g = log g ++ more) by (exists []; rewrite app_nil_r; auto).
  destruct t as [p h]. unfold tstep. cbn [t_p t_h]. intros St.
  destruct p as [a| |l q|l q|l q|l q|bs q|e q|q|f q|q|d q|c q|q|b q]; try discriminate.
  - destruct (free hs l); [|discriminate]. injection St as <- <-. auto.
  - destruct (release h l true); injection St as <- <-; auto.
  - destruct (rfree hs l); [|discriminate]. injection St as <- <-. auto.
  - destruct (release h l false); injection St as <- <-; auto.
  - destruct (conn_write (g_conn g) bs) as [r cn] eqn:W. injection St as <- <-. apply write_log in W. cbn [g_conn]. eauto.
  - destruct (ReadPacket (g_conn g) e) as [o cn] eqn:W.
    pose proof (read_packet_inv _ _ _ _ W) as (_ & p & r & _ & _ & -> & _). injection St as <- <-.
    apply read_log in W as [W _]. cbn [g_conn]. eauto.
  - injection St as <- <-. auto.
  - injection St as <- <-. cbn [g_conn]. auto.
  - injection St as <- <-. auto.
  - injection St as <- <-. auto.
Qed.
Lemma exec1_log (m m' : machine resp) x : exec1 m x = Some m' -> exists more, log (m_g m') = log (m_g m) ++ more.
Proof.
  assert (Same : exists more, log (m_g m) = log (m_g m) ++ more) by (exists []; rewrite app_nil_r; auto).
  intros H. destruct x as [j| |d|tk|j|j]; cbn [exec1] in H.
  - destruct (nth_error (m_ts m) j) as [t|]; [|discriminate].
    destruct (tstep _ t (m_g m)) as [[t' g']|] eqn:S; [|discriminate]. injection H as <-. eapply tstep_log; eauto.
  - destruct (m_wk m) as [w|]; [|discriminate]. destruct w as [p h]. cbn [t_p t_h] in H.
    destruct p as [[]| | | | | | | | | | | | | |]; try destruct h;
        try (destruct (tstep _ _ (m_g m)) as [[t' g']|] eqn:S; [|discriminate]; injection H as <-; eapply tstep_log; eauto; fail).
    injection H as <-. auto.
  - injection H as <-. auto.
  - destruct (m_wk m); [discriminate|]. injection H as <-. auto.
  - destruct (m_wk m); [discriminate|]. destruct (nth_error (m_ts m) j) as [t|]; [|discriminate]. destruct (t_p t); try discriminate. injection H as <-. auto.
  - destruct (m_wk m) as [w|]; [|discriminate]. destruct (nth_error (m_ts m) j) as [t|]; [|discriminate].
    destruct (t_p w); try discriminate. destruct (t_p t); try discriminate. injection H as <-. auto.
Qed.
Lemma exec_log : forall xs (m m' : machine resp), exec xs m = Some m' -> exists more, log (m_g m') = log (m_g m) ++ more.
Proof.
  induction xs as [|x xs IH]; intros m m' E; cbn in E.
  - injection E as <-. exists []. rewrite app_nil_r. auto.
  - destruct (exec1 m x) as [m1|] eqn:E1; [|discriminate]. destruct (exec1_log _ _ _ E1) as (a & Ea). destruct (IH _ _ E) as (b & Eb).
    exists (a ++ b). rewrite Eb, Ea, app_assoc. auto.
Qed.

(** [tr]: the log since [L0] is followed, too. *)
Definition part (kn : option (list io)) : list io := match kn with Some x => x | None => [] end.
Definition own {A} (tr : bool) (L0 : list io) (g : mem) (t : thread A) (R : list (list io) -> A -> Prop) : Prop :=
  exists kn ls, (kn <> None -> In (LPm, true) (t_h t)) /\
    (tr = true -> exists s, log g = L0 ++ s ++ part kn /\ embedded ls s) /\
    os kn ls (t_p t) (fun kn' ls' a => tr = true -> kn' = None /\ R ls' a).
Definition writes_only {A} (t : thread A) (g g' : mem) : Prop :=
  exists more, log g' = log g ++ more /\ (more = [] \/ In (LPm, true) (t_h t)).

Lemma own_step {A} hs (t t' : thread A) tr L0 g g' R :
  own tr L0 g t R -> tstep hs t g = Some (t', g') -> own tr L0 g' t' R /\ writes_only t g g'.
Proof.
  intros (kn & ls & H & T & F) St. destruct t as [p h]. unfold tstep in St. cbn [t_p t_h] in *.
  assert (Same : writes_only (mkThread p h) g g) by (exists []; rewrite app_nil_r; auto).
  destruct p as [a| |l q|l q|l q|l q|bs q|e q|q|f q|q|d q|c q|q|b q]; cbn [os] in F; try discriminate.
  - destruct (free hs l); [|discriminate]. injection St as <- <-. split; [|exact Same]. destruct (is_pm l) eqn:E.
    + destruct F as [-> F]. destruct l; try discriminate. exists (Some []), ls. cbn [t_h t_p]. split; [left; auto|]. split; auto.
    + exists kn, ls. cbn [t_h t_p]. split; [right; auto|]. auto.
  - destruct (release h l true) as [h'|] eqn:Re; injection St as <- <-; (split; [|exact Same]).
    + destruct (is_pm l) eqn:E.
      * destruct F as (x & -> & F). exists None, (ls ++ [x]). cbn [t_h t_p]. split; [congruence|]. split; [|exact F].
        intros Ht. destruct (T Ht) as (s & Es & Em). exists (s ++ x). cbn [part] in *. rewrite app_nil_r. split; auto using embedded_snoc.
      * exists kn, ls. cbn [t_h t_p]. split; auto. intros N. eapply release_keeps; eauto. intros X. injection X as <-. discriminate.
    + exists kn, ls. cbn [t_h t_p os]. auto.
  - destruct (rfree hs l); [|discriminate]. injection St as <- <-. split; [|exact Same]. exists kn, ls. cbn [t_h t_p]. split; [right; auto|]. auto.
  - destruct (release h l false) as [h'|] eqn:Re; injection St as <- <-; (split; [|exact Same]).
    + exists kn, ls. cbn [t_h t_p]. split; auto. intros N. eapply release_keeps; eauto. discriminate.
    + exists kn, ls. cbn [t_h t_p os]. auto.
  - destruct F as (x & -> & F). destruct (conn_write (g_conn g) bs) as [r cn] eqn:W. injection St as <- <-. apply write_log in W. split.
    + exists (Some (x ++ [Wr bs r])), ls. cbn [t_h t_p]. split; [intros _; apply H; discriminate|]. split; [|apply F].
      intros Ht. destruct (T Ht) as (s & Es & Em). exists s. cbn [part] in *. cbn [g_conn]. rewrite W, Es, <- !app_assoc. auto.
    + exists [Wr bs r]. cbn [t_h g_conn]. split; auto. right. apply H. discriminate.
  - destruct F as (x & -> & F). destruct (ReadPacket (g_conn g) e) as [o cn] eqn:W.
    pose proof (read_packet_inv _ _ _ _ W) as (_ & p & r & _ & _ & -> & _). injection St as <- <-.
    apply read_log in W as [W Z]. split.
    + exists (Some (x ++ [Rd e p r])), ls. cbn [t_h t_p]. split; [intros _; apply H; discriminate|]. split; [|apply F; auto].
      intros Ht. destruct (T Ht) as (s & Es & Em). exists s. cbn [part] in *. cbn [g_conn]. rewrite W, Es, <- !app_assoc. auto.
    + exists [Rd e p r]. cbn [t_h g_conn]. split; auto. right. apply H. discriminate.
  - injection St as <- <-. split; [|exact Same]. exists kn, ls. cbn [t_h t_p]. auto.
  - injection St as <- <-. split; [|exists []; rewrite app_nil_r; auto]. exists kn, ls. cbn [t_h t_p]. auto.
  - injection St as <- <-. split; [|exact Same]. exists kn, ls. cbn [t_h t_p]. auto.
  - injection St as <- <-. split; [|exact Same]. exists kn, ls. cbn [t_h t_p]. auto.
Qed.
Lemma own_other {A B} (t : thread A) (u : thread B) tr L0 g g' R :
  writes_only t g g' -> (forall b, In (LPm, true) (t_h t) -> ~ In (LPm, b) (t_h u)) -> own tr L0 g u R -> own tr L0 g' u R.
Proof.
  intros (more & Lg & M) D (kn & ls & H & T & F). exists kn, ls. split; auto. split; auto. intros Ht. destruct (T Ht) as (s & Es & Em).
  rewrite Lg, Es. destruct kn as [x|].
  - destruct M as [->|M]; [|destruct (D true M); apply H; discriminate]. exists s. rewrite app_nil_r. auto.
  - exists (s ++ more). cbn [part]. rewrite <- !app_assoc, app_nil_r. cbn [app]. split; auto using embedded_right.
Qed.
Lemma own_start {A} tr g (p : sproc A) R : yields p R -> own tr (log g) g (mkThread p []) R.
Proof.
  intros Y. exists None, []. cbn [t_h t_p]. split; [congruence|]. split.
  - intros _. exists []. cbn. rewrite app_nil_r. split; [auto|constructor].
  - eapply os_weaken; [|apply Y]. cbn. intros kn ls a (-> & l & -> & H) _. auto.
Qed.
Lemma own_false {A} L0 g (t : thread A) tr L0' R R' : own tr L0 g t R -> own false L0' g t R'.
Proof.
  intros (kn & ls & H & T & F). exists kn, ls. split; auto. split; [discriminate|]. eapply os_weaken; [|exact F]. discriminate.
Qed.

(** ** the whole server: goroutine [i] with request [r] is followed *)
Section Follow.
Context (L0 : list io) (i : nat) (r : rpc).
Definition is_flush : bool := match r with FlushCacheR _ => true | _ => false end.
Definition due (l : list (list io)) : Prop := match r with FlushCacheR t => queried (flushes t) l | _ => True end.
Definition settled_one (g : mem) (t : thread resp) : Prop :=
  forall a, t_p t = Ret a -> exists s ls, log g = L0 ++ s /\ embedded ls s /\ does_on_wire r a ls.
Definition mine (wait : option nat) : bool := match wait with Some j => is_flush && Nat.eqb i j | None => false end.
Definition owns (wait : option nat) (m : machine resp) : Prop :=
  (forall j t, nth_error (m_ts m) j = Some t ->
     own (Nat.eqb j i && negb is_flush) L0 (m_g m) t (fun l a => does_on_wire r a l) /\
     (j = i -> is_flush = true -> settled_one (m_g m) t)) /\
  match m_wk m with
  | Some w => own (mine wait) L0 (m_g m) w (fun l _ => due l)
  | None => True
  end.

Lemma settled_more g g' more t : log g' = log g ++ more -> settled_one g t -> settled_one g' t.
Proof.
  intros E S a Ha. destruct (S a Ha) as (s & ls & Es & Em & D). exists (s ++ more), ls. rewrite E, Es, app_assoc. auto using embedded_right.
Qed.

Lemma owns_step L1 rs wait wait' m x m' : nth_error rs i = Some r -> inv L1 rs wait m -> owns wait m -> exec1 m x = Some m' ->
  next wait x = Some wait' -> (x = Flush i -> log (m_g m) = L0 \/ exists s, log (m_g m) = L0 ++ s) -> owns wait' m'.
Proof.
  intros Ri Iv (Th & Wk) H Nx Fl. destruct Iv as (Ln & X & _ & Tok & Wok). destruct x as [j| |d|tk|j|j]; cbn [exec1] in H.
  - (* Run *)
    assert (wait' = wait) as -> by (destruct wait; cbn in Nx; congruence).
    destruct (nth_error (m_ts m) j) as [t|] eqn:Nj; [|discriminate]. rewrite tstep_hs in H.
    destruct (tstep (hs_of m) t (m_g m)) as [[t' g']|] eqn:S; [|discriminate]. injection H as <-.
    assert (Nh : nth_error (hs_of m) (Datatypes.S j) = Some (t_h t)) by (cbn; rewrite nth_error_map, Nj; reflexivity).
    destruct (Th _ _ Nj) as [Tj Sj]. destruct (own_step _ _ _ _ _ _ _ _ Tj S) as [T' W].
    unfold owns. cbn [m_ts m_g m_wk]. split.
    + intros q tq Tq. apply nth_set_cases in Tq as [(<- & -> & _)|[Dj Tq]].
      * split; [exact T'|]. intros -> Hf. exfalso. unfold is_flush in Hf. destruct r; try discriminate.
        specialize (Tok _ _ _ Ri Nj). cbn [thread_ok] in Tok. destruct t as [p h]. cbn [t_p t_h] in Tok.
        destruct Tok as (_ & [[_ ->]|[[_ ->]|[_ ->]]]); cbn in S; discriminate.
      * destruct (Th _ _ Tq) as [Oq Sq]. split.
        -- eapply own_other; [exact W| |exact Oq]. intros b I. eapply (X (Datatypes.S j) (Datatypes.S q)); eauto. cbn. rewrite nth_error_map, Tq. reflexivity.
        -- intros E Hf. destruct W as (more & Lg & _). eapply settled_more; eauto.
    + destruct (m_wk m) as [w|] eqn:Ew; auto. eapply own_other; [exact W| |exact Wk]. intros b I. eapply (X (Datatypes.S j) 0%nat); eauto.
      cbn. unfold wk_h. rewrite Ew. reflexivity.
  - (* RunWk *)
    assert (wait' = wait) as -> by (destruct wait; cbn in Nx; congruence).
    destruct (m_wk m) as [w|] eqn:W; [|discriminate]. destruct w as [p h]. cbn [t_p t_h] in H.
    assert (Cs : (p = Ret tt /\ h = [] /\ m' = mkMachine (m_g m) (m_ts m) None) \/
      exists t' g', tstep (hs_of m) (mkThread p h) (m_g m) = Some (t', g') /\ m' = mkMachine g' (m_ts m) (Some t')).
    { destruct p as [[]| | | | | | | | | | | | | |]; try destruct h; 
        try (rewrite tstep_hs in H; destruct (tstep (hs_of m) _ (m_g m)) as [[t' g']|]; [|discriminate]; injection H as <-; eauto; fail).
      injection H as <-. auto. }
    clear H. destruct Cs as [(-> & -> & ->)|(t' & g' & S & ->)].
    + split; cbn [m_ts m_g m_wk]; auto.
    + assert (Nh : nth_error (hs_of m) 0 = Some h) by (cbn; unfold wk_h; rewrite W; reflexivity).
      destruct (own_step _ _ _ _ _ _ _ _ Wk S) as [T' Wr]. split; cbn [m_ts m_g m_wk]; auto.
      intros q tq Tq. destruct (Th _ _ Tq) as [Oq Sq]. split.
      * eapply own_other; [exact Wr| |exact Oq]. intros b I. eapply (X 0%nat (Datatypes.S q)); eauto. cbn. rewrite nth_error_map, Tq. reflexivity.
      * intros E Hf. destruct Wr as (more & Lg & _). eapply settled_more; eauto.
  - (* Pass *)
    assert (wait' = wait) as -> by (destruct wait; cbn in Nx; congruence).
    injection H as <-. split; cbn [m_ts m_g m_wk]; auto.
  - (* Tick *)
    destruct (m_wk m) eqn:W; [discriminate|]. injection H as <-.
    assert (wait' = None) as -> by (destruct wait; cbn in Nx; congruence).
    split; cbn [m_ts m_g m_wk]; auto. cbn [mine]. eapply (own_false (log (m_g m)) _ _ false). apply own_start. apply yields_tick.
  - (* Flush *)
    assert (wait' = Some j) as -> by (destruct wait; cbn in Nx; congruence).
    destruct (m_wk m) eqn:W; [discriminate|]. destruct (nth_error (m_ts m) j) as [[p h]|] eqn:Nj; [|discriminate]. cbn [t_p t_h] in H.
    destruct p as [| | | | | | | | | | | |c q| |]; try discriminate. injection H as <-.
    split; cbn [m_ts m_g m_wk].
    + intros k tk Tk. apply nth_set_cases in Tk as [(<- & -> & _)|[Dk Tk]]; [|auto].
      destruct (Th _ _ Nj) as [(kn & ls & T) Sj]. split; [exists kn, ls; exact T|].
      intros -> Hf. unfold is_flush in Hf. destruct r; try discriminate. specialize (Tok _ _ _ Ri Nj). cbn [thread_ok t_p t_h] in Tok.
      destruct Tok as (_ & [[_ E]|[[_ E]|[_ E]]]); try discriminate. injection E as _ ->. intros a Ea. discriminate.
    + destruct (mine (Some j)) eqn:Mi.
      * unfold mine in Mi. apply andb_true_iff in Mi as [Hf E]. apply Nat.eqb_eq in E. subst j.
        assert (Es : exists s, log (m_g m) = L0 ++ s).
        { destruct (Fl eq_refl) as [E|E]; [exists []; rewrite app_nil_r|]; auto. }
        destruct Es as (s & Es). unfold is_flush in Hf. destruct r as [| | | | | | | | |t0] eqn:Er; try discriminate. specialize (Tok _ _ _ Ri Nj). cbn [thread_ok t_p t_h] in Tok.
        destruct Tok as (_ & [[_ E]|[[_ E]|[_ E]]]); try discriminate. injection E as -> Eq.
        destruct (own_start true (m_g m) (FlushCaches t0) _ (yields_flush t0)) as (kn & ls & A1 & A2 & A3).
        exists None, []. cbn [t_h t_p] in *. split; [congruence|]. split; [intros _; exists s; cbn [part]; rewrite app_nil_r; split; [auto|constructor]|].
        eapply os_weaken; [|apply (yields_flush t0)]. cbn. intros kn' ls' a (-> & l & -> & Q) _. unfold due. rewrite Er. auto.
      * eapply (own_false (log (m_g m)) _ _ false). apply own_start. apply yields_flush.
  - (* Succ *)
    destruct (m_wk m) as [[pw hw]|] eqn:W; [|discriminate]. destruct (nth_error (m_ts m) j) as [[p h]|] eqn:Nj; [|discriminate].
    cbn [t_p t_h] in H.
    destruct pw as [| | | | | | | | | | | | | |b kw]; try discriminate.
    destruct p as [| | | | | | | | | | | | |q|]; try discriminate. injection H as <-.
    destruct wait as [j'|]; [|discriminate]. cbn in Nx. destruct (Nat.eqb_spec j j') as [<-|]; [|discriminate]. injection Nx as <-.
    split; cbn [m_ts m_g m_wk].
    + intros k tk Tk. apply nth_set_cases in Tk as [(<- & -> & _)|[Dk Tk]]; [|auto].
      destruct (Th _ _ Nj) as [(kn & ls & T1 & T2 & T3) Sj]. split; [exists kn, ls; cbn [t_p t_h os] in *; auto|].
      intros -> Hf. intros a Ea. cbn [t_p] in Ea. cbn [mine] in Wk. rewrite Nat.eqb_refl, Hf in Wk. cbn [andb] in Wk.
      destruct Wk as (kn' & ls' & _ & A2 & A3). cbn [t_p os] in A3. destruct (A2 eq_refl) as (s & Es & Em).
      (* the worker is at its last step *)
      destruct Wok as (c & p0 & h0 & Rc & E0 & F0). injection E0 as E0 <-.
      assert (Kw : kw = Ret tt).
      { destruct F0 as (st & kn0 & _ & _ & _ & _ & S0). cbn [t_p] in S0. destruct p0; cbn [bind] in E0; try discriminate.
        - injection E0 as _ ->. reflexivity.
        - cbn [sp] in S0. destruct S0. }
      subst kw. cbn [os] in A3. destruct (A3 eq_refl) as [-> Q]. cbn [part] in Es. rewrite app_nil_r in Es.
      exists s, ls'. split; auto. split; auto. unfold is_flush in Hf. unfold due in Q. destruct r as [| | | | | | | | |t0]; try discriminate.
      specialize (Tok _ _ _ Ri Nj). cbn [thread_ok t_p t_h] in Tok.
      destruct Tok as (_ & [[_ E]|[[_ E]|[_ E]]]); try discriminate. injection E as ->. unfold await in Ea. injection Ea as <-.
      constructor. exact Q.
    + cbn [mine]. destruct Wk as (kn & ls & T1 & T2 & T3). apply (own_false L0 _ _ (mine (Some j)) L0 (fun l _ => due l)). exists kn, ls. cbn [t_p t_h os] in *. auto.
Qed.
Lemma owns_run L1 rs : nth_error rs i = Some r -> forall ys wait m m', inv L1 rs wait m -> owns wait m ->
  (exists s, log (m_g m) = L0 ++ s) -> exec ys m = Some m' ->
  exists wait', inv L1 rs wait' m' /\ owns wait' m' /\ exists s, log (m_g m') = L0 ++ s.
Proof.
  intros Ri. induction ys as [|x ys IH]; intros wait m m' Iv O Es E; cbn in E.
  - injection E as <-. eauto.
  - destruct (exec1 m x) as [m1|] eqn:E1; [|discriminate]. destruct (inv_step _ _ _ _ _ _ Iv E1) as (w' & Nx & Iv').
    apply (IH w' m1 m'); auto.
    + apply (owns_step L1 rs wait w' m x m1 Ri Iv O E1 Nx). intros _. right. exact Es.
    + destruct Es as (s & Es). destruct (exec1_log _ _ _ E1) as (more & Em). exists (s ++ more). rewrite Em, Es, app_assoc. auto.
Qed.
End Follow.

Lemma waits_run i xs : waits i xs -> ~ In (Run i) xs.
Proof. intros W I. unfold waits in W. rewrite Forall_forall in W. destruct (W _ I) as [N _]. congruence. Qed.
(** A goroutine that has not begun is where it was, also in FlushCache. *)
Lemma not_begun i c : forall xs (m m' : machine resp), exec xs m = Some m' -> waits i xs ->
  nth_error (m_ts m) i = Some (mkThread (FlushCache c) []) -> nth_error (m_ts m') i = Some (mkThread (FlushCache c) []).
Proof.
  induction xs as [|x xs IH]; intros m m' E W T; cbn in E; [injection E as <-; auto|].
  destruct (exec1 m x) as [m1|] eqn:E1; [|discriminate]. inversion W as [|? ? [N1 N2] W']; subst. eapply IH; eauto.
  destruct x as [j| |d|tk|j|j]; cbn [exec1] in E1.
  - destruct (nth_error (m_ts m) j) as [t|]; [|discriminate]. destruct (tstep _ _ _) as [[t' g']|]; [|discriminate]. injection E1 as <-.
    cbn [m_ts]. rewrite nth_set_other; auto; congruence.
  - destruct (m_wk m) as [w|]; [|discriminate]. destruct (t_p w) as [[]| | | | | | | | | | | | | |], (t_h w);
      try (destruct (tstep _ _ _) as [[t' g']|]; [|discriminate]); injection E1 as <-; auto.
  - injection E1 as <-. auto.
  - destruct (m_wk m); [discriminate|]. injection E1 as <-. auto.
  - destruct (m_wk m); [discriminate|]. destruct (nth_error (m_ts m) j) as [[pj hj]|] eqn:Nj; [|discriminate]. cbn [t_p] in E1.
    destruct pj; try discriminate. injection E1 as <-. cbn [m_ts]. rewrite nth_set_other; auto; congruence.
  - destruct (m_wk m) as [w|]; [|discriminate]. destruct (nth_error (m_ts m) j) as [[pj hj]|] eqn:Nj; [|discriminate]. cbn [t_p] in E1.
    destruct (t_p w); try discriminate. destruct pj; try discriminate. injection E1 as <-. cbn [m_ts]. rewrite nth_set_other; auto. intros ->.
    rewrite T in Nj. discriminate.
Qed.
Lemma nexts_flush i : forall xs wait w, nexts wait xs = Some w -> waits i xs -> wait <> Some i -> w <> Some i.
Proof.
  induction xs as [|x xs IH]; intros wait w E W N; cbn in E; [congruence|].
  destruct (next wait x) as [w1|] eqn:E1; [|discriminate]. inversion W as [|? ? [_ N2] W']; subst. eapply IH; eauto.
  destruct x as [j| |d|tk|j|j], wait as [j'|]; cbn in E1; try congruence. destruct (Nat.eqb j j'); congruence.
Qed.

Lemma owns_init rs c clk i r : nth_error rs i = Some r -> owns (c_log c) i r None (serve rs c clk).
Proof.
  intros Ri. unfold owns, serve. cbn [m_ts m_g m_wk]. split.
  - intros j t Tj. rewrite nth_error_map in Tj. destruct (nth_error rs j) as [q|] eqn:Rj; [|discriminate]. injection Tj as <-.
    assert (C : (exists t, q = FlushCacheR t) \/ forall t, q <> FlushCacheR t) by (destruct q; eauto; right; discriminate).
    destruct C as [(t & ->)|C]; split.
    + destruct (Nat.eqb_spec j i) as [->|D].
      * rewrite Ri in Rj. injection Rj as ->. cbn. exists None, []. cbn. split; [congruence|]. split; discriminate.
      * exists None, []. cbn. split; [congruence|]. split; discriminate.
    + intros _ _ a E. discriminate.
    + destruct (Nat.eqb_spec j i) as [->|D].
      * rewrite Ri in Rj. injection Rj as ->. change (c_log c) with (log (mkMem c init_shared clk)). apply own_start. apply yields_rpc. auto.
      * cbn [andb]. eapply (own_false (log (mkMem c init_shared clk)) _ _ false). apply own_start. apply yields_rpc. auto.
    + intros -> Hf. rewrite Ri in Rj. injection Rj as ->. exfalso. unfold is_flush in Hf. destruct q; try discriminate. eapply C. reflexivity.
  - cbn [mine]. eapply (own_false (log (mkMem c init_shared clk)) _ _ false). apply own_start. apply yields_caches.
Qed.

Lemma rpc_on_wire rs c clk xs m0 ys m i r a :
  exec xs (serve rs c clk) = Some m0 -> waits i xs -> exec ys m0 = Some m -> nth_error rs i = Some r -> answered m i a ->
  exists l ls, log_of m = log_of m0 ++ l /\ does_on_wire r a ls /\ embedded ls l.
Proof.
  intros Ex W Ey Ri (t & Ti & Tp).
  pose proof (inv_init (c_log c) rs c clk eq_refl) as I0.
  destruct (inv_exec _ _ _ _ _ _ I0 Ex) as (w0 & Nx & I1).
  destruct (owns_run (c_log c) i r (c_log c) rs Ri xs None _ m0 I0 (owns_init rs c clk i r Ri)) as (w1 & _ & O1 & _); auto.
  { exists []. cbn. rewrite app_nil_r. auto. }
  assert (Nw : w0 <> Some i) by (eapply nexts_flush; eauto; discriminate).
  assert (O2 : owns (log (m_g m0)) i r w0 m0).
  { destruct O1 as (Th & Wk). split.
    - intros j tj Tj. destruct (Th _ _ Tj) as [Oj _]. destruct (Nat.eqb_spec j i) as [->|D]; [|split; [eapply own_false; eauto|congruence]].
      assert (C : (exists t, r = FlushCacheR t) \/ forall t, r <> FlushCacheR t) by (destruct r; eauto; right; discriminate).
      destruct C as [(z & ->)|C].
      + cbn [is_flush negb andb]. split; [eapply own_false; eauto|]. intros _ _.
        assert (E : nth_error (m_ts m0) i = Some (mkThread (FlushCache z) [])).
        { eapply not_begun; eauto. unfold serve. cbn [m_ts]. rewrite nth_error_map, Ri. reflexivity. }
        rewrite Tj in E. injection E as ->. intros b E. discriminate.
      + assert (E : nth_error (m_ts m0) i = Some (mkThread (handle r) [])).
        { eapply untouched; eauto using waits_run.
          - intros z q. destruct r; try discriminate; [|edestruct C; reflexivity].
            cbn [handle]. unfold SetFanProfileRPC. destruct (_ || _); [discriminate|]. destruct (_ || _); discriminate.
          - intros q. destruct r; try discriminate.
            cbn [handle]. unfold SetFanProfileRPC. destruct (_ || _); [discriminate|]. destruct (_ || _); discriminate.
          - unfold serve. cbn [m_ts]. rewrite nth_error_map, Ri. reflexivity. }
        rewrite Tj in E. injection E as ->. split.
        * apply own_start. apply yields_rpc. auto.
        * intros _ Hf. exfalso. destruct r; try discriminate. edestruct C. reflexivity.
    - destruct (m_wk m0); auto. assert (E : mine i r w0 = false).
      { unfold mine. destruct w0 as [j|]; auto. destruct (Nat.eqb_spec i j) as [->|]; [congruence|]. apply andb_false_r. }
      rewrite E. eapply own_false; eauto. }
  destruct (owns_run (log (m_g m0)) i r (c_log c) rs Ri ys w0 m0 m I1 O2) as (w2 & I2 & (Th & _) & _); auto.
  { exists []. rewrite app_nil_r. auto. }
  destruct (Th _ _ Ti) as [Oi Si]. rewrite Nat.eqb_refl in Oi. cbn [andb] in Oi. destruct (is_flush r) eqn:Hf.
  - destruct (Si eq_refl eq_refl a Tp) as (s & ls & E & Em & D). exists s, ls. auto.
  - destruct Oi as (kn & ls & _ & T2 & T3). destruct (T2 eq_refl) as (s & Es & Em). rewrite Tp in T3. cbn in T3.
    destruct (T3 eq_refl) as [-> D]. exists s, ls. cbn [part] in Es. rewrite app_nil_r in Es. auto.
Qed.
