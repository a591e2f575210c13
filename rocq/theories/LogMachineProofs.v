(** What is logged in every interleaving (C126). *)
From Verif Require Import ProofBase Proto SpecProto SpecFrame SpecConn SpecLayout SpecServer ProtoProofs Scanner Conn ReadProofs Proc Lib QueryProofs
  FrameLemmas Server ServerProofs ServerLemmas Machine SpecMachine MachineBase ThreadLogic MachineInv MachineClaims SpecFresh FreshLogic FreshInv OwnLogic OwnInv
  Log SpecLog LogServer LogServerProofs LogMachine SpecLogMachine LogYields.

(** ** The two machines *)
Lemma tstep_same {A B} (R : A -> B -> Prop) hs (t : thread A) (t' : thread B) g : thread_alike R t t' ->
  match tstep hs t g, tstep hs t' g with
  | Some (u, g1), Some (u', g1') => g1 = g1' /\ thread_alike R u u'
  | None, None => True
  | _, _ => False
  end.
Proof.
  destruct t as [p h], t' as [p' h']. intros [Hh S]. cbn [t_h t_p] in *. subst h'. unfold tstep. cbn [t_p t_h].
  destruct S; cbn beta iota; auto; unfold thread_alike.
  - destruct (free hs l); auto.
  - destruct (release h l true); cbn; repeat split; auto; constructor.
  - destruct (rfree hs l); auto.
  - destruct (release h l false); cbn; repeat split; auto; constructor.
  - destruct (conn_write (g_conn g) bs). cbn. auto.
  - destruct (ReadPacket (g_conn g) x) as [[[q e]|] cn]; cbn; repeat split; auto; constructor.
  - cbn. auto.
  - cbn. auto.
  - cbn. auto.
  - cbn. auto.
Qed.
Lemma same_flush_all txt c : same silent (FlushCaches c) (FlushCaches' txt c).
Proof.
  unfold FlushCaches, FlushCaches'. eapply same_bind; [apply same_flush|]. intros b [b' l] E. unfold erases in E. cbn [fst] in E. subst b'. constructor. constructor. exact I.
Qed.
Lemma alike_nth {A B} (R : A -> B -> Prop) ts ts' : Forall2 (thread_alike R) ts ts' -> forall i,
  match nth_error ts i, nth_error ts' i with Some t, Some t' => thread_alike R t t' | None, None => True | _, _ => False end.
Proof. induction 1 as [|t t' ts ts' T _ IH]; intros [|i]; cbn [nth_error]; [exact I|exact I|exact T|apply IH]. Qed.
Lemma alike_set {A B} (R : A -> B -> Prop) ts ts' t t' : Forall2 (thread_alike R) ts ts' -> thread_alike R t t' -> forall i,
  Forall2 (thread_alike R) (set_nth i t ts) (set_nth i t' ts').
Proof. induction 1 as [|u u' ts ts' U F IH]; intros T [|i]; cbn [set_nth]; constructor; auto. Qed.
Lemma alike_locks m m' : alike m m' -> locks_held m = locks_held' m'.
Proof.
  intros (_ & T & W). unfold locks_held, locks_held'. f_equal.
  - destruct (m_wk m), (l_wk m'); try contradiction; auto. destruct W as [-> _]. reflexivity.
  - induction T as [|t t' ts ts' [E _] _ IH]; cbn; congruence.
Qed.
Lemma alike_step txt m m' x : alike m m' ->
  match exec1 m x, lexec1 txt m' x with Some n, Some n' => alike n n' | None, None => True | _, _ => False end.
Proof.
  intros Al. pose proof (alike_locks _ _ Al) as Lk. destruct Al as (G & T & W).
  destruct x as [i| |d|tk|i|i]; cbn [exec1 lexec1].
  - pose proof (alike_nth _ _ _ T i) as N. destruct (nth_error (m_ts m) i) as [t|], (nth_error (l_ts m') i) as [t'|]; try contradiction; auto.
    rewrite Lk, G. pose proof (tstep_same erases (locks_held' m') t t' (l_g m') N) as S.
    destruct (tstep _ t _) as [[u g1]|], (tstep _ t' _) as [[u' g1']|]; try contradiction; auto.
    destruct S as [-> U]. split; [reflexivity|]. split; [apply alike_set; auto|exact W].
  - destruct (m_wk m) as [w|] eqn:Ew, (l_wk m') as [w'|] eqn:Ew'; try contradiction; auto.
    rewrite Lk, G. pose proof (tstep_same silent (locks_held' m') w w' (l_g m') W) as S.
    destruct W as [Wh Wp]. destruct w as [p h], w' as [p' h']. cbn [t_p t_h] in *. subst h'.
    destruct Wp as [a b _| | | | | | | | | | | | | |];
      [destruct a; destruct h; [split; [reflexivity|]; split; [exact T|exact I]|exact I]|..];
      (destruct (tstep _ (mkThread _ _) _) as [[u g1]|]; destruct (tstep _ (mkThread _ _) _) as [[u' g1']|]; try contradiction; [|exact I];
       destruct S as [-> U]; split; [reflexivity|]; split; [exact T|exact U]).
  - split; [cbn; rewrite G; reflexivity|]. split; auto.
  - destruct (m_wk m), (l_wk m'); try contradiction; auto. split; [exact G|]. split; [exact T|]. split; [reflexivity|apply same_tick].
  - destruct (m_wk m), (l_wk m'); try contradiction; auto.
    pose proof (alike_nth _ _ _ T i) as N. destruct (nth_error (m_ts m) i) as [[p h]|], (nth_error (l_ts m') i) as [[p' h']|]; try contradiction; auto.
    destruct N as [Eh N]. cbn [t_p t_h] in *. subst h'. destruct N; auto.
    split; [exact G|]. split; [apply alike_set; auto; split; auto|]. split; [reflexivity|apply same_flush_all].
  - destruct (m_wk m) as [[pw hw]|], (l_wk m') as [[pw' hw']|]; try contradiction; auto. destruct W as [Wh Wp]. cbn [t_p t_h] in *. subst hw'.
    pose proof (alike_nth _ _ _ T i) as N. destruct (nth_error (m_ts m) i) as [[p h]|], (nth_error (l_ts m') i) as [[p' h']|]; try contradiction; auto.
    + destruct N as [Eh N]. cbn [t_p t_h] in *. subst h'. destruct Wp; auto. destruct N; auto.
      split; [exact G|]. split; [apply alike_set; auto; split; cbn; auto|split; auto].
Qed.
Lemma alike_exec txt xs : forall m m', alike m m' ->
  match exec xs m, lexec txt xs m' with Some n, Some n' => alike n n' | None, None => True | _, _ => False end.
Proof.
  induction xs as [|x xs IH]; intros m m' Al; cbn [exec lexec]; [exact Al|].
  pose proof (alike_step txt m m' x Al) as S. destruct (exec1 m x), (lexec1 txt m' x); try contradiction; [|exact I]. apply IH. exact S.
Qed.
Lemma alike_serve txt rs c clk : alike (serve rs c clk) (lserve txt rs c clk).
Proof.
  split; [reflexivity|]. split; [|split; [reflexivity|apply same_start]].
  cbn. induction rs as [|r rs IH]; cbn; constructor; auto. split; [reflexivity|apply same_handle].
Qed.
Lemma logged_machine txt rs c clk xs :
  match exec xs (serve rs c clk), lexec txt xs (lserve txt rs c clk) with Some m, Some m' => alike m m' | None, None => True | _, _ => False end.
Proof. apply alike_exec, alike_serve. Qed.

(** ** Whose exchange it is *)
Lemma who_eqb_refl o : who_eqb o o = true.
Proof. destruct o; cbn; auto using Nat.eqb_refl. Qed.
Lemma who_eqb_eq a b : who_eqb a b = true <-> a = b.
Proof.
  split; [|intros ->; apply who_eqb_refl]. destruct a, b; cbn; try discriminate; auto. intros H. apply Nat.eqb_eq in H. congruence.
Qed.
Lemma by_same o tags x : by_whom o (tags ++ [(o, x)]) = by_whom o tags ++ [x].
Proof. unfold by_whom. rewrite filter_app. cbn. rewrite who_eqb_refl, map_app. reflexivity. Qed.
Lemma by_other o o' tags x : o <> o' -> by_whom o (tags ++ [(o', x)]) = by_whom o tags.
Proof.
  intros N. unfold by_whom. rewrite filter_app. cbn. destruct (who_eqb o' o) eqn:E; [apply who_eqb_eq in E; congruence|].
  rewrite app_nil_r. reflexivity.
Qed.
(** The one that holds LPm, and what it has done since. *)
Definition since (ho : option (who * list io)) (o : who) : option (list io) :=
  match ho with Some (o', x) => if who_eqb o' o then Some x else None | None => None end.
Definition begun (ho : option (who * list io)) : list io := match ho with Some (_, x) => x | None => [] end.
Definition follows {A} (ho : option (who * list io)) tags (o : who) (t : thread A) (Q : opost A) : Prop :=
  (since ho o <> None -> In (LPm, true) (t_h t)) /\ os (since ho o) (by_whom o tags) (t_p t) Q.

Lemma since_same o x : since (Some (o, x)) o = Some x.
Proof. cbn. rewrite who_eqb_refl. reflexivity. Qed.
Lemma since_other o o' x : o <> o' -> since (Some (o', x)) o = None.
Proof. intros N. cbn. destruct (who_eqb o' o) eqn:E; auto. apply who_eqb_eq in E. congruence. Qed.
Lemma since_some ho o x : since ho o = Some x -> ho = Some (o, x).
Proof.
  destruct ho as [[o' y]|]; cbn; [|discriminate]. destruct (who_eqb o' o) eqn:E; [|discriminate]. apply who_eqb_eq in E. intros H. injection H as ->. congruence.
Qed.

(** One step: what happens to the ghost state; nothing changes for the others. *)
Definition moved (o : who) (ho ho' : option (who * list io)) (tags tags' : list (who * list io)) : Prop :=
  (forall o', o' <> o -> since ho' o' = since ho o' /\ by_whom o' tags' = by_whom o' tags) /\
  (forall o' x, ho' = Some (o', x) -> ho = Some (o', x) \/ o' = o) /\
  (forall o' x, In (o', x) tags' -> In (o', x) tags \/ o' = o).
Lemma follows_step {A} hs (t t' : thread A) ho tags o g g' L0 Q :
  follows ho tags o t Q -> (forall o' x, ho = Some (o', x) -> exists h, In h hs /\ In (LPm, true) h) ->
  log g = L0 ++ concat (map snd tags) ++ begun ho -> tstep hs t g = Some (t', g') ->
  exists ho' tags', follows ho' tags' o t' Q /\ moved o ho ho' tags tags' /\ log g' = L0 ++ concat (map snd tags') ++ begun ho'.
Proof.
  intros (H & F) Hold Lg St.
  assert (Stay : forall u, (forall x, In x (t_h t) -> x = (LPm, true) -> In x (t_h u)) -> os (since ho o) (by_whom o tags) (t_p u) Q -> forall g1, log g1 = log g ->
    exists ho' tags', follows ho' tags' o u Q /\ moved o ho ho' tags tags' /\ log g1 = L0 ++ concat (map snd tags') ++ begun ho').
  { intros u Hu Fu g1 E. exists ho, tags. repeat split; auto. congruence. }
  destruct t as [p h]. unfold tstep in St. cbn [t_p t_h] in *.
  destruct p as [a| |l q|l q|l q|l q|bs q|e q|q|f q|q|d q|c q|q|b q]; try discriminate; cbn [os] in F.
  - destruct (free hs l) eqn:Fr; [|discriminate]. injection St as <- <-. destruct (is_pm l) eqn:E.
    + destruct F as [N F]. destruct l; try discriminate. destruct ho as [[o' x]|].
      * exfalso. destruct (Hold _ _ eq_refl) as (k & Ik & Jk). rewrite free_in in Fr. exact (Fr k true Ik Jk).
      * exists (Some (o, [])), tags. split; [|split].
        -- split; cbn [t_h t_p]; [left; reflexivity|]. rewrite since_same. exact F.
        -- split; [intros o' D; rewrite since_other by auto; auto|]. split; [|auto]. intros o' x E'. injection E' as <- _. auto.
        -- exact Lg.
    + apply Stay; auto. intros x I _. right. exact I.
  - destruct (release h l true) as [h'|] eqn:Re; injection St as <- <-; [|apply Stay; auto; cbn [t_p os]; exact I].
    destruct (is_pm l) eqn:E.
    + destruct F as (x & N & F). apply since_some in N. subst ho. exists None, (tags ++ [(o, x)]). split; [|split].
      * split; cbn [since t_h t_p]; [congruence|]. rewrite by_same. exact F.
      * split; [intros o' D; rewrite since_other, by_other by auto; auto|]. split; [discriminate|].
        intros o' y I. apply in_app_or in I as [I|[I|[]]]; [auto|]. injection I as <- _. auto.
      * rewrite Lg. cbn [begun]. rewrite map_app, concat_app. cbn. rewrite !app_nil_r. reflexivity.
    + apply Stay; auto. cbn [t_h]. intros x I ->. eapply release_keeps; eauto. intros X. injection X as <-. discriminate.
  - destruct (rfree hs l); [|discriminate]. injection St as <- <-. apply Stay; auto. intros x I _. right. exact I.
  - destruct (release h l false) as [h'|] eqn:Re; injection St as <- <-; [|apply Stay; auto; cbn [t_p os]; exact I].
    apply Stay; auto. cbn [t_h]. intros x I ->. eapply release_keeps; eauto. discriminate.
  - destruct F as (x & N & F). rewrite N in H. apply since_some in N. subst ho. destruct (conn_write (g_conn g) bs) as [r cn] eqn:W. injection St as <- <-. apply write_log in W.
    exists (Some (o, x ++ [Wr bs r])), tags. split; [|split].
    + split; cbn [t_h t_p]; [intros _; apply H; discriminate|]. rewrite since_same. apply F.
    + split; [intros o' D; rewrite !since_other by auto; auto|]. split; [|auto]. intros o' y E. injection E as <- _. auto.
    + cbn [g_conn]. rewrite W, Lg. cbn [begun]. rewrite <- !app_assoc. reflexivity.
  - destruct F as (x & N & F). rewrite N in H. apply since_some in N. subst ho. destruct (ReadPacket (g_conn g) e) as [ou cn] eqn:W.
    pose proof (read_packet_inv _ _ _ _ W) as (_ & p & r & _ & _ & -> & _). injection St as <- <-. apply read_log in W as [W Z].
    exists (Some (o, x ++ [Rd e p r])), tags. split; [|split].
    + split; cbn [t_h t_p]; [intros _; apply H; discriminate|]. rewrite since_same. apply F. auto.
    + split; [intros o' D; rewrite !since_other by auto; auto|]. split; [|auto]. intros o' y E. injection E as <- _. auto.
    + cbn [g_conn]. rewrite W, Lg. cbn [begun]. rewrite <- !app_assoc. reflexivity.
  - injection St as <- <-. apply Stay; auto. cbn. auto.
  - injection St as <- <-. apply Stay; auto.
  - injection St as <- <-. apply Stay; auto. cbn. auto.
  - injection St as <- <-. apply Stay; auto.
Qed.
Lemma follows_moved {A} o o' ho ho' tags tags' (t : thread A) Q : moved o ho ho' tags tags' -> o' <> o -> follows ho tags o' t Q -> follows ho' tags' o' t Q.
Proof. intros (M & _) D (H & F). destruct (M o' D) as [E1 E2]. unfold follows. rewrite E1, E2. auto. Qed.

(** ** The whole server *)
Section Whole.
Context (txt : Z -> list byte) (L0 : list io).
Definition req_post (r : rpc) : opost (resp * list event) := fun kn ls x => kn = None /\ recorded txt r ls (fst x) (snd x).
Definition wk_post (out : list event) : opost (list event) := fun kn ls es => kn = None /\ worker_recorded txt ls (out ++ es).
Definition present (m : lmachine) (o : who) : Prop :=
  match o with Worker => l_wk m <> None | Request i => nth_error (l_ts m) i <> None end.
Definition linv (rs : list rpc) (m : lmachine) ho tags : Prop :=
  length (l_ts m) = length rs /\ log (l_g m) = L0 ++ concat (map snd tags) ++ begun ho /\
  (forall o x, ho = Some (o, x) -> present m o) /\
  (forall o x, In (o, x) tags -> among (length rs) o) /\
  (forall i t r, nth_error (l_ts m) i = Some t -> nth_error rs i = Some r -> follows ho tags (Request i) t (req_post r)) /\
  match l_wk m with
  | Some w => follows ho tags Worker w (wk_post (l_out m))
  | None => worker_recorded txt (by_whom Worker tags) (l_out m)
  end.

Lemma linv_holder rs m ho tags : linv rs m ho tags -> forall o x, ho = Some (o, x) -> exists h, In h (locks_held' m) /\ In (LPm, true) h.
Proof.
  intros (Ln & _ & Pr & _ & Th & Wk) o x ->. specialize (Pr _ _ eq_refl). unfold locks_held'. destruct o as [|i]; cbn [present] in Pr.
  - destruct (l_wk m) as [w|]; [|contradiction]. exists (t_h w). split; [left; reflexivity|]. apply Wk. rewrite since_same. discriminate.
  - destruct (nth_error (l_ts m) i) as [t|] eqn:E; [|contradiction]. exists (t_h t). split.
    + apply in_or_app. right. apply in_map. eapply nth_error_In; eauto.
    + destruct (nth_error rs i) as [r|] eqn:Er.
      * apply (Th _ _ _ E Er). rewrite since_same. discriminate.
      * apply nth_error_None in Er. rewrite <- Ln in Er. apply nth_error_None in Er. congruence.
Qed.
Lemma present_set m i t ho tags rs o : linv rs m ho tags -> present m o -> forall g w out, (l_wk m <> None -> w <> None) -> present (mkLMachine g (set_nth i t (l_ts m)) w out) o.
Proof.
  intros _ P g w out Hw. destruct o as [|j]; cbn in *; auto. intros N. apply nth_error_None in N. rewrite set_nth_length in N. apply nth_error_None in N. contradiction.
Qed.
Lemma worker_more ls out l es : worker_recorded txt ls out -> tell txt l es -> worker_recorded txt (ls ++ l) (out ++ es).
Proof.
  intros (e1 & e2 & -> & R) T. exists e1, (e2 ++ es). rewrite <- app_assoc. split; auto. rewrite concat_app, app_assoc. apply reports_app; auto.
Qed.
Lemma worker_starts ho tags p out : since ho Worker = None -> worker_recorded txt (by_whom Worker tags) out -> yields p (tell txt) ->
  follows ho tags Worker (mkThread p []) (wk_post out).
Proof.
  intros N R Y. split; [congruence|]. cbn [t_p]. rewrite N. eapply os_weaken; [|apply Y]. cbn beta. intros kn ls es (-> & l & -> & T).
  split; auto. apply worker_more; auto.
Qed.
Lemma linv_step rs m ho tags x m' : linv rs m ho tags -> lexec1 txt m x = Some m' -> exists ho' tags', linv rs m' ho' tags'.
Proof.
  intros Iv H. pose proof (linv_holder _ _ _ _ Iv) as Hold. pose proof Iv as (Ln & Lg & Pr & Am & Th & Wk).
  destruct x as [j| |d|tk|j|j]; cbn [lexec1] in H.
  - destruct (nth_error (l_ts m) j) as [t|] eqn:Nj; [|discriminate].
    destruct (tstep _ t (l_g m)) as [[t' g']|] eqn:S; [|discriminate]. injection H as <-.
    destruct (nth_error rs j) as [r|] eqn:Rj.
    2:{ apply nth_error_None in Rj. rewrite <- Ln in Rj. apply nth_error_None in Rj. congruence. }
    destruct (follows_step _ _ _ _ _ _ _ _ L0 _ (Th _ _ _ Nj Rj) Hold Lg S) as (ho' & tags' & F & M & Lg').
    exists ho', tags'. unfold linv. cbn [l_g l_ts l_wk l_out]. split; [rewrite set_nth_length; auto|]. split; [exact Lg'|]. split; [|split; [|split]].
    + intros o x E. destruct M as (_ & M & _). destruct (M _ _ E) as [E0| ->].
      * eapply present_set; eauto.
      * cbn [present l_ts]. erewrite nth_set_same by eauto. discriminate.
    + intros o x E. destruct M as (_ & _ & M). destruct (M _ _ E) as [E0| ->]; [eauto|]. cbn. apply nth_error_Some. congruence.
    + intros i u ri Ti Ri. apply nth_set_cases in Ti as [(<- & -> & _)|[Di Ti]].
      * replace ri with r by congruence. exact F.
      * eapply follows_moved; eauto. congruence.
    + destruct (l_wk m) as [w|].
      * eapply follows_moved; eauto. discriminate.
      * destruct M as (M & _). destruct (M Worker ltac:(discriminate)) as [_ E]. rewrite E. exact Wk.
  - destruct (l_wk m) as [w|] eqn:W; [|discriminate]. destruct w as [p h]. cbn [t_p t_h] in H.
    assert (Cs : (exists es, p = Ret es /\ h = [] /\ m' = mkLMachine (l_g m) (l_ts m) None (l_out m ++ es)) \/
      exists t' g', tstep (locks_held' m) (mkThread p h) (l_g m) = Some (t', g') /\ m' = mkLMachine g' (l_ts m) (Some t') (l_out m)).
    { destruct p as [es| | | | | | | | | | | | | |]; try destruct h;
        try (destruct (tstep (locks_held' m) _ (l_g m)) as [[t' g']|]; [|discriminate]; injection H as <-; eauto; fail).
      injection H as <-. left. eauto. }
    clear H. destruct Cs as [(es & -> & -> & ->)|(t' & g' & S & ->)].
    + destruct Wk as (_ & N & R). exists ho, tags. unfold linv. cbn [l_g l_ts l_wk l_out]. repeat (split; [assumption|]). split; [|split; [exact Am|split; auto]].
      intros o x ->. destruct o as [|i]; [rewrite since_same in N; discriminate|apply (Pr _ _ eq_refl)].
    + destruct (follows_step _ _ _ _ _ _ _ _ L0 _ Wk Hold Lg S) as (ho' & tags' & F & M & Lg').
      exists ho', tags'. unfold linv. cbn [l_g l_ts l_wk l_out]. split; [auto|]. split; [exact Lg'|]. split; [|split; [|split; [|exact F]]].
      * intros o x E. destruct M as (_ & M & _). destruct (M _ _ E) as [E0| ->]; [|cbn; discriminate]. specialize (Pr _ _ E0). destruct o; cbn in *; [discriminate|exact Pr].
      * intros o x E. destruct M as (_ & _ & M). destruct (M _ _ E) as [E0| ->]; [eauto|exact I].
      * intros i u ri Ti Ri. eapply follows_moved; eauto. discriminate.
  - injection H as <-. exists ho, tags. exact Iv.
  - destruct (l_wk m) eqn:W; [discriminate|]. injection H as <-. exists ho, tags. unfold linv. cbn [l_g l_ts l_wk l_out].
    assert (N : since ho Worker = None).
    { destruct (since ho Worker) as [x|] eqn:E; auto. apply since_some in E. destruct (Pr _ _ E). exact W. }
    repeat (split; [assumption|]). split; [|split; [assumption|split; [assumption|]]].
    + intros o x E. specialize (Pr _ _ E). destruct o; cbn in *; [congruence|exact Pr].
    + apply worker_starts; auto. apply tells_tick.
  - destruct (l_wk m) eqn:W; [discriminate|]. destruct (nth_error (l_ts m) j) as [[p h]|] eqn:Nj; [|discriminate]. cbn [t_p t_h] in H.
    destruct p as [| | | | | | | | | | | |c q| |]; try discriminate. injection H as <-. exists ho, tags. unfold linv. cbn [l_g l_ts l_wk l_out].
    assert (N : since ho Worker = None).
    { destruct (since ho Worker) as [x|] eqn:E; auto. apply since_some in E. destruct (Pr _ _ E). exact W. }
    split; [rewrite set_nth_length; auto|]. split; [assumption|]. split; [|split; [exact Am|split]].
    + intros o x E. eapply present_set; [exact Iv|exact (Pr _ _ E)|discriminate].
    + intros i u ri Ti Ri. apply nth_set_cases in Ti as [(<- & -> & _)|[Di Ti]]; [|auto]. exact (Th _ _ _ Nj Ri).
    + apply worker_starts; auto. apply tells_flush.
  - destruct (l_wk m) as [[pw hw]|] eqn:W; [|discriminate]. destruct (nth_error (l_ts m) j) as [[p h]|] eqn:Nj; [|discriminate].
    cbn [t_p t_h] in H. destruct pw as [| | | | | | | | | | | | | |b kw]; try discriminate.
    destruct p as [| | | | | | | | | | | | |q|]; try discriminate. injection H as <-. exists ho, tags. unfold linv. cbn [l_g l_ts l_wk l_out].
    split; [rewrite set_nth_length; auto|]. split; [assumption|]. split; [|split; [exact Am|split]].
    + intros o x E. eapply present_set; [exact Iv|exact (Pr _ _ E)|discriminate].
    + intros i u ri Ti Ri. apply nth_set_cases in Ti as [(<- & -> & _)|[Di Ti]]; [|auto]. destruct (Th _ _ _ Nj Ri) as [A B]. split; [exact A|]. exact (B b).
    + exact Wk.
Qed.
Lemma linv_exec rs xs : forall m ho tags m', linv rs m ho tags -> lexec txt xs m = Some m' -> exists ho' tags', linv rs m' ho' tags'.
Proof.
  induction xs as [|x xs IH]; intros m ho tags m' Iv E; cbn in E; [injection E as <-; eauto|].
  destruct (lexec1 txt m x) as [m1|] eqn:E1; [|discriminate]. destruct (linv_step _ _ _ _ _ _ Iv E1) as (ho1 & tags1 & I1). eauto.
Qed.
End Whole.
Lemma linv_init txt rs c clk : linv txt (c_log c) rs (lserve txt rs c clk) None [].
Proof.
  unfold linv, lserve. cbn [l_g l_ts l_wk l_out g_conn]. split; [apply map_length|]. split; [cbn; rewrite app_nil_r; reflexivity|].
  split; [discriminate|]. split; [intros o x []|]. split.
  - intros i t r Ti Ri. rewrite nth_error_map, Ri in Ti. injection Ti as <-. split; [cbn; congruence|]. cbn [t_p since].
    eapply os_weaken; [|apply yields_rpc']. cbn. intros kn ls [a es] (-> & l & -> & R). split; auto.
  - split; [cbn; congruence|]. cbn [t_p since]. eapply os_weaken; [|apply tells_start]. cbn. intros kn ls es (-> & l & -> & e1 & -> & R).
    split; auto. exists e1, []. rewrite !app_nil_r. auto.
Qed.
Lemma records txt rs c clk xs m : lexec txt xs (lserve txt rs c clk) = Some m ->
  exists tags unfinished, c_log (g_conn (l_g m)) = c_log c ++ concat (map snd tags) ++ unfinished /\
    (forall o l, In (o, l) tags -> among (length rs) o) /\
    (forall i r t a es, nth_error rs i = Some r -> nth_error (l_ts m) i = Some t -> t_p t = Ret (a, es) -> recorded txt r (by_whom (Request i) tags) a es) /\
    (l_wk m = None -> worker_recorded txt (by_whom Worker tags) (l_out m)) /\
    (all_done m -> unfinished = []).
Proof.
  intros E. destruct (linv_exec txt (c_log c) rs xs _ _ _ _ (linv_init txt rs c clk) E) as (ho & tags & Iv).
  pose proof Iv as (Ln & Lg & Pr & Am & Th & Wk). exists tags, (begun ho). split; [exact Lg|]. split; [exact Am|]. split; [|split].
  - intros i r t a es Ri Ti Ep. destruct (Th _ _ _ Ti Ri) as [_ F]. rewrite Ep in F. destruct F as [_ F]. exact F.
  - intros W. rewrite W in Wk. exact Wk.
  - intros [W D]. destruct ho as [[o x]|]; [|reflexivity]. exfalso. specialize (Pr _ _ eq_refl). destruct o as [|i]; cbn in Pr; [congruence|].
    destruct (nth_error (l_ts m) i) as [t|] eqn:Ti; [|contradiction].
    destruct (nth_error rs i) as [r|] eqn:Ri; [|apply nth_error_None in Ri; rewrite <- Ln in Ri; apply nth_error_None in Ri; congruence].
    rewrite Forall_forall in D. destruct (D t (nth_error_In _ _ Ti)) as ([a es] & Ep). destruct (Th _ _ _ Ti Ri) as [_ F]. rewrite Ep, since_same in F. destruct F as [F _]. discriminate.
Qed.
