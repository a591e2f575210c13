(** Lemmas behind PropertiesFine.v. *)
From Verif Require Import ProofBase Proto SpecConn SpecServer Scanner Conn Proc Lib Server Machine SpecMachine MachineBase ThreadLogic MachineInv
  MachineLive MachineClaims Fine SpecFine FineRead FineProofs.

Lemma sim_init rs c clk : sim (fserve rs c clk) (serve rs c clk).
Proof.
  split; [|split].
  - unfold same, fserve, serve. cbn [fm_ts fm_wk fm_g m_ts m_wk m_g]. splits; auto. rewrite map_map. reflexivity.
  - cbn [fserve fm_ts]. intros i t N. rewrite nth_error_map in N. destruct (nth_error rs i); [|discriminate]. injection N as <-. exact I.
  - cbn. intros t E. injection E as <-. exact I.
Qed.
Lemma some_of_app {T} (a b a' b' : list T) : some_of a a' -> some_of b b' -> some_of (a ++ b) (a' ++ b').
Proof. induction 1; cbn; intros; auto; [apply so_skip|apply so_keep]; auto. Qed.
Lemma sim_exec L0 rs : forall xs wait fm m fm', inv L0 rs wait m -> sim fm m -> fexec xs fm = Some fm' ->
  exists ys m' wait', some_of ys xs /\ exec ys m = Some m' /\ sim fm' m' /\ inv L0 rs wait' m'.
Proof.
  induction xs as [|x xs IH]; intros wait fm m fm' Iv S H; cbn [fexec] in H.
  - injection H as <-. exists [], m, wait. splits; auto. constructor.
  - destruct (fexec1 fm x) as [fm1|] eqn:E; [|discriminate]. destruct (sim_step _ _ _ _ _ _ _ Iv S E) as [(S1 & _)|(m1 & E1 & S1)].
    + destruct (IH _ _ _ _ Iv S1 H) as (ys & m' & w' & A & B & C & D). exists ys, m', w'. splits; auto. constructor. auto.
    + destruct (inv_step _ _ _ _ _ _ Iv E1) as (w1 & _ & I1). destruct (IH _ _ _ _ I1 S1 H) as (ys & m' & w' & A & B & C & D). exists (x :: ys), m', w'.
      cbn [exec]. rewrite E1. splits; auto. apply so_keep. auto.
Qed.
Lemma fine_reach rs c clk xs fm : fexec xs (fserve rs c clk) = Some fm ->
  exists ys m wait, some_of ys xs /\ exec ys (serve rs c clk) = Some m /\ sim fm m /\ inv (c_log c) rs wait m.
Proof. intros H. eapply sim_exec; [|apply sim_init|exact H]. apply inv_init. reflexivity. Qed.
Lemma fine_coarse rs c clk xs fm : fexec xs (fserve rs c clk) = Some fm ->
  exists ys m, some_of ys xs /\ exec ys (serve rs c clk) = Some m /\ same fm m.
Proof. intros H. destruct (fine_reach _ _ _ _ _ H) as (ys & m & w & A & B & (C & _) & _). eauto. Qed.

(** ** And back *)
Definition unwound {A} (t : thread A) : fthread A := mkFThread (FAt (t_p t)) (t_h t).
Definition lifted {A} (m : machine A) : fmachine A := mkFMachine (m_g m) (map unwound (m_ts m)) (option_map unwound (m_wk m)).
Lemma lifted_locks {A} (m : machine A) : flocks (lifted m) = locks_held m.
Proof. unfold flocks, locks_held, lifted. cbn. destruct (m_wk m); cbn; rewrite map_map; reflexivity. Qed.
Lemma lifted_same {A} (m : machine A) : same (lifted m) m /\ all_settled (lifted m).
Proof.
  split.
  - unfold same, lifted. cbn [fm_ts fm_wk fm_g]. splits; auto; [|destruct (m_wk m) as [[]|]; reflexivity]. rewrite map_map. symmetry. rewrite <- (map_id (m_ts m)) at 2. apply map_ext. intros []. reflexivity.
  - split; [apply Forall_map, Forall_forall; intros t _; eexists; reflexivity|]. unfold lifted. cbn. intros t E. destruct (m_wk m); [|discriminate]. injection E as <-. eexists. reflexivity.
Qed.
(** The steps of one goroutine, one after the other, the connection being left alone by others. *)
Inductive steps {A} : fproc A -> conn -> nat -> sproc A -> conn -> Prop :=
| st_over p c p' c' : (forall hs h sh clk, ftstep hs (mkFThread p h) (mkMem c sh clk) = Some (mkFThread (FAt p') h, mkMem c' sh clk)) -> steps p c 0 p' c'
| st_more p c p1 c1 n p' c' : (forall hs h sh clk, ftstep hs (mkFThread p h) (mkMem c sh clk) = Some (mkFThread p1 h, mkMem c1 sh clk)) ->
    (forall a, p1 <> FAt a) -> steps p1 c1 n p' c' -> steps p c (S n) p' c'.
Definition logged x (o : outcome (packet * option err)) c := match o with Done (p, e) => log_io c (Rd x p e) | Panic => c end.
Definition goes_on {A} (k : packet -> option err -> sproc A) (o : outcome (packet * option err)) : sproc A := match o with Done (p, e) => k p e | Panic => Crash end.
Lemma read_steps {A} (k : packet -> option err -> sproc A) r c o c' : completes r c o c' -> exists n, steps (FRead r k) c n (goes_on k o) (logged (r_expect r) o c').
Proof.
  induction 1 as [r c o c' E|r c r1 c1 o c' E C (n & IH)].
  - exists 0%nat. apply st_over. intros. unfold ftstep. cbn [f_p f_h g_conn g_sh g_clk]. rewrite E. destruct o as [[p e]|]; reflexivity.
  - exists (S n). rewrite (expect_kept _ _ _ _ E) in IH. apply (st_more _ _ (FRead r1 k) c1); [|discriminate|exact IH].
    intros. unfold ftstep. cbn [f_p f_h g_conn g_sh g_clk]. rewrite E. reflexivity.
Qed.
Lemma set_twice {T} (l : list T) : forall i x y, set_nth i x (set_nth i y l) = set_nth i x l.
Proof. induction l as [|a l IH]; intros [|i] x y; cbn; auto. f_equal. auto. Qed.
Lemma steps_run {A} (p : fproc A) c n p' c' : steps p c n p' c' -> forall ts i h sh clk (wk : option (fthread unit)), nth_error ts i = Some (mkFThread p h) ->
  fexec (repeat (Run i) (S n)) (mkFMachine (mkMem c sh clk) ts wk) = Some (mkFMachine (mkMem c' sh clk) (set_nth i (mkFThread (FAt p') h) ts) wk).
Proof.
  induction 1 as [p c p' c' E|p c p1 c1 n p' c' E Q _ IH]; intros ts i h sh clk wk N.
  - cbn [repeat fexec fexec1 fm_ts fm_g fm_wk]. rewrite N, E. reflexivity.
  - change (repeat (Run i) (S (S n))) with (Run i :: repeat (Run i) (S n)). cbn [fexec fexec1 fm_ts fm_g fm_wk]. rewrite N, E. cbn [fm_ts fm_g fm_wk].
    rewrite (IH _ i h); [|eapply nth_set_same; exact N]. rewrite set_twice. reflexivity.
Qed.
Lemma steps_run_wk {B} (p : fproc unit) c n p' c' : steps p c n p' c' -> (forall a, p <> FAt (Ret a)) -> forall (ts : list (fthread B)) h sh clk,
  fexec (repeat RunWk (S n)) (mkFMachine (mkMem c sh clk) ts (Some (mkFThread p h))) = Some (mkFMachine (mkMem c' sh clk) ts (Some (mkFThread (FAt p') h))).
Proof.
  assert (D : forall (p : fproc unit) h (ts : list (fthread B)) sh clk c p1 c1, (forall a, p <> FAt (Ret a)) ->
    (forall hs h sh clk, ftstep hs (mkFThread p h) (mkMem c sh clk) = Some (mkFThread p1 h, mkMem c1 sh clk)) ->
    fexec1 (mkFMachine (mkMem c sh clk) ts (Some (mkFThread p h))) RunWk = Some (mkFMachine (mkMem c1 sh clk) ts (Some (mkFThread p1 h)))).
  { intros q h ts sh clk c0 p1 c1 N E. cbn [fexec1 fm_wk f_p f_h fm_g]. rewrite E. cbn [fm_ts]. destruct q as [[]| | |]; try reflexivity. destruct (N a eq_refl). }
  induction 1 as [p c p' c' E|p c p1 c1 n p' c' E Q _ IH]; intros N ts h sh clk.
  - cbn [repeat fexec]. rewrite (D _ _ _ _ _ _ _ _ N E). reflexivity.
  - change (repeat RunWk (S (S n))) with (RunWk :: repeat RunWk (S n)). cbn [fexec]. rewrite (D _ _ _ _ _ _ _ _ N E). apply IH. intros a. apply Q.
Qed.
Lemma call_steps {A} (p : sproc A) h sh clk c t' g' : calls p -> tstep [] (mkThread p h) (mkMem c sh clk) = Some (t', g') ->
  exists n, steps (FAt p) c n (t_p t') (g_conn g') /\ t_h t' = h /\ g' = mkMem (g_conn g') sh clk.
Proof.
  destruct p; cbn [calls]; try contradiction; intros _; unfold tstep; cbn [t_p t_h g_conn g_sh g_clk].
  - destruct (conn_write c bs) as [w c1] eqn:W. intros H; injection H as <- <-. cbn. exists 2%nat. splits; auto.
    apply (st_more _ _ (FWrite bs k) c); [intros; reflexivity|discriminate|]. apply (st_more _ _ (FWrote bs w k) c1); [|discriminate|apply st_over; intros; reflexivity].
    intros. unfold ftstep. cbn [f_p f_h g_conn g_sh g_clk]. rewrite W. reflexivity.
  - pose proof (reads_packet c expect) as R. destruct (ReadPacket c expect) as [o c1]. cbn [fst snd] in R. destruct (read_steps k _ _ _ _ R) as (n & St). cbn [r_expect] in St.
    intros H. assert (E : t' = mkThread (goes_on k o) h /\ g' = mkMem (logged expect o c1) sh clk) by (destruct o as [[p e]|]; injection H as <- <-; auto).
    destruct E as [-> ->]. cbn. exists (S n). splits; auto. apply (st_more _ _ (FRead (mkReading 0 expect new_scanner None) k) c); [intros; reflexivity|discriminate|exact St].
Qed.
Lemma calls_dec {A} (p : sproc A) : calls p \/ ~ calls p.
Proof. destruct p; cbn; auto. Qed.
Lemma calls_hs {A} hs (t : thread A) g : calls (t_p t) -> tstep hs t g = tstep [] t g.
Proof. unfold tstep. destruct (t_p t); cbn; try contradiction; auto. Qed.
Lemma plain_step {A} hs (p : sproc A) h g t' g' : ~ calls p -> tstep hs (mkThread p h) g = Some (t', g') -> ftstep hs (mkFThread (FAt p) h) g = Some (unwound t', g').
Proof. intros C E. unfold ftstep. cbn [f_p f_h]. destruct p; cbn [calls] in C; try (destruct (C I)); rewrite E; reflexivity. Qed.
Lemma step_lifted {A} (m m' : machine A) x : exec1 m x = Some m' -> exists n, fexec (repeat x (S n)) (lifted m) = Some (lifted m').
Proof.
  destruct x as [i| |d|tk|i|i]; cbn [exec1]; intros H.
  - destruct (nth_error (m_ts m) i) as [[p h]|] eqn:N; [|discriminate]. destruct (tstep (locks_held m) _ (m_g m)) as [[t' g']|] eqn:St; [|discriminate]. injection H as <-.
    assert (N' : nth_error (fm_ts (lifted m)) i = Some (mkFThread (FAt p) h)) by (unfold lifted; cbn [fm_ts]; rewrite nth_error_map, N; reflexivity).
    destruct (calls_dec p) as [C|C].
    + rewrite calls_hs in St by auto. unfold lifted. destruct (m_g m) as [c sh clk]. destruct (call_steps _ _ _ _ _ _ _ C St) as (n & S1 & S2 & ->). exists n.
      rewrite (steps_run _ _ _ _ _ S1 _ _ _ _ _ _ N'). cbn [m_g m_ts m_wk]. rewrite set_nth_map. destruct t'; cbn in S2; subst; reflexivity.
    + exists 0%nat. cbn [repeat fexec fexec1]. rewrite N'. rewrite lifted_locks. cbn [lifted fm_g]. rewrite (plain_step _ _ _ _ _ _ C St). unfold lifted. cbn [m_g m_ts m_wk fm_ts fm_wk]. rewrite set_nth_map. reflexivity.
  - destruct (m_wk m) as [[p h]|] eqn:N; [|discriminate].
    assert (N' : fm_wk (lifted m) = Some (mkFThread (FAt p) h)) by (unfold lifted; cbn [fm_wk]; rewrite N; reflexivity).
    assert (Z : p = Ret tt /\ h = [] /\ m' = mkMachine (m_g m) (m_ts m) None \/
      ~ (p = Ret tt /\ h = []) /\ exists t' g', tstep (locks_held m) (mkThread p h) (m_g m) = Some (t', g') /\ m' = mkMachine g' (m_ts m) (Some t')).
    { cbn [t_p t_h] in H. assert (G : forall X, match tstep (locks_held m) (mkThread p h) (m_g m) with Some (t', g') => Some (mkMachine g' (m_ts m) (Some t')) | None => None end = Some m' -> ~ X ->
        ~ X /\ exists t' g', tstep (locks_held m) (mkThread p h) (m_g m) = Some (t', g') /\ m' = mkMachine g' (m_ts m) (Some t')).
      { intros X E Q. split; auto. destruct (tstep _ _ _) as [[t' g']|]; [|discriminate]. injection E as <-. eauto. }
      destruct p as [[]| | | | | | | | | | | | | |]; try (right; apply G; [exact H|intros [Q _]; discriminate]).
      destruct h as [|]; [left; injection H as <-; auto|right; apply G; [exact H|intros [_ Q]; discriminate]]. }
    destruct Z as [(-> & -> & ->)|(P & t' & g' & St & ->)].
    + exists 0%nat. cbn [repeat fexec fexec1]. rewrite N'. reflexivity.
    + destruct (calls_dec p) as [C|C].
      * rewrite calls_hs in St by auto. unfold lifted in *. destruct (m_g m) as [c sh clk]. destruct (call_steps _ _ _ _ _ _ _ C St) as (n & S1 & S2 & ->). exists n.
        cbn [fm_wk] in N'. rewrite N'. rewrite (steps_run_wk _ _ _ _ _ S1); [|intros a Q; injection Q as ->; exact C]. cbn [m_g m_ts m_wk option_map]. destruct t'; cbn in S2; subst; reflexivity.
      * exists 0%nat. cbn [repeat fexec fexec1]. rewrite N', lifted_locks. cbn [f_p f_h]. cbn [lifted fm_g]. rewrite (plain_step _ _ _ _ _ _ C St).
        destruct p as [[]| | | | | | | | | | | | | |]; try reflexivity. destruct h; [destruct P; auto|reflexivity].
  - injection H as <-. exists 0%nat. reflexivity.
  - destruct (m_wk m) as [t|] eqn:N; [discriminate|]. injection H as <-. exists 0%nat. cbn [repeat fexec fexec1]. unfold lifted. cbn [fm_wk]. rewrite N. reflexivity.
  - destruct (m_wk m) as [t|] eqn:N; [discriminate|]. destruct (nth_error (m_ts m) i) as [t|] eqn:Ni; [|discriminate]. destruct (t_p t) eqn:P; try discriminate. injection H as <-.
    exists 0%nat. cbn [repeat fexec fexec1]. unfold lifted. cbn [fm_wk fm_ts]. rewrite N, nth_error_map, Ni. cbn [option_map unwound f_p]. rewrite P. cbn [fexec m_g m_ts m_wk fm_g]. rewrite set_nth_map. reflexivity.
  - destruct (m_wk m) as [t|] eqn:N; [|discriminate]. destruct (nth_error (m_ts m) i) as [u|] eqn:Ni; [|discriminate]. destruct (t_p t) eqn:P; try discriminate. destruct (t_p u) eqn:Q; try discriminate. injection H as <-.
    exists 0%nat. cbn [repeat fexec fexec1]. unfold lifted. cbn [fm_wk fm_ts]. rewrite N, nth_error_map, Ni. cbn [option_map unwound f_p]. rewrite P, Q. cbn [fexec m_g m_ts m_wk fm_g]. rewrite set_nth_map. reflexivity.
Qed.
Lemma fexec_app {A} xs : forall ys (m : fmachine A), fexec (xs ++ ys) m = match fexec xs m with Some m' => fexec ys m' | None => None end.
Proof. induction xs as [|x xs IH]; intros; cbn; auto. destruct (fexec1 m x); auto. Qed.
Lemma repeat_some {T} (x : T) n : some_of [] (repeat x n).
Proof. induction n; cbn; constructor; auto. Qed.
Lemma exec_lifted {A} : forall ys (m m' : machine A), exec ys m = Some m' -> exists xs, some_of ys xs /\ fexec xs (lifted m) = Some (lifted m').
Proof.
  induction ys as [|y ys IH]; intros m m' H; cbn [exec] in H.
  - injection H as <-. exists []. split; [constructor|reflexivity].
  - destruct (exec1 m y) as [m1|] eqn:E; [|discriminate]. destruct (step_lifted _ _ _ E) as (n & F). destruct (IH _ _ H) as (xs & So & G). exists (repeat y (S n) ++ xs). split.
    + apply (some_of_app [y] ys); auto. cbn [repeat]. apply so_keep. apply repeat_some.
    + rewrite fexec_app, F. exact G.
Qed.
Lemma coarse_fine rs c clk ys m : exec ys (serve rs c clk) = Some m ->
  exists xs fm, some_of ys xs /\ fexec xs (fserve rs c clk) = Some fm /\ all_settled fm /\ same fm m.
Proof.
  intros H. destruct (exec_lifted _ _ _ H) as (xs & S & F). exists xs, (lifted m). destruct (lifted_same m). splits; auto.
  assert (E : lifted (serve rs c clk) = fserve rs c clk). { unfold lifted, serve, fserve. cbn [m_g m_ts m_wk option_map]. rewrite map_map. reflexivity. }
  rewrite <- E. exact F.
Qed.

(** ** Progress *)
Lemma unsettled_steps {A} hs (t : fthread A) g : ~ settled t -> exists t' g', ftstep hs t g = Some (t', g').
Proof.
  unfold settled, ftstep. destruct (f_p t) as [p|r k|bs k|bs w k]; intros N; [destruct N; eauto|..].
  - destruct (read_step r (g_conn g)) as [r' c'|[[p e]|] c']; eauto.
  - destruct (conn_write _ _). eauto.
  - eauto.
Qed.
Lemma all_settled_dec {A} (fm : fmachine A) : all_settled fm \/
  (exists i t, nth_error (fm_ts fm) i = Some t /\ ~ settled t) \/ (exists t, fm_wk fm = Some t /\ ~ settled t).
Proof.
  assert (L : Forall settled (fm_ts fm) \/ exists i t, nth_error (fm_ts fm) i = Some t /\ ~ settled t).
  { induction (fm_ts fm) as [|a l IH]; [left; constructor|]. destruct (settled_dec a) as [D|D]; [|right; exists 0%nat, a; auto].
    destruct IH as [IH|(i & t & N & U)]; [left; constructor; auto|right; exists (S i), t; auto]. }
  destruct L as [L|L]; [|auto]. destruct (fm_wk fm) as [w|] eqn:W; [|left; split; auto; rewrite W; discriminate].
  destruct (settled_dec w) as [D|D]; [left; split; auto; intros t E; congruence|right; right; eauto].
Qed.
Lemma settled_lifted {A} (fm : fmachine A) m : all_settled fm -> same fm m -> fm = lifted m.
Proof.
  intros [F W] (T & K & Sh & Ck & Cn). specialize (Cn (conj F W)). destruct fm as [[c s k] ts wk], m as [[c' s' k'] ts' wk']. cbn [fm_g fm_ts fm_wk m_g m_ts m_wk g_conn g_sh g_clk] in *. subst.
  unfold lifted. cbn [m_g m_ts m_wk]. f_equal.
  - rewrite map_map. rewrite <- (map_id ts) at 1. apply map_ext_in. intros t I0. rewrite Forall_forall in F. destruct (F t I0) as (p & P). destruct t as [q h]. cbn in P. subst q. reflexivity.
  - destruct wk as [t|]; [|reflexivity]. destruct (W t eq_refl) as (p & P). destruct t as [q h]. cbn in P. subst q. reflexivity.
Qed.
Lemma lifted_writer {A} (m : machine A) l : fwriter_waits (lifted m) l -> writer_waits m l.
Proof.
  intros [(i & t & k & N & P)|(t & k & N & P)]; cbn [lifted fm_ts fm_wk] in N.
  - left. rewrite nth_error_map in N. destruct (nth_error (m_ts m) i) as [u|] eqn:U; [|discriminate]. injection N as <-. cbn in P. injection P as P. eauto.
  - right. destruct (m_wk m) as [u|]; [|discriminate]. injection N as <-. cbn in P. injection P as P. eauto.
Qed.
Lemma possible_lifted {A} (m : machine A) x : possible m x -> fpossible (lifted m) x.
Proof.
  intros [E R]. split.
  - destruct (exec1 m x) as [m'|] eqn:X; [|congruence]. destruct (step_lifted _ _ _ X) as (n & F). cbn [repeat fexec] in F. destruct (fexec1 (lifted m) x); [discriminate|congruence].
  - destruct x; auto; cbn [lifted fm_ts fm_wk].
    + intros t l k N P Q. rewrite nth_error_map in N. destruct (nth_error (m_ts m) i) as [u|] eqn:U; [|discriminate]. injection N as <-. cbn in P. injection P as P. eapply R; eauto. apply lifted_writer. exact Q.
    + intros t l k N P Q. destruct (m_wk m) as [u|]; [|discriminate]. injection N as <-. cbn in P. injection P as P. eapply R; eauto. apply lifted_writer. exact Q.
Qed.
Lemma fine_progress L0 rs wait fm m : sim fm m -> inv L0 rs wait m -> ~ ffinished fm -> exists x, working x /\ fpossible fm x.
Proof.
  intros (S & _) Iv N. destruct (all_settled_dec fm) as [A|[(i & t & E & U)|(t & E & U)]].
  - assert (Q : ~ finished m).
    { intros [F W]. apply N. rewrite (settled_lifted _ _ A S). split; cbn [lifted fm_ts fm_wk]; [|rewrite W; reflexivity].
      apply Forall_map. eapply Forall_impl; [|exact F]. intros t (r & R). exists r. cbn. congruence. }
    destruct (progress _ _ _ _ Iv Q) as (x & X & P). exists x. split; auto. rewrite (settled_lifted _ _ A S). apply possible_lifted. exact P.
  - exists (Run i). split; [exact I|]. destruct (unsettled_steps (flocks fm) t (fm_g fm) U) as (t' & g' & St). split.
    + cbn [fexec1]. rewrite E, St. discriminate.
    + intros u l k E' P. rewrite E in E'. injection E' as <-. destruct U. eexists. exact P.
  - exists RunWk. split; [exact I|]. destruct (unsettled_steps (flocks fm) t (fm_g fm) U) as (t' & g' & St). split.
    + cbn [fexec1]. rewrite E, St. destruct (f_p t) as [p| | |] eqn:P; try discriminate. destruct U. eexists. exact P.
    + intros u l k E' P. rewrite E in E'. injection E' as <-. destruct U. eexists. exact P.
Qed.

(** ** Termination *)
Lemma caller_dec {A} (m : machine A) : (exists w, caller m w) \/ forall w, ~ caller m w.
Proof.
  assert (L : (exists i t, nth_error (m_ts m) i = Some t /\ calls (t_p t)) \/ forall i t, nth_error (m_ts m) i = Some t -> ~ calls (t_p t)).
  { induction (m_ts m) as [|a l IH]; [right; intros [|i] t N; discriminate|]. destruct (calls_dec (t_p a)) as [D|D]; [left; exists 0%nat, a; auto|].
    destruct IH as [(i & t & N & C)|IH]; [left; exists (S i), t; auto|right; intros [|i] t N; cbn in N; [injection N as <-; auto|eauto]]. }
  destruct L as [(i & t & N & C)|L]; [left; exists (Some i), t; auto|]. destruct (m_wk m) as [w|] eqn:W.
  - destruct (calls_dec (t_p w)) as [D|D]; [left; exists None, w; auto|]. right. intros [i|] (t & N & C); [eapply L; eauto|congruence].
  - right. intros [i|] (t & N & C); [eapply L; eauto|congruence].
Qed.
Lemma fine_acc L0 rs : forall m wait, inv L0 rs wait m -> forall fm, sim fm m -> Acc fworks fm.
Proof.
  intros m. induction (works_wf m) as [m _ Out]. intros wait Iv.
  assert (Coarse : forall (fm' : fmachine resp) x, working x -> (exists m', exec1 m x = Some m' /\ sim fm' m') -> Acc fworks fm').
  { intros fm' x X (m' & E & S'). destruct (inv_step _ _ _ _ _ _ Iv E) as (w' & _ & I'). eapply Out; eauto. exists x. auto. }
  destruct (caller_dec m) as [(w & C)|C].
  - assert (Go : forall ph c, Acc pless (ph, c) -> forall fm, sim fm m -> phase_at fm w = Some ph -> g_conn (fm_g fm) = c -> Acc fworks fm).
    { intros ph c A. remember (ph, c) as pc eqn:E. revert ph c E. induction A as [pc _ IH]. intros ph c -> fm S P Cn. constructor. intros fm' (x & X & F).
      destruct (sim_step _ _ _ _ _ _ _ Iv S F) as [(S' & w' & ph1 & ph2 & C' & P1 & P2 & L)|K]; [|eapply Coarse; eauto].
      rewrite <- (caller_one _ _ _ _ _ _ Iv C C') in *. assert (ph1 = ph) as -> by congruence. rewrite Cn in L. eapply (IH _ L _ _ eq_refl); eauto. }
    assert (In1 : forall fm ph, sim fm m -> phase_at fm w = Some ph -> mid_phase ph (g_conn (fm_g fm))).
    { intros fm ph (S & Mt & Mw) P. destruct w as [i|]; cbn [phase_at] in P.
      - destruct (nth_error (fm_ts fm) i) as [t|] eqn:N; [|discriminate]. injection P as <-. eapply mid_phased. eauto.
      - destruct (fm_wk fm) as [t|] eqn:N; [|discriminate]. injection P as <-. eapply mid_phased. eauto. }
    assert (Inside : forall fm ph, sim fm m -> phase_at fm w = Some ph -> ph <> PAt -> Acc fworks fm).
    { intros fm ph S P N. eapply (Go ph (g_conn (fm_g fm))); eauto. apply inside_acc; auto. }
    intros fm S. constructor. intros fm' (x & X & F).
    destruct (sim_step _ _ _ _ _ _ _ Iv S F) as [(S' & w' & ph1 & ph2 & C' & P1 & P2 & L)|K]; [|eapply Coarse; eauto].
    rewrite <- (caller_one _ _ _ _ _ _ Iv C C') in *. eapply Inside; eauto. inversion L; subst; auto; discriminate.
  - intros fm S. constructor. intros fm' (x & X & F).
    destruct (sim_step _ _ _ _ _ _ _ Iv S F) as [(S' & w' & ph1 & ph2 & C' & _)|K]; [destruct (C _ C')|eapply Coarse; eauto].
Qed.
Lemma ffinished_dec {A} (fm : fmachine A) : ffinished fm \/ ~ ffinished fm.
Proof.
  assert (L : Forall (fun t => exists r, f_p t = FAt (Ret r)) (fm_ts fm) \/ ~ Forall (fun t => exists r, f_p t = FAt (Ret r)) (fm_ts fm)).
  { induction (fm_ts fm) as [|t l IH]; [left; constructor|].
    assert (D : (exists r, f_p t = FAt (Ret r)) \/ ~ (exists r, f_p t = FAt (Ret r))).
    { destruct (f_p t) as [[]| | |]; try (right; intros (? & ?); discriminate); left; eauto. }
    destruct D as [D|D]; [|right; intros X; exact (D (Forall_inv X))].
    destruct IH as [IH|IH]; [left; constructor; auto|right; intros X; exact (IH (Forall_inv_tail X))]. }
  unfold ffinished. destruct L as [L|L]; [|right; tauto]. destruct (fm_wk fm); [right; intros [_ Q]; discriminate|auto].
Qed.
Lemma fine_completes L0 rs fm : Acc fworks fm -> forall m wait, sim fm m -> inv L0 rs wait m -> exists xs fm', Forall working xs /\ fproceeds fm xs fm' /\ ffinished fm'.
Proof.
  induction 1 as [fm _ IH]. intros m wait S Iv. destruct (ffinished_dec fm) as [F|F]; [exists [], fm; splits; auto; constructor|].
  destruct (fine_progress _ _ _ _ _ S Iv F) as (x & X & P). destruct (fexec1 fm x) as [fm1|] eqn:E; [|destruct P; congruence].
  assert (Q : exists m1 wait1, sim fm1 m1 /\ inv L0 rs wait1 m1).
  { destruct (sim_step _ _ _ _ _ _ _ Iv S E) as [(S' & _)|(m1 & E1 & S1)]; [eauto|]. destruct (inv_step _ _ _ _ _ _ Iv E1) as (w1 & _ & I1). eauto. }
  destruct Q as (m1 & w1 & S1 & I1). destruct (IH fm1 (ex_intro _ x (conj X E)) _ _ S1 I1) as (xs & fm' & A & B & C). exists (x :: xs), fm'. splits; auto. econstructor; eauto.
Qed.
Lemma fine_no_deadlock rs c clk xs fm : fexec xs (fserve rs c clk) = Some fm ->
  (~ ffinished fm -> exists x, working x /\ fpossible fm x) /\ Acc fworks fm /\
  exists ys fm', Forall working ys /\ fproceeds fm ys fm' /\ ffinished fm'.
Proof.
  intros H. destruct (fine_reach _ _ _ _ _ H) as (ys & m & w & _ & _ & S & Iv). splits.
  - eapply fine_progress; eauto.
  - eapply fine_acc; eauto.
  - eapply fine_completes; eauto. eapply fine_acc; eauto.
Qed.

(** ** One at a time *)
Lemma one_inside rs c clk xs fm : fexec xs (fserve rs c clk) = Some fm ->
  (forall i t, nth_error (fm_ts fm) i = Some t -> ~ settled t -> In (LPm, true) (f_h t) /\
     (forall j u, nth_error (fm_ts fm) j = Some u -> ~ settled u -> i = j) /\ (forall u, fm_wk fm = Some u -> settled u)) /\
  (forall t, fm_wk fm = Some t -> ~ settled t -> In (LPm, true) (f_h t) /\ Forall settled (fm_ts fm)).
Proof.
  intros H. destruct (fine_reach _ _ _ _ _ H) as (ys & m & w & _ & _ & (S & _) & Iv). split.
  - intros i t N U. pose proof (unsettled_caller _ _ _ _ S N U) as C. splits.
    + eapply (thread_lock _ _ _ _ Iv i (rewound t)); [eapply nth_rewound; eauto|apply unsettled_calls; auto].
    + intros j u M V. pose proof (caller_one _ _ _ _ _ _ Iv C (unsettled_caller _ _ _ _ S M V)). congruence.
    + intros u M. destruct (settled_dec u) as [|V]; auto. pose proof (caller_one _ _ _ _ _ _ Iv C (unsettled_wk _ _ _ S M V)). congruence.
  - intros t N U. pose proof (unsettled_wk _ _ _ S N U) as C. split.
    + eapply (worker_lock _ _ _ _ Iv (rewound t)); [eapply wk_rewound; eauto|apply unsettled_calls; auto].
    + apply Forall_forall. intros u J. apply In_nth_error in J. destruct J as [j J]. destruct (settled_dec u) as [|V]; auto.
      pose proof (caller_one _ _ _ _ _ _ Iv C (unsettled_caller _ _ _ _ S J V)). congruence.
Qed.
Lemma same_answers {A} (fm : fmachine A) m i r : same fm m -> fanswered fm i r <-> answered m i r.
Proof.
  intros S. pose proof S as (T & _). unfold fanswered, answered. rewrite T. split.
  - intros (t & N & P). exists (rewound t). split; [apply map_nth_error; exact N|]. unfold rewound. rewrite P. reflexivity.
  - intros (t & N & P). rewrite nth_error_map in N. destruct (nth_error (fm_ts fm) i) as [u|]; [|discriminate]. injection N as <-. exists u. split; auto.
    unfold rewound in P. cbn in P. destruct (f_p u); cbn in P; congruence.
Qed.
Lemma fine_answers rs c clk xs fm : fexec xs (fserve rs c clk) = Some fm ->
  exists ys m, some_of ys xs /\ exec ys (serve rs c clk) = Some m /\ same fm m /\ forall i r, fanswered fm i r <-> answered m i r.
Proof. intros H. destruct (fine_coarse _ _ _ _ _ H) as (ys & m & A & B & C). exists ys, m. splits; auto. intros. apply same_answers. exact C. Qed.
