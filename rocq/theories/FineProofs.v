(** Executions in small steps are executions of Machine.v in which calls in progress have not begun. *)
From Verif Require Import ProofBase Proto SpecConn SpecServer Scanner Conn Proc Lib Server Machine SpecMachine MachineBase ThreadLogic MachineInv
  Fine SpecFine FineRead.

Definition calls {A} (p : sproc A) : Prop := match p with WriteC _ _ | ReadC _ _ => True | _ => False end.
(** [cf]: the connection now; [cm]: before the call. *)
Definition mid {A} (p : fproc A) (cf cm : conn) : Prop :=
  match p with
  | FAt _ => True
  | FRead r _ => completes r cf (fst (ReadPacket cm (r_expect r))) (snd (ReadPacket cm (r_expect r)))
  | FWrite _ _ => cf = cm
  | FWrote bs w _ => conn_write cm bs = (w, cf)
  end.
Lemma settled_dec {A} (t : fthread A) : settled t \/ ~ settled t.
Proof. unfold settled. destruct (f_p t); [left; eauto|right; intros (p & H); discriminate..]. Qed.
Lemma unsettled_calls {A} (t : fthread A) : ~ settled t -> calls (t_p (rewound t)).
Proof. unfold settled, rewound. cbn [t_p]. destruct (f_p t) as [p| | |]; cbn; auto. intros N. destruct N. eauto. Qed.
Lemma expect_kept r c r' c' : read_step r c = More r' c' -> r_expect r' = r_expect r.
Proof.
  assert (S : forall st x pr e s c r' c', scanned st x pr e s c = More r' c' -> r_expect r' = x).
  { intros st x pr e s c0 r0 c1. unfold scanned. destruct e; [discriminate|]. destruct st as [|[|st]].
    - destruct (negb _); [discriminate|]. destruct (negb x); [discriminate|]. intros H. injection H as <- <-. reflexivity.
    - destruct (negb _); [discriminate|]. intros H. injection H as <- <-. reflexivity.
    - destruct (_ && _); [discriminate|]. destruct (len pr >=? 4); discriminate. }
  unfold read_step. destruct (r_wait r) as [n|].
  - destruct (scan_top (r_s r)); [apply S|apply S|]. destruct (c_pend c) as [|[bs e| |] evs]; [apply S| |apply S|];
      (destruct n as [|n]; [intros H; injection H as <- <-; reflexivity|]); (destruct (c_orph c) as [|q os]; [intros H; injection H as <- <-; reflexivity|]);
      [destruct (scan_top _)|]; intros H; injection H as <- <-; reflexivity.
  - destruct (c_pend c) as [|[bs e| |] evs]; try (intros H; injection H as <- <-; reflexivity). destruct (scan_top _); apply S.
Qed.

(** One step of one goroutine: the same step there, or none. *)
Lemma ftstep_sim {A} hs (t t' : fthread A) g g' g0 :
  g_sh g0 = g_sh g -> g_clk g0 = g_clk g -> mid (f_p t) (g_conn g) (g_conn g0) ->
  (settled t -> calls (t_p (rewound t)) -> g_conn g0 = g_conn g) -> ftstep hs t g = Some (t', g') ->
  (calls (t_p (rewound t)) /\ rewound t' = rewound t /\ ~ settled t' /\ g_sh g' = g_sh g /\ g_clk g' = g_clk g /\ mid (f_p t') (g_conn g') (g_conn g0)) \/
  (settled t' /\ exists g0', tstep hs (rewound t) g0 = Some (rewound t', g0') /\ g_sh g0' = g_sh g' /\ g_clk g0' = g_clk g' /\
    (calls (t_p (rewound t)) /\ g_conn g0' = g_conn g' \/ ~ calls (t_p (rewound t)) /\ settled t /\ g_conn g0' = g_conn g0 /\ g_conn g' = g_conn g)).
Proof.
  destruct g as [cf sh clk], g0 as [cm sh0 clk0]. cbn [g_conn g_sh g_clk]. intros -> ->. destruct t as [p h]. unfold ftstep, rewound, settled. cbn [f_p f_h t_p t_h g_conn g_sh g_clk].
  destruct p as [p|r k|bs k|bs w k]; cbn [mid].
  - intros _ S H.
    assert (N : ~ calls p -> forall t1 g1, tstep hs (mkThread p h) (mkMem cf sh clk) = Some (t1, g1) ->
      exists g2, tstep hs (mkThread p h) (mkMem cm sh clk) = Some (t1, g2) /\ g_sh g2 = g_sh g1 /\ g_clk g2 = g_clk g1 /\ g_conn g2 = cm /\ g_conn g1 = cf).
    { unfold tstep. cbn [t_p t_h g_conn g_sh g_clk]. intros C t1 g1 E. destruct p; cbn [calls] in C; try discriminate E; try (exfalso; apply C; exact I);
        repeat match type of E with context [match ?x with _ => _ end] => destruct x eqn:?; try discriminate E end;
        injection E as <- <-; eexists; repeat split. }
    assert (D : calls p \/ ~ calls p) by (destruct p; cbn; auto).
    destruct D as [D|D].
    + left. destruct p; cbn [calls] in D; try contradiction.
      * injection H as <- <-. cbn. splits; auto; [intros (q & Q); discriminate|]. symmetry. apply S; [eauto|exact I].
      * injection H as <- <-. cbn. splits; auto; [intros (q & Q); discriminate|]. rewrite (S ltac:(eauto) I). apply reads_packet.
    + right. assert (X : exists t1 g1, tstep hs (mkThread p h) (mkMem cf sh clk) = Some (t1, g1) /\ t' = mkFThread (FAt (t_p t1)) (t_h t1) /\ g' = g1).
      { destruct p; cbn [calls] in D; try (exfalso; apply D; exact I); destruct (tstep hs _ _) as [[t1 g1]|]; try discriminate H; injection H as <- <-; eauto. }
      destruct X as (t1 & g1 & T & -> & ->). destruct (N D _ _ T) as (g2 & T2 & E1 & E2 & E3 & E4). cbn [f_p f_h].
      split; [eauto|]. exists g2. destruct t1 as [q1 h1]. cbn [t_p t_h]. splits; auto. right. splits; eauto.
  - intros M _ H. destruct (read_step r cf) as [r' c'|o c'] eqn:R.
    + injection H as <- <-. left. cbn [f_p f_h g_conn g_sh g_clk calls]. rewrite (expect_kept _ _ _ _ R). splits; auto; [intros (q & Q); discriminate|].
      cbn [mid]. rewrite (expect_kept _ _ _ _ R). inversion M; congruence.
    + right. assert (E : fst (ReadPacket cm (r_expect r)) = o /\ snd (ReadPacket cm (r_expect r)) = c') by (inversion M; split; congruence).
      destruct E as [Eo Ec]. unfold tstep. cbn [t_p g_conn g_sh g_clk t_h calls]. destruct (ReadPacket cm (r_expect r)) as [o1 c1]. cbn [fst snd] in Eo, Ec. subst o1 c1.
      destruct o as [[p e]|]; injection H as <- <-; cbn [f_p f_h]; (split; [eauto|]); eexists; (split; [reflexivity|]); cbn [g_conn g_sh g_clk]; splits; auto.
  - intros -> _ H. left. destruct (conn_write cm bs) as [w c] eqn:W. injection H as <- <-. cbn [f_p f_h g_conn g_sh g_clk calls]. splits; auto. intros (q & Q); discriminate.
  - intros M _ H. right. injection H as <- <-. cbn [f_p f_h]. split; [eauto|]. unfold tstep. cbn [t_p g_conn g_sh g_clk t_h calls]. rewrite M. eexists. split; [reflexivity|].
    cbn [g_conn g_sh g_clk]. splits; auto.
Qed.

(** ** Only the holder of the lock is inside *)
Lemma follows_lock {A} L0 g (t : thread A) R : follows L0 g t R -> calls (t_p t) -> In (LPm, true) (t_h t).
Proof. intros (st & kn & E & _ & _ & _ & H). rewrite <- E. destruct (t_p t); cbn [calls]; intros C; try contradiction; destruct H as [H _]; exact H. Qed.
Section Inv.
Context (L0 : list io) (rs : list rpc) (wait : option nat) (m : machine resp) (I : inv L0 rs wait m).
Lemma thread_lock i t : nth_error (m_ts m) i = Some t -> calls (t_p t) -> In (LPm, true) (t_h t).
Proof.
  destruct I as (L & _ & _ & T & _). intros N C. destruct (nth_error rs i) as [r|] eqn:R.
  - specialize (T i r t R N). destruct r; cbn [thread_ok] in T; try (eapply follows_lock; eauto; fail).
    destruct T as (_ & [(_ & E)|[(_ & E)|(_ & E)]]); rewrite E in C; destruct C.
  - apply nth_error_None in R. assert (X : nth_error (m_ts m) i <> None) by congruence. apply nth_error_Some in X. lia.
Qed.
Lemma worker_lock t : m_wk m = Some t -> calls (t_p t) -> In (LPm, true) (t_h t).
Proof.
  destruct I as (_ & _ & _ & _ & W). unfold worker_ok in W. intros E C. destruct wait as [i|].
  - destruct W as (c & p0 & h & _ & W & F). rewrite E in W. injection W as ->. cbn [t_p t_h] in *. apply (follows_lock _ _ _ _ F). cbn [t_p].
    destruct p0; cbn in *; auto.
  - rewrite E in W. eapply follows_lock; eauto.
Qed.
Lemma threads_apart i j t u : nth_error (m_ts m) i = Some t -> nth_error (m_ts m) j = Some u -> calls (t_p t) -> calls (t_p u) -> i = j.
Proof.
  intros N M C D. pose proof (thread_lock _ _ N C). pose proof (thread_lock _ _ M D). destruct I as (_ & X & _). unfold excl, hs_of in X.
  destruct (Nat.eq_dec i j) as [|Q]; auto. exfalso. eapply (X (S i) (S j) (t_h t) (t_h u) LPm true); auto; cbn [nth_error]; apply map_nth_error; auto.
Qed.
Lemma worker_apart i t u : nth_error (m_ts m) i = Some t -> m_wk m = Some u -> calls (t_p t) -> calls (t_p u) -> False.
Proof.
  intros N M C D. pose proof (thread_lock _ _ N C). pose proof (worker_lock _ M D). destruct I as (_ & X & _). unfold excl, hs_of in X.
  eapply (X (S i) O (t_h t) (t_h u) LPm true); auto; cbn [nth_error]; [apply map_nth_error; auto|]. unfold wk_h. rewrite M. reflexivity.
Qed.
End Inv.

(** ** Simulation *)
Definition sim {A} (fm : fmachine A) (m : machine A) : Prop :=
  same fm m /\ (forall i t, nth_error (fm_ts fm) i = Some t -> mid (f_p t) (g_conn (fm_g fm)) (g_conn (m_g m))) /\
  (forall t, fm_wk fm = Some t -> mid (f_p t) (g_conn (fm_g fm)) (g_conn (m_g m))).
Lemma sim_locks {A} (fm : fmachine A) m : same fm m -> flocks fm = locks_held m.
Proof.
  intros (T & W & _). unfold flocks, locks_held. rewrite T, W. f_equal; [destruct (fm_wk fm); reflexivity|]. rewrite map_map. reflexivity.
Qed.
Lemma settled_mid {A} (t : fthread A) cf cm : settled t -> mid (f_p t) cf cm.
Proof. intros (p & ->). exact I. Qed.

(** ** How far a call in progress is *)
Inductive phase := PAt | PRead (r : reading) | PWrite | PWrote.
Definition phase_of {A} (p : fproc A) : phase :=
  match p with FAt _ => PAt | FRead r _ => PRead r | FWrite _ _ => PWrite | FWrote _ _ _ => PWrote end.
Inductive pless : phase * conn -> phase * conn -> Prop :=
| pl_start ph c c' : ph <> PAt -> pless (ph, c') (PAt, c)
| pl_read r r' c c' : read_step r c = More r' c' -> pless (PRead r', c') (PRead r, c)
| pl_write c c' : pless (PWrote, c') (PWrite, c).
Lemma ftstep_less {A} hs (t t' : fthread A) g g' : ftstep hs t g = Some (t', g') -> ~ settled t' -> pless (phase_of (f_p t'), g_conn g') (phase_of (f_p t), g_conn g).
Proof.
  unfold ftstep, settled. destruct t as [p h]. cbn [f_p f_h]. destruct p as [p|r k|bs k|bs w k].
  - intros _ N. apply pl_start. destruct (f_p t'); try discriminate. destruct N. eauto.
  - destruct (read_step r (g_conn g)) as [r' c'|[[p e]|] c'] eqn:R; intros H; injection H as <- <-; intros N; [|destruct N; cbn; eauto..].
    cbn. apply pl_read. exact R.
  - destruct (conn_write _ _) as [w c]. intros H; injection H as <- <-. intros _. apply pl_write.
  - intros H; injection H as <- <-. intros N. destruct N. cbn. eauto.
Qed.
Definition mid_phase (ph : phase) (c : conn) : Prop := match ph with PRead r => exists o c', completes r c o c' | _ => True end.
Lemma less_mid a b : pless a b -> fst b <> PAt -> mid_phase (fst b) (snd b) -> mid_phase (fst a) (snd a).
Proof.
  intros [ph c c' H|r r' c c' H|c c'] N M; cbn in *; [congruence| |exact I].
  destruct M as (o & c2 & M). inversion M as [r0 c0 o0 c0' E|r0 c0 r1 c1 o0 c0' E C]; subst; [congruence|]. rewrite H in E. injection E as <- <-. eauto.
Qed.
Lemma read_acc r c o c' : completes r c o c' -> Acc pless (PRead r, c).
Proof.
  induction 1 as [r c o c' E|r c r1 c1 o c' E _ IH]; constructor; intros y L; inversion L; subst; [congruence|].
  match goal with H : read_step r c = More ?a ?b |- _ => rewrite E in H; injection H as <- <- end. exact IH.
Qed.
Lemma inside_acc ph c : ph <> PAt -> mid_phase ph c -> Acc pless (ph, c).
Proof.
  destruct ph; cbn; intros N M; [congruence| | |].
  - destruct M as (o & c' & M). eapply read_acc; eauto.
  - constructor. intros y L. inversion L. constructor. intros z K. inversion K.
  - constructor. intros z K. inversion K.
Qed.
Lemma mid_phased {A} (p : fproc A) cf cm : mid p cf cm -> mid_phase (phase_of p) cf.
Proof. destruct p; cbn; eauto. Qed.

(** A goroutine or the worker. *)
Definition caller {A} (m : machine A) (w : option nat) : Prop :=
  match w with
  | Some i => exists t, nth_error (m_ts m) i = Some t /\ calls (t_p t)
  | None => exists t, m_wk m = Some t /\ calls (t_p t)
  end.
Definition phase_at {A} (fm : fmachine A) (w : option nat) : option phase :=
  match w with
  | Some i => option_map (fun t => phase_of (f_p t)) (nth_error (fm_ts fm) i)
  | None => option_map (fun t => phase_of (f_p t)) (fm_wk fm)
  end.
Lemma caller_one L0 rs wait m w w' : inv L0 rs wait m -> caller m w -> caller m w' -> w = w'.
Proof.
  intros I. destruct w as [i|], w' as [j|]; cbn; intros (t & N & C) (u & M & D); auto.
  - f_equal. eapply threads_apart; eauto.
  - destruct (worker_apart _ _ _ _ I _ _ _ N M C D).
  - destruct (worker_apart _ _ _ _ I _ _ _ M N D C).
Qed.

Lemma nth_rewound {A} (fm : fmachine A) m i t : same fm m -> nth_error (fm_ts fm) i = Some t -> nth_error (m_ts m) i = Some (rewound t).
Proof. intros (T & _) N. rewrite T. apply map_nth_error. exact N. Qed.
Lemma wk_rewound {A} (fm : fmachine A) m t : same fm m -> fm_wk fm = Some t -> m_wk m = Some (rewound t).
Proof. intros (_ & W & _) N. rewrite W, N. reflexivity. Qed.
Lemma unsettled_caller {A} (fm : fmachine A) m i t : same fm m -> nth_error (fm_ts fm) i = Some t -> ~ settled t -> caller m (Some i).
Proof. intros S N U. exists (rewound t). split; [eapply nth_rewound; eauto|apply unsettled_calls; auto]. Qed.
Lemma unsettled_wk {A} (fm : fmachine A) m t : same fm m -> fm_wk fm = Some t -> ~ settled t -> caller m None.
Proof. intros S N U. exists (rewound t). split; [eapply wk_rewound; eauto|apply unsettled_calls; auto]. Qed.
(** The others are settled. *)
Lemma others {A} (fm : fmachine A) m w (U : forall w', caller m w' -> w = w') : same fm m ->
  (forall j t, Some j <> w -> nth_error (fm_ts fm) j = Some t -> settled t) /\ (w <> None -> forall t, fm_wk fm = Some t -> settled t).
Proof.
  intros S. split.
  - intros j t N E. destruct (settled_dec t) as [|D]; auto. pose proof (U _ (unsettled_caller _ _ _ _ S E D)). congruence.
  - intros N t E. destruct (settled_dec t) as [|D]; auto. pose proof (U _ (unsettled_wk _ _ _ S E D)). congruence.
Qed.

Lemma sim_step L0 rs wait fm m x fm' : inv L0 rs wait m -> sim fm m -> fexec1 fm x = Some fm' ->
  (sim fm' m /\ exists w ph ph', caller m w /\ phase_at fm w = Some ph /\ phase_at fm' w = Some ph' /\ pless (ph', g_conn (fm_g fm')) (ph, g_conn (fm_g fm))) \/
  (exists m', exec1 m x = Some m' /\ sim fm' m').
Proof.
  intros Iv (S & Mt & Mw) H. pose proof (sim_locks _ _ S) as Lk. pose proof S as (T & W & Sh & Ck & Cn).
  assert (One : forall w, caller m w -> forall w', caller m w' -> w = w') by (intros; eapply caller_one; eauto).
  destruct x as [i| |d|tk|i|i]; cbn [fexec1] in H.
  - destruct (nth_error (fm_ts fm) i) as [t|] eqn:N; [|discriminate]. destruct (ftstep (flocks fm) t (fm_g fm)) as [[t' g']|] eqn:St; [|discriminate]. injection H as <-.
    pose proof (nth_rewound _ _ _ _ S N) as N'.
    assert (Cl : calls (t_p (rewound t)) -> caller m (Some i)) by (intros C; exists (rewound t); auto).
    assert (Q : settled t -> calls (t_p (rewound t)) -> g_conn (m_g m) = g_conn (fm_g fm)).
    { intros Se C. apply Cn. destruct (others _ _ _ (One _ (Cl C)) S) as [O1 O2]. split; [|intros t0; apply O2; discriminate].
      apply Forall_forall. intros t0 I0. apply In_nth_error in I0. destruct I0 as [j J]. destruct (Nat.eq_dec j i) as [->|D]; [congruence|apply (O1 j); congruence]. }
    destruct (ftstep_sim _ _ _ _ _ (m_g m) Sh Ck (Mt _ _ N) Q St) as [(C & E & U & E1 & E2 & M)|(Se & g0' & St' & E1 & E2 & K)].
    + left. destruct (others _ _ _ (One _ (Cl C)) S) as [O1 O2]. split.
      * split; [|split].
        -- unfold same. cbn [fm_ts fm_wk fm_g]. splits; auto; try congruence.
           ++ rewrite T, set_nth_map, E. clear -N. revert i N. induction (fm_ts fm) as [|a l IH]; intros [|i] N; cbn in *; try discriminate; [injection N as ->; auto|]. f_equal; auto.
           ++ intros [A _]. exfalso. apply U. eapply Forall_nth_error; [exact A|]. eapply nth_set_same. exact N.
        -- cbn [fm_ts fm_g]. intros j u J. destruct (nth_set_cases _ _ _ _ _ J) as [(-> & -> & _)|(D & J')]; [exact M|]. apply settled_mid. apply (O1 j); congruence.
        -- cbn [fm_wk fm_g]. intros u J. apply settled_mid. apply O2; auto. discriminate.
      * exists (Some i). cbn [phase_at fm_ts fm_g]. rewrite (nth_set_same _ _ _ _ N), N. cbn [option_map]. eexists _, _. splits; auto. eapply ftstep_less; eauto.
    + right. cbn [exec1]. rewrite N', <- Lk, St'. eexists. split; [reflexivity|]. split; [|split].
      * unfold same. cbn [fm_ts fm_wk fm_g m_ts m_wk m_g]. splits; auto.
        -- rewrite T, set_nth_map. reflexivity.
        -- intros [A B]. destruct K as [(C & K)|(C & Se0 & K1 & K2)]; [exact K|]. rewrite K1, K2. apply Cn. split; [|exact B].
           apply Forall_forall. intros t0 I0. apply In_nth_error in I0. destruct I0 as [j J]. destruct (Nat.eq_dec j i) as [->|D]; [congruence|].
           eapply Forall_nth_error; [exact A|]. cbn [fm_ts]. rewrite (nth_set_other _ i j) by auto. exact J.
      * cbn [fm_ts fm_g m_g]. intros j u J. destruct (nth_set_cases _ _ _ _ _ J) as [(-> & -> & _)|(D & J')]; [apply settled_mid; auto|].
        destruct K as [(C & K)|(C & Se0 & K1 & K2)]; [|rewrite K1, K2; eauto]. destruct (others _ _ _ (One _ (Cl C)) S) as [O1 O2]. apply settled_mid. apply (O1 j); congruence.
      * cbn [fm_wk fm_g m_g]. intros u J. destruct K as [(C & K)|(C & Se0 & K1 & K2)]; [|rewrite K1, K2; eauto].
        destruct (others _ _ _ (One _ (Cl C)) S) as [O1 O2]. apply settled_mid. apply O2; auto. discriminate.
  - destruct (fm_wk fm) as [t|] eqn:N; [|discriminate]. pose proof (wk_rewound _ _ _ S N) as N'.
    assert (Z : (f_p t = FAt (Ret tt) /\ f_h t = [] /\ fm' = mkFMachine (fm_g fm) (fm_ts fm) None) \/
      (~ (t_p (rewound t) = Ret tt /\ f_h t = []) /\ exists t' g', ftstep (flocks fm) t (fm_g fm) = Some (t', g') /\ fm' = mkFMachine g' (fm_ts fm) (Some t'))).
    { assert (G : forall X, match ftstep (flocks fm) t (fm_g fm) with Some (t', g') => Some (mkFMachine g' (fm_ts fm) (Some t')) | None => None end = Some fm' -> ~ X -> 
        ~ X /\ exists t' g', ftstep (flocks fm) t (fm_g fm) = Some (t', g') /\ fm' = mkFMachine g' (fm_ts fm) (Some t')).
      { intros X E Q. split; auto. destruct (ftstep _ _ _) as [[t' g']|]; [|discriminate]. injection E as <-. eauto. }
      unfold rewound. cbn [t_p]. destruct (f_p t) as [p| | |]; [|right; apply G; [exact H|intros [Q _]; discriminate]..].
      destruct p as [[]| | | | | | | | | | | | | |]; try (right; apply G; [exact H|intros [Q _]; discriminate]).
      destruct (f_h t) as [|]; [left; injection H as <-; auto|right; apply G; [exact H|intros [_ Q]; discriminate]]. }
    destruct Z as [(P & Hd & ->)|(P & t' & g' & St & ->)].
    + right. cbn [exec1]. rewrite N'. assert (E1 : t_p (rewound t) = Ret tt) by (unfold rewound; rewrite P; reflexivity). assert (E2 : t_h (rewound t) = []) by exact Hd.
      rewrite E1, E2. eexists. split; [reflexivity|]. split; [|split].
      * unfold same. cbn [fm_ts fm_wk fm_g m_ts m_wk m_g]. splits; auto. intros [A _]. apply Cn. split; auto. rewrite N. intros u E. injection E as <-. eexists. exact P.
      * exact Mt.
      * cbn. discriminate.
    + assert (Cl : calls (t_p (rewound t)) -> caller m None) by (intros C; exists (rewound t); auto).
      assert (Q : settled t -> calls (t_p (rewound t)) -> g_conn (m_g m) = g_conn (fm_g fm)).
    { intros Se C. apply Cn. destruct (others _ _ _ (One _ (Cl C)) S) as [O1 O2]. split; [|rewrite N; intros u E; injection E as <-; exact Se].
        apply Forall_forall. intros t0 I0. apply In_nth_error in I0. destruct I0 as [j J]. apply (O1 j); congruence. }
    destruct (ftstep_sim _ _ _ _ _ (m_g m) Sh Ck (Mw _ eq_refl) Q St) as [(C & E & U & E1 & E2 & M)|(Se & g0' & St' & E1 & E2 & K)].
      * left. destruct (others _ _ _ (One _ (Cl C)) S) as [O1 O2]. split.
        -- split; [|split].
           ++ unfold same. cbn [fm_ts fm_wk fm_g]. splits; auto; try congruence.
              ** rewrite N' . cbn [option_map]. congruence.
              ** intros [_ B]. exfalso. apply U. apply B. reflexivity.
           ++ cbn [fm_ts fm_g]. intros j u J. apply settled_mid. apply (O1 j); congruence.
           ++ cbn [fm_wk fm_g]. intros u J. injection J as <-. exact M.
        -- exists None. cbn [phase_at fm_wk fm_g]. rewrite N. cbn [option_map]. eexists _, _. splits; auto. eapply ftstep_less; eauto.
      * right. cbn [exec1]. rewrite N'.
        assert (R : match t_p (rewound t), t_h (rewound t) with Ret tt, [] => Some (mkMachine (m_g m) (m_ts m) None) | _, _ => match tstep (locks_held m) (rewound t) (m_g m) with Some (t'0, g'0) => Some (mkMachine g'0 (m_ts m) (Some t'0)) | None => None end end = Some (mkMachine g0' (m_ts m) (Some (rewound t')))).
        { rewrite <- Lk, St'. change (t_h (rewound t)) with (f_h t). destruct (t_p (rewound t)) as [[]| | | | | | | | | | | | | |]; try reflexivity. destruct (f_h t); [destruct P; auto|reflexivity]. }
        rewrite R. eexists. split; [reflexivity|]. split; [|split].
        -- unfold same. cbn [fm_ts fm_wk fm_g m_ts m_wk m_g]. splits; auto.
           intros [A B]. destruct K as [(C & K)|(C & Se0 & K1 & K2)]; [exact K|]. rewrite K1, K2. apply Cn. split; [exact A|]. rewrite N. intros u E. injection E as <-. exact Se0.
        -- cbn [fm_ts fm_g m_g]. intros j u J. destruct K as [(C & K)|(C & Se0 & K1 & K2)]; [|rewrite K1, K2; eauto].
           destruct (others _ _ _ (One _ (Cl C)) S) as [O1 O2]. apply settled_mid. apply (O1 j); congruence.
        -- cbn [fm_wk fm_g m_g]. intros u J. injection J as <-. apply settled_mid. exact Se.
  - right. injection H as <-. cbn [exec1]. eexists. split; [reflexivity|]. split; [|split; auto]. unfold same. cbn [fm_ts fm_wk fm_g m_ts m_wk m_g g_sh g_clk g_conn]. splits; auto. congruence.
  - destruct (fm_wk fm) as [t|] eqn:N; [discriminate|]. injection H as <-. right. cbn [exec1]. cbn [option_map] in W. rewrite W. eexists. split; [reflexivity|]. split; [|split; auto].
    + unfold same. cbn [fm_ts fm_wk fm_g m_ts m_wk m_g]. splits; auto. intros [A _]. apply Cn. split; auto. rewrite N. discriminate.
    + cbn [fm_wk]. intros u E. injection E as <-. exact I.
  - destruct (fm_wk fm) as [t|] eqn:N; [discriminate|]. destruct (nth_error (fm_ts fm) i) as [t|] eqn:Ni; [|discriminate].
    destruct (f_p t) as [p| | |] eqn:P; try discriminate. destruct p as [| | | | | | | | | | | |c k| |]; try discriminate. injection H as <-.
    right. cbn [exec1]. cbn [option_map] in W. rewrite W, (nth_rewound _ _ _ _ S Ni). assert (E1 : t_p (rewound t) = SendFlush c k) by (unfold rewound; rewrite P; reflexivity).
    rewrite E1. eexists. split; [reflexivity|]. split; [|split].
    + unfold same. cbn [fm_ts fm_wk fm_g m_ts m_wk m_g]. splits; auto; [rewrite T, set_nth_map; reflexivity|].
      intros [A _]. apply Cn. split; [|rewrite N; discriminate].
      apply Forall_forall. intros t0 I0. apply In_nth_error in I0. destruct I0 as [j J]. destruct (Nat.eq_dec j i) as [->|D]; [rewrite Ni in J; injection J as <-; eexists; exact P|].
      eapply Forall_nth_error; [exact A|]. cbn [fm_ts]. rewrite (nth_set_other _ i j) by auto. exact J.
    + cbn [fm_ts fm_g m_g]. intros j u J. destruct (nth_set_cases _ _ _ _ _ J) as [(-> & -> & _)|(D & J')]; [exact I|eauto].
    + cbn [fm_wk]. intros u E. injection E as <-. exact I.
  - destruct (fm_wk fm) as [t|] eqn:N; [|discriminate]. destruct (nth_error (fm_ts fm) i) as [u|] eqn:Ni; [|discriminate].
    destruct (f_p t) as [p| | |] eqn:P; try discriminate. destruct p as [| | | | | | | | | | | | | |b kw]; try discriminate.
    destruct (f_p u) as [p| | |] eqn:Q; try discriminate. destruct p as [| | | | | | | | | | | | |k|]; try discriminate. injection H as <-.
    right. cbn [exec1]. rewrite (wk_rewound _ _ _ S N), (nth_rewound _ _ _ _ S Ni). assert (E1 : t_p (rewound t) = SendSucc b kw) by (unfold rewound; rewrite P; reflexivity).
    assert (E2 : t_p (rewound u) = RecvSucc k) by (unfold rewound; rewrite Q; reflexivity). rewrite E1, E2. eexists. split; [reflexivity|]. split; [|split].
    + unfold same. cbn [fm_ts fm_wk fm_g m_ts m_wk m_g]. splits; auto; [rewrite T, set_nth_map; reflexivity|].
      intros [A B]. apply Cn. split; [|rewrite N; intros v E; injection E as <-; eexists; exact P].
      apply Forall_forall. intros t0 I0. apply In_nth_error in I0. destruct I0 as [j J]. destruct (Nat.eq_dec j i) as [->|D]; [rewrite Ni in J; injection J as <-; eexists; exact Q|].
      eapply Forall_nth_error; [exact A|]. cbn [fm_ts]. rewrite (nth_set_other _ i j) by auto. exact J.
    + cbn [fm_ts fm_g m_g]. intros j v J. destruct (nth_set_cases _ _ _ _ _ J) as [(-> & -> & _)|(D & J')]; [exact I|eauto].
    + cbn [fm_wk fm_g m_g]. intros v E. injection E as <-. exact I.
Qed.
