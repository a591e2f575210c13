(** Processes that keep one lock from beginning to end run as if one after the other. *)
From Coq Require Import Permutation.
From Verif Require Import ProofBase Proto SpecProto SpecFrame SpecConn Scanner Conn ReadProofs Proc Lib QueryProofs
  Server Machine SpecMachine MachineBase MachineInv.

Lemma NoDup_app_snoc {T} (l : list T) x : NoDup l -> ~ In x l -> NoDup (l ++ [x]).
Proof.
  intros H N. apply (Permutation_NoDup (l := x :: l)); [|constructor; auto].
  change (x :: l) with ([x] ++ l). apply Permutation_app_comm.
Qed.
Lemma NoDup_app_disjoint {T} (a b : list T) : NoDup a -> NoDup b -> (forall x, In x a -> ~ In x b) -> NoDup (a ++ b).
Proof.
  intros Ha Hb D. induction Ha as [|x a N Ha IH]; cbn; auto. constructor.
  - rewrite in_app_iff. intros [I|I]; [auto|]. apply (D x); [left; auto|auto].
  - apply IH. intros y I. apply D. right. auto.
Qed.
Lemma Forall2_nths {T} (cb : list T) : forall is ls, Forall2 (fun i x => nth_error cb i = Some x) is ls ->
  map Some ls = map (nth_error cb) is.
Proof. intros is ls F. induction F; cbn; congruence. Qed.
Lemma map_nth_seq {T} (cb : list T) : map (nth_error cb) (seq 0 (length cb)) = map Some cb.
Proof.
  induction cb as [|x cb IH]; auto. cbn [length seq map]. f_equal. rewrite <- seq_shift, map_map. exact IH.
Qed.
Lemma Permutation_nth_list {T} (cb : list T) is ls : Forall2 (fun i x => nth_error cb i = Some x) is ls ->
  Permutation is (seq 0 (length cb)) -> Permutation ls cb.
Proof.
  intros F P. apply (Permutation_map (nth_error cb)) in P. rewrite map_nth_seq, <- (Forall2_nths _ _ _ F) in P.
  apply Permutation_map_inv in P as (l3 & E & P). 
  assert (ls = l3) as -> by (clear -E; revert l3 E; induction ls; intros [|y l3] E; cbn in E; try discriminate; auto; inversion E; f_equal; auto).
  apply Permutation_sym. auto.
Qed.

Section Critical.
Context {A : Type} (L : lockid).

(** The rest of a process that holds [L] and above it [h]: it touches nothing but the
    connection and other locks, and gives [L] back at the very end. *)
Fixpoint inside (h : held) (p : sproc A) : Prop :=
  match p with
  | Ret _ | Crash => False
  | Lock l k => l <> L /\ inside ((l, true) :: h) k
  | Unlock l k => match h with
                  | [] => l = L /\ exists a, k = Ret a
                  | e :: h' => e = (l, true) /\ inside h' k
                  end
  | WriteC _ k => forall r, inside h (k r)
  | ReadC _ k => forall q e, inside h (k q e)
  | _ => False
  end.
Definition critical (p : sproc A) : Prop :=
  match p with Ret _ => True | Lock l k => l = L /\ inside [] k | _ => False end.

Definition W (c : conn) (h : held) : world shared := mkWorld c init_shared h 0 [].

Lemma obo_app l c c1 : one_by_one (A := A) l c c1 -> forall p r w,
  run p (mkWorld c1 init_shared [] 0 []) = (RDone r, w) -> one_by_one (l ++ [(p, r)]) c (w_conn w).
Proof.
  intros H. induction H as [c|p r c w l c' R H IH]; intros p' r' w' R'.
  - cbn. econstructor; eauto. constructor.
  - cbn. econstructor; eauto.
Qed.
Lemma run_write bs (k : wres -> sproc A) c h r c' : conn_write c bs = (r, c') -> run (WriteC bs k) (W c h) = run (k r) (W c' h).
Proof. intros E. cbn [run]. unfold do_write. cbn [w_conn W]. rewrite E. reflexivity. Qed.
Lemma run_read x (k : packet -> option err -> sproc A) c h p e c' : ReadPacket c x = (Done (p, e), c') ->
  run (ReadC x k) (W c h) = run (k p e) (W (log_io c' (Rd x p e)) h).
Proof. intros E. cbn [run]. unfold do_read. cbn [w_conn W]. rewrite E. reflexivity. Qed.

Section Runs.
Context (ps : list (sproc A)) (c0 : conn) (Cr : Forall critical ps).

(** [ds]: goroutines that have finished, in the order in which they did; [cur]: the one that
    holds the lock. *)
Definition fin (ts : list (thread A)) (i : nat) (x : sproc A * A) : Prop :=
  nth_error ps i = Some (fst x) /\ nth_error ts i = Some (mkThread (Ret (snd x)) []).
Definition state (ts : list (thread A)) (c : conn) ds l c1 cur : Prop :=
  NoDup ds /\ one_by_one l c0 c1 /\ Forall2 (fin ts) ds l /\
  (forall i p, nth_error ps i = Some p -> ~ In i ds -> cur <> Some i -> nth_error ts i = Some (mkThread p [])) /\
  match cur with
  | None => c = c1
  | Some i => ~ In i ds /\ exists p q h, nth_error ps i = Some p /\ nth_error ts i = Some (mkThread q (h ++ [(L, true)])) /\
      inside h q /\ run p (W c1 []) = run q (W c (h ++ [(L, true)]))
  end.
Definition ainv (m : machine A) : Prop :=
  length (m_ts m) = length ps /\ m_wk m = None /\ exists ds l c1 cur, state (m_ts m) (g_conn (m_g m)) ds l c1 cur.

Lemma fin_set ts j (y : thread A) ds l : Forall2 (fin ts) ds l -> ~ In j ds -> Forall2 (fin (set_nth j y ts)) ds l.
Proof.
  intros F. induction F as [|i x ds l [E1 E2] F IH]; intros N; constructor.
  - split; auto. rewrite nth_set_other; auto. intros ->. apply N. left. auto.
  - apply IH. intros I. apply N. right. auto.
Qed.
Lemma fin_ret ts i ds l : Forall2 (fin ts) ds l -> In i ds -> exists r, nth_error ts i = Some (mkThread (Ret r) []).
Proof.
  intros F. induction F as [|j x ds l [E1 E2] F IH]; intros I; [contradiction|]. destruct I as [->|I]; eauto.
Qed.
(** The one inside goes on. *)
Lemma state_on ts c ds l c1 i t q h c' q' h' : state ts c ds l c1 (Some i) -> nth_error ts i = Some t -> t = mkThread q (h ++ [(L, true)]) ->
  inside h' q' -> run q (W c (h ++ [(L, true)])) = run q' (W c' (h' ++ [(L, true)])) ->
  state (set_nth i (mkThread q' (h' ++ [(L, true)])) ts) c' ds l c1 (Some i).
Proof.
  intros (Nd & Ob & Dn & Wt & Ni & p & q0 & h0 & Np & Nq & _ & R) Nt -> I' R'.
  rewrite Nt in Nq. injection Nq as <- E. apply app_inj_tail in E as [<- _].
  unfold state. splits; auto using fin_set.
  - intros j pj Nj Dj Cj. rewrite nth_set_other by congruence. auto.
  - exists p, q', h'. splits; auto; [eapply nth_set_same; eauto|congruence].
Qed.

Lemma ainv_step m x m' : ainv m -> match x with Run _ | Pass _ => True | _ => False end -> exec1 m x = Some m' -> ainv m'.
Proof.
  intros (Ln & Wk & ds & l & c1 & cur & St) Ok H. destruct x as [i| |d| | |]; try contradiction.
  2:{ injection H as <-. unfold ainv. cbn [m_ts m_wk m_g g_conn]. splits; auto. exists ds, l, c1, cur. auto. }
  cbn [exec1] in H. destruct (nth_error (m_ts m) i) as [t|] eqn:Ni; [|discriminate].
  destruct (tstep (locks_held m) t (m_g m)) as [[t' g']|] eqn:S; [|discriminate]. injection H as <-.
  unfold ainv. cbn [m_ts m_wk m_g]. rewrite set_nth_length. split; auto. split; auto.
  assert (Np : exists p, nth_error ps i = Some p).
  { destruct (nth_error ps i) eqn:E; eauto. apply nth_error_None in E. rewrite <- Ln in E. apply nth_error_None in E. congruence. }
  destruct Np as (p & Np). pose proof St as (Nd & Ob & Dn & Wt & Cu).
  assert (Nds : ~ In i ds).
  { intros I. destruct (fin_ret _ _ _ _ Dn I) as (r & E). rewrite Ni in E. injection E as ->. discriminate. }
  assert (Me : forall u, nth_error (m_ts m) i = Some u -> In (t_h u) (locks_held m)).
  { intros u E. unfold locks_held. apply in_or_app. right. apply in_map. eapply nth_error_In; eauto. }
  destruct cur as [j|]; [destruct (Nat.eq_dec j i) as [->|D]|].
  - (* the one inside *)
    destruct Cu as (_ & p0 & q & h & Np0 & Nq & In_ & R). rewrite Np in Np0. injection Np0 as <-.
    pose proof (fun h' => state_on _ _ _ _ _ _ _ _ _ (g_conn g') (t_p t') h' St Nq eq_refl) as Go.
    rewrite Ni in Nq. injection Nq as ->. unfold tstep in S. cbn [t_p t_h] in S.
    destruct q as [a| |l0 k|l0 k|l0 k|l0 k|bs k|x k|k|f k|k|d k|c k|k|b k]; cbn [inside] in In_; try contradiction.
    + destruct (free (locks_held m) l0) eqn:F; [|discriminate]. injection S as <- <-. destruct In_ as [Nl In_].
      exists ds, l, c1, (Some i). apply (Go ((l0, true) :: h)); auto. cbn [run w_held W].
      unfold free in F. rewrite forallb_forall in F. specialize (F _ (Me _ Ni)). cbn [t_h] in F. rewrite F. reflexivity.
    + destruct h as [|e h].
      * destruct In_ as [-> (a & ->)]. cbn [app] in *. rewrite release_head in S. injection S as <- <-.
        cbn [run w_held W] in R. rewrite release_head in R. unfold set_held in R. cbn in R.
        exists (ds ++ [i]), (l ++ [(p, a)]), (g_conn (m_g m)), None. unfold state. splits; auto.
        -- apply NoDup_app_snoc; auto.
        -- apply (obo_app _ _ _ Ob _ _ _ R).
        -- apply Forall2_app; [apply fin_set; auto|]. constructor; [|constructor]. split; auto. eapply nth_set_same; eauto.
        -- intros j pj Nj Dj _. assert (i <> j /\ ~ In j ds) as [D1 D2].
           { split; intros X; apply Dj; apply in_or_app; [right; left; auto|left; auto]. }
           rewrite nth_set_other by auto. apply Wt; auto. congruence.
      * destruct In_ as [-> In_]. cbn [app] in *. rewrite release_head in S. injection S as <- <-.
        exists ds, l, c1, (Some i). apply (Go h); auto. cbn [run w_held W]. rewrite release_head. reflexivity.
    + destruct (conn_write (g_conn (m_g m)) bs) as [r c] eqn:Cw. injection S as <- <-.
      exists ds, l, c1, (Some i). apply (Go h); cbn [t_p]; [auto|]. rewrite (run_write _ _ _ _ _ _ Cw). reflexivity.
    + destruct (ReadPacket (g_conn (m_g m)) x) as [o c] eqn:Rp.
      pose proof (read_packet_inv _ _ _ _ Rp) as (_ & pk & e & _ & _ & -> & _). injection S as <- <-.
      exists ds, l, c1, (Some i). apply (Go h); cbn [t_p]; [auto|]. rewrite (run_read _ _ _ _ _ _ _ Rp). reflexivity.
  - (* somebody else is inside *)
    exfalso. destruct Cu as (_ & pj & q & h & Npj & Nq & _ & _).
    rewrite (Wt i p Np Nds ltac:(congruence)) in Ni. injection Ni as <-. unfold tstep in S. cbn [t_p t_h] in S.
    pose proof (Forall_nth_error _ _ _ _ Cr Np) as C. destruct p; cbn [critical] in C; try contradiction; try discriminate.
    destruct C as [-> _]. destruct (free (locks_held m) L) eqn:F; [|discriminate].
    rewrite free_in in F. apply (F (h ++ [(L, true)]) true); [|apply in_or_app; right; left; auto].
    unfold locks_held. apply in_or_app. right. apply in_map_iff. exists (mkThread q (h ++ [(L, true)])). split; auto.
    eapply nth_error_In; eauto.
  - (* nobody *)
    subst c1. rewrite (Wt i p Np Nds ltac:(congruence)) in Ni. injection Ni as <-. unfold tstep in S. cbn [t_p t_h] in S.
    pose proof (Forall_nth_error _ _ _ _ Cr Np) as C. destruct p as [| |l0 k| | | | | | | | | | | |]; cbn [critical] in C; try contradiction; try discriminate.
    destruct C as [-> C]. destruct (free (locks_held m) L) eqn:F; [|discriminate]. injection S as <- <-.
    exists ds, l, (g_conn (m_g m)), (Some i). unfold state. splits; auto using fin_set.
    + intros j pj Nj Dj Cj. rewrite nth_set_other by congruence. apply Wt; auto. discriminate.
    + exists (Lock L k), k, []. splits; auto. eapply nth_set_same. apply (Wt i _ Np); auto. discriminate.
Qed.

Lemma ainv_exec : forall xs m m', ainv m -> Forall (fun x => match x with Run _ | Pass _ => True | _ => False end) xs ->
  exec xs m = Some m' -> ainv m'.
Proof.
  induction xs as [|x xs IH]; intros m m' I F H; cbn in H; [injection H as <-; auto|].
  inversion F; subst. destruct (exec1 m x) as [m1|] eqn:E; [|discriminate]. apply (IH m1 m'); auto. eapply ainv_step; eauto.
Qed.
Lemma ainv_init s clk : ainv (spawn ps (mkMem c0 s clk)).
Proof.
  unfold ainv, spawn. cbn [m_ts m_wk m_g g_conn]. rewrite map_length. splits; auto.
  exists [], [], c0, None. unfold state. splits; auto; try constructor.
  intros i p N _ _. rewrite nth_error_map, N. reflexivity.
Qed.

(** In the end. *)
Lemma ainv_end m rs : ainv m -> Forall2 (fun t r => t_p t = Ret r) (m_ts m) rs ->
  exists l, Permutation l (combine ps rs) /\ one_by_one l c0 (g_conn (m_g m)).
Proof.
  intros (Ln & Wk & ds & l & c1 & cur & Nd & Ob & Dn & Wt & Cu) F.
  assert (Nth : forall i t, nth_error (m_ts m) i = Some t -> exists r, t_p t = Ret r /\ nth_error rs i = Some r).
  { clear -F. induction F as [|t r ts rs E F IH]; intros [|i] t0 N; try discriminate; cbn in *; [injection N as <-|]; eauto. }
  assert (cur = None) as ->.
  { destruct cur as [i|]; auto. exfalso. destruct Cu as (_ & p & q & h & _ & Nq & In_ & _).
    destruct (Nth _ _ Nq) as (r & E & _). cbn in E. subst q. destruct In_. }
  subst c1. set (c := g_conn (m_g m)) in *.
  (* the others returned at once *)
  assert (Rest : forall es, (forall i, In i es -> ~ In i ds /\ (i < length ps)%nat) ->
    exists l', Forall2 (fun i x => nth_error ps i = Some (fst x) /\ nth_error rs i = Some (snd x)) es l' /\ one_by_one (l ++ l') c0 c).
  { intros es. induction es as [|i es IH] using rev_ind; intros H.
    - exists []. rewrite app_nil_r. split; auto.
    - destruct IH as (l' & F' & O'); [intros j J; apply H; apply in_or_app; auto|].
      destruct (H i) as [Hi Hl]; [apply in_or_app; right; left; auto|].
      destruct (nth_error ps i) as [p|] eqn:Np; [|apply nth_error_None in Np; lia].
      pose proof (Wt i p Np Hi ltac:(discriminate)) as Nt. destruct (Nth _ _ Nt) as (r & E & Nr). cbn in E. subst p.
      exists (l' ++ [(Ret r, r)]). split; [apply Forall2_app; auto|]. rewrite app_assoc.
      change c with (w_conn (W c [])). eapply obo_app; eauto. }
  destruct (Rest (filter (fun i => if in_dec Nat.eq_dec i ds then false else true) (seq 0 (length ps)))) as (l' & F' & O').
  { intros i I. apply filter_In in I as [I D]. apply in_seq in I. destruct (in_dec Nat.eq_dec i ds); [discriminate|]. split; auto. lia. }
  exists (l ++ l'). split; auto.
  set (es := filter _ _) in *.
  assert (Fa : Forall2 (fun i x => nth_error (combine ps rs) i = Some x) (ds ++ es) (l ++ l')).
  { assert (Cb : forall i (x : sproc A * A), nth_error ps i = Some (fst x) -> nth_error rs i = Some (snd x) -> nth_error (combine ps rs) i = Some x).
    { clear. revert rs. induction ps as [|p q IH]; intros [|r rs] [|i] [a b] H1 H2; cbn in *; try discriminate; try congruence. apply (IH rs i (a, b)); auto. }
    apply Forall2_app.
    - clear -Dn Nth Cb. induction Dn as [|i x ds l [E1 E2] D IH]; constructor; auto. apply Cb; auto.
      destruct (Nth _ _ E2) as (r & Er & Nr). cbn in Er. congruence.
    - clear -F' Cb. induction F' as [|i x es l [E1 E2] D IH]; constructor; auto. }
  assert (Pm : Permutation (ds ++ es) (seq 0 (length (combine ps rs)))).
  { assert (Lr : length rs = length ps) by (rewrite <- Ln; clear -F; induction F; cbn; congruence).
    rewrite combine_length, Lr, Nat.min_id. apply NoDup_Permutation.
    - apply NoDup_app_disjoint; auto; [apply NoDup_filter, seq_NoDup|].
      intros i I J. apply filter_In in J as [_ J]. destruct (in_dec Nat.eq_dec i ds); [discriminate|contradiction].
    - apply seq_NoDup.
    - intros i. rewrite in_app_iff. unfold es. rewrite filter_In, in_seq. split.
      + intros [I|[I _]]; [|lia]. clear -Dn I Ln. 
        assert (exists p, nth_error ps i = Some p) as (p & N).
        { induction Dn as [|j x ds l [E1 E2] D IH]; [contradiction|]. destruct I as [->|I]; eauto. }
        assert (i < length ps)%nat by (apply nth_error_Some; congruence). lia.
      + intros I. destruct (in_dec Nat.eq_dec i ds); auto. }
  clear -Fa Pm. revert Fa Pm. generalize (combine ps rs) as cb, (ds ++ es) as is, (l ++ l') as ls. intros cb is ls Fa Pm.
  exact (Permutation_nth_list cb is ls Fa Pm).
Qed.
End Runs.
End Critical.
