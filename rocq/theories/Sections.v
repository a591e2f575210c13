(** Interleavings of processes that touch nothing but the connection, and that only under [LPm], are
    interleavings of whole critical sections. *)
From Verif Require Import ProofBase Proto SpecProto SpecFrame SpecConn ProtoProofs Scanner Conn ReadProofs Proc Lib QueryProofs
  Server Machine SpecMachine MachineBase MachineInv Atomic AtomicCalls.

Definition is_pm (l : lockid) : bool := match l with LPm => true | _ => false end.
(** [b]: the process is in a section. *)
Fixpoint sect {A} (b : bool) (p : sproc A) (Q : bool -> A -> Prop) : Prop :=
  match p with
  | Ret a => Q b a
  | Crash => b = false
  | Lock l k => b = false /\ sect (is_pm l) k Q
  | Unlock l k => b = is_pm l /\ sect false k Q
  | WriteC _ k => b = true /\ forall r, sect true (k r) Q
  | ReadC _ k => b = true /\ forall q e, sect true (k q e) Q
  | _ => False
  end.
Lemma sect_bind {A B} (p : sproc A) (f : A -> sproc B) Q : forall b,
  sect b p (fun b' a => sect b' (f a) Q) -> sect b (bind p f) Q.
Proof.
  induction p as [a| |l k IH|l k IH|l k IH|l k IH|bs k IH|x k IH|k IH|g k IH|k IH|d k IH|c k IH|k IH|b k IH];
    intros b1 H; cbn [sect bind] in *; auto; try contradiction; destruct H; auto.
Qed.
Lemma sect_weaken {A} (p : sproc A) (Q R : bool -> A -> Prop) : (forall b a, Q b a -> R b a) -> forall b, sect b p Q -> sect b p R.
Proof.
  intros W. induction p as [a| |l k IH|l k IH|l k IH|l k IH|bs k IH|x k IH|k IH|g k IH|k IH|d k IH|c k IH|k IH|b k IH];
    intros b1 H; cbn [sect] in *; auto; try contradiction; destruct H; auto.
Qed.
(** Up to the end of the section. *)
Fixpoint until {A} (p : sproc A) (c : conn) : option (sproc A * conn) :=
  match p with
  | Unlock LPm k => Some (k, c)
  | WriteC bs k => let (r, c') := conn_write c bs in until (k r) c'
  | ReadC x k => match ReadPacket c x with
                 | (Done (q, e), c') => until (k q e) (log_io c' (Rd x q e))
                 | _ => None
                 end
  | _ => None
  end.
Lemma until_bind {A B} (p : sproc A) (f : A -> sproc B) q c' : forall c, until p c = Some (q, c') -> until (bind p f) c = Some (bind q f, c').
Proof.
  induction p as [a| |l k IH|l k IH|l k IH|l k IH|bs k IH|x k IH|k IH|g k IH|k IH|d k IH|c0 k IH|k IH|b k IH];
    intros c H; cbn [until bind] in *; try discriminate.
  - destruct l; try discriminate. injection H as <- <-. reflexivity.
  - destruct (conn_write c bs). auto.
  - destruct (ReadPacket c x) as [[[q0 e]|] c1]; [auto|discriminate].
Qed.

Section Runs.
Context {A : Type}.
Notation threads := (list (thread A)).
(** Steps of whole sections; the threads never hold [LPm] between them. *)
Inductive bstep : threads -> conn -> threads -> conn -> Prop :=
| bs_lock ts c i l k h : l <> LPm -> nth_error ts i = Some (mkThread (Lock l k) h) -> free (map t_h ts) l = true ->
    bstep ts c (set_nth i (mkThread k ((l, true) :: h)) ts) c
| bs_unlock ts c i l k h h' : nth_error ts i = Some (mkThread (Unlock l k) h) -> release h l true = Some h' ->
    bstep ts c (set_nth i (mkThread k h') ts) c
| bs_crash ts c i l k h : nth_error ts i = Some (mkThread (Unlock l k) h) -> release h l true = None ->
    bstep ts c (set_nth i (mkThread Crash h) ts) c
| bs_section ts c i k k' h c' : nth_error ts i = Some (mkThread (Lock LPm k) h) -> until k c = Some (k', c') ->
    bstep ts c (set_nth i (mkThread k' h) ts) c'.
Inductive bsteps (ts : threads) (c : conn) : threads -> conn -> Prop :=
| bs_refl : bsteps ts c ts c
| bs_more ts1 c1 ts2 c2 : bsteps ts c ts1 c1 -> bstep ts1 c1 ts2 c2 -> bsteps ts c ts2 c2.

Context (ts0 : threads) (c0 : conn).
Definition T0 : bool -> A -> Prop := fun b _ => b = false.
Definition outside (t : thread A) : Prop := ~ In (LPm, true) (t_h t) /\ sect false (t_p t) T0.
Definition binv (m : machine A) : Prop := m_wk m = None /\ exists ts1 c1, bsteps ts0 c0 ts1 c1 /\
  ((m_ts m = ts1 /\ g_conn (m_g m) = c1 /\ Forall outside (m_ts m)) \/
   exists i k q h, nth_error ts1 i = Some (mkThread (Lock LPm k) h) /\ m_ts m = set_nth i (mkThread q ((LPm, true) :: h)) ts1 /\
     ~ In (LPm, true) h /\ sect true q T0 /\ until k c1 = until q (g_conn (m_g m)) /\
     forall j t, j <> i -> nth_error ts1 j = Some t -> outside t).

Lemma set_set {T} (l : list T) : forall i x y, set_nth i x (set_nth i y l) = set_nth i x l.
Proof. induction l as [|a l IH]; intros [|i] x y; cbn; auto. rewrite IH. auto. Qed.
Lemma set_comm {T} (l : list T) : forall i j x y, i <> j -> set_nth i x (set_nth j y l) = set_nth j y (set_nth i x l).
Proof. induction l as [|a l IH]; intros [|i] [|j] x y D; cbn; auto; [contradiction|rewrite IH; auto]. Qed.
Lemma free_without (ts : threads) l i k h q : l <> LPm -> nth_error ts i = Some (mkThread k h) ->
  free (map t_h (set_nth i (mkThread q ((LPm, true) :: h)) ts)) l = true -> free (map t_h ts) l = true.
Proof.
  intros N T F. rewrite free_in in *. intros h' b I J. apply in_map_iff in I as (t & <- & I). apply In_nth_error in I as [j I].
  destruct (Nat.eq_dec j i) as [->|D].
  - rewrite T in I. injection I as <-. cbn [t_h] in J. apply (F ((LPm, true) :: h) b); [|right; auto].
    apply in_map_iff. exists (mkThread q ((LPm, true) :: h)). split; auto. eapply nth_error_In. eapply nth_set_same; eauto.
  - apply (F (t_h t) b); auto. apply in_map. eapply nth_error_In. rewrite nth_set_other; eauto.
Qed.
Lemma binv_step m x m' : binv m -> match x with Run _ | Pass _ => True | _ => False end -> exec1 m x = Some m' -> binv m'.
Proof.
  intros (Wk & ts1 & c1 & Bs & St) Ok H. destruct x as [i| |d| | |]; try contradiction; cbn [exec1] in H.
  2: { injection H as <-. split; auto. exists ts1, c1. auto. }
  destruct (nth_error (m_ts m) i) as [t|] eqn:T; [|discriminate]. destruct (tstep _ t (m_g m)) as [[t' g']|] eqn:E; [|discriminate].
  injection H as <-. split; auto. cbn [m_ts m_g]. unfold locks_held in E. rewrite Wk in E. cbn [app] in E.
  destruct St as [(Mp & Cn & Fo)|(j & k & q & h & Nk & Mp & Nh & Sq & Un & Ot)]; rewrite Mp in *.
  - (* nobody in a section *)
    pose proof (proj1 (Forall_forall _ _) Fo _ (nth_error_In _ _ T)) as [Nh Sq]. destruct t as [p h]. cbn [t_p t_h] in *.
    unfold tstep in E. cbn [t_p t_h] in E. destruct p as [a| |l k|l k|l k|l k|bs k|x k|k|f k|k|d k|c k|k|b k]; try discriminate; cbn [sect] in Sq;
      try contradiction; destruct Sq as [Sb Sq]; try discriminate.
    + destruct (free _ l) eqn:Fr; [|discriminate]. injection E as <- <-. destruct (is_pm l) eqn:L.
      * destruct l; try discriminate.
        exists ts1, c1. split; auto. right. exists i, k, k, h. splits; auto.
        -- rewrite Cn. reflexivity.
        -- intros j t D Nj. eapply (proj1 (Forall_forall _ _) Fo), nth_error_In; eauto.
      * assert (l <> LPm) by (intros ->; discriminate).
        eexists _, c1. split; [eapply bs_more; [exact Bs|eapply bs_lock; eauto]|]. left. splits; auto.
        apply Forall_set; auto. split; cbn; auto. intros [X|X]; [congruence|auto].
    + destruct (release h l true) as [h'|] eqn:R; injection E as <- <-.
      * eexists _, c1. split; [eapply bs_more; [exact Bs|eapply bs_unlock; eauto]|]. left. splits; auto.
        apply Forall_set; auto. split; cbn; auto. intros X. apply Nh. eapply release_in; eauto.
      * eexists _, c1. split; [eapply bs_more; [exact Bs|eapply bs_crash; eauto]|]. left. splits; auto.
        apply Forall_set; auto. split; cbn; auto.
  - destruct (Nat.eq_dec i j) as [->|D].
    + erewrite nth_set_same in T by eauto. injection T as <-. unfold tstep in E. cbn [t_p t_h] in E.
      destruct q as [a| |l k1|l k1|l k1|l k1|bs k1|x k1|k1|f k1|k1|d k1|c k1|k1|b k1]; try discriminate; cbn [sect] in Sq;
        try contradiction; destruct Sq as [Sb Sq]; try discriminate.
      * destruct l; try discriminate. cbn [release lock_eqb Bool.eqb andb] in E. injection E as <- <-.
        cbn [until] in Un. rewrite set_set. eexists _, (g_conn (m_g m)). split; [eapply bs_more; [exact Bs|eapply bs_section; eauto]|].
        left. splits; auto. apply Forall_forall. intros t I. apply In_nth_error in I as [n I].
        apply nth_set_cases in I as [(-> & -> & _)|[Dn I]]; [split; auto|eapply Ot; eauto].
      * destruct (conn_write _ bs) as [r c'] eqn:W. injection E as <- <-. exists ts1, c1. split; auto. right.
        exists j, k, (k1 r), h. cbn [until] in Un. rewrite W in Un. rewrite set_set. splits; auto.
      * destruct (ReadPacket _ x) as [o c'] eqn:W. cbn [until] in Un. rewrite W in Un.
        destruct (read_packet_inv _ _ _ _ W) as (_ & p' & e' & u & v & -> & _). injection E as <- <-. exists ts1, c1. split; auto. right.
        exists j, k, (k1 p' e'), h. rewrite set_set. splits; auto.
    + rewrite nth_set_other in T by auto. pose proof (Ot _ _ D T) as [Nh' Sq']. destruct t as [p h']. cbn [t_p t_h] in *.
      unfold tstep in E. cbn [t_p t_h] in E. destruct p as [a| |l k1|l k1|l k1|l k1|bs k1|x k1|k1|f k1|k1|d k1|c k1|k1|b k1]; try discriminate;
        cbn [sect] in Sq'; try contradiction; destruct Sq' as [Sb Sq']; try discriminate.
      * destruct (free _ l) eqn:Fr; [|discriminate]. injection E as <- <-. destruct (is_pm l) eqn:L.
        -- exfalso. destruct l; try discriminate. rewrite free_in in Fr. apply (Fr ((LPm, true) :: h) true); [|left; auto].
           apply in_map_iff. eexists. split; [|eapply nth_error_In; eapply nth_set_same; exact Nk]. reflexivity.
        -- assert (l <> LPm) by (intros ->; discriminate). rewrite set_comm by auto.
           eexists _, c1. split; [eapply bs_more; [exact Bs|apply (bs_lock _ _ i l k1 h'); [auto|exact T|eapply free_without; [auto|exact Nk|exact Fr]]]|].
           right. exists j, k, q, h. splits; auto; [rewrite nth_set_other; auto|].
           intros n t Dn I. apply nth_set_cases in I as [(-> & -> & _)|[Di I]]; [|eauto].
           split; cbn; auto. intros [X|X]; [congruence|auto].
      * destruct (release h' l true) as [h2|] eqn:R; injection E as <- <-; rewrite set_comm by auto;
          (eexists _, c1; split; [eapply bs_more; [exact Bs|first [eapply bs_unlock; eassumption|eapply bs_crash; eassumption]]|]);
          right; exists j, k, q, h; splits; auto; try (rewrite nth_set_other; auto; fail);
          (intros n t Dn I; apply nth_set_cases in I as [(-> & -> & _)|[Di I]]; [|eauto]); split; cbn; auto.
        intros X; apply Nh'; eapply release_in; eauto.
Qed.
Lemma binv_exec : forall xs m m', binv m -> only_runs xs -> exec xs m = Some m' -> binv m'.
Proof.
  induction xs as [|x xs IH]; intros m m' B O H; cbn in H; [injection H as <-; auto|].
  inversion O; subst. destruct (exec1 m x) as [m1|] eqn:E; [|discriminate]. apply (IH m1 m'); auto. eapply binv_step; eauto.
Qed.
Lemma binv_end m rs : binv m -> Forall2 (fun t r => t_p t = Ret r) (m_ts m) rs -> bsteps ts0 c0 (m_ts m) (g_conn (m_g m)).
Proof.
  intros (_ & ts1 & c1 & Bs & St) F. destruct St as [(Mp & Cn & _)|(i & k & q & h & Nk & Mp & _ & Sq & _)].
  - subst. auto.
  - exfalso. assert (X : exists r, q = Ret r).
    { assert (Nt : nth_error (m_ts m) i = Some (mkThread q ((LPm, true) :: h))) by (rewrite Mp; eapply nth_set_same; eauto).
      clear - F Nt. revert i Nt. induction F as [|t r ts rs P F IH]; intros [|i] Nt; cbn in *; try discriminate; eauto.
      injection Nt as ->. eauto. }
    destruct X as (r & ->). cbn in Sq. discriminate.
Qed.
End Runs.
Lemma binv_init {A} (ps : list (sproc A)) c s clk : Forall (fun p => sect false p T0) ps ->
  binv (map (fun p => mkThread p []) ps) c (spawn ps (mkMem c s clk)).
Proof.
  intros F. split; auto. eexists _, c. split; [constructor|]. left. cbn [spawn m_ts m_g g_conn]. splits; auto.
  apply Forall_map. eapply Forall_impl; [|exact F]. intros p S. split; cbn; auto.
Qed.
