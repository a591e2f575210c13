(** What a goroutine can answer at all, whatever it reads. *)
From Verif Require Import ProofBase Proto Scanner Conn Proc Lib Server Machine SpecMachine.

Fixpoint every_ret {S A} (Q : A -> Prop) (p : proc S A) : Prop :=
  match p with
  | Ret a => Q a
  | Crash => True
  | Lock _ k | Unlock _ k | RLock _ k | RUnlock _ k | Put _ k | Sleep _ k | SendFlush _ k | SendSucc _ k => every_ret Q k
  | WriteC _ k => forall r, every_ret Q (k r)
  | ReadC _ k => forall p e, every_ret Q (k p e)
  | Get k => forall s, every_ret Q (k s)
  | Now k => forall t, every_ret Q (k t)
  | RecvSucc k => forall b, every_ret Q (k b)
  end.
Lemma every_bind {S A B} (Q : B -> Prop) (p : proc S A) f : (forall a, every_ret Q (f a)) -> every_ret Q (bind p f).
Proof. intros H. induction p; cbn [bind every_ret]; auto. Qed.
Lemma every_lock {S A} (Q : A -> Prop) l (p : proc S A) : every_ret Q p -> every_ret Q (with_lock l p).
Proof.
  unfold with_lock. cbn [every_ret]. induction p; cbn [bind every_ret]; auto.
Qed.
Lemma every_step {A} (Q : A -> Prop) hs (t : thread A) g t' g' : every_ret Q (t_p t) -> tstep hs t g = Some (t', g') -> every_ret Q (t_p t').
Proof.
  destruct t as [p h]. unfold tstep. cbn [t_p t_h]. intros E H.
  destruct p; cbn [every_ret] in E; try discriminate.
  - destruct (free hs l); [|discriminate]. injection H as <- _. exact E.
  - destruct (release h l true); injection H as <- _; cbn; auto.
  - destruct (rfree hs l); [|discriminate]. injection H as <- _. exact E.
  - destruct (release h l false); injection H as <- _; cbn; auto.
  - destruct (conn_write _ _). injection H as <- _. cbn. auto.
  - destruct (ReadPacket _ _) as [[[p e]|] c]; injection H as <- _; cbn; auto.
  - injection H as <- _. cbn. auto.
  - injection H as <- _. cbn. auto.
  - injection H as <- _. cbn. auto.
  - injection H as <- _. cbn. auto.
Qed.
Lemma nth_set {T} (l : list T) : forall i j x y, nth_error (set_nth i x l) j = Some y -> (i = j /\ y = x) \/ nth_error l j = Some y.
Proof.
  induction l as [|a l IH]; intros [|i] [|j] x y H; cbn in *; try discriminate; auto.
  - injection H as <-. auto.
  - destruct (IH _ _ _ _ H) as [[-> ->]|]; auto.
Qed.
Definition all_every {A} (Q : A -> Prop) i (m : machine A) : Prop := forall t, nth_error (m_ts m) i = Some t -> every_ret Q (t_p t).
Lemma every_exec1 {A} (Q : A -> Prop) i m x m' : all_every Q i m -> exec1 m x = Some m' -> all_every Q i m'.
Proof.
  intros H E. destruct x as [j| |d|tk|j|j]; cbn [exec1] in E.
  - destruct (nth_error (m_ts m) j) as [t|] eqn:N; [|discriminate]. destruct (tstep _ t _) as [[t' g']|] eqn:St; [|discriminate].
    injection E as <-. intros t1 N1. cbn in N1. apply nth_set in N1 as [[<- ->]|N1]; auto. eapply every_step; eauto.
  - destruct (m_wk m) as [t|]; [|discriminate]. destruct (t_p t) as [[]| | | | | | | | | | | | | |], (t_h t);
      try (injection E as <-; exact H); destruct (tstep _ t _) as [[t' g']|]; try discriminate; injection E as <-; exact H.
  - injection E as <-. exact H.
  - destruct (m_wk m); [discriminate|]. injection E as <-. exact H.
  - destruct (m_wk m); [discriminate|]. destruct (nth_error (m_ts m) j) as [t|] eqn:N; [|discriminate].
    destruct (t_p t) eqn:Tp; try discriminate. injection E as <-. intros t1 N1. cbn in N1. apply nth_set in N1 as [[<- ->]|N1]; auto.
    specialize (H _ N). rewrite Tp in H. exact H.
  - destruct (m_wk m) as [w|]; [|discriminate]. destruct (nth_error (m_ts m) j) as [t|] eqn:N; [|discriminate].
    destruct (t_p w); try discriminate. destruct (t_p t) eqn:Tp; try discriminate. injection E as <-. intros t1 N1. cbn in N1.
    apply nth_set in N1 as [[<- ->]|N1]; auto. specialize (H _ N). rewrite Tp in H. cbn in H |- *. auto.
Qed.
Lemma every_exec {A} (Q : A -> Prop) i xs : forall m m', all_every Q i m -> exec xs m = Some m' -> all_every Q i m'.
Proof.
  induction xs as [|x xs IH]; intros m m' H E; cbn [exec] in E; [injection E as <-; exact H|].
  destruct (exec1 m x) as [m1|] eqn:E1; [|discriminate]. eapply IH; [|exact E]. eapply every_exec1; eauto.
Qed.
Lemma every_answer Q rs c clk xs m i q a : exec xs (serve rs c clk) = Some m -> nth_error rs i = Some q -> every_ret Q (handle q) ->
  answered m i a -> Q a.
Proof.
  intros E N H (t & Nt & Tp). assert (X : all_every Q i m).
  { eapply every_exec; [|exact E]. intros t1 N1. unfold serve in N1. cbn [m_ts] in N1. rewrite nth_error_map, N in N1. cbn in N1. injection N1 as <-. exact H. }
  specialize (X _ Nt). rewrite Tp in X. exact X.
Qed.

(** The requests of the Python client are not refused for their arguments. *)
Definition admitted (a : resp) : Prop := forall x, a <> RespErr (InvalidArgument x).
Lemma speed_admitted n : 1 <= n <= 4 -> every_ret admitted (handle (SetFanSpeedR n false)).
Proof.
  intros B. cbn [handle]. unfold SetFanSpeed. apply every_lock. intros s. cbn [every_ret].
  assert (M : modifySpeed (CurrentMode (sh_prof s)) n false = (n, None)).
  { assert (n = 1 \/ n = 2 \/ n = 3 \/ n = 4) as [-> |[-> |[-> | ->]]] by lia; reflexivity. }
  rewrite M. destruct (negb _); [|cbn; discriminate]. apply every_bind. intros [e|]; [cbn; discriminate|].
  apply every_bind. intros [e|]; [cbn; discriminate|]. apply every_bind. intros _. cbn. discriminate.
Qed.
Lemma comfort_admitted t : t <= 255 -> every_ret admitted (handle (SetComfortTempR t)).
Proof.
  intros B. cbn [handle]. unfold SetComfortTemp. intros s. cbv zeta. replace (t >? 255) with false by lia.
  destruct (negb _); [|cbn; discriminate]. apply every_lock. apply every_bind. intros [e|]; [cbn; discriminate|].
  apply every_bind. intros _. cbn. discriminate.
Qed.
Lemma profile_admitted p v : 1 <= p <= 4 -> 15 <= v <= 100 -> every_ret admitted (handle (SetFanProfileR p v)).
Proof.
  intros P V. cbn [handle]. unfold SetFanProfileRPC, u8. rewrite !(Z.mod_small p), !(Z.mod_small v) by lia.
  replace ((p <? 1) || (p >? 4)) with false by lia. replace ((v <? 15) || (v >? 100)) with false by lia.
  apply every_lock. intros s. cbv zeta.
  match goal with |- every_ret _ (match ?o with _ => _ end) => destruct o; [|exact I] end.
  destruct (negb _); [|cbn; discriminate]. apply every_bind. intros [e|]; [cbn; discriminate|].
  apply every_bind. intros _. cbn. discriminate.
Qed.
