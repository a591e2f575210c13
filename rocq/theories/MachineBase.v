(** Lists of goroutines. *)
From Verif Require Import ProofBase Proto Scanner Conn Proc Lib Server Machine.

(** ** lists *)
Lemma nth_set_same {T} (l : list T) : forall i x y, nth_error l i = Some y -> nth_error (set_nth i x l) i = Some x.
Proof. induction l as [|a l IH]; intros [|i] x y H; try discriminate; cbn in *; eauto. Qed.
Lemma nth_set_other {T} (l : list T) : forall i j x, i <> j -> nth_error (set_nth i x l) j = nth_error l j.
Proof. induction l as [|a l IH]; intros [|i] [|j] x H; cbn; auto; try congruence; apply IH; congruence. Qed.
Lemma set_nth_length {T} (l : list T) : forall i x, length (set_nth i x l) = length l.
Proof. induction l as [|a l IH]; intros [|i] x; cbn; auto. Qed.
Lemma nth_set_cases {T} (l : list T) i j x y : nth_error (set_nth i x l) j = Some y ->
  i = j /\ y = x /\ (exists z, nth_error l i = Some z) \/ i <> j /\ nth_error l j = Some y.
Proof.
  intros H. destruct (Nat.eq_dec i j) as [->|N].
  - left. split; auto. destruct (nth_error l j) as [z|] eqn:E.
    + rewrite (nth_set_same _ _ _ _ E) in H. split; [congruence|eauto].
    + apply nth_error_None in E. assert (nth_error (set_nth j x l) j = None) by (apply nth_error_None; rewrite set_nth_length; auto).
      congruence.
  - right. rewrite nth_set_other in H by auto. auto.
Qed.
Lemma Forall_set {T} (P : T -> Prop) l : forall i x, Forall P l -> P x -> Forall P (set_nth i x l).
Proof. induction l as [|a l IH]; intros [|i] x F X; cbn; auto; inversion F; subst; constructor; auto. Qed.
Lemma Forall_nth_error {T} (P : T -> Prop) l i x : Forall P l -> nth_error l i = Some x -> P x.
Proof. intros F H. apply nth_error_In in H. rewrite Forall_forall in F. auto. Qed.

