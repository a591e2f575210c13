(** Proofs about the text of a packet. *)
From Coq Require Import String.
From Verif Require Import ProofBase Proto Wire Twirp SpecJson JsonWrite JsonWriteProofs JsonReplyProofs SpecErrorText ErrorTextProofs PacketText SpecPacketText.

Lemma hexText_ok n : byte_ok n -> hexText n <> [] /\ hex_digits (hexText n) n.
Proof.
  unfold byte_ok, hexText. intros B. destruct (n <? 16) eqn:E.
  - apply Z.ltb_lt in E. split; [discriminate|]. replace n with (16 * 0 + n) at 2 by lia. apply (hx_cons []); [constructor|].
    apply hexlow_ok. lia.
  - apply Z.ltb_ge in E. split; [discriminate|].
    replace n with (16 * (n / 16) + n mod 16) at 3 by (rewrite <- Z.div_mod; lia). apply (hx_cons [hexlow (n / 16)]).
    + replace (n / 16) with (16 * 0 + n / 16) at 2 by lia. apply (hx_cons []); [constructor|]. apply hexlow_ok. lia.
    + apply hexlow_ok. lia.
Qed.
Lemma bytesText_ok l : bytes_ok l -> decimals (bytesText l) l.
Proof.
  induction 1 as [|b l B H IH]; [constructor|]. assert (D : decimal (itoa b) b).
  { left. unfold byte_ok in B. destruct (itoa_int b ltac:(lia)). auto with zarith. }
  destruct l as [|c l]; [apply ds_one; exact D|]. change (bytesText (b :: c :: l)) with (itoa b ++ 32 :: bytesText (c :: l)).
  apply ds_more; [exact D|exact IH|discriminate].
Qed.
Lemma packetText_shows p : byte_ok (p_cmd p) -> bytes_ok (p_data p) -> shows (packetText p) p.
Proof.
  intros C D. destruct (hexText_ok _ C). exists (hexText (p_cmd p)), (bytesText (p_data p)), (if p_expect p then str "true" else str "false").
  split; [reflexivity|]. split; [assumption|]. split; [assumption|]. split; [apply bytesText_ok; exact D|]. destruct (p_expect p); auto.
Qed.

(** ** One packet only *)
Lemma first_same {A} (c : A) a : forall b r s, ~ In c a -> ~ In c b -> a ++ c :: r = b ++ c :: s -> a = b /\ r = s.
Proof.
  induction a as [|x a IH]; intros [|y b] r s Na Nb E; cbn in E; inversion E; subst.
  - auto.
  - destruct Nb. left. reflexivity.
  - destruct Na. left. reflexivity.
  - destruct (IH b r s) as [-> ->]; auto; cbn in *; tauto.
Qed.
Lemma hex_chars x v : hex_digits x v -> ~ In 44 x.
Proof.
  induction 1 as [|x v d n H IH D]; [auto|]. rewrite in_app_iff. intros [I|[I|[]]]; [tauto|]. subst. inversion D; lia.
Qed.
Lemma decimal_chars t v : decimal t v -> t <> [] /\ Forall (fun c => c = 45 \/ dig c) t.
Proof.
  assert (I : forall i, int_part i -> i <> [] /\ Forall (fun c => c = 45 \/ dig c) i).
  { intros i [->|(c & r & -> & C & F)].
    - split; [discriminate|]. constructor; [right; red; lia|constructor].
    - split; [discriminate|]. constructor; [right; red; lia|]. eapply Forall_impl; [|exact F]. auto. }
  intros [(_ & P & _)|(_ & i & -> & P & _)]; [auto|]. destruct (I _ P) as [_ F]. split; [discriminate|]. constructor; auto.
Qed.
Lemma decimal_fun t v w : decimal t v -> decimal t w -> v = w.
Proof.
  assert (M : forall i, int_part (45 :: i) -> False) by (intros i [E|(c & r & E & C & _)]; [discriminate|injection E as <- <-; lia]).
  intros [(A & P & N)|(A & i & E & P & N)] [(B & Q & O)|(B & j & F & Q & O)]; subst; try congruence; try (exfalso; eapply M; eassumption).
  injection F as ->. lia.
Qed.
Lemma not_in_dec t v c : decimal t v -> c = 32 \/ c = 93 -> ~ In c t.
Proof.
  intros D C I. destruct (decimal_chars _ _ D) as [_ F]. rewrite Forall_forall in F. specialize (F _ I). unfold dig in F. lia.
Qed.
Lemma decimals_chars t l : decimals t l -> ~ In 93 t.
Proof.
  induction 1 as [|t v D|t v r l D H IH N]; [auto|eapply not_in_dec; eauto|]. rewrite in_app_iff. cbn. intros [I|[I|I]]; [|lia|tauto].
  eapply not_in_dec; eauto.
Qed.
Lemma decimals_fun t l : decimals t l -> forall l', decimals t l' -> l = l'.
Proof.
  induction 1 as [|t v D|t v r l D H IH N]; intros l' H'.
  - inversion H' as [|t' v' D' E|t' v' r' l1 D' H1 N' E]; subst; auto.
    + destruct (proj1 (decimal_chars _ _ D')). reflexivity.
    + destruct t'; discriminate.
  - inversion H' as [E|t' v' D' E|t' v' r' l1 D' H1 N' E]; subst.
    + destruct (proj1 (decimal_chars _ _ D)). reflexivity.
    + rewrite (decimal_fun _ _ _ D D'). reflexivity.
    + destruct (not_in_dec _ _ 32 D); [auto|]. apply in_app_iff. right. left. reflexivity.
  - inversion H' as [E|t' v' D' E|t' v' r' l1 D' H1 N' E]; subst.
    + destruct t; discriminate.
    + destruct (not_in_dec _ _ 32 D'); [auto|]. apply in_app_iff. right. left. reflexivity.
    + destruct (first_same 32 t' t r' r) as [-> ->]; eauto using not_in_dec. rewrite (decimal_fun _ _ _ D D'), (IH _ H1). reflexivity.
Qed.
Lemma shows_unique t p q : shows t p -> shows t q -> p = q.
Proof.
  intros (x & l & e & E & _ & X & L & P) (y & m & f & F & _ & Y & M & Q). subst t. apply app_inv_head in F.
  change (str ", Data: [") with (44 :: str " Data: [") in F. rewrite <- !app_comm_cons in F.
  destruct (first_same 44 x y _ _ (hex_chars _ _ X) (hex_chars _ _ Y) F) as [-> F1]. apply app_inv_head in F1.
  change (str "], Expect: ") with (93 :: str ", Expect: ") in F1. rewrite <- !app_comm_cons in F1.
  destruct (first_same 93 l m _ _ (decimals_chars _ _ L) (decimals_chars _ _ M) F1) as [-> F2]. apply app_inv_head in F2. apply app_inv_tail in F2. subst f.
  destruct p as [pc pd pe], q as [qc qd qe]. cbn in *. rewrite (hex_digits_fun _ _ X _ Y), (decimals_fun _ _ L _ M). f_equal.
  destruct P as [[-> ->]|[-> ->]], Q as [[A ->]|[A ->]]; auto; discriminate.
Qed.
