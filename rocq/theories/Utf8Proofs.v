(** utf8.Valid accepts exactly the encodings of scalar values. *)
From Verif Require Import ProofBase GoStrings Wire SpecWire WireProofs.

Lemma utf8_len r : (1 <= length (utf8_of r) <= 4)%nat.
Proof. unfold utf8_of. repeat destruct (_ <? _); simpl; lia. Qed.
Lemma utf8_nonempty r : utf8_of r <> [].
Proof. pose proof (utf8_len r). destruct (utf8_of r); simpl in *; [lia|congruence]. Qed.

Lemma cons_eq (a b : Z) l m : a = b -> l = m -> a :: l = b :: m.
Proof. congruence. Qed.

Lemma first_of b : 194 <= b <= 244 -> utf8_first b = Some
  (if b <=? 223 then (2, 128, 191) else if b <=? 239 then (3, if b =? 224 then 160 else 128, if b =? 237 then 159 else 191)
   else (4, if b =? 240 then 144 else 128, if b =? 244 then 143 else 191)).
Proof.
  intros H. unfold utf8_first, in_rng.
  repeat match goal with |- context [if ?c then _ else _] => destruct c eqn:?; try lia end; auto.
Qed.

Lemma decode_utf8 r t : scalar r -> decodeRune (utf8_of r ++ t) = (r, length (utf8_of r)).
Proof.
  intros S. red in S. unfold utf8_of.
  destruct (r <? 128) eqn:A; [simpl; rewrite A; reflexivity|].
  destruct (r <? 2048) eqn:B; [|destruct (r <? 65536) eqn:C].
  - cbn [app decodeRune length]. rewrite first_of by lia.
    replace (192 + r / 64 <? 128) with false by lia.
    replace (192 + r / 64 <=? 223) with true by lia. cbv beta iota.
    replace (len _ <? 2) with false by (unfold len; simpl; lia).
    replace (in_rng 128 191 (128 + r mod 64)) with true by (unfold in_rng; lia). cbn [negb].
    change (2 <=? 2) with true. cbv iota. f_equal. lia.
  - cbn [app decodeRune length]. rewrite first_of by lia.
    replace (224 + r / 4096 <? 128) with false by lia.
    replace (224 + r / 4096 <=? 223) with false by lia.
    replace (224 + r / 4096 <=? 239) with true by lia. cbv beta iota.
    replace (len _ <? 3) with false by (unfold len; simpl; lia).
    match goal with |- context [in_rng ?l ?h (128 + r / 64 mod 64)] =>
      replace (in_rng l h (128 + r / 64 mod 64)) with true
        by (unfold in_rng; destruct (224 + r / 4096 =? 224) eqn:?; destruct (224 + r / 4096 =? 237) eqn:?; lia) end.
    cbn [negb]. change (3 <=? 2) with false. change (3 <=? 3) with true. cbv iota.
    replace (in_rng 128 191 (128 + r mod 64)) with true by (unfold in_rng; lia). cbn [negb].
    f_equal. lia.
  - cbn [app decodeRune length]. rewrite first_of by lia.
    replace (240 + r / 262144 <? 128) with false by lia.
    replace (240 + r / 262144 <=? 223) with false by lia.
    replace (240 + r / 262144 <=? 239) with false by lia. cbv beta iota.
    replace (len _ <? 4) with false by (unfold len; simpl; lia).
    match goal with |- context [in_rng ?l ?h (128 + r / 4096 mod 64)] =>
      replace (in_rng l h (128 + r / 4096 mod 64)) with true
        by (unfold in_rng; destruct (240 + r / 262144 =? 240) eqn:?; destruct (240 + r / 262144 =? 244) eqn:?; lia) end.
    cbn [negb]. change (4 <=? 2) with false. change (4 <=? 3) with false. cbv iota.
    replace (in_rng 128 191 (128 + r / 64 mod 64)) with true by (unfold in_rng; lia).
    replace (in_rng 128 191 (128 + r mod 64)) with true by (unfold in_rng; lia). cbn [negb].
    f_equal. lia.
Qed.

(** A rune that is not an error is the encoding of a scalar value. *)
Lemma decoded_utf8 s r w : bytes_ok s -> s <> [] -> decodeRune s = (r, w) -> (r =? runeError) && Nat.eqb w 1 = false ->
  scalar r /\ s = utf8_of r ++ skipn w s.
Proof.
  intros Bs Ne D G. destruct s as [|a s]; [congruence|]. clear Ne. inversion Bs as [|? ? Ba Bs']; subst. red in Ba.
  unfold decodeRune in D.
  destruct (a <? 128) eqn:A.
  { injection D as <- <-. split; [red; lia|]. unfold utf8_of. rewrite A. reflexivity. }
  assert (Bad : (runeError, 1%nat) = (r, w) -> False).
  { intros E. injection E as <- <-. discriminate. }
  destruct (utf8_first a) as [[[sz lo] hi]|] eqn:F; [|destruct (Bad D)].
  assert (Ra : 194 <= a <= 244).
  { unfold utf8_first, in_rng in F.
    repeat match type of F with (if ?c then _ else _) = _ => destruct c eqn:? end; try discriminate; lia. }
  rewrite first_of in F by auto.
  destruct (_ <? sz) eqn:L; [destruct (Bad D)|].
  destruct s as [|b s]; [destruct (Bad D)|].
  destruct (in_rng lo hi b) eqn:B; cbn [negb] in D; [|destruct (Bad D)].
  unfold in_rng in B.
  destruct (a <=? 223) eqn:C2; [|destruct (a <=? 239) eqn:C3].
  - injection F as <- <- <-. change (2 <=? 2) with true in D. cbv iota in D. injection D as <- <-.
    unfold utf8_of, scalar.
    set (r := a mod 32 * 64 + b mod 64).
    replace (r <? 128) with false by (subst r; lia). replace (r <? 2048) with true by (subst r; lia).
    split; [subst r; lia|]. cbn [skipn app]. repeat (apply cons_eq; [subst r; lia|]). reflexivity.
  - injection F as <- <- <-. change (3 <=? 2) with false in D. change (3 <=? 3) with true in D. cbv iota in D.
    destruct s as [|c s]; [destruct (Bad D)|].
    destruct (in_rng 128 191 c) eqn:C; cbn [negb] in D; [|destruct (Bad D)]. unfold in_rng in C.
    injection D as <- <-.
    unfold utf8_of, scalar.
    assert (X : a mod 16 = a - 224) by lia. assert (Y : b mod 64 = b - 128) by (destruct (a =? 224), (a =? 237); lia).
    assert (W : c mod 64 = c - 128) by lia. rewrite X, Y, W.
    set (r := (a - 224) * 4096 + (b - 128) * 64 + (c - 128)).
    assert (2048 <= r < 55296 \/ 57344 <= r < 65536)
      by (subst r; destruct (a =? 224) eqn:?; destruct (a =? 237) eqn:?; lia).
    replace (r <? 128) with false by lia. replace (r <? 2048) with false by lia. replace (r <? 65536) with true by lia.
    assert (128 <= b <= 191) by (destruct (a =? 224), (a =? 237); lia).
    split; [lia|]. cbn [skipn app]. repeat (apply cons_eq; [subst r; lia|]). reflexivity.
  - injection F as <- <- <-. change (4 <=? 2) with false in D. change (4 <=? 3) with false in D. cbv iota in D.
    destruct s as [|c s]; [destruct (Bad D)|].
    destruct (in_rng 128 191 c) eqn:C; cbn [negb] in D; [|destruct (Bad D)]. unfold in_rng in C.
    destruct s as [|d s]; [destruct (Bad D)|].
    destruct (in_rng 128 191 d) eqn:E; cbn [negb] in D; [|destruct (Bad D)]. unfold in_rng in E.
    injection D as <- <-.
    assert (128 <= b <= 191) by (destruct (a =? 240), (a =? 244); lia).
    unfold utf8_of, scalar.
    assert (X : a mod 8 = a - 240) by lia. assert (Y : b mod 64 = b - 128) by lia.
    assert (W : c mod 64 = c - 128) by lia. assert (V : d mod 64 = d - 128) by lia. rewrite X, Y, W, V.
    set (r := (a - 240) * 262144 + (b - 128) * 4096 + (c - 128) * 64 + (d - 128)).
    assert (65536 <= r < 1114112)
      by (subst r; destruct (a =? 240) eqn:?; destruct (a =? 244) eqn:?; lia).
    replace (r <? 128) with false by lia. replace (r <? 2048) with false by lia. replace (r <? 65536) with false by lia.
    split; [lia|]. cbn [skipn app]. repeat (apply cons_eq; [subst r; lia|]). reflexivity.
Qed.

Lemma skipn_bytes n s : bytes_ok s -> bytes_ok (skipn n s).
Proof. intros B. rewrite <- (firstn_skipn n s) in B. apply bytes_app in B. tauto. Qed.

Lemma valid_sound f : forall s, (length s <= f)%nat -> bytes_ok s -> validUTF8_ f s = true -> utf8 s.
Proof.
  induction f as [|f IH]; intros s L B V.
  - destruct s; [|simpl in L; lia]. exists []. split; constructor.
  - destruct s as [|a s]; [exists []; split; constructor|].
    cbn [validUTF8_] in V. destruct (decodeRune (a :: s)) as [r w] eqn:D.
    destruct ((r =? runeError) && Nat.eqb w 1) eqn:G; [discriminate|].
    destruct (decoded_utf8 _ _ _ B ltac:(discriminate) D G) as (S & E).
    destruct (IH (skipn w (a :: s))) as (rs & Rs & Es); auto.
    + apply (f_equal (@length Z)) in E. rewrite app_length in E. pose proof (utf8_len r). lia.
    + apply skipn_bytes; auto.
    + exists (r :: rs). split; [constructor; auto|]. rewrite E, Es at 1. reflexivity.
Qed.
Lemma skip_utf8 r t : skipn (length (utf8_of r)) (utf8_of r ++ t) = t.
Proof. rewrite skipn_app, Nat.sub_diag, skipn_all. reflexivity. Qed.
Lemma valid_complete rs : Forall scalar rs -> forall f, (length (concat (map utf8_of rs)) <= f)%nat ->
  validUTF8_ f (concat (map utf8_of rs)) = true.
Proof.
  induction 1 as [|r rs S H IH]; intros f L; [destruct f; reflexivity|].
  cbn [map concat] in *. rewrite app_length in L. pose proof (utf8_len r).
  destruct f as [|f]; [lia|]. cbn [validUTF8_].
  pose proof (utf8_nonempty r).
  destruct (utf8_of r ++ concat (map utf8_of rs)) as [|a s] eqn:E; [reflexivity|]. rewrite <- E.
  rewrite decode_utf8 by auto. rewrite skip_utf8.
  destruct ((r =? runeError) && Nat.eqb (length (utf8_of r)) 1) eqn:G.
  - apply andb_true_iff in G as (G1 & G2). apply Z.eqb_eq in G1. subst r. discriminate.
  - apply IH. lia.
Qed.
Lemma valid_utf8 s : bytes_ok s -> validUTF8 s = true <-> utf8 s.
Proof.
  intros B. split; [apply valid_sound; auto|]. intros (rs & R & ->). apply valid_complete; auto.
Qed.
