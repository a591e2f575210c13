(** What protojson writes: numbers, strings, objects. *)
From Coq Require Import String SpecFloat.
From Verif Require Import ProofBase GoStrings Lib Server SpecLayout SpecWire Wire Twirp SpecTwirp SpecJson SpecJsonReply LayoutProofs Utf8Proofs WireOut
  JsonScan JsonRead JsonScanProofs JsonReadProofs JsonTokenProofs JsonFieldProofs JsonClaims GoClient JsonWrite.

(** ** Numbers *)
Lemma itoa_step f : forall n, 0 <= n < 2 ^ Z.of_nat f -> (1 <= f)%nat -> int_part (itoa_ f n) /\ num (itoa_ f n) = n.
Proof.
  induction f as [|f IH]; intros n N F; [lia|]. cbn [itoa_]. destruct (n <? 10) eqn:E.
  - split; [|unfold num; cbn; lia]. destruct (Z.eq_dec n 0) as [-> |]; [left; reflexivity|]. right. exists (48 + n), []. repeat split; try constructor; lia.
  - assert (P : 2 ^ Z.of_nat (S f) = 2 * 2 ^ Z.of_nat f) by (rewrite Nat2Z.inj_succ, Z.pow_succ_r; lia).
    destruct f as [|f]; [cbn in P; lia|].
    destruct (IH (n / 10)) as [I V]; [|lia|].
    { split; [lia|]. apply Z.div_lt_upper_bound; lia. }
    split.
    + destruct I as [I|(c & r & I & C & R)]; [rewrite I in V; change (num [48]) with 0 in V; lia|]. right. rewrite I. exists c, (r ++ [48 + n mod 10]).
      split; [reflexivity|]. split; auto. apply Forall_app. split; auto. repeat constructor; lia.
    + rewrite num_app, V. change (len [48 + n mod 10]) with 1. unfold num at 1. cbn [fold_left]. lia.
Qed.
Lemma itoa_int n : 0 <= n -> int_part (itoa n) /\ num (itoa n) = n.
Proof.
  intros N. apply itoa_step; [|lia]. split; [exact N|]. destruct (Z.eq_dec n 0) as [-> |Z]; [reflexivity|].
  rewrite Nat2Z.inj_succ, Z2Nat.id by apply Z.log2_nonneg. apply Z.log2_spec. lia.
Qed.
Definition written (neg : bool) (n : Z) : list byte := (if neg then [45] else []) ++ itoa n.
Lemma itoa_number neg n : 0 <= n -> number (written neg n) neg (itoa n) [] 0.
Proof. intros N. exists [], []. unfold written. rewrite app_nil_r. split; [reflexivity|]. split; [apply itoa_int; exact N|]. split; left; auto. Qed.
Lemma itoa_integer neg n : 0 <= n -> integer (written neg n) (if neg then - n else n).
Proof.
  intros N. exists neg, (itoa n), [], 0. split; [apply itoa_number; auto|]. cbv zeta. rewrite app_nil_r. destruct (itoa_int n N) as [_ ->].
  change (0 - len []) with 0. split; [destruct neg; lia|]. split; lia.
Qed.
Lemma itoa_bytes neg n : 0 <= n -> bytes_ok (written neg n).
Proof.
  intros N. unfold written. apply bytes_app. split; [destruct neg; repeat constructor; lia|].
  destruct (itoa_int n N) as [[-> |(c & r & -> & C & R)] _]; constructor; try (unfold byte_ok; lia); [constructor|]. eapply Forall_impl; [|exact R].
  unfold dig, byte_ok. lia.
Qed.
Lemma itoa_text neg n : 0 <= n -> jtext (JNum (written neg n)) (written neg n).
Proof. intros N. eapply jt_num. apply itoa_number. exact N. Qed.

(** ** Strings *)
Lemma hexlow_ok n : 0 <= n < 16 -> hexdig (hexlow n) n /\ byte_ok (hexlow n).
Proof.
  intros N. unfold hexlow. destruct (n <? 10) eqn:E.
  - split; [|unfold byte_ok; lia]. replace n with (48 + n - 48) at 2 by lia. constructor. lia.
  - split; [|unfold byte_ok; lia]. replace n with (87 + n - 87) at 2 by lia. constructor. lia.
Qed.
Lemma escape_ok rs : Forall scalar rs -> forall f, (List.length (concat (map utf8_of rs)) < f)%nat ->
  exists t, escape f (concat (map utf8_of rs)) = Some t /\ reads_str t (concat (map utf8_of rs)).
Proof.
  induction 1 as [|c rs C F IH]; intros f L; destruct f as [|f]; try lia; cbn [map concat] in *; [exists []; split; [reflexivity|constructor]|].
  rewrite app_length in L. pose proof (utf8_len c) as U.
  destruct (IH f ltac:(lia)) as (t & E & R). cbn [escape].
  destruct (utf8_of c ++ concat (map utf8_of rs)) as [|x y] eqn:X; [apply app_eq_nil in X; destruct X as [X _]; destruct (utf8_nonempty c X)|]. rewrite <- X.
  rewrite decode_utf8, skip_utf8, E by exact C.
  assert (B : (c =? runeError) && Nat.eqb (List.length (utf8_of c)) 1 = false).
  { unfold runeError. destruct (c =? 65533) eqn:Q; [|reflexivity]. apply Z.eqb_eq in Q. subst c. reflexivity. }
  rewrite B. eexists. split; [reflexivity|].
  rewrite firstn_app, Nat.sub_diag, firstn_all, app_nil_r.
  destruct ((c <? 32) || (c =? 34) || (c =? 92)) eqn:Z; [|apply rd_char; auto; lia].
  assert (U1 : utf8_of c = [c]) by (apply ascii_utf8; unfold scalar in C; lia). rewrite U1. cbn [app].
  destruct ((c =? 34) || (c =? 92)) eqn:Q; [apply rd_esc; auto; cbn; assert (c = 34 \/ c = 92) as [-> | ->] by lia; auto|].
  destruct (c =? 8) eqn:Q1; [apply rd_esc; auto; assert (c = 8) as -> by lia; cbn; auto 10|].
  destruct (c =? 12) eqn:Q2; [apply rd_esc; auto; assert (c = 12) as -> by lia; cbn; auto 10|].
  destruct (c =? 10) eqn:Q3; [apply rd_esc; auto; assert (c = 10) as -> by lia; cbn; auto 10|].
  destruct (c =? 13) eqn:Q4; [apply rd_esc; auto; assert (c = 13) as -> by lia; cbn; auto 10|].
  destruct (c =? 9) eqn:Q5; [apply rd_esc; auto; assert (c = 9) as -> by lia; cbn; auto 10|].
  assert (H : hex16 [48; 48; hexlow (c / 16); hexlow (c mod 16)] c).
  { unfold scalar in C. exists 48, 48, (hexlow (c / 16)), (hexlow (c mod 16)), 0, 0, (c / 16), (c mod 16). split; auto.
    split; [change 0 with (48 - 48); constructor; lia|]. split; [change 0 with (48 - 48); constructor; lia|].
    split; [apply hexlow_ok; lia|]. split; [apply hexlow_ok; lia|]. lia. }
  change (c :: concat (map utf8_of rs)) with ([c] ++ concat (map utf8_of rs)). rewrite <- U1. apply (rd_u [48; 48; hexlow (c / 16); hexlow (c mod 16)]); auto.
Qed.
Lemma escape_bytes f : forall s t, bytes_ok s -> escape f s = Some t -> bytes_ok t.
Proof.
  induction f as [|f IH]; intros s t B E; [discriminate|]. cbn [escape] in E. destruct s as [|c s]; [injection E as <-; constructor|].
  destruct (decodeRune (c :: s)) as [r w] eqn:D. destruct (_ && _) eqn:G; [discriminate|].
  destruct (decoded_utf8 _ _ _ B ltac:(discriminate) D G) as [S _].
  destruct (escape f (skipn w (c :: s))) as [t'|] eqn:E'; [|discriminate]. injection E as <-. apply bytes_app. split.
  - destruct ((r <? 32) || (r =? 34) || (r =? 92)) eqn:Q; [|rewrite <- (firstn_skipn w (c :: s)) in B; apply bytes_app in B; tauto].
    assert (0 <= r < 128) by (unfold scalar in S; lia).
    constructor; [unfold byte_ok; lia|].
    repeat match goal with |- context [if ?x then _ else _] => destruct x end; repeat constructor; try lia; apply hexlow_ok; lia.
  - apply (IH _ _ ltac:(rewrite <- (firstn_skipn w (c :: s)) in B; apply bytes_app in B; apply B) E').
Qed.
Lemma escape_utf8 f : forall s t, bytes_ok s -> escape f s = Some t -> utf8 s.
Proof.
  induction f as [|f IH]; intros s t B E; [discriminate|]. cbn [escape] in E. destruct s as [|c s]; [exists []; auto|].
  destruct (decodeRune (c :: s)) as [r w] eqn:D. destruct (_ && _) eqn:G; [discriminate|].
  destruct (decoded_utf8 _ _ _ B ltac:(discriminate) D G) as [S Es].
  destruct (escape f (skipn w (c :: s))) as [t'|] eqn:E'; [|discriminate].
  destruct (IH _ _ ltac:(rewrite <- (firstn_skipn w (c :: s)) in B; apply bytes_app in B; apply B) E') as (rs & F & Q).
  exists (r :: rs). split; [constructor; auto|]. rewrite Es, Q. reflexivity.
Qed.
Lemma append_string s : bytes_ok s -> utf8 s -> exists t, appendString s = Some (34 :: t ++ [34]) /\ reads_str t s /\ bytes_ok t.
Proof.
  intros B (rs & F & E). destruct (escape_ok rs F (S (List.length s))) as (t & X & R); [rewrite E; lia|]. rewrite <- E in *.
  exists t. unfold appendString. rewrite X. split; auto. split; auto. eapply escape_bytes; eauto.
Qed.
Lemma append_only s t : bytes_ok s -> appendString s = Some t -> utf8 s.
Proof. intros B. unfold appendString. destruct (escape _ s) eqn:E; [|discriminate]. intros _. eapply escape_utf8; eauto. Qed.

(** ** Floats *)
Lemma pow2_lt a : 0 <= a -> 0 < 2 ^ a.
Proof. intros. apply Z.pow_pos_nonneg; lia. Qed.
Lemma whole_is s m e z : f32_is (S754_finite s m e) z -> whole (Zpos m) e = Some (Z.abs z) /\ z <> 0 /\ s = (z <? 0).
Proof.
  intros (_ & H). unfold whole. cbv zeta in H. destruct H as [(E & <-)|(E & H)].
  - pose proof (pow2_lt e E). replace (0 <=? e) with true by lia. split; [|destruct s; nia]. f_equal. destruct s; nia.
  - pose proof (pow2_lt (- e) ltac:(lia)) as P. replace (0 <=? e) with false by lia. set (p := 2 ^ (- e)) in *.
    assert (A : Zpos m = Z.abs z * p) by (destruct s; nia).
    rewrite A, Z_mod_mult, Z.eqb_refl, Z_div_mult by lia. split; auto. destruct s; nia.
Qed.
Lemma f32_same a b z : f32_is a z -> f32_is b z -> a = b.
Proof.
  intros A B. pose proof A as A'. pose proof B as B'. destruct A as [NA A], B as [NB B]. destruct a as [s|s| |s m e], b as [t|t| |t n f]; try contradiction.
  - destruct A as [-> _], B as [-> _]. reflexivity.
  - destruct A as [_ ->]. apply whole_is in B'. lia.
  - destruct B as [_ ->]. apply whole_is in A'. lia.
  - destruct (whole_is _ _ _ _ A') as (WA & Nz & ->). destruct (whole_is _ _ _ _ B') as (WB & _ & ->).
    cbn [binary32] in NA, NB.
    assert (K : forall m e, (Z.pos m < 8388608 /\ e = -149 \/ 8388608 <= Z.pos m < 16777216 /\ -149 <= e <= 104) ->
      whole (Zpos m) e = Some (Z.abs z) -> 8388608 <= Zpos m < 16777216 /\ Zpos m * 2 ^ (e + 149) = Z.abs z * 2 ^ 149).
    { clear. intros m e R W. assert (E : Zpos m * 2 ^ (e + 149) = Z.abs z * 2 ^ 149).
      { unfold whole in W. destruct (0 <=? e) eqn:E; [injection W as <-; rewrite Z.pow_add_r by lia; ring|].
        destruct (_ =? 0) eqn:M; [|discriminate]. injection W as <-. apply Z.eqb_eq in M. pose proof (pow2_lt (- e) ltac:(lia)).
        assert (T : 2 ^ 149 = 2 ^ (- e) * 2 ^ (e + 149)) by (rewrite <- Z.pow_add_r by lia; f_equal; lia).
        assert (D : Zpos m = 2 ^ (- e) * (Zpos m / 2 ^ (- e))) by (rewrite (Z.div_mod (Zpos m) (2 ^ - e)) at 1 by lia; lia). rewrite T, D at 1. ring. }
      split; auto. destruct R as [(L & ->)|R]; [|lia]. exfalso. change (2 ^ (-149 + 149)) with 1 in E. rewrite Z.mul_1_r in E.
      assert (8388608 < 2 ^ 149) by reflexivity. nia. }
    destruct (K m e NA WA) as (M & P). destruct (K n f NB WB) as (N & Q). rewrite <- Q in P.
    assert (He : e = f).
    { assert (X : forall m n e f, 8388608 <= m < 16777216 -> 8388608 <= n < 16777216 -> 0 <= e + 149 -> e < f -> m * 2 ^ (e + 149) <> n * 2 ^ (f + 149)).
      { clear. intros m n e f M N E L H. set (g := e + 149) in *. replace (f + 149) with ((f - e - 1) + (1 + g)) in H by lia. rewrite !Z.pow_add_r in H by lia.
        change (2 ^ 1) with 2 in H. pose proof (pow2_lt g E). pose proof (pow2_lt (f - e - 1) ltac:(lia)).
        assert (m = n * (2 ^ (f - e - 1) * 2)) by (apply (Z.mul_reg_r _ _ (2 ^ g)); [lia|]; rewrite H; ring). nia. }
      destruct (Z.lt_trichotomy e f) as [L|[L|L]]; auto; exfalso; [eapply (X (Zpos m) (Zpos n) e f)|eapply (X (Zpos n) (Zpos m) f e)]; eauto; lia. }
    subst f. pose proof (pow2_lt (e + 149) ltac:(lia)). f_equal. assert (Zpos m = Zpos n) by nia. congruence.
Qed.
Lemma append_degrees ftoa f z : f32_is f z -> -1000 <= z <= 1000 -> appendFloat ftoa f = written (z <? 0) (Z.abs z).
Proof.
  intros H R. destruct f as [s|s| |s m e]; try (destruct H as [_ H]; contradiction).
  - destruct H as [_ [-> ->]]. reflexivity.
  - cbn [appendFloat]. destruct (whole_is _ _ _ _ H) as (-> & _ & ->). replace (Z.abs z <? 16777216) with true by lia. reflexivity.
Qed.
Lemma bits_of f : binary32 f -> f32_of_bits (f32_bits f) = f.
Proof.
  intros B. pose proof (bits_range f B). destruct f as [s|s| |s m e]; try (destruct s; reflexivity); try reflexivity.
  unfold f32_of_bits, f32_bits, sign_bit in *. cbn [binary32] in B. destruct (Z.pos m <? 8388608) eqn:E.
  - set (z := _ + _) in *. assert (e = -149) as -> by lia.
    assert (X : z / 8388608 mod 256 = 0 /\ z mod 8388608 = Zpos m /\ (2147483648 <=? z) = s) by (subst z; destruct s; lia).
    destruct X as (-> & -> & ->). reflexivity.
  - set (z := _ + _ + _) in *.
    assert (X : z / 8388608 mod 256 = e + 150 /\ z mod 8388608 = Zpos m - 8388608 /\ (2147483648 <=? z) = s) by (subst z; destruct s; lia).
    destruct X as (-> & -> & ->). replace (e + 150 =? 255) with false by lia. replace (e + 150 =? 0) with false by lia.
    replace (Z.pos m - 8388608 + 8388608) with (Z.pos m) by lia. f_equal. lia.
Qed.
