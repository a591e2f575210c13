(** Proofs about what errors say. *)
From Coq Require Import String Permutation.
From Verif Require Import ProofBase GoStrings SpecWire Server Wire Twirp SpecTwirp GoClient SpecGo SpecJson SpecJsonError Utf8Proofs
  JsonScan JsonReadProofs JsonWrite JsonWriteProofs JsonReplyProofs JsonError JsonErrorStrings JsonErrorProofs DurationProofs TwirpProofs
  ErrorText SpecErrorText.

(** ** Quoting *)
Lemma hexes_digits n : forall r, 0 <= r < 16 ^ Z.of_nat n -> hex_digits (hexes n r) r /\ List.length (hexes n r) = n /\ Forall (fun c => 0 <= c < 128) (hexes n r).
Proof.
  induction n as [|n IH]; intros r R.
  - cbn in R. assert (r = 0) as -> by lia. cbn. repeat split; constructor.
  - rewrite Nat2Z.inj_succ, Z.pow_succ_r in R by lia. cbn [hexes].
    destruct (IH (r / 16) ltac:(lia)) as (H & L & F). destruct (hexlow_ok (r mod 16) ltac:(lia)) as [D B].
    split; [|split].
    + replace r with (16 * (r / 16) + r mod 16) at 3 by lia. apply hx_cons; auto.
    + rewrite app_length, L. cbn. lia.
    + apply Forall_app. split; auto. constructor; auto. inversion D; subst; lia.
Qed.
Lemma hexdig_fun d n m : hexdig d n -> hexdig d m -> n = m.
Proof. intros A B. inversion A; inversion B; subst; lia. Qed.
Lemma hex_digits_fun x v : hex_digits x v -> forall w, hex_digits x w -> v = w.
Proof.
  induction 1 as [|x v d n H IH D]; intros w W; inversion W as [E|y u d' n' H' D' E]; subst; auto.
  - destruct y; discriminate.
  - destruct x; discriminate.
  - apply app_inj_tail in E. destruct E as [-> ->]. rewrite (IH u H'), (hexdig_fun _ _ _ D D'). reflexivity.
Qed.
Lemma utf8_92 c r t : scalar c -> c <> 92 -> utf8_of c ++ r <> 92 :: t.
Proof.
  intros S N E. destruct (Z_lt_ge_dec c 128) as [L|L].
  - rewrite ascii_utf8 in E by (red in S; lia). injection E as -> _. congruence.
  - destruct (high_head c S ltac:(lia)) as (x & y & Ex & Hx). rewrite Ex in E. injection E as -> _. lia.
Qed.
Lemma escapes_key e c : In (e, c) go_escapes -> e <> 120 /\ e <> 117 /\ e <> 85.
Proof. unfold go_escapes. cbn [In]. intros I. repeat (destruct I as [I|I]; [injection I as <- <-; lia|]). destruct I. Qed.
Lemma escapes_fun e c d : In (e, c) go_escapes -> In (e, d) go_escapes -> c = d.
Proof.
  unfold go_escapes. cbn [In]. intros I J.
  repeat (destruct I as [I|I]; [injection I as <- <-; repeat (destruct J as [J|J]; [injection J; intros; lia|]); destruct J|]). destruct I.
Qed.
Lemma lit_fun t s : lit t s -> forall s', lit t s' -> s = s'.
Proof.
  assert (K : forall c r t, scalar c -> c <> 92 -> utf8_of c ++ r = 92 :: t -> False) by (intros c r u S N E; exact (utf8_92 c r u S N E)).
  induction 1 as [|c r s S N1 N2 N3 L IH|e c r s I L IH|x v r s H Lx L IH|x v r s H Lx S L IH|x v r s H Lx S L IH]; intros s' L';
    inversion L' as [E|c' r' s1 S' M1 M2 M3 L1 E|e' c' r' s1 I' L1 E|x' v' r' s1 H' Lx' L1 E|x' v' r' s1 H' Lx' S' L1 E|x' v' r' s1 H' Lx' S' L1 E]; subst; auto.
  all: try (match goal with E : [] = utf8_of ?c ++ _ |- _ => pose proof (utf8_nonempty c); destruct (utf8_of c); [congruence|discriminate] end).
  all: try (match goal with E : utf8_of ?c ++ _ = [] |- _ => pose proof (utf8_nonempty c); destruct (utf8_of c); [congruence|discriminate] end).
  all: try (match goal with E : utf8_of _ ++ _ = 92 :: _ |- _ => apply K in E; tauto end).
  all: try (match goal with E : 92 :: _ = utf8_of _ ++ _ |- _ => symmetry in E; apply K in E; tauto end).
  all: try (match goal with I : In (_, _) go_escapes |- _ => destruct (escapes_key _ _ I) as (? & ? & ?); congruence end).
  - destruct (utf8_prefix _ _ _ _ S' S E) as [-> ->]. f_equal. apply IH. exact L1.
  - rewrite (escapes_fun _ _ _ I I'). f_equal. apply IH. exact L1.
  - destruct (app_inj_len x' x r' r ltac:(congruence) E) as [-> ->]. rewrite (hex_digits_fun _ _ H _ H'). f_equal. apply IH. exact L1.
  - destruct (app_inj_len x' x r' r ltac:(congruence) E) as [-> ->]. rewrite (hex_digits_fun _ _ H _ H'). f_equal. apply IH. exact L1.
  - destruct (app_inj_len x' x r' r ltac:(congruence) E) as [-> ->]. rewrite (hex_digits_fun _ _ H _ H'). f_equal. apply IH. exact L1.
Qed.
Lemma literal_fun t s s' : literal t s -> literal t s' -> s = s'.
Proof.
  intros (x & -> & L) (y & E & L'). injection E as E. apply app_inj_tail in E. destruct E as [-> _]. eapply lit_fun; eauto.
Qed.
Lemma utf8_app1 c t : scalar c -> utf8 t -> utf8 (utf8_of c ++ t).
Proof. apply utf8_cons. Qed.
Lemma asciis_app s t : Forall (fun c => 0 <= c < 128) s -> utf8 t /\ bytes_ok t -> utf8 (s ++ t) /\ bytes_ok (s ++ t).
Proof. intros A [U B]. destruct (ascii_utf8s s A). split; [apply utf8_app; auto|apply bytes_app; auto]. Qed.
Lemma lit_ascii c r s : 32 <= c < 128 -> c <> 34 -> c <> 92 -> lit r s -> lit (c :: r) (c :: s).
Proof. intros C A B L. pose proof (lit_char c r s) as K. rewrite ascii_utf8 in K by lia. apply K; auto; [red|]; lia. Qed.

Section Quote.
  Variable isPrint : Z -> bool.
  Lemma escaped_rune c r s : scalar c -> lit r s -> utf8 r /\ bytes_ok r -> bytes_ok (utf8_of c) ->
    lit (escapedRune isPrint c (utf8_of c) ++ r) (utf8_of c ++ s) /\
    utf8 (escapedRune isPrint c (utf8_of c) ++ r) /\ bytes_ok (escapedRune isPrint c (utf8_of c) ++ r).
  Proof.
    intros S L U Bc. unfold escapedRune.
    destruct ((c =? 34) || (c =? 92)) eqn:Q.
    { assert (c = 34 \/ c = 92) as X by lia. assert (E : utf8_of c = [c]) by (apply ascii_utf8; lia). rewrite E.
      split; [|apply asciis_app; auto; repeat constructor; lia]. apply lit_escape; auto. destruct X as [-> | ->]; cbn; auto 12. }
    destruct (printable isPrint c) eqn:P.
    { split; [apply lit_char; auto; try lia|split; [apply utf8_cons; tauto|apply bytes_app; tauto]].
      intros ->. discriminate. }
    assert (X : forall e, In (e, c) go_escapes -> 0 <= c < 128 -> 0 <= e < 128 ->
      lit ([92; e] ++ r) (utf8_of c ++ s) /\ utf8 ([92; e] ++ r) /\ bytes_ok ([92; e] ++ r)).
    { intros e I A A'. rewrite (ascii_utf8 c) by lia. split; [apply lit_escape; auto|apply asciis_app; auto; repeat constructor; lia]. }
    destruct (c =? 7) eqn:Q1; [apply X; [replace c with 7 by lia; cbn; auto 12|lia|lia]|].
    destruct (c =? 8) eqn:Q2; [apply X; [replace c with 8 by lia; cbn; auto 12|lia|lia]|].
    destruct (c =? 12) eqn:Q3; [apply X; [replace c with 12 by lia; cbn; auto 12|lia|lia]|].
    destruct (c =? 10) eqn:Q4; [apply X; [replace c with 10 by lia; cbn; auto 12|lia|lia]|].
    destruct (c =? 13) eqn:Q5; [apply X; [replace c with 13 by lia; cbn; auto 12|lia|lia]|].
    destruct (c =? 9) eqn:Q6; [apply X; [replace c with 9 by lia; cbn; auto 12|lia|lia]|].
    destruct (c =? 11) eqn:Q7; [apply X; [replace c with 11 by lia; cbn; auto 12|lia|lia]|].
    clear X. destruct ((c <? 32) || (c =? 127)) eqn:C.
    { assert (R : 0 <= c < 128) by (red in S; lia). destruct (hexes_digits 2 c ltac:(cbn; lia)) as (H & Ln & F). rewrite (ascii_utf8 c) by lia.
      split; [exact (lit_byte _ _ _ _ H Ln L)|]. apply (asciis_app (92 :: 120 :: hexes 2 c)); auto. do 2 (apply Forall_cons; [lia|]). exact F. }
    destruct (c <? 65536) eqn:C2.
    { destruct (hexes_digits 4 c ltac:(cbn; red in S; lia)) as (H & Ln & F).
      split; [exact (lit_small_u _ _ _ _ H Ln S L)|]. apply (asciis_app (92 :: 117 :: hexes 4 c)); auto. do 2 (apply Forall_cons; [lia|]). exact F. }
    destruct (hexes_digits 8 c ltac:(cbn; red in S; lia)) as (H & Ln & F).
    split; [exact (lit_big_u _ _ _ _ H Ln S L)|]. apply (asciis_app (92 :: 85 :: hexes 8 c)); auto. do 2 (apply Forall_cons; [lia|]). exact F.
  Qed.
  Lemma quote_lit : forall n s, (List.length s <= n)%nat -> bytes_ok s ->
    lit (quote_ isPrint n s) s /\ utf8 (quote_ isPrint n s) /\ bytes_ok (quote_ isPrint n s).
  Proof.
    induction n as [|n IH]; intros s L B; (destruct s as [|b s]; [cbn; repeat split; [constructor|apply utf8_nil|constructor]|]); [cbn in L; lia|].
    assert (N : b :: s <> []) by discriminate. cbn [quote_].
    destruct (rune_cases _ B N) as [(c & t & C & E & D)|(NC & c & t & E & Hc & D)].
    - pose proof (utf8_len c) as U. pose proof (f_equal (@List.length Z) E) as LE. rewrite app_length in LE. cbn [List.length] in L, LE.
      assert (Bt : bytes_ok (utf8_of c) /\ bytes_ok t) by (apply bytes_app; rewrite <- E; exact B). destruct Bt as [Bc Bt].
      destruct (IH t ltac:(lia) Bt) as (Li & O).
      assert (R : (if b <? 128 then (b, 1%nat) else decodeRune (b :: s)) = (c, List.length (utf8_of c))).
      { destruct (Z_lt_ge_dec c 128) as [Lc|Lc].
        - rewrite ascii_utf8 in * by (red in C; lia). injection E as -> _. replace (c <? 128) with true by lia. reflexivity.
        - destruct (high_head c C ltac:(lia)) as (x & y & Ex & Hx). rewrite Ex in E. injection E as -> _. replace (x <? 128) with false by lia. exact D. }
      rewrite R. assert (X : Nat.eqb (List.length (utf8_of c)) 1 && (c =? runeError) = false).
      { unfold runeError. destruct (c =? 65533) eqn:Q; [|apply andb_false_r]. apply Z.eqb_eq in Q. subst c. reflexivity. }
      rewrite X, E, skip_utf8, firstn_app, Nat.sub_diag, firstn_all, app_nil_r. apply escaped_rune; auto.
    - injection E as -> ->. inversion B as [|? ? B1 B2]; subst. destruct (IH t ltac:(cbn in *; lia) B2) as (Li & O).
      replace (c <? 128) with false by lia. rewrite D. cbn [runeError Z.eqb Pos.eqb Nat.eqb andb skipn].
      destruct (hexes_digits 2 c ltac:(unfold byte_ok in B1; cbn; lia)) as (H & Ln & F).
      split; [exact (lit_byte _ _ _ _ H Ln Li)|]. apply (asciis_app (92 :: 120 :: hexes 2 c)); auto. do 2 (apply Forall_cons; [lia|]). exact F.
  Qed.
  Lemma quote_literal s : bytes_ok s -> literal (quote isPrint s) s.
  Proof. intros B. eexists. split; [reflexivity|]. apply quote_lit; auto. Qed.
  Lemma quote_text s : bytes_ok s -> utf8 (quote isPrint s) /\ bytes_ok (quote isPrint s).
  Proof.
    intros B. destruct (quote_lit _ s (le_n _) B) as (_ & U & O). unfold quote. apply (asciis_app [34]); [repeat constructor; lia|].
    split; [apply utf8_app; [exact U|]|apply bytes_app; split; [exact O|]]; apply ascii_utf8s; repeat constructor; lia.
  Qed.
  (** Printable ASCII without quotes and backslashes is left as it is. *)
  Lemma quote_plain s : Forall (fun c => 32 <= c < 127 /\ c <> 34 /\ c <> 92) s -> quote isPrint s = 34 :: s ++ [34].
  Proof.
    intros F. unfold quote. do 2 f_equal. assert (K : forall n, (List.length s <= n)%nat -> quote_ isPrint n s = s); [|auto].
    induction F as [|c s C F IH]; intros n L; [destruct n; reflexivity|]. destruct n as [|n]; [cbn in L; lia|]. cbn [quote_].
    replace (c <? 128) with true by lia. cbn [Nat.eqb andb]. replace (c =? runeError) with false by (unfold runeError; lia).
    unfold escapedRune. replace ((c =? 34) || (c =? 92)) with false by lia. unfold printable. replace (c <? 128) with true by lia.
    replace ((32 <=? c) && (c <? 127)) with true by lia. cbn [firstn skipn app]. rewrite IH by (cbn in L; lia). reflexivity.
  Qed.
End Quote.

(** ** Delivery *)
Definition sent_code (c : list byte) : Prop := exists k, c = code_name k.
Lemma sent_ok c : sent_code c -> bytes_ok c /\ utf8 c /\ c <> [] /\ isValidErrorCode c = true /\ isHTTPRedirect (http_status c) = false.
Proof.
  intros (k & ->). assert (A : Forall (fun c => 0 <= c < 128) (code_name k)) by (destruct k; vm_compute; repeat (apply Forall_cons; [split; congruence|]); apply Forall_nil).
  destruct (ascii_utf8s _ A). repeat split; auto; destruct k; (discriminate || reflexivity).
Qed.
Definition good (g : gerror) : Prop :=
  sent_code (ge_code g) /\ bytes_ok (ge_msg g) /\ Forall pair_ok (ge_meta g) /\ (List.length (ge_meta g) <= 1)%nat.
Lemma client_delivered ip st g : good g -> delivered g (client_error ip st g).
Proof.
  intros (C & Bm & Bd & L). destruct (sent_ok _ C) as (Bc & Uc & N & V & R). destruct g as [c m d]. cbn [ge_code ge_msg ge_meta] in *.
  destruct (cut_exists m) as (m1 & Cm). destruct (mends_exists m1 (cut_bytes _ _ Cm Bm)) as (m' & Mm). destruct (pairs_exist d Bd) as (d' & Md).
  assert (ND : NoDup (map fst d')).
  { assert (Ln : List.length d = List.length d') by (clear - Md; induction Md; cbn; congruence). destruct d' as [|x [|y d']]; [constructor|repeat constructor; auto|cbn in Ln; lia]. }
  destruct (arrives c m d c m1 m' d' Bc Bm Bd (mends_same c Uc) Cm Mm Md ND) as (d2 & A & P).
  unfold client_error, error_response, error_of_response. cbn [ge_code]. rewrite R, A. cbn [ge_code].
  replace (beq c []) with false by (symmetry; apply beq_neq; exact N). rewrite V. cbn [negb].
  split; [reflexivity|]. split; [exists m1; auto|]. exists d'. auto.
Qed.
Definition text_ok (s : list byte) : Prop := bytes_ok s /\ utf8 s.
Lemma delivered_same g e : good g -> utf8 (ge_msg g) -> len (ge_msg g) <= 1000000 -> Forall (fun p => utf8 (fst p) /\ utf8 (snd p)) (ge_meta g) ->
  delivered g e -> e = g.
Proof.
  intros (_ & _ & _ & L) Um Lm Ud (C & (m & Cm & Mm) & (d & Md & P)). destruct g as [c0 m0 d0], e as [c1 m1 d1]. cbn [ge_code ge_msg ge_meta] in *.
  assert (m = m0) as ->.
  { destruct Cm as [[_ ->]|(r & -> & Ln & Nr)]; [reflexivity|]. rewrite len_app in Lm. destruct r; [congruence|]. unfold len in Lm, Ln. cbn [List.length] in Lm. lia. }
  rewrite (mends_only _ _ Um Mm). subst c1.
  assert (d = d0) as ->.
  { clear P L. induction Md as [|[a b] [a' b'] x y [M1 M2] F IH]; [reflexivity|]. inversion Ud as [|? ? [U1 U2] U3]; subst. cbn [fst snd] in *.
    rewrite (mends_only _ _ U1 M1), (mends_only _ _ U2 M2), (IH U3). reflexivity. }
  f_equal. destruct d0 as [|x [|y d0]]; [apply Permutation_nil; exact P|apply Permutation_length_1_inv; exact P|cbn in L; lia].
Qed.
Lemma delivered_code g e : delivered g e -> ge_code e = ge_code g.
Proof. intros [H _]. exact H. Qed.
