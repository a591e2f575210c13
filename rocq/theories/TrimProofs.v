(** strings.TrimSpace removes exactly the white space at both ends (C46). *)
From Verif Require Import ProofBase GoStrings Lib SpecLayout.

Ltac bsplit := repeat match goal with
  | H : _ && _ = true |- _ => apply andb_true_iff in H as [? ?]
  | H : _ || _ = false |- _ => apply orb_false_iff in H as [? ?]
  | H : negb _ = false |- _ => apply negb_false_iff in H
  | H : negb _ = true |- _ => apply negb_true_iff in H
  end.

Lemma is_space_cases r : isSpace r = true ->
  9 <= r <= 13 \/ r = 32 \/ r = 133 \/ r = 160 \/ r = 5760 \/ 8192 <= r <= 8202 \/ r = 8232 \/ r = 8233 \/
  r = 8239 \/ r = 8287 \/ r = 12288.
Proof. unfold isSpace, in_rng. lia. Qed.

(** First byte class. *)
Lemma first_cases b sz lo hi : utf8_first b = Some (sz, lo, hi) ->
  (sz = 2 /\ 194 <= b <= 223 /\ lo = 128 /\ hi = 191) \/
  (sz = 3 /\ 224 <= b <= 239 /\ 128 <= lo /\ hi <= 191 /\ (b = 224 -> lo = 160)) \/
  (sz = 4 /\ 240 <= b <= 244 /\ 128 <= lo /\ hi <= 191 /\ (b = 240 -> lo = 144)).
Proof.
  unfold utf8_first, in_rng. intros H.
  repeat match type of H with (if ?c then _ else _) = _ => destruct c eqn:? end;
  try discriminate; injection H as <- <- <-; lia.
Qed.

Ltac is_ws := first [apply ws_sp | apply ws_nel | apply ws_nbsp | apply ws_ogham | apply ws_line | apply ws_par
  | apply ws_nnbsp | apply ws_mmsp | apply ws_ideo | apply ws_tab; assumption | apply ws_quad; assumption].

Inductive decoded : list Z -> Z -> nat -> Prop :=
| dec_ascii b r : b < 128 -> decoded (b :: r) b 1
| dec_2 a b r : 194 <= a <= 223 -> 128 <= b <= 191 -> decoded (a :: b :: r) ((a - 192) * 64 + (b - 128)) 2
| dec_3 a b c r : 224 <= a <= 239 -> 128 <= b <= 191 -> 128 <= c <= 191 -> (a = 224 -> 160 <= b) ->
    decoded (a :: b :: c :: r) ((a - 224) * 4096 + (b - 128) * 64 + (c - 128)) 3
| dec_4 a b c d r : 240 <= a <= 244 -> 128 <= b <= 191 -> 128 <= c <= 191 -> 128 <= d <= 191 -> (a = 240 -> 144 <= b) ->
    decoded (a :: b :: c :: d :: r) ((a - 240) * 262144 + (b - 128) * 4096 + (c - 128) * 64 + (d - 128)) 4
| dec_bad b r : 128 <= b -> decoded (b :: r) runeError 1.

Lemma decode_cases s r w : s <> [] -> decodeRune s = (r, w) -> decoded s r w.
Proof.
  destruct s as [|a s]; [congruence|]. intros _. unfold decodeRune.
  destruct (a <? 128) eqn:A; [intros H; injection H as <- <-; apply dec_ascii; lia|].
  assert (Bad : decoded (a :: s) runeError 1) by (apply dec_bad; lia).
  destruct (utf8_first a) as [[[sz lo] hi]|] eqn:F; [|intros H; injection H as <- <-; auto].
  apply first_cases in F.
  destruct (_ <? sz) eqn:L; [intros H; injection H as <- <-; auto|].
  destruct s as [|b s]; [intros H; injection H as <- <-; auto|].
  destruct (in_rng lo hi b) eqn:B; cbn [negb]; [|intros H; injection H as <- <-; auto].
  unfold in_rng in B.
  destruct (sz <=? 2) eqn:S2; [intros H; injection H as <- <-;
    replace (a mod 32) with (a - 192) by lia; replace (b mod 64) with (b - 128) by lia; apply dec_2; lia|].
  destruct s as [|c s]; [intros H; injection H as <- <-; auto|].
  destruct (in_rng 128 191 c) eqn:C; cbn [negb]; [|intros H; injection H as <- <-; auto].
  unfold in_rng in C.
  destruct (sz <=? 3) eqn:S3; [intros H; injection H as <- <-;
    replace (a mod 16) with (a - 224) by lia; replace (b mod 64) with (b - 128) by lia;
    replace (c mod 64) with (c - 128) by lia; apply dec_3; lia|].
  destruct s as [|d s]; [intros H; injection H as <- <-; auto|].
  destruct (in_rng 128 191 d) eqn:D; cbn [negb]; [|intros H; injection H as <- <-; auto].
  unfold in_rng in D. intros H; injection H as <- <-.
  replace (a mod 8) with (a - 240) by lia; replace (b mod 64) with (b - 128) by lia;
  replace (c mod 64) with (c - 128) by lia; replace (d mod 64) with (d - 128) by lia. apply dec_4; lia.
Qed.

Lemma space_decode s r w : s <> [] -> decodeRune s = (r, w) -> isSpace r = true ->
  exists x rest, s = x ++ rest /\ ws x /\ w = length x.
Proof.
  intros N D Sp. apply decode_cases in D; auto. apply is_space_cases in Sp.
  destruct D as [b r B|a b r A B|a b c r A B C E|a b c d r A B C Dd E|b r B].
  - exists [b], r. splits; auto. assert (9 <= b <= 13 \/ b = 32) as [? | ->] by lia; is_ws.
  - exists [a; b], r. splits; auto.
    assert (a = 194 /\ (b = 133 \/ b = 160)) as [-> [-> | ->]] by lia; is_ws.
  - exists [a; b; c], r. splits; auto.
    destruct Sp as [S|[S|[S|[S|[S|[S|[S|[S|[S|[S|S]]]]]]]]]]; try (exfalso; lia).
    + assert (a = 225) as -> by lia. assert (b = 154) as -> by lia. assert (c = 128) as -> by lia. is_ws.
    + assert (a = 226) as -> by lia. assert (b = 128) as -> by lia. assert (128 <= c <= 138) by lia. is_ws.
    + assert (a = 226) as -> by lia. assert (b = 128) as -> by lia. assert (c = 168) as -> by lia. is_ws.
    + assert (a = 226) as -> by lia. assert (b = 128) as -> by lia. assert (c = 169) as -> by lia. is_ws.
    + assert (a = 226) as -> by lia. assert (b = 128) as -> by lia. assert (c = 175) as -> by lia. is_ws.
    + assert (a = 226) as -> by lia. assert (b = 129) as -> by lia. assert (c = 159) as -> by lia. is_ws.
    + assert (a = 227) as -> by lia. assert (b = 128) as -> by lia. assert (c = 128) as -> by lia. is_ws.
  - exfalso. destruct Sp as [S|[S|[S|[S|[S|[S|[S|[S|[S|[S|S]]]]]]]]]]; lia.
  - exfalso. unfold runeError in Sp. lia.
Qed.

(** A white-space encoding decodes to a space of its own length. *)
Lemma ws_len x : ws x -> (1 <= length x <= 3)%nat.
Proof. destruct 1; simpl; lia. Qed.
Lemma len_ge {A} (l : list A) n : (n <= length l)%nat -> (len l <? Z.of_nat n) = false.
Proof. unfold len. lia. Qed.
Ltac dec a n := unfold decodeRune; change (a <? 128) with false;
  change (utf8_first a) with (Some (Z.of_nat n, 128, 191)); cbv beta iota; rewrite len_ge by (simpl; lia).
Lemma ws_decode x rest : ws x -> exists r, decodeRune (x ++ rest) = (r, length x) /\ isSpace r = true.
Proof.
  intros W. destruct W; cbn [app].
  - exists b. unfold decodeRune. replace (b <? 128) with true by lia. unfold isSpace, in_rng. split; auto. lia.
  - exists 32. split; reflexivity.
  - exists 133. split; [|reflexivity]. dec 194 2%nat. reflexivity.
  - exists 160. split; [|reflexivity]. dec 194 2%nat. reflexivity.
  - exists 5760. split; [|reflexivity]. dec 225 3%nat. reflexivity.
  - exists (8192 + (b - 128)). dec 226 3%nat.
    replace (in_rng 128 191 b) with true by (unfold in_rng; lia). split.
    + replace (b mod 64) with (b - 128) by lia. reflexivity.
    + unfold isSpace, in_rng. lia.
  - exists 8232. split; [|reflexivity]. dec 226 3%nat. reflexivity.
  - exists 8233. split; [|reflexivity]. dec 226 3%nat. reflexivity.
  - exists 8239. split; [|reflexivity]. dec 226 3%nat. reflexivity.
  - exists 8287. split; [|reflexivity]. dec 226 3%nat. reflexivity.
  - exists 12288. split; [|reflexivity]. dec 227 3%nat. reflexivity.
Qed.

Lemma decoded_width s r w : decoded s r w -> (1 <= w <= length s)%nat.
Proof. destruct 1; simpl; lia. Qed.

(** ** left *)
Definition no_ws_prefix (t : list Z) : Prop := forall x r, ws x -> t <> x ++ r.
Definition no_ws_suffix (t : list Z) : Prop := forall x r, ws x -> t <> r ++ x.

Lemma not_space_no_prefix s r w : decodeRune s = (r, w) -> isSpace r = false -> no_ws_prefix s.
Proof. intros D N x rest W ->. destruct (ws_decode x rest W) as (r' & D' & S'). congruence. Qed.
Lemma nil_no_prefix : no_ws_prefix [].
Proof. intros x r W E. destruct W; discriminate. Qed.
Lemma nil_no_suffix : no_ws_suffix [].
Proof. intros x r W E. destruct r; destruct W; discriminate. Qed.

Lemma trim_left_ok fuel : forall s, (length s <= fuel)%nat ->
  exists pre, s = concat pre ++ trimLeft fuel s /\ Forall ws pre /\ no_ws_prefix (trimLeft fuel s).
Proof.
  induction fuel as [|fuel IH]; intros s L.
  - destruct s; [|simpl in L; lia]. exists []. splits; auto using nil_no_prefix.
  - destruct s as [|b s]; [exists []; splits; auto using nil_no_prefix|].
    cbn [trimLeft]. destruct (decodeRune (b :: s)) as [r w] eqn:D.
    destruct (isSpace r) eqn:Sp.
    + destruct (space_decode (b :: s) r w ltac:(discriminate) D Sp) as (x & rest & E & W & ->).
      rewrite E. rewrite skipn_app, Nat.sub_diag, skipn_all. cbn [app skipn].
      apply ws_len in W as Wl. assert (Ls : (length (x ++ rest) <= S fuel)%nat) by (rewrite <- E; auto).
      rewrite app_length in Ls.
      destruct (IH rest ltac:(lia)) as (pre & E2 & F & NP).
      exists (x :: pre). splits; auto. simpl. rewrite <- app_assoc, <- E2. reflexivity.
    + exists []. splits; auto. eapply not_space_no_prefix; eauto.
Qed.

(** ** right *)
(** The byte a white-space encoding starts with is no continuation byte. *)
Lemma ws_first x : ws x -> exists b r, x = b :: r /\ ~ (128 <= b <= 191).
Proof. destruct 1; eexists; eexists; (split; [reflexivity|lia]). Qed.
Lemma concat_ws_first post : Forall ws post -> concat post = [] \/
  exists b r, concat post = b :: r /\ ~ (128 <= b <= 191).
Proof.
  intros F. destruct F as [|x post W F]; [auto|]. right.
  destruct (ws_first x W) as (b & r & -> & H). exists b, (r ++ concat post). auto.
Qed.

Lemma decode_bad_1 b s : 128 <= b -> s = [] \/ (exists c r, s = c :: r /\ ~ (128 <= c <= 191)) ->
  decodeRune (b :: s) = (runeError, 1%nat).
Proof.
  intros B H. unfold decodeRune. replace (b <? 128) with false by lia.
  destruct (utf8_first b) as [[[sz lo] hi]|] eqn:F; auto.
  destruct (_ <? sz); auto. destruct H as [->|(c & r & -> & H)]; auto.
  apply first_cases in F. replace (in_rng lo hi c) with false by (unfold in_rng; lia). reflexivity.
Qed.

(** Decoding a complete rune does not look further. *)
Lemma decode_app s r w t : s <> [] -> decodeRune s = (r, w) -> (2 <= w)%nat -> decodeRune (s ++ t) = (r, w).
Proof.
  destruct s as [|a s]; [congruence|]. intros _. unfold decodeRune. cbn [app].
  destruct (a <? 128) eqn:A; [intros H; injection H as <- <-; lia|].
  destruct (utf8_first a) as [[[sz lo] hi]|] eqn:F; [|intros H; injection H as <- <-; lia].
  destruct (len (a :: s) <? sz) eqn:L; [intros H; injection H as <- <-; lia|].
  replace (len (a :: s ++ t) <? sz) with false by (unfold len in *; simpl length in *; rewrite app_length; lia).
  destruct s as [|b s]; [intros H; injection H as <- <-; lia|]. cbn [app].
  destruct (negb (in_rng lo hi b)); [intros H; injection H as <- <-; lia|].
  destruct (sz <=? 2); [auto|].
  destruct s as [|c s]; [intros H; injection H as <- <-; lia|]. cbn [app].
  destruct (negb (in_rng 128 191 c)); [intros H; injection H as <- <-; lia|].
  destruct (sz <=? 3); [auto|].
  destruct s as [|d s]; [intros H; injection H as <- <-; lia|]. cbn [app].
  destruct (negb (in_rng 128 191 d)); auto.
Qed.

Inductive last_decoded : list Z -> Z -> nat -> Prop :=
| ld_ascii s b : b < 128 -> last_decoded (s ++ [b]) b 1
| ld_full s t r : t <> [] -> 128 <= last t 0 -> decodeRune t = (r, length t) -> last_decoded (s ++ t) r (length t)
| ld_bad s b : 128 <= b -> last_decoded (s ++ [b]) runeError 1.

Lemma back_start_le s : forall n lim, (back_start s n lim <= n)%nat.
Proof.
  induction n as [|n IH]; intros lim; simpl; auto.
  destruct (Nat.ltb n lim); auto. destruct (runeStart _); auto.
Qed.

Lemma last_decode_cases s r w : s <> [] -> decodeLastRune s = (r, w) -> last_decoded s r w.
Proof.
  intros N. destruct (@exists_last _ s N) as (p & b & ->). unfold decodeLastRune.
  rewrite app_length. cbn [length]. replace (length p + 1)%nat with (S (length p)) by lia.
  rewrite app_nth2, Nat.sub_diag by lia. cbn [nth].
  destruct (b <? 128) eqn:B; [intros H; injection H as <- <-; apply ld_ascii; lia|].
  cbv zeta. set (start := (back_start _ _ _ - 1)%nat).
  assert (Ls : (start <= length p)%nat).
  { unfold start. pose proof (back_start_le (p ++ [b]) (length p) (S (length p) - 4)). lia. }
  clearbody start.
  destruct (decodeRune (skipn start (p ++ [b]))) as [r' size] eqn:D.
  destruct (Nat.eqb_spec (start + size) (S (length p))) as [E|E].
  - intros H; injection H as <- <-.
    set (t := skipn start (p ++ [b])) in *.
    assert (Lt : length t = size) by (unfold t; rewrite skipn_length, app_length; simpl; lia).
    assert (Et : firstn start (p ++ [b]) ++ t = p ++ [b]) by apply firstn_skipn.
    rewrite <- Et. rewrite <- Lt. apply ld_full.
    + intros ->. simpl in Lt. lia.
    + unfold t. rewrite skipn_app. replace (start - length p)%nat with 0%nat by lia. cbn [skipn].
      rewrite last_last. lia.
    + rewrite Lt. exact D.
  - intros H; injection H as <- <-. apply ld_bad. lia.
Qed.

Lemma last_decoded_split s r w : last_decoded s r w -> exists p t, s = p ++ t /\ w = length t /\ t <> [].
Proof. destruct 1; eexists; eexists; (split; [reflexivity|]); split; auto; discriminate. Qed.

Lemma last_space s r w : s <> [] -> decodeLastRune s = (r, w) -> isSpace r = true ->
  exists p x, s = p ++ x /\ ws x /\ w = length x.
Proof.
  intros N D Sp. apply last_decode_cases in D; auto. destruct D as [s b B|s t r Nt Lt D|s b B].
  - exists s, [b]. splits; auto. apply is_space_cases in Sp.
    assert (9 <= b <= 13 \/ b = 32) as [? | ->] by lia; is_ws.
  - destruct (space_decode _ _ _ Nt D Sp) as (x & rest & -> & W & L).
    rewrite app_length in L. destruct rest; [|simpl in L; lia].
    rewrite app_nil_r in *. exists s, x. auto.
  - discriminate.
Qed.

Ltac two_back := match goal with |- back_start (?p ++ [_; _]) _ _ = _ =>
  replace (length p + 2 - 1)%nat with (S (length p)) by lia; cbn [back_start];
  replace (length p <? length p + 2 - 4)%nat with false by (symmetry; apply Nat.ltb_ge; lia);
  rewrite app_nth2, Nat.sub_diag by lia; cbn [nth]; reflexivity end.
Ltac three_back := match goal with |- back_start (?p ++ [_; _; _]) _ _ = _ =>
  replace (length p + 3 - 1)%nat with (S (S (length p))) by lia; cbn [back_start];
  replace (S (length p) <? length p + 3 - 4)%nat with false by (symmetry; apply Nat.ltb_ge; lia);
  replace (length p <? length p + 3 - 4)%nat with false by (symmetry; apply Nat.ltb_ge; lia);
  rewrite !app_nth2 by lia; rewrite Nat.sub_diag;
  replace (S (length p) - length p)%nat with 1%nat by lia; cbn [nth];
  match goal with |- context [runeStart ?b] =>
    replace (runeStart b) with false by (unfold runeStart, in_rng; lia) end; reflexivity end.
(** A white-space encoding at the end is found. *)
Lemma back_start_ws x p : ws x -> (2 <= length x)%nat ->
  back_start (p ++ x) (length p + length x - 1) (length p + length x - 4) = S (length p).
Proof.
  intros W L. destruct W; simpl in L; try lia; cbn [length] in *.
  all: first [two_back | three_back].
Qed.

Lemma last_ws x p : ws x -> exists r, decodeLastRune (p ++ x) = (r, length x) /\ isSpace r = true.
Proof.
  intros W. destruct (Nat.lt_ge_cases 1 (length x)) as [L|L].
  - unfold decodeLastRune. rewrite app_length.
    destruct (length p + length x)%nat as [|st] eqn:E; [lia|].
    assert (Lst : 128 <= nth st (p ++ x) 0).
    { rewrite app_nth2 by lia. destruct W; simpl in L; try lia; cbn [length] in *.
      all: try (replace (st - length p)%nat with 1%nat by lia; cbn [nth]; lia);
        replace (st - length p)%nat with 2%nat by lia; cbn [nth]; lia. }
    replace (nth st (p ++ x) 0 <? 128) with false by lia. cbv zeta.
    pose proof (back_start_ws x p W L) as Bs. rewrite E in Bs. replace (S st - 1)%nat with st in Bs by lia.
    rewrite Bs. replace (S (length p) - 1)%nat with (length p) by lia.
    rewrite skipn_app, skipn_all, Nat.sub_diag. cbn [app skipn].
    destruct (ws_decode x [] W) as (r & D & Sp). rewrite app_nil_r in D. rewrite D.
    rewrite E, Nat.eqb_refl. eauto.
  - assert (exists b, x = [b] /\ (9 <= b <= 13 \/ b = 32)) as (b & -> & B) by (destruct W; simpl in L; try lia; eauto).
    exists b. unfold decodeLastRune. rewrite app_length. cbn [length].
    replace (length p + 1)%nat with (S (length p)) by lia.
    rewrite app_nth2, Nat.sub_diag by lia. cbn [nth]. replace (b <? 128) with true by lia.
    split; auto. unfold isSpace, in_rng. lia.
Qed.

Lemma not_space_no_suffix s r w : decodeLastRune s = (r, w) -> isSpace r = false -> no_ws_suffix s.
Proof. intros D N x p W ->. destruct (last_ws x p W) as (r' & D' & S'). congruence. Qed.

(** The search for the last non-space: [p] is s[0:i], the rest is white space. *)
Lemma last_index_ok fuel : forall p post, (length p <= fuel)%nat -> Forall ws post ->
  match lastIndex fuel (p ++ concat post) (length p) with
  | None => exists post', p = concat post' /\ Forall ws post'
  | Some i => exists q t r post', p ++ concat post = q ++ t ++ concat post' /\ i = length q /\ Forall ws post' /\
                (q ++ t) <> [] /\ decodeLastRune (q ++ t) = (r, length t) /\ isSpace r = false
  end.
Proof.
  induction fuel as [|fuel IH]; intros p post L F.
  - destruct p; [|simpl in L; lia]. simpl. exists []. auto.
  - cbn [lastIndex]. destruct (length p) as [|n] eqn:Lp.
    { destruct p; [|discriminate]. exists []. auto. }
    assert (N : p <> []) by (intros ->; discriminate).
    rewrite <- Lp. rewrite firstn_app, Nat.sub_diag, firstn_all, firstn_O, app_nil_r.
    destruct (decodeLastRune p) as [r size] eqn:D. destruct (isSpace r) eqn:Sp.
    + destruct (last_space p r size N D Sp) as (q & x & -> & W & ->).
      rewrite app_length. replace (length q + length x - length x)%nat with (length q) by lia.
      apply ws_len in W as Wl.
      specialize (IH q (x :: post)). cbn [concat] in IH. rewrite <- app_assoc.
      rewrite app_length in Lp. specialize (IH ltac:(lia) (Forall_cons _ W F)).
      destruct (lastIndex fuel (q ++ x ++ concat post) (length q)).
      * exact IH.
      * destruct IH as (post' & -> & F'). exists (post' ++ [x]). split.
        -- rewrite concat_app. simpl. rewrite app_nil_r. reflexivity.
        -- apply Forall_app. auto.
    + pose proof (last_decode_cases p r size N D) as LD.
      apply last_decoded_split in LD as (q & t & -> & -> & Nt).
      exists q, t, r, post. rewrite app_length. splits; auto.
      * rewrite <- app_assoc. reflexivity.
      * lia.
Qed.

Lemma app_suffix_inj {A} (a b c d : list A) : a ++ b = c ++ d -> length b = length d -> b = d.
Proof.
  intros E L. assert (L2 : length a = length c) by (apply (f_equal (@length A)) in E; rewrite !app_length in E; lia).
  apply (f_equal (skipn (length a))) in E. rewrite skipn_app, Nat.sub_diag, skipn_all in E.
  rewrite L2, skipn_app, Nat.sub_diag, skipn_all in E. exact E.
Qed.

Lemma last_decoded_inj (q t : list Z) r : q ++ t <> [] -> decodeLastRune (q ++ t) = (r, length t) ->
  (exists b, t = [b]) \/ (t <> [] /\ decodeRune t = (r, length t)).
Proof.
  intros N D. apply last_decode_cases in D; auto. remember (q ++ t) as s. remember (length t) as n.
  destruct D as [p b B|p u r Nu Lu Du|p b B].
  - left. exists b. symmetry. eapply app_suffix_inj; eauto.
  - right. assert (u = t) as -> by (eapply app_suffix_inj; eauto). auto.
  - left. exists b. symmetry. eapply app_suffix_inj; eauto.
Qed.

Lemma trim_right_ok s : exists post, s = trimRightFunc s ++ concat post /\ Forall ws post /\
  no_ws_suffix (trimRightFunc s).
Proof.
  unfold trimRightFunc. pose proof (last_index_ok (length s) s [] ltac:(lia) (Forall_nil _)) as H.
  cbn [concat] in H. rewrite app_nil_r in H.
  destruct (lastIndex (length s) s (length s)) as [i|].
  2:{ destruct H as (post & E & F). exists post. simpl. splits; auto using nil_no_suffix. }
  destruct H as (q & t & r & post & E & -> & F & N & D & Sp).
  assert (R : (if nth (length q) s 0 >=? 128
               then let (_, wid) := decodeRune (skipn (length q) s) in firstn (length q + wid) s
               else firstn (length q + 1) s) = q ++ t).
  { assert (Sk : skipn (length q) s = t ++ concat post).
    { rewrite E, skipn_app, skipn_all, Nat.sub_diag. reflexivity. }
    assert (Fi : firstn (length q + length t) s = q ++ t).
    { rewrite E, app_assoc, firstn_app, app_length, Nat.sub_diag, firstn_O, app_nil_r, <- app_length.
      apply firstn_all. }
    assert (Nt : nth (length q) s 0 = hd 0 (t ++ concat post)).
    { rewrite <- Sk. clear. revert s. induction q; intros [|b s]; simpl; auto. }
    rewrite Nt, Sk.
    destruct (last_decoded_inj q t r N D) as [(b & ->)|(Nn & Dt)].
    - cbn [app hd]. destruct (b >=? 128) eqn:G.
      + rewrite decode_bad_1 by (try lia; apply concat_ws_first; auto). exact Fi.
      + exact Fi.
    - destruct t as [|b t]; [congruence|]. cbn [app hd].
      destruct (Nat.eq_dec (length (b :: t)) 1) as [L1|L1].
      + destruct t; [|discriminate]. destruct (b >=? 128) eqn:G; [|exact Fi].
        cbn [app]. rewrite decode_bad_1 by (try lia; apply concat_ws_first; auto). exact Fi.
      + apply decode_cases in Dt as Dc; [|discriminate].
        assert (G : (b >=? 128) = true) by (inversion Dc; subst; simpl in L1; lia).
        rewrite G. change (b :: t ++ concat post) with ((b :: t) ++ concat post).
        rewrite (decode_app (b :: t) r _ (concat post) Nn Dt) by (simpl length in *; lia). exact Fi. }
  rewrite R. exists post. splits; auto.
  - rewrite <- app_assoc. exact E.
  - eapply not_space_no_suffix; eauto.
Qed.

Lemma ascii_space_ws c : asciiSpace c = true -> ws [c].
Proof. unfold asciiSpace, in_rng. intros H. assert (9 <= c <= 13 \/ c = 32) as [? | ->] by lia; is_ws. Qed.

Lemma trim_space_right_ok rs : exists post, rev rs = trimSpaceRight rs ++ concat post /\ Forall ws post /\
  no_ws_suffix (trimSpaceRight rs).
Proof.
  induction rs as [|c rs IH]; [exists []; splits; auto using nil_no_suffix|].
  cbn [trimSpaceRight]. destruct (c >=? 128) eqn:C; [apply trim_right_ok|].
  destruct (asciiSpace c) eqn:A.
  - destruct IH as (post & E & F & NS). exists (post ++ [[c]]). splits; auto.
    + simpl. rewrite E, concat_app, app_assoc. reflexivity.
    + apply Forall_app. auto using ascii_space_ws.
  - exists []. splits; auto.
    + rewrite app_nil_r. reflexivity.
    + intros x r W E. simpl in E. apply (f_equal (fun l => last l 0)) in E.
      rewrite last_last in E. unfold asciiSpace, in_rng in A.
      destruct W;
      match type of E with
      | _ = last (r ++ [?a]) 0 => rewrite last_last in E; lia
      | _ = last (r ++ [?a; ?b]) 0 => change [a; b] with ([a] ++ [b]) in E; rewrite app_assoc, last_last in E; lia
      | _ = last (r ++ [?a; ?b; ?c]) 0 => change [a; b; c] with ([a; b] ++ [c]) in E; rewrite app_assoc, last_last in E; lia
      end.
Qed.

Theorem trim_space_ok s : trimmed s (trimSpace s).
Proof.
  induction s as [|c s IH]; [exists [], []; splits; auto using nil_no_prefix, nil_no_suffix|].
  cbn [trimSpace]. destruct (c >=? 128) eqn:C.
  - unfold trimLeftFunc.
    destruct (trim_left_ok (length (c :: s)) (c :: s) ltac:(lia)) as (pre & E & F & NP).
    set (u := trimLeft (length (c :: s)) (c :: s)) in *.
    destruct (trim_right_ok u) as (post & E2 & F2 & NS).
    exists pre, post. splits; auto.
    + rewrite <- E2. exact E.
    + intros x r W E3. apply (NP x (r ++ concat post) W). rewrite E2, E3, <- app_assoc. reflexivity.
  - destruct (asciiSpace c) eqn:A.
    + destruct IH as (pre & post & E & F & F2 & H). exists ([c] :: pre), post. splits; auto; try apply H.
      * simpl. rewrite E at 1. reflexivity.
      * auto using ascii_space_ws.
    + destruct (trim_space_right_ok (rev (c :: s))) as (post & E & F & NS). rewrite rev_involutive in E.
      exists [], post. splits; auto.
      intros x r W E3. rewrite E3 in E. unfold asciiSpace, in_rng in A.
      destruct W; injection E as E _; lia.
Qed.

(** ** the trimmed string is determined *)
Lemma ws_prefix_code x y r r' : ws x -> ws y -> x ++ r = y ++ r' -> x = y /\ r = r'.
Proof.
  intros Wx Wy E. destruct (ws_decode x r Wx) as (a & D & _). destruct (ws_decode y r' Wy) as (b & D' & _).
  rewrite E, D' in D. injection D as _ L.
  assert (x = y) as ->.
  { apply (f_equal (firstn (length x))) in E. rewrite firstn_app, Nat.sub_diag, firstn_all, firstn_O, app_nil_r in E.
    rewrite <- L in E. rewrite firstn_app, Nat.sub_diag, firstn_all, firstn_O, app_nil_r in E. exact E. }
  split; auto. eapply app_inv_head; eauto.
Qed.
Lemma ws_suffix_code x y r r' : ws x -> ws y -> r ++ x = r' ++ y -> x = y /\ r = r'.
Proof.
  intros Wx Wy E. destruct (last_ws x r Wx) as (a & D & _). destruct (last_ws y r' Wy) as (b & D' & _).
  rewrite E, D' in D. injection D as _ L.
  assert (x = y) as -> by (eapply app_suffix_inj; eauto). split; auto. eapply app_inv_tail; eauto.
Qed.
(** A nonempty proper prefix of an encoding is not followed by white space. *)
Lemma ws_tail_cont x t b u : ws x -> t <> [] -> x = t ++ b :: u -> 128 <= b <= 191.
Proof.
  intros W N E. destruct W; destruct t as [|t1 [|t2 [|t3 t]]]; try congruence;
    simpl in E; inversion E; subst; try lia; try (destruct t; discriminate).
Qed.
Lemma no_split t x rest post : no_ws_prefix t -> Forall ws post -> ws x -> t <> [] ->
  t ++ concat post = x ++ rest -> False.
Proof.
  intros NP F W N E. apply app_eq_app in E as (l & [[E1 E2]|[E1 E2]]).
  - apply (NP x l W E1).
  - destruct l as [|b l].
    + rewrite app_nil_r in E1. subst. apply (NP t [] W). rewrite app_nil_r. reflexivity.
    + apply ws_tail_cont in E1; auto. simpl in E2.
      destruct (concat_ws_first post F) as [H|(c & r & H & Nc)]; rewrite H in E2; [discriminate|].
      injection E2 as -> _. contradiction.
Qed.

Lemma left_unique pre : forall pre' m m' post post',
  Forall ws pre -> Forall ws pre' -> Forall ws post -> Forall ws post' -> no_ws_prefix m -> no_ws_prefix m' ->
  m <> [] -> m' <> [] ->
  concat pre ++ m ++ concat post = concat pre' ++ m' ++ concat post' -> m ++ concat post = m' ++ concat post'.
Proof.
  induction pre as [|x pre IH]; intros pre' m m' post post' F F' G G' NP NP' N N' E.
  - destruct pre' as [|y pre']; auto. exfalso. inversion F'; subst. simpl in E. rewrite <- app_assoc in E.
    exact (no_split m y _ post NP G ltac:(assumption) N E).
  - inversion F; subst. destruct pre' as [|y pre'].
    + exfalso. simpl in E. rewrite <- app_assoc in E. symmetry in E. exact (no_split m' x _ post' NP' G' ltac:(assumption) N' E).
    + inversion F'; subst. simpl in E. rewrite <- !app_assoc in E.
      apply ws_prefix_code in E as [_ E]; auto. apply (IH pre' m m' post post'); auto.
Qed.

Lemma all_ws_empty pre : forall pre' m post', Forall ws pre -> Forall ws pre' -> Forall ws post' ->
  no_ws_prefix m -> concat pre = concat pre' ++ m ++ concat post' -> m = [].
Proof.
  induction pre as [|x pre IH]; intros pre' m post' F F' G NP E.
  - simpl in E. symmetry in E. apply app_eq_nil in E as [_ E]. apply app_eq_nil in E as [E _]. exact E.
  - inversion F; subst. destruct pre' as [|y pre'].
    + destruct m as [|b m]; auto. exfalso. simpl (concat []) in E. cbn [app] in E.
      apply (no_split (b :: m) x (concat pre) post'); auto; discriminate.
    + inversion F'; subst. simpl in E. rewrite <- !app_assoc in E.
      apply ws_prefix_code in E as [_ E]; auto. apply (IH pre' m post'); auto.
Qed.

Lemma concat_snoc (l : list (list Z)) x : concat (l ++ [x]) = concat l ++ x.
Proof. rewrite concat_app. simpl. rewrite app_nil_r. reflexivity. Qed.


Lemma right_unique post : forall post' m m',
  Forall ws post -> Forall ws post' -> no_ws_suffix m -> no_ws_suffix m' ->
  m ++ concat post = m' ++ concat post' -> (length post' <= length post)%nat -> m = m'.
Proof.
  induction post as [|x post IH] using rev_ind; intros post' m m' F F' NS NS' E L.
  - destruct post'; [|simpl in L; lia]. simpl in E. rewrite !app_nil_r in E. auto.
  - apply Forall_app in F as [F Fx]. inversion Fx; subst.
    destruct post' as [|y post' _] using rev_ind.
    + exfalso. rewrite concat_snoc, app_assoc in E. simpl in E. rewrite app_nil_r in E.
      apply (NS' x (m ++ concat post)); auto.
    + apply Forall_app in F' as [F' Fy]. inversion Fy; subst.
      rewrite !concat_snoc, !app_assoc in E. apply ws_suffix_code in E as [_ E]; auto.
      rewrite !app_length in L. simpl in L. apply (IH post' m m'); auto. lia.
Qed.

Theorem trimmed_unique s t t' : trimmed s t -> trimmed s t' -> t = t'.
Proof.
  intros (pre & post & E & F1 & F2 & NP & NS) (pre' & post' & E' & F1' & F2' & NP' & NS').
  rewrite E in E'. destruct t as [|b t].
  - symmetry. apply (all_ws_empty (pre ++ post) pre' t' post'); auto.
    + apply Forall_app; auto.
    + rewrite concat_app. exact E'.
  - destruct t' as [|b' t'].
    + apply (all_ws_empty (pre' ++ post') pre (b :: t) post); auto.
      * apply Forall_app; auto.
      * rewrite concat_app. symmetry. exact E'.
    + apply left_unique in E'; auto; try discriminate.
      destruct (Nat.le_ge_cases (length post') (length post)).
      * apply (right_unique post post'); auto.
      * symmetry. apply (right_unique post' post); auto.
Qed.

Theorem device_name_trimmed s : trimmed s (trimSpace s) /\ (forall t, trimmed s t -> t = trimSpace s).
Proof. split; [apply trim_space_ok|]. intros t H. eapply trimmed_unique; eauto using trim_space_ok. Qed.
