(** Strings as encoding/json reads and writes them. *)
From Coq Require Import String.
From Verif Require Import ProofBase GoStrings SpecWire Wire Twirp SpecTwirp GoClient SpecJson SpecJsonError Utf8Proofs
  JsonScan JsonRead JsonScanProofs JsonReadProofs JsonWrite JsonWriteProofs JsonError.

(** ** Characters *)
Lemma rune_cases s : bytes_ok s -> s <> [] ->
  (exists c t, scalar c /\ s = utf8_of c ++ t /\ decodeRune s = (c, List.length (utf8_of c))) \/
  (no_char s /\ exists c t, s = c :: t /\ 128 <= c /\ decodeRune s = (runeError, 1%nat)).
Proof.
  intros B N. destruct (decodeRune s) as [r w] eqn:D. destruct ((r =? runeError) && Nat.eqb w 1) eqn:E.
  - right. assert (r = runeError /\ w = 1%nat) as [-> ->] by (split; [lia|apply Bool.andb_true_iff in E; destruct E as [_ E]; apply Nat.eqb_eq in E; exact E]).
    assert (NC : no_char s).
    { intros c t S Es. pose proof (decode_utf8 c t S) as D'. rewrite <- Es, D in D'. injection D' as <- L. unfold runeError in L. vm_compute in L. discriminate. }
    split; auto. destruct s as [|c t]; [congruence|]. exists c, t. split; auto. split; auto.
    destruct (Z_lt_ge_dec c 128); [|lia]. inversion B as [|? ? Bc]; subst. destruct (NC c t); [red; unfold byte_ok in Bc; lia|]. rewrite ascii_utf8 by (unfold byte_ok in Bc; lia). reflexivity.
  - left. destruct (decoded_utf8 s r w B N D E) as [S Es]. exists r, (skipn w s). split; auto. split; auto. pose proof (decode_utf8 r (skipn w s) S) as D'. rewrite <- Es, D in D'. exact D'.
Qed.
Lemma error_utf8 : encodeRune runeError = replacement.
Proof. reflexivity. Qed.
Lemma high_head c : scalar c -> 128 <= c -> exists x t, utf8_of c = x :: t /\ 128 <= x.
Proof.
  intros S H. pose proof (high_utf8 c S H) as F. pose proof (utf8_nonempty c). destruct (utf8_of c) as [|x t]; [congruence|]. inversion F; subst. eauto.
Qed.

(** ** Reading *)
Lemma app_inj_len {A} (a : list A) : forall b c d, List.length a = List.length b -> a ++ c = b ++ d -> a = b /\ c = d.
Proof. induction a as [|x a IH]; intros [|y b] c d L E; try discriminate; [auto|]. injection E as -> E. injection L as L. destruct (IH _ _ _ L E) as [-> ->]. auto. Qed.
Lemma getu4_some x v r : hex16 x v -> getu4 (92 :: 117 :: x ++ r) = Some v.
Proof.
  intros H. pose proof H as (a & b & c & d & va & vb & vc & vd & -> & _). cbn [app getu4]. cbn [Z.eqb Pos.eqb andb].
  apply hex4_hex16. exact H.
Qed.
Lemma getu4_only s v : getu4 s = Some v -> exists x r, s = 92 :: 117 :: x ++ r /\ hex16 x v /\ skipn 6 s = r.
Proof.
  destruct s as [|b [|u [|a [|b1 [|c [|d r]]]]]]; try discriminate. cbn [getu4]. destruct ((b =? 92) && (u =? 117)) eqn:E; [|discriminate]. intros H.
  apply hex4_hex16 in H. exists [a; b1; c; d], r. assert (b = 92 /\ u = 117) as [-> ->] by lia. split; [reflexivity|]. split; auto.
Qed.
Lemma skip6 x v r : hex16 x v -> skipn 6 (92 :: 117 :: x ++ r) = r.
Proof. intros (a & b & c & d & va & vb & vc & vd & -> & _). reflexivity. Qed.
Lemma hex16_len x v : hex16 x v -> List.length x = 4%nat.
Proof. intros (a & b & c & d & va & vb & vc & vd & -> & _). reflexivity. Qed.
Lemma unquote_loose r s : loose_str r s -> bytes_ok r -> forall f, (List.length r < f)%nat -> unquote f r = Some s.
Proof.
  induction 1 as [|c r s S G Q B _ IH|c r s N _ IH|e c r s I _ IH|x v r s Hx S _ IH|x v y u r s Hx Hy V U _ IH|x v r s Hx V N _ IH];
    intros By f F; (destruct f as [|f]; [cbn in F; lia|]).
  - reflexivity.
  - destruct (Z_lt_ge_dec c 128) as [L|L].
    + assert (E : utf8_of c = [c]) by (apply ascii_utf8; lia). rewrite E in *. cbn [app] in *. cbn [unquote].
      replace (c =? 92) with false by lia. replace (c =? 34) with false by lia. replace (c <? 32) with false by lia. replace (c <? 128) with true by lia. cbn [orb].
      inversion By; subst. rewrite IH by (auto; cbn in F; lia). reflexivity.
    + destruct (high_head c S ltac:(lia)) as (x & t & E & Hx). pose proof (decode_utf8 c r S) as D. pose proof (skip_utf8 c r) as Sk. rewrite app_length in F.
      apply bytes_app in By. destruct By as [_ By]. pose proof (utf8_len c).
      rewrite E in *. cbn [app] in *. cbn [unquote].
      replace (x =? 92) with false by lia. replace (x =? 34) with false by lia. replace (x <? 32) with false by lia. replace (x <? 128) with false by lia. cbn [orb].
      rewrite D, Sk, encode_utf8, E, IH by (auto; cbn in F; lia). reflexivity.
  - assert (Ne : c :: r <> []) by discriminate. destruct (rune_cases _ By Ne) as [(d & t & Sd & E & _)|(_ & c' & t & E & Hc & D)]; [destruct (N d t Sd E)|].
    injection E as <- <-. cbn [unquote]. replace (c =? 92) with false by lia. replace (c =? 34) with false by lia. replace (c <? 32) with false by lia.
    replace (c <? 128) with false by lia. cbn [orb]. rewrite D. cbn [skipn]. inversion By; subst. rewrite IH by (auto; cbn in F; lia). reflexivity.
  - inversion By as [|? ? _ By1]; subst. inversion By1; subst. cbn [List.length] in F.
    specialize (IH ltac:(assumption) f ltac:(lia)). unfold escapes in I. cbn [In] in I.
    repeat (destruct I as [I|I]; [injection I as <- <-; cbn [unquote]; cbn [Z.eqb Pos.eqb orb]; rewrite IH; reflexivity|]). destruct I.
  - inversion By as [|? ? _ By1]; subst. inversion By1 as [|? ? _ By2]; subst. apply bytes_app in By2. destruct By2 as [_ By2].
    cbn [List.length] in F. rewrite app_length in F. cbn [unquote]. cbn [Z.eqb Pos.eqb orb]. rewrite (getu4_some x v r Hx), (skip6 x v r Hx).
    replace (in_rng 55296 57343 v) with false by (unfold in_rng; red in S; lia). rewrite encode_utf8, IH by (auto; lia). reflexivity.
  - inversion By as [|? ? _ By1]; subst. inversion By1 as [|? ? _ By2]; subst. apply bytes_app in By2. destruct By2 as [_ By2].
    inversion By2 as [|? ? _ By3]; subst. inversion By3 as [|? ? _ By4]; subst. apply bytes_app in By4. destruct By4 as [_ By4].
    cbn [List.length] in F. rewrite app_length in F. cbn [List.length] in F. rewrite app_length in F.
    cbn [unquote]. cbn [Z.eqb Pos.eqb orb]. rewrite (getu4_some x v _ Hx), (skip6 x v _ Hx), (getu4_some y u _ Hy), (skip6 y u _ Hy).
    replace (in_rng 55296 57343 v) with true by (unfold in_rng; lia). unfold utf16Decode.
    replace (in_rng 55296 56319 v) with true by (unfold in_rng; lia). replace (in_rng 56320 57343 u) with true by (unfold in_rng; lia). cbn [andb].
    unfold runeError at 1. replace (_ =? 65533) with false by lia. cbn [negb]. rewrite encode_utf8 by (red; lia). rewrite IH by (auto; lia). cbn [option_map]. do 3 f_equal. lia.
  - inversion By as [|? ? _ By1]; subst. inversion By1 as [|? ? _ By2]; subst. apply bytes_app in By2. destruct By2 as [_ By2].
    cbn [List.length] in F. rewrite app_length in F. cbn [unquote]. cbn [Z.eqb Pos.eqb orb]. rewrite (getu4_some x v _ Hx), (skip6 x v _ Hx).
    replace (in_rng 55296 57343 v) with true by (unfold in_rng; lia).
    assert (E : match getu4 r with Some rr1 => utf16Decode v rr1 | None => runeError end = runeError).
    { destruct (getu4 r) as [u|] eqn:G; [|reflexivity]. destruct (getu4_only _ _ G) as (y & t & Er & Hy & _). specialize (N y u t Er Hy).
      unfold utf16Decode. destruct (in_rng 55296 56319 v && in_rng 56320 57343 u) eqn:R; [|reflexivity]. unfold in_rng in R. lia. }
    rewrite E. cbn [negb]. rewrite Z.eqb_refl. cbn [negb]. rewrite IH by (auto; lia). reflexivity.
Qed.
Lemma unquoted_loose r s : loose_str r s -> bytes_ok r -> unquoted r = Some s.
Proof. intros L B. apply unquote_loose; auto. Qed.
Lemma loose_ascii c r s : 32 <= c < 128 -> c <> 34 -> c <> 92 -> loose_str r s -> loose_str (c :: r) (c :: s).
Proof. intros C A B L. pose proof (ls_char c r s) as K. rewrite ascii_utf8 in K by lia. apply K; auto; [red|]; lia. Qed.
Lemma loose_total : forall n r, (List.length r <= n)%nat -> raw_string r -> bytes_ok r -> exists s, loose_str r s.
Proof.
  induction n as [|n IH]; intros r L R B; [destruct r; [exists []; constructor|cbn in L; lia]|].
  inversion R as [|c r' C Q K R'|e c r' I R'|x v r' Hx R']; subst.
  - exists []. constructor.
  - cbn [List.length] in L. pose proof B as B0. inversion B as [|? ? Bc Br]; subst. assert (N : c :: r' <> []) by discriminate.
    destruct (rune_cases _ B0 N) as [(d & t & S & E & _)|(NC & _)].
    + destruct (Z_lt_ge_dec d 128) as [Ld|Ld].
      * assert (0 <= d) by (red in S; lia). rewrite ascii_utf8 in E by lia. injection E as -> ->. destruct (IH t) as (s & Ls); auto; [lia|]. exists (d :: s). apply loose_ascii; auto.
      * rewrite E in R. apply raw_high in R; [|apply high_utf8; auto; lia]. destruct (IH t) as (s & Ls); auto.
        -- apply (f_equal (@List.length Z)) in E. rewrite app_length in E. pose proof (utf8_len d). cbn in E. lia.
        -- rewrite E in B0. apply bytes_app in B0. tauto.
        -- rewrite E. exists (utf8_of d ++ s). apply ls_char; auto; lia.
    + destruct (IH r') as (s & Ls); auto; [lia|]. exists (replacement ++ s). apply ls_bad; auto.
  - cbn [List.length] in L. inversion B as [|? ? _ B1]; subst. inversion B1; subst. destruct (IH r') as (s & Ls); auto; [lia|]. exists (c :: s). apply ls_esc; auto.
  - cbn [List.length] in L. rewrite app_length in L. inversion B as [|? ? _ B1]; subst. inversion B1 as [|? ? _ B2]; subst. apply bytes_app in B2. destruct B2 as [_ B2].
    destruct (IH r') as (s & Ls); auto; [lia|].
    assert (D : scalar v \/ 55296 <= v < 57344) by (pose proof (hex16_range x v Hx); unfold scalar; lia). destruct D as [D|D].
    + exists (utf8_of v ++ s). apply ls_u; auto.
    + destruct (getu4 r') as [u|] eqn:G.
      * destruct (getu4_only _ _ G) as (y & t & Er & Hy & _). assert (P : (v < 56320 /\ 56320 <= u < 57344) \/ ~ (v < 56320 /\ 56320 <= u < 57344)) by lia. destruct P as [P|P].
        -- rewrite Er in R'. inversion R' as [|? ? ? ? ? ?|e c r0 I R0|x0 v0 r0 Hx0 R0]; subst; [congruence|cbn in I; repeat (destruct I as [I|I]; [discriminate|]); destruct I|].
           assert (x0 = y /\ r0 = t) as [-> ->].
           { match goal with HH : _ ++ _ = _ ++ _ |- _ => apply app_inj_len in HH; [exact HH|] end. rewrite (hex16_len _ _ Hx0), (hex16_len _ _ Hy). reflexivity. }
           destruct (IH t) as (s' & Ls'); auto.
           { cbn [List.length] in L. rewrite app_length in L. lia. }
           { inversion B2 as [|? ? _ B3]; subst. inversion B3 as [|? ? _ B4]; subst. apply bytes_app in B4. tauto. }
           eexists. exact (ls_pair x v y u t s' Hx Hy ltac:(lia) ltac:(lia) Ls').
        -- exists (replacement ++ s). eapply ls_half; eauto. intros y' u' t' Er' Hy'. rewrite Er' in G. rewrite (getu4_some y' u' t' Hy') in G. injection G as ->. exact P.
      * exists (replacement ++ s). eapply ls_half; eauto. intros y' u' t' Er' Hy'. rewrite Er' in G. rewrite (getu4_some y' u' t' Hy') in G. discriminate.
Qed.

Lemma loose_exists r : raw_string r -> bytes_ok r -> exists s, loose_str r s.
Proof. intros R B. apply (loose_total (List.length r)); auto. Qed.
Lemma loose_unique r s s' : loose_str r s -> loose_str r s' -> bytes_ok r -> s = s'.
Proof. intros A B O. pose proof (unquoted_loose _ _ A O). pose proof (unquoted_loose _ _ B O). congruence. Qed.
Lemma unquoted_only r s : raw_string r -> bytes_ok r -> unquoted r = Some s <-> loose_str r s.
Proof.
  intros R B. split; [|intros L; apply unquoted_loose; auto]. destruct (loose_exists r R B) as (s' & L). rewrite (unquoted_loose _ _ L B). intros E. injection E as <-. exact L.
Qed.
Lemma reads_loose r s : reads_str r s -> loose_str r s.
Proof. induction 1; [constructor|apply ls_char|apply ls_esc|apply ls_u|eapply ls_pair]; eauto. Qed.
Lemma utf8_nil : utf8 [].
Proof. exists []. split; [constructor|reflexivity]. Qed.
Lemma utf8_cons c s : scalar c -> utf8 s -> utf8 (utf8_of c ++ s).
Proof. intros C (rs & F & ->). exists (c :: rs). split; [constructor; auto|reflexivity]. Qed.
Lemma utf8_ascii c s : 0 <= c < 128 -> utf8 s -> utf8 (c :: s).
Proof. intros C U. pose proof (utf8_cons c s) as K. rewrite ascii_utf8 in K by auto. apply K; auto. red; lia. Qed.
Lemma scalar_replacement : scalar 65533.
Proof. red; lia. Qed.
Lemma loose_utf8 r s : loose_str r s -> utf8 s.
Proof.
  induction 1 as [|c r s S G Q B _ IH|c r s N _ IH|e c r s I _ IH|x v r s Hx S _ IH|x v y u r s Hx Hy V U _ IH|x v r s Hx V N _ IH];
    [apply utf8_nil| | | | | |]; try (apply utf8_cons; auto using scalar_replacement; fail).
  - apply utf8_ascii; auto. unfold escapes in I. cbn [In] in I. repeat (destruct I as [I|I]; [injection I as <- <-; lia|]). destruct I.
  - apply utf8_cons; auto. red; lia.
Qed.

(** ** Writing *)
Lemma mends_utf8 s t : mends s t -> utf8 t.
Proof. induction 1; [apply utf8_nil|apply utf8_cons|apply utf8_cons]; auto using scalar_replacement. Qed.
Lemma mends_same s : utf8 s -> mends s s.
Proof. intros (rs & F & ->). induction F; cbn; constructor; auto. Qed.
Lemma utf8_prefix c d s t : scalar c -> scalar d -> utf8_of c ++ s = utf8_of d ++ t -> c = d /\ s = t.
Proof.
  intros C D E. pose proof (decode_utf8 c s C) as P. rewrite E, decode_utf8 in P by auto. injection P as -> _. split; auto. apply app_inv_head in E. exact E.
Qed.
Lemma mends_unique s t : mends s t -> forall t', mends s t' -> t = t'.
Proof.
  induction 1 as [|c s t C _ IH|c s t N _ IH]; intros t' M.
  - inversion M as [|c s0 t0 C _ E|]; [reflexivity|]. apply app_eq_nil in E. destruct E as [E _]. destruct (utf8_nonempty c E).
  - inversion M as [E|d s0 t0 D M0 E|d s0 t0 N M0 E].
    + symmetry in E. apply app_eq_nil in E. destruct E as [E _]. destruct (utf8_nonempty c E).
    + destruct (utf8_prefix _ _ _ _ D C E) as [-> ->]. f_equal. auto.
    + destruct (N c s C E).
  - inversion M as [|d s0 t0 D M0 E|d s0 t0 N' M0]; subst.
    + destruct (N d s0 D). auto.
    + f_equal. auto.
Qed.
Lemma mends_only s t : utf8 s -> mends s t -> t = s.
Proof. intros U M. eapply mends_unique; [exact M|]. apply mends_same. exact U. Qed.
Lemma rd_ascii c r s : 32 <= c < 128 -> c <> 34 -> c <> 92 -> reads_str r s -> reads_str (c :: r) (c :: s).
Proof. intros C A B L. pose proof (rd_char c r s) as K. rewrite ascii_utf8 in K by lia. apply K; auto; [red|]; lia. Qed.
Lemma bytes_cons c s : byte_ok c -> bytes_ok s -> bytes_ok (c :: s).
Proof. intros; constructor; auto. Qed.
Lemma hex_fffd : hex16 [102; 102; 102; 100] 65533.
Proof. apply hex4_hex16. reflexivity. Qed.
Lemma escape_mends : forall n s f, (List.length s <= n)%nat -> (List.length s <= f)%nat -> bytes_ok s ->
  exists t, mends s t /\ reads_str (goEscape f s) t /\ bytes_ok (goEscape f s).
Proof.
  induction n as [|n IH]; intros s f L F B; (destruct s as [|b s]; [exists []; destruct f; repeat split; constructor|]); [cbn in L; lia|].
  destruct f as [|f]; [cbn in F; lia|]. assert (N : b :: s <> []) by discriminate.
  destruct (rune_cases _ B N) as [(c & t & C & E & D)|(NC & c & t & E & Hc & D)].
  - pose proof (utf8_len c) as U. pose proof (f_equal (@List.length Z) E) as LE. rewrite app_length in LE.
    assert (Bt : bytes_ok (utf8_of c) /\ bytes_ok t) by (apply bytes_app; rewrite <- E; exact B). destruct Bt as [Bc Bt].
    destruct (IH t f ltac:(lia) ltac:(cbn in *; lia) Bt) as (t' & M & R & O).
    exists (utf8_of c ++ t'). split; [rewrite E; apply md_char; auto|].
    destruct (Z_lt_ge_dec c 128) as [Lc|Lc].
    + assert (0 <= c) by (red in C; lia). rewrite ascii_utf8 in * by lia. cbn [app] in *. injection E as -> ->. cbn [goEscape].
      replace (c <? 128) with true by lia. unfold htmlSafe.
      destruct ((32 <=? c) && negb ((c =? 34) || (c =? 92) || (c =? 60) || (c =? 62) || (c =? 38))) eqn:H1.
      { cbn [app]. split; [apply rd_ascii; auto; lia|apply bytes_cons; auto; unfold byte_ok; lia]. }
      cbn [app].
      destruct ((c =? 92) || (c =? 34)) eqn:Q.
      { cbn [app]. split; [apply rd_esc; auto; cbn; assert (c = 34 \/ c = 92) as [-> | ->] by lia; auto|repeat apply bytes_cons; auto; unfold byte_ok; lia]. }
      destruct (c =? 8) eqn:Q1; [split; [apply rd_esc; auto; assert (c = 8) as -> by lia; cbn; auto 10|repeat apply bytes_cons; auto; unfold byte_ok; lia]|].
      destruct (c =? 12) eqn:Q2; [split; [apply rd_esc; auto; assert (c = 12) as -> by lia; cbn; auto 10|repeat apply bytes_cons; auto; unfold byte_ok; lia]|].
      destruct (c =? 10) eqn:Q3; [split; [apply rd_esc; auto; assert (c = 10) as -> by lia; cbn; auto 10|repeat apply bytes_cons; auto; unfold byte_ok; lia]|].
      destruct (c =? 13) eqn:Q4; [split; [apply rd_esc; auto; assert (c = 13) as -> by lia; cbn; auto 10|repeat apply bytes_cons; auto; unfold byte_ok; lia]|].
      destruct (c =? 9) eqn:Q5; [split; [apply rd_esc; auto; assert (c = 9) as -> by lia; cbn; auto 10|repeat apply bytes_cons; auto; unfold byte_ok; lia]|].
      assert (H16 : hex16 [48; 48; hexlow (c / 16); hexlow (c mod 16)] c).
      { exists 48, 48, (hexlow (c / 16)), (hexlow (c mod 16)), 0, 0, (c / 16), (c mod 16). split; auto.
        split; [change 0 with (48 - 48); constructor; lia|]. split; [change 0 with (48 - 48); constructor; lia|].
        split; [apply hexlow_ok; lia|]. split; [apply hexlow_ok; lia|]. lia. }
      split.
      * pose proof (rd_u _ c (goEscape f t) t' H16 C R) as K. rewrite ascii_utf8 in K by lia. exact K.
      * cbn [app]. repeat apply bytes_cons; auto; try (unfold byte_ok; lia); apply hexlow_ok; lia.
    + destruct (high_head c C ltac:(lia)) as (x & y & Ex & Hx). assert (b = x) as -> by (rewrite Ex in E; injection E; auto).
      cbn [goEscape]. replace (x <? 128) with false by lia. rewrite D.
      assert (X : (c =? runeError) && Nat.eqb (List.length (utf8_of c)) 1 = false).
      { unfold runeError. destruct (c =? 65533) eqn:Q; [|reflexivity]. apply Z.eqb_eq in Q. subst c. reflexivity. }
      rewrite X, E, skip_utf8. clear X.
      destruct ((c =? 8232) || (c =? 8233)) eqn:Q.
      * assert (H16 : hex16 [50; 48; 50; hexlow (c mod 16)] c) by (apply hex4_hex16; assert (c = 8232 \/ c = 8233) as [-> | ->] by lia; reflexivity).
        split; [exact (rd_u _ c _ _ H16 C R)|]. change (str "\u202") with [92; 117; 50; 48; 50]. cbn [app]. repeat apply bytes_cons; auto; try (unfold byte_ok; lia). apply hexlow_ok; lia.
      * rewrite firstn_app, Nat.sub_diag, firstn_all, app_nil_r. split; [apply rd_char; auto; lia|apply bytes_app; auto].
  - injection E as -> ->. inversion B; subst. destruct (IH t f ltac:(cbn in *; lia) ltac:(cbn in *; lia) ltac:(auto)) as (t' & M & R & O).
    exists (replacement ++ t'). split; [apply md_bad; auto|]. cbn [goEscape]. replace (c <? 128) with false by lia. rewrite D. cbn [runeError Z.eqb Pos.eqb Nat.eqb andb skipn].
    split; [exact (rd_u _ _ _ _ hex_fffd scalar_replacement R)|]. cbn [app]. repeat apply bytes_cons; auto; unfold byte_ok; lia.
Qed.
Lemma go_string s : bytes_ok s -> exists r t, goString s = 34 :: r ++ [34] /\ mends s t /\ reads_str r t /\ raw_string r /\ bytes_ok r.
Proof.
  intros B. destruct (escape_mends (List.length s) s (S (List.length s)) ltac:(lia) ltac:(lia) B) as (t & M & R & O).
  exists (goEscape (S (List.length s)) s), t. repeat split; auto. eapply reads_raw. exact R.
Qed.
