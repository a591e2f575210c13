(** The JSON decoder of protojson on JSON texts. *)
From Coq Require Import String.
From Verif Require Import ProofBase GoStrings Lib Server SpecLayout SpecWire Utf8Proofs TrimProofs Wire Twirp SpecTwirp SpecJson
  JsonScan JsonRead JsonScanProofs.

(** ** Strings *)
Lemma hexval_hexdig c v : hexdig c v <-> hexval c = Some v.
Proof.
  unfold hexval, isDigit. split.
  - destruct 1.
    + replace (_ && _) with true by lia. reflexivity.
    + replace (_ && _) with false by lia. replace (_ && _) with true by lia. reflexivity.
    + replace (_ && _) with false by lia. replace (_ && _) with false by lia. replace (_ && _) with true by lia. reflexivity.
  - destruct ((48 <=? c) && (c <=? 57)) eqn:A; [intros H; injection H as <-; constructor; lia|].
    destruct ((97 <=? c) && (c <=? 102)) eqn:B; [intros H; injection H as <-; apply hex_small; lia|].
    destruct ((65 <=? c) && (c <=? 70)) eqn:C; [intros H; injection H as <-; apply hex_capital; lia|discriminate].
Qed.
Lemma hex4_hex16 a b c d v : hex4 a b c d = Some v <-> hex16 [a; b; c; d] v.
Proof.
  unfold hex4. split.
  - destruct (hexval a) as [va|] eqn:A; [|discriminate]. destruct (hexval b) as [vb|] eqn:B; [|discriminate].
    destruct (hexval c) as [vc|] eqn:C; [|discriminate]. destruct (hexval d) as [vd|] eqn:D; [|discriminate].
    intros H. injection H as <-. exists a, b, c, d, va, vb, vc, vd. rewrite !hexval_hexdig. repeat split; auto. lia.
  - intros (a' & b' & c' & d' & va & vb & vc & vd & E & A & B & C & D & ->). injection E as <- <- <- <-.
    rewrite hexval_hexdig in *. rewrite A, B, C, D. f_equal. lia.
Qed.
Lemma hex16_range x v : hex16 x v -> 0 <= v < 65536.
Proof.
  assert (R : forall c v, hexdig c v -> 0 <= v < 16) by (destruct 1; lia).
  intros (a & b & c & d & va & vb & vc & vd & _ & A & B & C & D & ->). apply R in A, B, C, D. lia.
Qed.
Lemma encode_utf8 c : scalar c -> encodeRune c = utf8_of c.
Proof.
  intros S. unfold encodeRune, utf8_of, in_rng. assert (E : (55296 <=? c) && (c <=? 57343) || (1114111 <? c) = false) by (unfold scalar in S; lia).
  rewrite E. reflexivity.
Qed.
Lemma ascii_utf8 c : 0 <= c < 128 -> utf8_of c = [c].
Proof. intros H. unfold utf8_of. replace (c <? 128) with true by lia. reflexivity. Qed.
Lemma high_utf8 c : scalar c -> 128 <= c -> Forall (fun x => 128 <= x) (utf8_of c).
Proof.
  intros S H. unfold utf8_of, scalar in *. replace (c <? 128) with false by lia.
  assert (0 <= c / 64 /\ 0 <= c / 4096 /\ 0 <= c / 262144) by (split; [|split]; apply Z.div_pos; lia).
  pose proof (Z.mod_pos_bound c 64). pose proof (Z.mod_pos_bound (c / 64) 64). pose proof (Z.mod_pos_bound (c / 4096) 64).
  destruct (c <? 2048); [|destruct (c <? 65536)]; repeat constructor; lia.
Qed.
Lemma raw_high u r : Forall (fun x => 128 <= x) u -> raw_string (u ++ r) -> raw_string r.
Proof.
  induction u as [|c u IH]; intros F H; [exact H|]. apply Forall_cons_iff in F. destruct F as [C F].
  apply IH; auto. cbn in H. inversion H; subst; auto; lia.
Qed.
Lemma surrogate_pair v u : 0 <= v < 65536 -> 0 <= u < 65536 -> 55296 <= v <= 57343 ->
  utf16Decode v u <> runeError -> 55296 <= v < 56320 /\ 56320 <= u < 57344 /\ utf16Decode v u = 65536 + 1024 * (v - 55296) + (u - 56320) /\ scalar (utf16Decode v u).
Proof.
  intros V U R. unfold utf16Decode, in_rng, scalar.
  destruct ((55296 <=? v) && (v <=? 56319)) eqn:A; [|cbn [andb]; congruence].
  destruct ((56320 <=? u) && (u <=? 57343)) eqn:B; [|cbn [andb]; congruence]. cbn [andb]. intros _. lia.
Qed.
Lemma app_prefix_le {A} (u r a b : list A) : u ++ a = r ++ b -> (List.length u <= List.length r)%nat -> exists c, r = u ++ c /\ a = c ++ b.
Proof.
  revert r. induction u as [|x u IH]; intros r E L; [exists r; auto|]. destruct r as [|y r]; [cbn in L; lia|].
  cbn in E. injection E as -> E. destruct (IH r E) as (c & -> & ->); [cbn in L; lia|]. exists c. auto.
Qed.
Lemma high_within u a r b : Forall (fun x => 128 <= x) u -> u ++ a = r ++ 34 :: b -> exists c, r = u ++ c /\ a = c ++ 34 :: b.
Proof.
  intros F E. apply app_prefix_le; auto. destruct (Nat.le_gt_cases (List.length u) (List.length r)) as [L|L]; auto.
  exfalso. symmetry in E. destruct (app_prefix_le r u (34 :: b) a E) as (c & -> & K); [lia|].
  destruct c as [|x c]; [rewrite app_nil_r in L; lia|]. cbn in K. injection K as <- _. apply Forall_app in F. destruct F as [_ F].
  apply Forall_cons_iff in F. lia.
Qed.
Lemma bytes_app a b : bytes_ok (a ++ b) <-> bytes_ok a /\ bytes_ok b.
Proof. unfold bytes_ok. apply Forall_app. Qed.

Lemma reads_raw r s : reads_str r s -> raw_string r.
Proof.
  induction 1 as [|c r s S H1 H2 H3 _ IH|e c r s I _ IH|x v r s X S _ IH|x v y u r s X Y V U _ IH].
  - constructor.
  - destruct (Z_lt_le_dec c 128) as [L|L].
    + rewrite ascii_utf8 by lia. cbn. apply rs_char; auto.
    + pose proof (high_utf8 c S L) as F. induction (utf8_of c) as [|d w IHw]; [exact IH|]. apply Forall_cons_iff in F. destruct F as [D F].
      cbn. apply rs_char; auto; lia.
  - eapply rs_esc; eauto.
  - eapply rs_u; eauto.
  - eapply rs_u; eauto. eapply rs_u; eauto.
Qed.
Lemma parse_reads r s : reads_str r s -> forall f rest, (List.length r < f)%nat -> parseString f (r ++ 34 :: rest) = Some (s, rest).
Proof.
  induction 1 as [|c r s S H1 H2 H3 _ IH|e c r s I _ IH|x v r s X S _ IH|x v y u r s X Y V U _ IH]; intros f rest L.
  - destruct f as [|f]; [lia|]. reflexivity.
  - rewrite app_length in L. pose proof (utf8_len c) as N. destruct f as [|f]; [lia|]. cbn [parseString].
    rewrite <- app_assoc. rewrite decode_utf8 by auto.
    destruct (utf8_of c ++ r ++ 34 :: rest) as [|z zs] eqn:E; [destruct (utf8_of c) eqn:E'; [cbn in N; lia|discriminate]|]. rewrite <- E.
    replace ((c =? runeError) && Nat.eqb (List.length (utf8_of c)) 1) with false.
    2: { symmetry. apply andb_false_iff. destruct (Z.eq_dec c runeError) as [->|Nc]; [right; reflexivity|left; lia]. }
    replace (c <? 32) with false by lia. replace (c =? 34) with false by lia. replace (c =? 92) with false by lia.
    rewrite skip_utf8, firstn_app, Nat.sub_diag, firstn_all. cbn [firstn]. rewrite app_nil_r. rewrite IH by lia. reflexivity.
  - cbn [List.length] in L. destruct f as [|f]; [lia|]. specialize (IH f rest ltac:(lia)). cbn [parseString app]. change (decodeRune (92 :: e :: r ++ 34 :: rest)) with (92, 1%nat).
    cbn in I. repeat destruct I as [I|I]; try (injection I as <- <-; cbn; rewrite IH; reflexivity). destruct I.
  - destruct X as (a & b & c & d & X). assert (x = [a; b; c; d]) as -> by (destruct X as (? & ? & ? & ? & E & _); exact E).
    assert (H4 : hex4 a b c d = Some v) by (apply hex4_hex16; exists a, b, c, d; exact X).
    cbn [List.length app] in L. destruct f as [|f]; [lia|]. specialize (IH f rest ltac:(lia)). cbn [parseString app].
    change (decodeRune (92 :: 117 :: a :: b :: c :: d :: r ++ 34 :: rest)) with (92, 1%nat). cbn -[hex4 encodeRune in_rng]. rewrite H4.
    replace (in_rng 55296 57343 v) with false by (unfold in_rng, scalar in *; lia). rewrite IH, encode_utf8 by auto. reflexivity.
  - assert (HX : exists a b c d, x = [a; b; c; d] /\ hex4 a b c d = Some v).
    { destruct X as (a & b & c & d & X). assert (x = [a; b; c; d]) as -> by (destruct X as (? & ? & ? & ? & E & _); exact E).
      exists a, b, c, d. split; auto. apply hex4_hex16. exists a, b, c, d. exact X. }
    assert (HY : exists a b c d, y = [a; b; c; d] /\ hex4 a b c d = Some u).
    { destruct Y as (a & b & c & d & Y). assert (y = [a; b; c; d]) as -> by (destruct Y as (? & ? & ? & ? & E & _); exact E).
      exists a, b, c, d. split; auto. apply hex4_hex16. exists a, b, c, d. exact Y. }
    destruct HX as (a & b & c & d & -> & H4). destruct HY as (a' & b' & c' & d' & -> & H4').
    cbn [List.length app] in L. destruct f as [|f]; [lia|]. specialize (IH f rest ltac:(lia)). cbn [parseString app].
    change (decodeRune (92 :: 117 :: a :: b :: c :: d :: 92 :: 117 :: a' :: b' :: c' :: d' :: r ++ 34 :: rest)) with (92, 1%nat).
    cbn -[hex4 encodeRune in_rng utf16Decode runeError]. rewrite H4. replace (in_rng 55296 57343 v) with true by (unfold in_rng; lia). rewrite H4'.
    assert (D : utf16Decode v u = 65536 + 1024 * (v - 55296) + (u - 56320)) by (unfold utf16Decode, in_rng; replace (_ && _) with true by lia; lia).
    rewrite D. replace (_ =? runeError) with false by (unfold runeError; lia). rewrite IH, encode_utf8 by (unfold scalar; lia). reflexivity.
Qed.
Lemma parse_only : forall f r rest s t, raw_string r -> bytes_ok (r ++ 34 :: rest) -> parseString f (r ++ 34 :: rest) = Some (s, t) -> reads_str r s /\ t = rest.
Proof.
  induction f as [|f IH]; intros r rest s t R B H; [discriminate|].
  destruct r as [|c r].
  { cbn in H. injection H as <- <-. split; [constructor|auto]. }
  cbn [parseString] in H. destruct (decodeRune ((c :: r) ++ 34 :: rest)) as [z w] eqn:D.
  cbn [app] in H. destruct ((z =? runeError) && Nat.eqb w 1) eqn:E; [discriminate|].
  destruct (decoded_utf8 ((c :: r) ++ 34 :: rest) z w B ltac:(discriminate) D E) as (S & Eu).
  set (u := skipn w ((c :: r) ++ 34 :: rest)) in Eu. clearbody u.
  assert (W : w = List.length (utf8_of z)) by (rewrite Eu, decode_utf8 in D by auto; congruence).
  destruct (z <? 32) eqn:Z1; [discriminate|]. destruct (z =? 34) eqn:Z2.
  { exfalso. apply Z.eqb_eq in Z2. subst z. rewrite ascii_utf8 in Eu by lia. cbn in Eu. injection Eu as -> _. inversion R; subst; lia. }
  destruct (z =? 92) eqn:Z3.
  - apply Z.eqb_eq in Z3. subst z. rewrite ascii_utf8 in Eu by lia. cbn in Eu. injection Eu as -> _.
    inversion R as [|? ? ? ? N|e c' r' I R'|x v r' X R']; subst; [congruence| |].
    + cbn [app] in H.
      assert (B' : bytes_ok (r' ++ 34 :: rest)) by (revert B; change ((92 :: e :: r') ++ 34 :: rest) with ([92; e] ++ r' ++ 34 :: rest); rewrite bytes_app; tauto).
      cbn in I. repeat destruct I as [I|I]; try (injection I as <- <-; cbn -[parseString] in H; destruct (parseString f (r' ++ 34 :: rest)) as [[s' t']|] eqn:P; [|discriminate]; injection H as <- <-;
        destruct (IH _ _ _ _ R' B' P) as [K ->]; split; auto; eapply rd_esc; [|exact K]; cbn; tauto). destruct I.
    + assert (HX : exists a b c d, x = [a; b; c; d] /\ hex4 a b c d = Some v).
      { destruct X as (a & b & c & d & X). assert (x = [a; b; c; d]) as -> by (destruct X as (? & ? & ? & ? & E' & _); exact E').
        exists a, b, c, d. split; auto. apply hex4_hex16. exists a, b, c, d. exact X. }
      destruct HX as (a & b & c & d & -> & H4). pose proof (hex16_range _ _ X) as VR. cbn -[hex4 encodeRune in_rng utf16Decode runeError parseString] in H. rewrite H4 in H.
      assert (B' : bytes_ok (r' ++ 34 :: rest)) by (revert B; change ((92 :: 117 :: [a; b; c; d] ++ r') ++ 34 :: rest) with ([92; 117; a; b; c; d] ++ r' ++ 34 :: rest); rewrite bytes_app; tauto).
      destruct (in_rng 55296 57343 v) eqn:G.
      * destruct r' as [|y0 r']. { exfalso. cbn in H. destruct rest as [|y1 [|y2 [|y3 [|y4 [|y5 rs]]]]]; try discriminate. destruct (hex4 y2 y3 y4 y5); discriminate. }
        destruct (y0 =? 92) eqn:Y0.
        2: { exfalso. cbn [app] in H. destruct (r' ++ 34 :: rest) as [|y1 [|y2 [|y3 [|y4 [|y5 rs]]]]]; try discriminate. destruct (hex4 y2 y3 y4 y5); [|discriminate].
             rewrite Y0 in H. discriminate. }
        apply Z.eqb_eq in Y0. subst y0. inversion R' as [|? ? ? ? N|e c' r'' I R''|x' v' r'' X' R'']; subst; [congruence| |].
        { exfalso. cbn [app] in H. assert (N : e <> 117) by (cbn in I; intros ->; repeat destruct I as [I|I]; try discriminate; destruct I).
          destruct (r'' ++ 34 :: rest) as [|y2 [|y3 [|y4 [|y5 rs]]]]; try discriminate. destruct (hex4 y2 y3 y4 y5); [|discriminate].
          replace (e =? 117) with false in H by lia. discriminate. }
        assert (HX' : exists a b c d, x' = [a; b; c; d] /\ hex4 a b c d = Some v').
        { destruct X' as (a' & b' & c' & d' & X'). assert (x' = [a'; b'; c'; d']) as -> by (destruct X' as (? & ? & ? & ? & E' & _); exact E').
          exists a', b', c', d'. split; auto. apply hex4_hex16. exists a', b', c', d'. exact X'. }
        destruct HX' as (a' & b' & c' & d' & -> & H4'). pose proof (hex16_range _ _ X') as VR'. cbn -[hex4 encodeRune utf16Decode runeError parseString] in H. rewrite H4' in H.
        destruct (utf16Decode v v' =? runeError) eqn:RE; [discriminate|]. apply Z.eqb_neq in RE.
        unfold in_rng in G. destruct (surrogate_pair v v' VR VR' ltac:(lia) RE) as (P1 & P2 & P3 & P4). rewrite encode_utf8 in H by auto.
        destruct (parseString f (r'' ++ 34 :: rest)) as [[s' t']|] eqn:P; [|discriminate]. injection H as <- <-.
        assert (B'' : bytes_ok (r'' ++ 34 :: rest)) by (revert B'; change ((92 :: 117 :: [a'; b'; c'; d'] ++ r'') ++ 34 :: rest) with ([92; 117; a'; b'; c'; d'] ++ r'' ++ 34 :: rest); rewrite bytes_app; tauto).
        destruct (IH _ _ _ _ R'' B'' P) as [K ->]. split; auto. rewrite P3. exact (rd_pair _ v _ v' r'' s' X X' P1 P2 K).
      * assert (Sv : scalar v) by (unfold scalar, in_rng in *; lia). rewrite encode_utf8 in H by auto.
        destruct (parseString f (r' ++ 34 :: rest)) as [[s' t']|] eqn:P; [|discriminate]. injection H as <- <-.
        destruct (IH _ _ _ _ R' B' P) as [K ->]. split; auto. exact (rd_u _ v r' s' X Sv K).
  - change (c :: r ++ 34 :: rest) with ((c :: r) ++ 34 :: rest) in H.
    assert (exists c', c :: r = utf8_of z ++ c' /\ u = c' ++ 34 :: rest) as (r' & Er & ->).
    { destruct (Z_lt_le_dec z 128) as [L|L].
      - rewrite ascii_utf8 in * by (unfold scalar in S; lia). cbn in Eu. injection Eu as -> <-. exists r. auto.
      - apply high_within; auto. apply high_utf8; auto. }
    rewrite Eu, W in H. rewrite skip_utf8, firstn_app, Nat.sub_diag, firstn_all in H. cbn [firstn] in H. rewrite app_nil_r in H.
    destruct (parseString f (r' ++ 34 :: rest)) as [[s' t']|] eqn:P; [|discriminate]. injection H as <- <-.
    assert (R' : raw_string r').
    { destruct (Z_lt_le_dec z 128) as [L|L].
      - rewrite ascii_utf8 in * by (unfold scalar in S; lia). cbn in Er. injection Er as -> <-. inversion R; subst; auto; lia.
      - rewrite Er in R. eapply raw_high; [apply high_utf8; eauto|exact R]. }
    assert (B' : bytes_ok (r' ++ 34 :: rest)) by (rewrite Eu in B; apply bytes_app in B; tauto).
    destruct (IH _ _ _ _ R' B' P) as [K ->]. split; auto. rewrite Er. apply rd_char; auto; lia.
Qed.

(** The text of a string. *)
Definition jstr (n : list byte) : option (list byte) := option_map fst (parseString (S (List.length n)) (n ++ [34])).
Lemma parse_jstr f n rest : raw_string n -> bytes_ok (n ++ 34 :: rest) -> (List.length n < f)%nat ->
  parseString f (n ++ 34 :: rest) = option_map (fun s => (s, rest)) (jstr n).
Proof.
  intros R B L. unfold jstr.
  assert (B' : bytes_ok (n ++ [34])) by (apply bytes_app in B; destruct B as [B _]; apply bytes_app; split; auto; repeat constructor; lia).
  destruct (parseString f (n ++ 34 :: rest)) as [[s t]|] eqn:E.
  - destruct (parse_only _ _ _ _ _ R B E) as [K ->]. rewrite (parse_reads n s K (S (List.length n)) []) by lia. reflexivity.
  - destruct (parseString (S (List.length n)) (n ++ [34])) as [[s t]|] eqn:E'; [|reflexivity].
    destruct (parse_only _ _ _ _ _ R B' E') as [K _]. rewrite (parse_reads n s K f rest L) in E. discriminate.
Qed.
Lemma jstr_reads n s : raw_string n -> bytes_ok n -> jstr n = Some s <-> reads_str n s.
Proof.
  intros R B. unfold jstr. split.
  - destruct (parseString (S (List.length n)) (n ++ [34])) as [[s' t]|] eqn:E; [|discriminate]. cbn. intros H. injection H as ->.
    apply (parse_only _ _ _ _ _ R) in E; [tauto|]. apply bytes_app. split; auto. repeat constructor; lia.
  - intros K. rewrite (parse_reads n s K) by lia. reflexivity.
Qed.

(** ** Numbers *)
Lemma breaks_delimited r : delimited r = true <-> breaks r.
Proof.
  unfold delimited, breaks, isNotDelim, isDigit, dig. destruct r as [|c r]; [tauto|].
  rewrite negb_true_iff, !orb_false_iff. cbn. split; intros H; [lia|]. repeat split; lia.
Qed.
Lemma span_digits ds r : Forall dig ds -> (forall c r', r = c :: r' -> isDigit c = false) -> spanDigits (ds ++ r) = (ds, r).
Proof.
  intros F N. induction F as [|d ds D F IH]; cbn [app].
  - destruct r as [|c r]; [reflexivity|]. cbn. rewrite (N c r eq_refl). reflexivity.
  - cbn [spanDigits]. rewrite (digb d D), IH. reflexivity.
Qed.
Lemma span_cases b : exists ds r, spanDigits b = (ds, r) /\ b = ds ++ r /\ Forall dig ds /\ (forall c r', r = c :: r' -> isDigit c = false).
Proof.
  induction b as [|c b (ds & r & E & -> & F & N)]; cbn [spanDigits].
  - exists [], []. repeat split; auto; try constructor. discriminate.
  - destruct (isDigit c) eqn:D.
    + rewrite E. exists (c :: ds), r. repeat split; auto. constructor; auto. apply digb_iff; auto.
    + exists [], (c :: ds ++ r). repeat split; auto. intros c' r' X. injection X as <- <-. exact D.
Qed.
(** What is made of the parts of a number. *)
Definition int_of (i : list byte) : list byte := match i with [c] => if c =? 48 then [] else i | _ => i end.
Inductive exp_of : option (list byte) -> Z -> Prop :=
| eo_none : exp_of None 0
| eo_some s ds e : ds <> [] -> Forall dig ds -> ((s = [] \/ s = [43]) /\ e = num ds) \/ (s = [45] /\ e = - num ds) -> exp_of (Some (s ++ ds)) e.
Lemma break_digit r c r' : breaks r -> r = c :: r' -> isDigit c = false /\ c <> 46 /\ c <> 101 /\ c <> 69 /\ c <> 43 /\ c <> 45.
Proof. intros B ->. cbn in B. unfold isDigit, dig in *. lia. Qed.
Lemma exp_parse y e : exp_part y e -> exists x, exp_of x e /\ forall rest, breaks rest -> numberExp (y ++ rest) = Some (x, rest).
Proof.
  intros [(-> & ->)|(c & s & ds & -> & C & N & F & S)].
  - exists None. split; [constructor|]. intros rest B. cbn [app]. destruct rest as [|c [|d r]]; auto. destruct (break_digit _ c _ B eq_refl) as (_ & _ & H1 & H2 & _).
    cbn. replace (c =? 101) with false by lia. replace (c =? 69) with false by lia. reflexivity.
  - exists (Some (s ++ ds)). split; [econstructor; eauto|]. intros rest B. destruct ds as [|d ds]; [congruence|].
    assert (P : spanDigits ((d :: ds) ++ rest) = (d :: ds, rest)) by (apply span_digits; auto; intros c' r' E; apply (break_digit _ _ _ B E)).
    assert (Cb : (c =? 101) || (c =? 69) = true) by lia. assert (Dd : dig d) by (apply Forall_cons_iff in F; tauto). unfold dig in Dd.
    destruct S as [[[-> | ->] _]|[-> _]]; cbn [app numberExp]; rewrite Cb.
    + replace (d =? 43) with false by lia. replace (d =? 45) with false by lia. cbn [orb app] in P |- *. rewrite P. reflexivity.
    + cbn [orb Z.eqb Pos.eqb]. cbn [app] in P. rewrite P. reflexivity.
    + cbn [orb Z.eqb Pos.eqb]. cbn [app] in P. rewrite P. reflexivity.
Qed.
Lemma exp_head y e rest c r : exp_part y e -> breaks rest -> y ++ rest = c :: r -> isDigit c = false /\ c <> 46.
Proof.
  intros [(-> & ->)|(d & s & ds & -> & C & _)] B E.
  - destruct (break_digit _ _ _ B E) as (H1 & H2 & _). auto.
  - cbn in E. injection E as <- _. unfold isDigit. lia.
Qed.
Lemma frac_parse z f b : frac_part z f -> (forall c r, b = c :: r -> isDigit c = false /\ c <> 46) -> numberFrac (z ++ b) = (f, b).
Proof.
  intros [(-> & ->)|(-> & N & F)] B.
  - cbn [app]. unfold numberFrac. destruct b as [|c [|d r]]; auto. destruct (B c _ eq_refl) as [_ H]. replace (c =? 46) with false by lia. reflexivity.
  - destruct f as [|d f]; [congruence|]. cbn. apply Forall_cons_iff in F. destruct F as [D F]. rewrite (digb d D).
    rewrite span_digits; auto. intros c r E. apply (B c r E).
Qed.
Lemma int_parse i b : int_part i -> (forall c r, b = c :: r -> isDigit c = false) -> numberInt (i ++ b) = Some (int_of i, b).
Proof.
  intros [-> |(c & r & -> & C & F)] B; [reflexivity|]. cbn [app numberInt]. replace (c =? 48) with false by lia. unfold isDigit19. replace (_ && _) with true by lia.
  rewrite span_digits by auto. unfold int_of. destruct r; [replace (c =? 48) with false by lia|]; reflexivity.
Qed.
Lemma number_parse_all t neg i f e : number t neg i f e ->
  exists x, exp_of x e /\ forall rest, breaks rest -> parseNumber (t ++ rest) = Some (mkParts neg (int_of i) f x, rest).
Proof.
  intros (z & y & -> & I & F & E). destruct (exp_parse y e E) as (x & O & X0). exists x. split; [exact O|]. intros rest B. pose proof (X0 rest B) as X.
  assert (P : numberInt (i ++ z ++ y ++ rest) = Some (int_of i, z ++ y ++ rest)).
  { apply int_parse; auto. intros c r Ec. destruct F as [(-> & _)|(-> & _)]; [eapply exp_head; eauto|]. cbn in Ec. injection Ec as <- _. reflexivity. }
  assert (H : parseNumberParts (((if neg then [45] else []) ++ i ++ z ++ y) ++ rest) =
    match numberInt (i ++ z ++ y ++ rest) with
    | None => None
    | Some (i, s) => let (f, s) := numberFrac s in match numberExp s with None => None | Some (e, s) => Some (mkParts neg i f e, s) end end).
  { unfold parseNumberParts. rewrite <- !app_assoc. destruct neg; [reflexivity|]. cbn [app].
    destruct (i ++ z ++ y ++ rest) as [|c r] eqn:Ei; [reflexivity|]. assert (c <> 45).
    { destruct I as [-> |(c' & r' & -> & C & _)]; cbn in Ei; injection Ei as <- _; lia. }
    replace (c =? 45) with false by lia. reflexivity. }
  unfold parseNumber. rewrite H, P. rewrite (frac_parse z f); [|auto|intros c r; eapply exp_head; eauto]. rewrite X.
  apply breaks_delimited in B. rewrite B. reflexivity.
Qed.
Lemma number_parse t neg i f e rest : number t neg i f e -> breaks rest ->
  exists x, parseNumber (t ++ rest) = Some (mkParts neg (int_of i) f x, rest) /\ exp_of x e.
Proof. intros N B. destruct (number_parse_all t neg i f e N) as (x & O & X). eauto. Qed.
(** The numbers read, in general. *)
Lemma num_cases s p r : parseNumber s = Some (p, r) -> breaks r /\ exists (neg : bool) i f x, p = mkParts neg (int_of i) f x /\
  ((exists t e, s = t ++ r /\ number t neg i f e /\ exp_of x e) \/
   (exists t c, s = t ++ c :: r /\ (c = 101 \/ c = 69) /\ r <> [] /\ number t neg i f 0 /\ ~ In 101 t /\ ~ In 69 t /\ x = Some []) \/
   (exists c, x = Some [c] /\ (c = 43 \/ c = 45))).
Proof.
  unfold parseNumber. destruct (parseNumberParts s) as [[p' r']|] eqn:P; [|discriminate]. destruct (delimited r') eqn:D; [|discriminate].
  intros H. injection H as -> ->. apply breaks_delimited in D. split; auto.
  assert (K : exists (neg : bool) s', s = (if neg then [45] else []) ++ s' /\
    match numberInt s' with
    | None => None
    | Some (i, s) => let (f, s) := numberFrac s in match numberExp s with None => None | Some (e, s) => Some (mkParts neg i f e, s) end end = Some (p, r)).
  { unfold parseNumberParts in P. destruct s as [|c s]; [exists false, []; auto|]. destruct (c =? 45) eqn:C.
    - apply Z.eqb_eq in C. subst. exists true, s. auto.
    - exists false, (c :: s). auto. }
  destruct K as (neg & s' & -> & K). clear P.
  destruct (numberInt s') as [[i' s1]|] eqn:E1; [|discriminate].
  assert (I : exists i, s' = i ++ s1 /\ int_part i /\ i' = int_of i).
  { unfold numberInt in E1. destruct s' as [|c s']; [discriminate|]. destruct (c =? 48) eqn:C.
    - apply Z.eqb_eq in C. subst. injection E1 as <- <-. exists [48]. split; auto. split; [left; auto|reflexivity].
    - destruct (isDigit19 c) eqn:C19; [|discriminate]. destruct (span_cases s') as (ds & q & Es & -> & F & _). rewrite Es in E1. injection E1 as <- <-.
      exists (c :: ds). split; auto. split; [right; exists c, ds; split; auto; split; auto; unfold isDigit19 in C19; lia|].
      unfold int_of. destruct ds; [rewrite C|]; reflexivity. }
  destruct I as (i & -> & I & ->). clear E1.
  destruct (numberFrac s1) as [f s2] eqn:E2.
  assert (F : exists z, s1 = z ++ s2 /\ frac_part z f).
  { unfold numberFrac in E2. destruct s1 as [|c [|d s1]]; try (injection E2 as <- <-; exists []; split; auto; left; auto; fail).
    destruct ((c =? 46) && isDigit d) eqn:C; [|injection E2 as <- <-; exists []; split; auto; left; auto].
    destruct (span_cases s1) as (ds & q & Es & -> & F & _). rewrite Es in E2. injection E2 as <- <-. apply andb_true_iff in C. destruct C as [C Dd].
    apply Z.eqb_eq in C. subst. exists (46 :: d :: ds). split; auto. right. split; auto. split; [discriminate|]. constructor; auto. apply digb_iff; auto. }
  destruct F as (z & -> & F). clear E2.
  destruct (numberExp s2) as [[x s3]|] eqn:E3; [|discriminate]. injection K as <- <-. exists neg, i, f, x. split; auto.
  assert (NE : ~ In 101 (i ++ z) /\ ~ In 69 (i ++ z)).
  { assert (Fi : Forall (fun c => dig c \/ c = 46) (i ++ z)).
    { apply Forall_app. split.
      - destruct I as [-> |(c & q & -> & C & Fq)]; [constructor; [left; unfold dig; lia|constructor]|]. constructor; [left; unfold dig; lia|]. eapply Forall_impl; [|exact Fq]. cbn; auto.
      - destruct F as [(-> & _)|(-> & _ & Ff)]; [constructor|]. constructor; auto. eapply Forall_impl; [|exact Ff]. cbn; auto. }
    rewrite Forall_forall in Fi. split; intros In'; apply Fi in In'; unfold dig in In'; lia. }
  assert (Nneg : forall t : list Z, ~ In 101 t /\ ~ In 69 t -> ~ In 101 ((if neg then [45] else []) ++ t) /\ ~ In 69 ((if neg then [45] else []) ++ t)).
  { clear. intros t [A B]. destruct neg; cbn; intuition lia. }
  destruct s2 as [|c [|d s2]].
  { injection E3 as <- <-. left. exists ((if neg then [45] else []) ++ i ++ z), 0. rewrite <- !app_assoc. split; auto. split; [|constructor].
    exists z, []. rewrite app_nil_r. split; auto. split; auto. split; auto. left; auto. }
  { injection E3 as <- <-. left. exists ((if neg then [45] else []) ++ i ++ z), 0. rewrite <- !app_assoc. split; auto. split; [|constructor].
    exists z, []. rewrite app_nil_r. split; auto. split; auto. split; auto. left; auto. }
  cbn [numberExp] in E3. destruct ((c =? 101) || (c =? 69)) eqn:C.
  2: { injection E3 as <- <-. left. exists ((if neg then [45] else []) ++ i ++ z), 0. rewrite <- !app_assoc. split; auto. split; [|constructor].
    exists z, []. rewrite app_nil_r. split; auto. split; auto. split; auto. left; auto. }
  assert (C' : c = 101 \/ c = 69) by lia.
  destruct ((d =? 43) || (d =? 45)) eqn:Sg.
  - destruct s2 as [|d' s2]; [discriminate|]. destruct (span_cases (d' :: s2)) as (ds & q & Es & Eq & Fd & _). rewrite Es in E3. injection E3 as <- <-. rewrite Eq.
    destruct ds as [|d1 ds]; [right; right; exists d; split; auto; lia|]. left.
    exists ((if neg then [45] else []) ++ i ++ z ++ c :: d :: d1 :: ds), (if d =? 45 then - num (d1 :: ds) else num (d1 :: ds)).
    split; [rewrite <- !app_assoc; reflexivity|]. assert (Dc : d = 43 \/ d = 45) by lia.
    assert (S : (([d] = [] \/ [d] = [43]) /\ (if d =? 45 then - num (d1 :: ds) else num (d1 :: ds)) = num (d1 :: ds)) \/ ([d] = [45] /\ (if d =? 45 then - num (d1 :: ds) else num (d1 :: ds)) = - num (d1 :: ds))).
    { destruct Dc as [-> | ->]; cbn; auto. }
    split.
    + exists z, (c :: d :: d1 :: ds). split; auto. split; auto. split; auto. right. exists c, [d], (d1 :: ds). split; auto. split; auto. split; [discriminate|auto].
    + apply (eo_some [d] (d1 :: ds)); auto. discriminate.
  - destruct (span_cases (d :: s2)) as (ds & q & Es & Eq & Fd & _). rewrite Es in E3. injection E3 as <- <-. rewrite Eq.
    destruct ds as [|d1 ds].
    + right. left. exists ((if neg then [45] else []) ++ i ++ z), c. cbn [app]. rewrite <- !app_assoc. split; auto. split; auto. cbn in Eq. subst q. split; [discriminate|].
      destruct (Nneg _ NE) as [N1 N2]. split; [|auto]. exists z, []. rewrite app_nil_r. split; auto. split; auto. split; auto. left; auto.
    + left. exists ((if neg then [45] else []) ++ i ++ z ++ c :: d1 :: ds), (num (d1 :: ds)). split; [rewrite <- !app_assoc; reflexivity|]. split.
      * exists z, (c :: d1 :: ds). split; auto. split; auto. split; auto. right. exists c, [], (d1 :: ds). split; auto. split; auto. split; [discriminate|auto].
      * apply (eo_some [] (d1 :: ds)); auto. discriminate.
Qed.

(** ** The values of numbers *)
Definition is_val (m x v : Z) : Prop := (0 <= x -> v = m * 10 ^ x) /\ (x < 0 -> m = v * 10 ^ (- x)).
Lemma pow10 n : 0 <= n -> 0 < 10 ^ n.
Proof. intros. apply Z.pow_pos_nonneg; lia. Qed.
Lemma len_nonneg {A} (l : list A) : 0 <= len l.
Proof. unfold len. lia. Qed.
Lemma len_app {A} (a b : list A) : len (a ++ b) = len a + len b.
Proof. unfold len. rewrite app_length. lia. Qed.
Lemma decimal_num ds : forall acc, decimal acc ds = fold_left (fun a d => a * 10 + (d - 48)) ds acc.
Proof. induction ds as [|d ds IH]; intros acc; cbn; auto. Qed.
Lemma num_from ds : forall a, fold_left (fun a d => a * 10 + (d - 48)) ds a = a * 10 ^ len ds + num ds.
Proof.
  unfold num. induction ds as [|d ds IH]; intros a; cbn [fold_left].
  - change (len (@nil Z)) with 0. lia.
  - rewrite (IH (a * 10 + (d - 48))), (IH (0 * 10 + (d - 48))). rewrite len_cons, Z.pow_add_r by (pose proof (len_nonneg ds); lia). lia.
Qed.
Lemma num_app a b : num (a ++ b) = num a * 10 ^ len b + num b.
Proof. unfold num at 1. rewrite fold_left_app. rewrite num_from. reflexivity. Qed.
Lemma num_bound ds : Forall dig ds -> 0 <= num ds < 10 ^ len ds.
Proof.
  induction 1 as [|d ds D F IH]; [change (num []) with 0; change (10 ^ len (@nil byte)) with 1; lia|]. change (d :: ds) with ([d] ++ ds). rewrite num_app, len_app.
  change (len [d]) with 1. pose proof (len_nonneg ds). rewrite Z.pow_add_r by lia. change (num [d]) with (0 * 10 + (d - 48)). unfold dig in D.
  pose proof (pow10 (len ds)). nia.
Qed.
Lemma num_zeros k : num (repeat 48 k) = 0.
Proof. induction k as [|k IH]; [reflexivity|]. cbn [repeat]. change (48 :: repeat 48 k) with ([48] ++ repeat 48 k). rewrite num_app, IH. reflexivity. Qed.
Lemma len_repeat k : len (repeat 48 k) = Z.of_nat k.
Proof. unfold len. rewrite repeat_length. reflexivity. Qed.
Lemma dig_zeros k : Forall dig (repeat 48 k).
Proof. induction k; constructor; auto. unfold dig. lia. Qed.
Lemma num_zero_all ds : Forall dig ds -> num ds = 0 -> forallb (fun c => c =? 48) ds = true.
Proof.
  induction 1 as [|d ds D F IH]; intros H; [reflexivity|]. change (d :: ds) with ([d] ++ ds) in H. rewrite num_app in H.
  change (num [d]) with (0 * 10 + (d - 48)) in H. pose proof (num_bound ds F). pose proof (pow10 (len ds) (len_nonneg ds)). unfold dig in D.
  assert (d = 48) by nia. subst d. cbn. apply IH. lia.
Qed.
Lemma all_zero_num ds : forallb (fun c => c =? 48) ds = true -> num ds = 0.
Proof.
  induction ds as [|d ds IH]; intros H; [reflexivity|]. cbn in H. apply andb_true_iff in H. destruct H as [D H]. apply Z.eqb_eq in D. subst d.
  change (48 :: ds) with ([48] ++ ds). rewrite num_app, IH by auto. reflexivity.
Qed.
Lemma trim_zeros f : exists k, f = trimRight0 f ++ repeat 48 k.
Proof.
  induction f as [|c f (k & IH)]; [exists 0%nat; reflexivity|]. cbn [trimRight0]. destruct (trimRight0 f) as [|d g] eqn:E.
  - destruct (c =? 48) eqn:C; [apply Z.eqb_eq in C; subst c; exists (S k); cbn; f_equal; exact IH|exists k; cbn; f_equal; exact IH].
  - exists k. rewrite IH at 1. reflexivity.
Qed.
Lemma trim_last f : Forall dig f -> trimRight0 f = [] \/ exists g d, trimRight0 f = g ++ [d] /\ 49 <= d <= 57.
Proof.
  induction 1 as [|c f C F IH]; [left; reflexivity|]. cbn [trimRight0]. destruct IH as [-> |(g & d & E & D)].
  - destruct (c =? 48) eqn:C0; [left; reflexivity|right; exists [], c; split; auto; unfold dig in C; lia].
  - right. rewrite E. exists (c :: g), d. split; auto. destruct g; reflexivity.
Qed.
Lemma trim_dig f : Forall dig f -> Forall dig (trimRight0 f).
Proof. intros F. destruct (trim_zeros f) as (k & E). rewrite E in F. apply Forall_app in F. tauto. Qed.
Lemma val_shift m x v k : 0 <= k -> is_val (m * 10 ^ k) (x - k) v <-> is_val m x v.
Proof.
  intros K. pose proof (pow10 k K) as P. unfold is_val. destruct (Z_lt_le_dec x 0) as [L|L].
  - replace (- (x - k)) with (- x + k) by lia. rewrite Z.pow_add_r by lia. split; intros [_ H]; (split; [lia|]); intros _.
    + specialize (H ltac:(lia)). nia.
    + rewrite H by lia. ring.
  - destruct (Z_lt_le_dec (x - k) 0) as [L'|L'].
    + replace (- (x - k)) with (k - x) by lia. split.
      * intros [_ H]. split; [|lia]. intros _. specialize (H L'). replace k with ((k - x) + x) in H at 1 by lia. rewrite Z.pow_add_r in H by lia.
        pose proof (pow10 (k - x)). nia.
      * intros [H _]. split; [lia|]. intros _. rewrite H by lia. replace k with ((k - x) + x) at 1 by lia. rewrite Z.pow_add_r by lia. ring.
    + split.
      * intros [H _]. split; [|lia]. intros _. rewrite H by lia. rewrite <- Z.mul_assoc, <- Z.pow_add_r by lia. do 2 f_equal. lia.
      * intros [H _]. split; [|lia]. intros _. rewrite H by lia. rewrite <- Z.mul_assoc, <- Z.pow_add_r by lia. do 2 f_equal. lia.
Qed.
Definition sgn (neg : bool) : Z := if neg then -1 else 1.
Lemma val_sgn neg m x v : is_val (sgn neg * m) x v <-> is_val m x (sgn neg * v).
Proof.
  unfold is_val, sgn. split; intros [A B]; split; intros L.
  - rewrite (A L). destruct neg; ring.
  - specialize (B L). destruct neg; lia.
  - specialize (A L). destruct neg; lia.
  - specialize (B L). rewrite B. destruct neg; ring.
Qed.
Lemma exp_parsed x e : exp_of x e -> loneSign x = false /\ parseExp x = if (-2147483648 <=? e) && (e <=? 2147483647) then Some e else None.
Proof.
  destruct 1 as [|s ds e N F S]; [split; reflexivity|]. destruct ds as [|d ds]; [congruence|].
  assert (D : isDigit d = true) by (apply Forall_cons_iff in F; destruct F; apply digb; auto).
  assert (Dd : d <> 45 /\ d <> 43) by (unfold isDigit in D; lia).
  split.
  - destruct S as [[[-> | ->] _]|[-> _]]; cbn; auto. destruct ds; auto. rewrite D. reflexivity.
  - assert (X : expValue (s ++ d :: ds) = Some e).
    { unfold expValue. destruct S as [[[-> | ->] ->]|[-> ->]]; cbn [app].
      - replace (d =? 45) with false by lia. replace (d =? 43) with false by lia. rewrite decimal_num. reflexivity.
      - cbn [Z.eqb Pos.eqb]. rewrite decimal_num. reflexivity.
      - cbn [Z.eqb Pos.eqb]. rewrite decimal_num. reflexivity. }
    unfold parseExp. destruct (s ++ d :: ds) eqn:E; [destruct s; discriminate|]. rewrite X. reflexivity.
Qed.
Lemma int_num i g : int_part i -> num (int_of i ++ g) = num (i ++ g) /\ Forall dig (int_of i) /\ (int_of i = [] -> i = [48]) /\
  (i = [48] -> int_of i = []) /\ (int_of i <> [] -> 10 ^ (len (int_of i) - 1) <= num (int_of i)).
Proof.
  intros [-> |(c & r & -> & C & F)].
  - cbn. repeat split; auto; try lia; try congruence.
  - assert (E : int_of (c :: r) = c :: r) by (unfold int_of; destruct r; auto; replace (c =? 48) with false by lia; reflexivity). rewrite E.
    split; auto. split; [constructor; auto; unfold dig; lia|]. split; [discriminate|]. split; [intros H; injection H; lia|]. intros _.
    change (c :: r) with ([c] ++ r). rewrite num_app, len_app. change (len [c]) with 1. change (num [c]) with (0 * 10 + (c - 48)).
    pose proof (num_bound r F). replace (1 + len r - 1) with (len r) by lia. pose proof (pow10 (len r) (len_nonneg r)). nia.
Qed.
Definition limits (i : list byte) (e v : Z) : Prop := v <> 0 -> -2147483648 <= e <= 2147483647 /\ (i = [48] -> e <= 20).
Lemma split_off a z u P : a * P + z = u * P -> 0 <= z < P -> a = u /\ z = 0.
Proof. intros E B. assert (a = u) by nia. split; auto. nia. Qed.
Lemma big_prod m k u P Q : P <= m -> u = m * k -> 0 < k -> Q <= P * k -> Q <= u.
Proof. nia. Qed.
Lemma big_one u P m : 0 < P -> u <> 0 -> 0 <= m -> m = u * P -> P <= m.
Proof. nia. Qed.
Section Normal.
  Context (neg : bool) (i f : list byte) (x : option (list byte)) (e : Z).
  Hypothesis I : int_part i.
  Hypothesis F : Forall dig f.
  Hypothesis X : exp_of x e.
  Let i' := int_of i.
  Let g := trimRight0 f.
  Let p := mkParts neg i' f x.
  Let M := num (i' ++ g).
  Lemma normal_val v : is_val (sgn neg * num (i ++ f)) (e - len f) v <-> is_val M (e - len g) (sgn neg * v).
  Proof.
    rewrite val_sgn. destruct (trim_zeros f) as (k & E). fold g in E. rewrite E. rewrite app_assoc, num_app, num_zeros, len_repeat, Z.add_0_r, len_app, len_repeat.
    rewrite Z.sub_add_distr. rewrite val_shift by lia. unfold M, i'. destruct (int_num i g I) as (-> & _). reflexivity.
  Qed.
  Lemma normal_pos : 0 <= M /\ (i' <> [] \/ g <> [] -> M <> 0) /\ (g <> [] -> M mod 10 <> 0) /\ (i' <> [] -> 10 ^ (len i' - 1 + len g) <= M).
  Proof.
    destruct (int_num i [] I) as (_ & Di & _ & _ & L). fold i' in Di, L. pose proof (trim_dig f F) as Dg. fold g in Dg.
    pose proof (num_bound i' Di) as Bi. pose proof (num_bound g Dg) as Bg. pose proof (pow10 (len g) (len_nonneg g)).
    assert (T : g <> [] -> M mod 10 <> 0).
    { intros N. destruct (trim_last f F) as [E|(h & d & E & D)]; fold g in E; [congruence|]. unfold M. rewrite E, app_assoc, num_app. change (len [d]) with 1.
      change (num [d]) with (0 * 10 + (d - 48)). rewrite Z.add_comm, Z.pow_1_r, Z.mod_add by lia. rewrite Z.mod_small by lia. lia. }
    assert (U : i' <> [] -> 10 ^ (len i' - 1 + len g) <= M).
    { intros N. specialize (L N). unfold M. rewrite num_app. rewrite Z.pow_add_r; [nia| |apply len_nonneg]. destruct i' as [|c r]; [congruence|]. rewrite len_cons. pose proof (len_nonneg r). lia. }
    split; [unfold M; rewrite num_app; nia|]. split; [|split; auto]. intros [N|N]; [|intros E; apply T; auto; rewrite E; reflexivity].
    specialize (U N). assert (0 < 10 ^ (len i' - 1 + len g)); [|lia]. apply pow10. destruct i' as [|c r]; [congruence|]. rewrite len_cons. pose proof (len_nonneg r). pose proof (len_nonneg g). lia.
  Qed.
  Lemma normalize_fwd b ds : normalize p = Some (b, ds) -> ds <> [] /\ Forall dig ds /\ is_val (sgn neg * num (i ++ f)) (e - len f) (sgn b * num ds) /\
    (b = true -> num ds <> 0) /\ limits i e (sgn b * num ds).
  Proof.
    intros H. destruct (exp_parsed x e X) as [LS PE]. destruct (int_num i [] I) as (_ & Di & I1 & I2 & _). fold i' in Di, I1, I2.
    pose proof (trim_dig f F) as Dg. fold g in Dg. destruct normal_pos as (P1 & P2 & P3 & P4).
    unfold normalize in H. cbn [np_exp np_int np_frac np_neg p] in H. rewrite LS in H. fold g in H.
    assert (Q : (i' = [] /\ g = [] /\ Some (b, ds) = Some (false, [48])) \/ ((i' <> [] \/ g <> []) /\
      match parseExp x with
      | None => None
      | Some exp => if 0 <=? exp then
            if exp <? len g then None
            else if 20 <? len i' + exp then None
            else Some (neg, i' ++ g ++ repeat 48 (Z.to_nat (exp - len g)))
          else if 0 <? len g then None
          else if len i' + exp <? 0 then None
          else if forallb (fun c => c =? 48) (skipn (Z.to_nat (len i' + exp)) i') then Some (neg, firstn (Z.to_nat (len i' + exp)) i')
          else None
      end = Some (b, ds))).
    { destruct i' as [|c r]; [destruct g as [|c r]; [left; auto|right; split; [right; discriminate|exact H]]|right; split; [left; discriminate|exact H]]. }
    clear H. destruct Q as [(E1 & E2 & H)|(N & H)].
    - injection H as -> ->. split; [discriminate|]. split; [repeat constructor; unfold dig; lia|]. change (sgn false * num [48]) with 0.
      split; [|split; [discriminate|intros C; congruence]]. apply normal_val. unfold M. rewrite E1, E2. unfold is_val. cbn. lia.
    - rewrite PE in H. destruct ((-2147483648 <=? e) && (e <=? 2147483647)) eqn:R; [|discriminate]. pose proof (len_nonneg g) as Lg. pose proof (len_nonneg i') as Li.
      destruct (0 <=? e) eqn:E0.
      + destruct (e <? len g) eqn:E1; [discriminate|]. destruct (20 <? len i' + e) eqn:E2; [discriminate|]. injection H as <- <-.
        assert (V : num (i' ++ g ++ repeat 48 (Z.to_nat (e - len g))) = M * 10 ^ (e - len g)).
        { rewrite app_assoc, num_app, num_zeros, len_repeat. fold M. replace (Z.of_nat (Z.to_nat (e - len g))) with (e - len g) by lia. lia. }
        split; [destruct N as [N|N]; [destruct i'; [congruence|discriminate]|destruct i'; [destruct g; [congruence|discriminate]|discriminate]]|].
        split; [apply Forall_app; split; auto; apply Forall_app; split; auto; apply dig_zeros|]. rewrite V. split; [|split].
        * apply normal_val. split; [|lia]. intros _. unfold sgn. destruct neg; lia.
        * intros _. pose proof (pow10 (e - len g)). specialize (P2 N). nia.
        * intros _. split; [lia|]. intros E. specialize (I2 E). rewrite I2 in E2. change (len (@nil Z)) with 0 in E2. lia.
      + destruct (0 <? len g) eqn:E1; [discriminate|]. destruct (len i' + e <? 0) eqn:E2; [discriminate|].
        destruct (forallb (fun c => c =? 48) (skipn (Z.to_nat (len i' + e)) i')) eqn:Fz; [|discriminate]. injection H as <- <-.
        assert (G : g = []) by (destruct g; auto; rewrite len_cons in E1; pose proof (len_nonneg l); lia).
        set (a := firstn (Z.to_nat (len i' + e)) i') in *. set (z := skipn (Z.to_nat (len i' + e)) i') in *.
        assert (Ei : i' = a ++ z) by (symmetry; apply firstn_skipn).
        assert (Lz : len z = - e) by (unfold z, len in *; rewrite skipn_length; lia).
        assert (V : M = num a * 10 ^ (- e)) by (unfold M; rewrite G, app_nil_r, Ei, num_app, (all_zero_num z Fz), Lz; lia).
        assert (Ni : i' <> []) by (destruct N; congruence).
        split; [intros Ea; rewrite Ea in V; cbn in V; apply P2; auto|]. split; [rewrite Ei in Di; apply Forall_app in Di; tauto|]. split; [|split].
        * apply normal_val. rewrite G. change (len (@nil Z)) with 0. rewrite Z.sub_0_r. split; [lia|]. intros _. rewrite V. unfold sgn. destruct neg; ring.
        * intros _ Ea. rewrite Ea in V. apply P2; auto.
        * intros _. split; [lia|]. intros E. specialize (I2 E). congruence.
  Qed.
  Lemma normalize_bwd v : is_val (sgn neg * num (i ++ f)) (e - len f) v -> limits i e v -> Z.abs v < 10 ^ 20 ->
    exists b ds, normalize p = Some (b, ds) /\ ds <> [] /\ v = sgn b * num ds /\ (v = 0 -> b = false) /\ 0 <= num ds.
  Proof.
    intros V L B. apply normal_val in V. set (u := sgn neg * v) in V. assert (U : v = sgn neg * u) by (unfold u, sgn; destruct neg; lia).
    assert (B' : Z.abs u < 10 ^ 20) by (unfold u, sgn; destruct neg; lia).
    destruct (exp_parsed x e X) as [LS PE]. destruct (int_num i [] I) as (_ & Di & I1 & I2 & _). fold i' in Di, I1, I2.
    pose proof (trim_dig f F) as Dg. fold g in Dg. destruct normal_pos as (P1 & P2 & P3 & P4). destruct V as [V1 V2].
    pose proof (len_nonneg g) as Lg. pose proof (len_nonneg i') as Li.
    assert (C : (i' = [] /\ g = []) \/ (i' <> [] \/ g <> [])) by (destruct i'; [destruct g; [left; auto|right; right; discriminate]|right; left; discriminate]).
    destruct C as [(E1 & E2)|N].
    - exists false, [48]. unfold normalize. cbn [np_exp np_int np_frac np_neg p]. rewrite LS. fold g. rewrite E1, E2. split; auto. split; [discriminate|].
      assert (M0 : M = 0) by (unfold M; rewrite E1, E2; reflexivity).
      assert (u = 0). { destruct (Z_lt_le_dec (e - len g) 0) as [Q|Q]; [specialize (V2 Q); pose proof (pow10 (- (e - len g)) ltac:(lia)); rewrite M0 in V2; symmetry in V2; apply Z.mul_eq_0 in V2; lia|rewrite (V1 Q), M0; lia]. }
      split; [rewrite U, H; unfold sgn; destruct neg; reflexivity|]. split; [auto|cbn; lia].
    - assert (Hn : normalize p = match parseExp x with
        | None => None
        | Some exp => if 0 <=? exp then
              if exp <? len g then None
              else if 20 <? len i' + exp then None
              else Some (neg, i' ++ g ++ repeat 48 (Z.to_nat (exp - len g)))
            else if 0 <? len g then None
            else if len i' + exp <? 0 then None
            else if forallb (fun c => c =? 48) (skipn (Z.to_nat (len i' + exp)) i') then Some (neg, firstn (Z.to_nat (len i' + exp)) i')
            else None
        end).
      { unfold normalize. cbn [np_exp np_int np_frac np_neg p]. rewrite LS. fold g. destruct i' as [|c r]; [destruct g as [|c r]; [destruct N; congruence|reflexivity]|reflexivity]. }
      specialize (P2 N). assert (Nu : u <> 0). { intros ->. destruct (Z_lt_le_dec (e - len g) 0) as [Q|Q]; [specialize (V2 Q); lia|specialize (V1 Q); pose proof (pow10 _ Q); nia]. }
      assert (Nv : v <> 0) by (rewrite U; unfold sgn; destruct neg; lia). destruct (L Nv) as [R L0]. rewrite Hn, PE.
      replace ((-2147483648 <=? e) && (e <=? 2147483647)) with true by lia.
      assert (G0 : e - len g < 0 -> g = []).
      { intros Q. destruct (list_eq_dec Z.eq_dec g []) as [E|E]; auto. exfalso. apply (P3 E). rewrite (V2 Q). replace (- (e - len g)) with (1 + (len g - e - 1)) by lia.
        rewrite Z.pow_add_r by lia. replace (u * (10 ^ 1 * 10 ^ (len g - e - 1))) with (u * 10 ^ (len g - e - 1) * 10) by ring. apply Z.mod_mul. lia. }
      destruct (0 <=? e) eqn:E0.
      + assert (e <? len g = false). { destruct (e <? len g) eqn:Q; auto. assert (g = []) by (apply G0; lia). rewrite H in Q. change (len (@nil Z)) with 0 in Q. lia. }
        rewrite H. specialize (V1 ltac:(lia)).
        assert (20 <? len i' + e = false).
        { destruct (20 <? len i' + e) eqn:Q; auto. exfalso. destruct (list_eq_dec Z.eq_dec i' []) as [E|E].
          - rewrite E in Q. change (len (@nil Z)) with 0 in Q. specialize (L0 (I1 E)). lia.
          - specialize (P4 E). assert (10 ^ 20 <= 10 ^ (len i' - 1 + e)) by (apply Z.pow_le_mono_r; lia).
            assert (10 ^ (len i' - 1 + e) = 10 ^ (len i' - 1 + len g) * 10 ^ (e - len g)) by (rewrite <- Z.pow_add_r; [f_equal; lia| |lia];
              destruct i' as [|c r]; [congruence|]; rewrite len_cons; pose proof (len_nonneg r); lia).
            assert (10 ^ 20 <= u); [|lia]. apply (big_prod M (10 ^ (e - len g)) u (10 ^ (len i' - 1 + len g))); auto; [apply pow10; lia|lia]. }
        rewrite H0. eexists _, _. split; [reflexivity|].
        assert (Vn : num (i' ++ g ++ repeat 48 (Z.to_nat (e - len g))) = M * 10 ^ (e - len g)).
        { rewrite app_assoc, num_app, num_zeros, len_repeat. fold M. replace (Z.of_nat (Z.to_nat (e - len g))) with (e - len g) by lia. lia. }
        split; [destruct N as [N|N]; [destruct i'; [congruence|discriminate]|destruct i'; [destruct g; [congruence|discriminate]|discriminate]]|].
        rewrite Vn. split; [rewrite U, V1; reflexivity|]. split; [lia|]. pose proof (pow10 (e - len g) ltac:(lia)). apply Z.mul_nonneg_nonneg; lia.
      + assert (G : g = []) by (apply G0; lia). rewrite G in *. change (len (@nil Z)) with 0 in *. rewrite Z.sub_0_r in *. cbn [Z.ltb Z.compare]. specialize (V2 ltac:(lia)).
        assert (Mi : M = num i') by (unfold M; rewrite G, app_nil_r; reflexivity). pose proof (num_bound i' Di) as Bi. pose proof (pow10 (- e) ltac:(lia)) as Pe.
        assert (len i' + e <? 0 = false).
        { destruct (len i' + e <? 0) eqn:Q; auto. exfalso. assert (10 ^ len i' <= 10 ^ (- e)) by (apply Z.pow_le_mono_r; lia). pose proof (big_one u _ M Pe Nu P1 V2). lia. }
        rewrite H. set (a := firstn (Z.to_nat (len i' + e)) i') in *. set (z := skipn (Z.to_nat (len i' + e)) i') in *.
        assert (Ei : i' = a ++ z) by (symmetry; apply firstn_skipn).
        assert (Lz : len z = - e) by (unfold z, len in *; rewrite skipn_length; lia).
        assert (Da : Forall dig a /\ Forall dig z) by (rewrite Ei in Di; apply Forall_app in Di; auto). destruct Da as [Da Dz].
        assert (Ni : num i' = num a * 10 ^ (- e) + num z) by (rewrite Ei at 1; rewrite num_app, Lz; reflexivity).
        pose proof (num_bound z Dz) as Bz. rewrite Lz in Bz. pose proof (num_bound a Da) as Ba.
        assert (num a = u /\ num z = 0) as [Ea Ez] by (rewrite Mi, Ni in V2; apply (split_off _ _ _ _ V2 Bz)).
        rewrite (num_zero_all z Dz Ez). eexists _, _. split; [reflexivity|]. split; [intros Ea'; rewrite Ea' in Ea; cbn in Ea; lia|].
        split; [rewrite Ea; exact U|]. split; [lia|]. lia.
  Qed.
End Normal.

Lemma exp_unique x e e' : exp_of x e -> exp_of x e' -> e = e'.
Proof.
  assert (V : forall y e, exp_of (Some y) e -> expValue y = Some e).
  { intros y d H. inversion H as [|s ds e0 N F S]; subst. destruct ds as [|c ds]; [congruence|].
    assert (D : isDigit c = true) by (apply Forall_cons_iff in F; destruct F; apply digb; auto).
    assert (Dd : c <> 45 /\ c <> 43) by (unfold isDigit in D; lia).
    unfold expValue. destruct S as [[[-> | ->] ->]|[-> ->]]; cbn [app].
    - replace (c =? 45) with false by lia. replace (c =? 43) with false by lia. rewrite decimal_num. reflexivity.
    - cbn [Z.eqb Pos.eqb]. rewrite decimal_num. reflexivity.
    - cbn [Z.eqb Pos.eqb]. rewrite decimal_num. reflexivity. }
  destruct x as [y|]; intros A B; [apply V in A, B; congruence|]. inversion A; inversion B; congruence.
Qed.
Lemma int_inj i j : int_part i -> int_part j -> int_of i = int_of j -> i = j.
Proof.
  intros A B E. destruct (int_num i [] A) as (_ & _ & I1 & I2 & _). destruct (int_num j [] B) as (_ & _ & J1 & J2 & _).
  assert (K : forall i, int_part i -> i = [48] \/ int_of i = i).
  { clear. intros i [-> |(c & r & -> & C & F)]; [auto|]. right. unfold int_of. destruct r; auto. replace (c =? 48) with false by lia. reflexivity. }
  destruct (K i A) as [-> |Ei]; [symmetry; apply J1; rewrite <- E; reflexivity|]. destruct (K j B) as [-> |Ej]; [apply I1; rewrite E; reflexivity|]. congruence.
Qed.
Lemma number_unique t n i f e n' i' f' e' : number t n i f e -> number t n' i' f' e' -> n = n' /\ i = i' /\ f = f' /\ e = e'.
Proof.
  intros A B. destruct (number_parse t n i f e [] A I) as (x & X & O). destruct (number_parse t n' i' f' e' [] B I) as (x' & X' & O').
  rewrite X in X'. injection X' as -> Ei -> ->. destruct A as (z & y & _ & A & _). destruct B as (z' & y' & _ & B & _).
  split; auto. split; [apply int_inj; auto|]. split; auto. eapply exp_unique; eauto.
Qed.
Lemma integer_parts t neg i f e v : number t neg i f e -> integer t v <-> is_val (sgn neg * num (i ++ f)) (e - len f) v /\ limits i e v.
Proof.
  intros N. unfold integer, is_val, limits, sgn. split.
  - intros (n' & i' & f' & e' & N' & A & B & C). destruct (number_unique _ _ _ _ _ _ _ _ _ N N') as (<- & <- & <- & <-). auto.
  - intros ((A & B) & C). exists neg, i, f, e. auto.
Qed.
Lemma number_dig t neg i f e : number t neg i f e -> int_part i /\ Forall dig f.
Proof. intros (z & y & _ & A & [(_ & ->)|(_ & _ & F)] & _); split; auto. Qed.
Lemma tok_uint t neg i f e x v : number t neg i f e -> exp_of x e ->
  tokUint (mkParts neg (int_of i) f x) = Some v <-> integer t v /\ u32_ok v.
Proof.
  intros N X. rewrite (integer_parts t neg i f e v N). destruct (number_dig _ _ _ _ _ N) as [I F]. unfold tokUint, u32_ok. split.
  - destruct (normalize _) as [[b ds]|] eqn:E; [|discriminate]. destruct b; [discriminate|]. destruct (normalize_fwd neg i f x e I F X _ _ E) as (A & D & V & _ & L).
    destruct ds as [|d ds]; [congruence|]. rewrite decimal_num. change (fold_left _ (d :: ds) 0) with (num (d :: ds)).
    destruct (num (d :: ds) <=? 4294967295) eqn:G; [|discriminate]. intros H. injection H as <-. unfold sgn in V at 2. rewrite Z.mul_1_l in V. unfold sgn in L. rewrite Z.mul_1_l in L.
    pose proof (num_bound _ D). split; auto. lia.
  - intros ((V & L) & R). destruct (normalize_bwd neg i f x e I F X v V L) as (b & ds & E & A & Ev & B & P).
    { assert (4294967296 <= 10 ^ 20) by (vm_compute; discriminate). lia. }
    rewrite E. destruct b.
    + exfalso. unfold sgn in Ev. assert (v = 0) by lia. specialize (B H). discriminate.
    + destruct ds as [|d ds]; [congruence|]. rewrite decimal_num. change (fold_left _ (d :: ds) 0) with (num (d :: ds)).
      unfold sgn in Ev. replace (num (d :: ds) <=? 4294967295) with true by lia. f_equal. lia.
Qed.
Lemma tok_int t neg i f e x v : number t neg i f e -> exp_of x e ->
  tokInt (mkParts neg (int_of i) f x) = Some v <-> integer t v /\ -2147483648 <= v < 2147483648.
Proof.
  intros N X. rewrite (integer_parts t neg i f e v N). destruct (number_dig _ _ _ _ _ N) as [I F]. unfold tokInt. split.
  - destruct (normalize _) as [[b ds]|] eqn:E; [|discriminate]. destruct (normalize_fwd neg i f x e I F X _ _ E) as (A & D & V & _ & L).
    destruct ds as [|d ds]; [congruence|]. rewrite decimal_num. change (fold_left _ (d :: ds) 0) with (num (d :: ds)).
    replace (if b then - num (d :: ds) else num (d :: ds)) with (sgn b * num (d :: ds)) by (unfold sgn; destruct b; lia).
    destruct (_ && _) eqn:G; [|discriminate]. intros H. injection H as <-. split; auto. lia.
  - intros ((V & L) & R). destruct (normalize_bwd neg i f x e I F X v V L) as (b & ds & E & A & Ev & B & P).
    { assert (4294967296 <= 10 ^ 20) by (vm_compute; discriminate). lia. }
    rewrite E. destruct ds as [|d ds]; [congruence|]. rewrite decimal_num. change (fold_left _ (d :: ds) 0) with (num (d :: ds)).
    replace (if b then - num (d :: ds) else num (d :: ds)) with v by (rewrite Ev; unfold sgn; destruct b; lia).
    replace (_ && _) with true by lia. reflexivity.
Qed.
(** Numbers in strings. *)
Lemma reads_unique r s s' : reads_str r s -> reads_str r s' -> s = s'.
Proof. intros A B. pose proof (parse_reads r s A (S (List.length r)) [] ltac:(lia)) as E. rewrite (parse_reads r s' B (S (List.length r)) []) in E by lia. congruence. Qed.
Lemma trim_same s : Nat.eqb (List.length (trimSpace s)) (List.length s) = true <-> trimmed s s.
Proof.
  rewrite Nat.eqb_eq. destruct (device_name_trimmed s) as [T U]. split.
  - intros L. enough (trimSpace s = s) as E by (rewrite E in T; exact T).
    destruct T as (pre & post & E & _). assert (List.length (concat pre) = 0 /\ List.length (concat post) = 0)%nat as [A B].
    { apply (f_equal (@List.length Z)) in E. rewrite !app_length in E. lia. }
    apply length_zero_iff_nil in A, B. rewrite A, B, app_nil_r in E. symmetry. exact E.
  - intros T'. rewrite <- (U s T'). reflexivity.
Qed.
Lemma parse_number_token s p : (exists r, trimmed s s /\ parseNumber s = Some (p, r)) <-> numberInString s = Some p.
Proof.
  unfold numberInString. destruct (Nat.eqb (List.length (trimSpace s)) (List.length s)) eqn:T.
  2: { split; [|discriminate]. intros (r & T' & _). apply trim_same in T'. congruence. }
  apply trim_same in T. cbn [negb].
  assert (H : forall c r, s = c :: r -> jspace c = false).
  { intros c r ->. destruct (jspace c) eqn:J; auto. exfalso. destruct T as (_ & _ & _ & _ & _ & N & _). apply (N [c] r); [|reflexivity]. apply jspace_gap in J. destruct J as [-> | [-> | [-> | ->]]]; [apply ws_sp|apply ws_tab; lia..]. }
  unfold read, read1, parseNext, jtrim. cbn [jd_in]. destruct s as [|c s].
  { cbn. split; [|discriminate]. intros (r & _ & E). discriminate. }
  specialize (H c s eq_refl). cbn [skipSpace]. rewrite H. cbn [jd_in jd_open jd_last isValueNext].
  assert (K : (c =? 45) || isDigit c = false -> parseNumber (c :: s) = None).
  { intros N. unfold parseNumber, parseNumberParts. apply orb_false_iff in N. destruct N as [N1 N2]. rewrite N1. unfold numberInt. unfold isDigit in N2. unfold isDigit19.
    replace (c =? 48) with false by lia. replace (_ && _) with false by lia. reflexivity. }
  assert (E : forall q, q = true -> (exists r, trimmed (c :: s) (c :: s) /\ parseNumber (c :: s) = Some (p, r)) <-> exists r, parseNumber (c :: s) = Some (p, r)).
  { intros _ _. split; [intros (r & _ & Y); eauto|intros (r & Y); eauto]. }
  rewrite (E true eq_refl). clear E.
  destruct ((c =? 45) || isDigit c) eqn:N.
  - assert (c <> 110 /\ c <> 116 /\ c <> 102) by (unfold isDigit in N; lia).
    replace (c =? 110) with false by lia. replace (c =? 116) with false by lia. replace (c =? 102) with false by lia.
    destruct (parseNumber (c :: s)) as [[p' r']|]; split; [intros (r & Y); injection Y as -> ->; reflexivity|intros Y; injection Y as ->; eauto|intros (r & Y); discriminate|discriminate].
  - rewrite (K eq_refl). split; [intros (r & Y); discriminate|]. intros Y. exfalso. revert Y.
    destruct (c =? 110); [destruct (matchWithDelim (str "null") (c :: s)); discriminate|].
    destruct (c =? 116); [destruct (matchWithDelim (str "true") (c :: s)); discriminate|].
    destruct (c =? 102); [destruct (matchWithDelim (str "false") (c :: s)); discriminate|].
    destruct (c =? 34); [destruct (parseString (S (List.length s)) s) as [[? ?]|]; discriminate|].
    repeat match goal with |- context [if ?t then _ else _] => destruct t; try discriminate end.
Qed.
Lemma uint_string r s v : reads_str r s ->
  (exists p, numberInString s = Some p /\ tokUint p = Some v) <-> uint_value (JStr r) v.
Proof.
  intros R. split.
  - intros (p & P & U). apply parse_number_token in P. destruct P as (rest & T & P). destruct (num_cases _ _ _ P) as (B & neg & i & f & x & -> & C).
    destruct C as [(t & e & -> & N & X)|[(t & c & -> & Cc & Nr & N & N1 & N2 & ->)|(c & -> & Cc)]].
    + apply (tok_uint t neg i f e x v N X) in U. destruct U as [U1 U2]. eapply uv_str; eauto.
    + assert (U' : tokUint (mkParts neg (int_of i) f None) = Some v) by exact U. apply (tok_uint t neg i f 0 None v N (eo_none)) in U'. destruct U' as [U1 U2].
      eapply uv_str_e; eauto.
    + exfalso. unfold tokUint, normalize in U. cbn [np_exp loneSign] in U. replace (isDigit c) with false in U by (unfold isDigit; lia). discriminate.
  - intros H. inversion H as [|r0 s0 t rest v0 R0 T E B Iv U|r0 s0 t c rest v0 R0 T E Cc Nr B (neg & i & f & N) N1 N2 Iv U]; subst.
    + rewrite (reads_unique _ _ _ R R0). destruct Iv as (neg & i & f & e & N & K). destruct (number_parse t neg i f e rest N B) as (x & X & O).
      exists (mkParts neg (int_of i) f x). split; [apply parse_number_token; eauto|]. apply (tok_uint t neg i f e x v N O). split; auto. exists neg, i, f, e. auto.
    + rewrite (reads_unique _ _ _ R R0). exists (mkParts neg (int_of i) f (Some [])). split.
      * apply parse_number_token. exists rest. split; auto.
        destruct N as (z & y & -> & I & F & X).
        assert (y = []). { destruct X as [(-> & _)|(c' & s' & ds & -> & C' & _)]; auto. exfalso. destruct C' as [-> | ->]; [apply N1|apply N2]; rewrite !in_app_iff; right; right; right; left; reflexivity. }
        subst y. rewrite app_nil_r.
        assert (P : numberInt (i ++ z ++ c :: rest) = Some (int_of i, z ++ c :: rest)).
        { apply int_parse; auto. intros d q Ed. destruct F as [(-> & _)|(-> & _)]; cbn in Ed; injection Ed as <- _; [unfold isDigit; lia|reflexivity]. }
        assert (Fp : numberFrac (z ++ c :: rest) = (f, c :: rest)).
        { apply frac_parse; auto. intros d q Ed. injection Ed as <- _. unfold isDigit. lia. }
        assert (Xp : numberExp (c :: rest) = Some (Some [], rest)).
        { destruct rest as [|d rest]; [congruence|]. cbn [numberExp]. replace ((c =? 101) || (c =? 69)) with true by lia. destruct (break_digit _ _ _ B eq_refl) as (D & _ & _ & _ & D1 & D2).
          replace ((d =? 43) || (d =? 45)) with false by lia. cbn [spanDigits]. rewrite D. reflexivity. }
        unfold parseNumber.
        replace (parseNumberParts (((if neg then [45] else []) ++ i ++ z) ++ c :: rest)) with
          (match numberInt (i ++ z ++ c :: rest) with
           | None => None
           | Some (i, s) => let (f, s) := numberFrac s in match numberExp s with None => None | Some (e, s) => Some (mkParts neg i f e, s) end end).
        { rewrite P, Fp, Xp. apply breaks_delimited in B. rewrite B. reflexivity. }
        symmetry. unfold parseNumberParts. rewrite <- !app_assoc. destruct neg; [reflexivity|]. cbn [app].
        destruct (i ++ z ++ c :: rest) as [|d q] eqn:Ei; [reflexivity|]. assert (d <> 45).
        { destruct I as [-> |(c' & r' & -> & C & _)]; cbn in Ei; injection Ei as <- _; lia. }
        replace (d =? 45) with false by lia. reflexivity.
      * change (tokUint (mkParts neg (int_of i) f None) = Some v). apply (tok_uint t neg i f 0 None v N eo_none). auto.
Qed.
