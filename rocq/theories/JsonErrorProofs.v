(** The JSON of errors: proofs. *)
From Coq Require Import String Permutation.
From Verif Require Import ProofBase GoStrings Server SpecWire Wire Twirp SpecTwirp TwirpProofs GoClient SpecGo GoProofs SpecJson SpecJsonError Utf8Proofs
  JsonScan JsonRead JsonScanProofs JsonReadProofs JsonUnique JsonClaims JsonWrite JsonWriteProofs JsonReplyProofs JsonError JsonErrorStrings.

(** ** Members *)
Lemma rawString_plain c r : c <> 34 -> c <> 92 -> rawString (c :: r) = option_map (fun x => (c :: fst x, snd x)) (rawString r).
Proof. intros A B. cbn [rawString]. replace (c =? 34) with false by lia. replace (c =? 92) with false by lia. reflexivity. Qed.
Lemma rawString_esc e r : rawString (92 :: e :: r) = option_map (fun x => (92 :: e :: fst x, snd x)) (rawString r).
Proof. reflexivity. Qed.
Lemma hexdig_plain c v : hexdig c v -> c <> 34 /\ c <> 92.
Proof. inversion 1; lia. Qed.
Lemma rawString_raw r b : raw_string r -> rawString (r ++ 34 :: b) = Some (r, b).
Proof.
  induction 1 as [|c r C Q K R IH|e c r I R IH|x v r Hx R IH].
  - reflexivity.
  - cbn [app]. rewrite rawString_plain, IH by auto. reflexivity.
  - cbn [app]. rewrite rawString_esc, IH. reflexivity.
  - destruct Hx as (x1 & x2 & x3 & x4 & v1 & v2 & v3 & v4 & -> & H1 & H2 & H3 & H4 & _).
    cbn [app]. apply hexdig_plain in H1, H2, H3, H4. rewrite rawString_esc, !rawString_plain, IH by tauto. reflexivity.
Qed.
Lemma member_name n s w2 w3 c r : raw_string n -> bytes_ok n -> loose_str n s -> gap w2 -> gap w3 -> jspace c = false ->
  memberName (34 :: n ++ 34 :: w2 ++ 58 :: w3 ++ c :: r) = Some (s, c :: r).
Proof.
  intros R B L G2 G3 J. cbn [memberName]. cbn [Z.eqb Pos.eqb]. rewrite rawString_raw by auto. rewrite (unquoted_loose _ _ L B).
  rewrite skipSpace_gap by auto. cbn [Z.eqb Pos.eqb]. rewrite skipSpace_gap by auto. reflexivity.
Qed.
Lemma string_value cur v t rest x : jtext v t -> bytes_ok t ->
  (stringValue cur (t ++ rest) = Some x <-> exists s, x = (s, rest) /\ sets_string cur v s).
Proof.
  intros T B. inversion T as [| | |t0 neg i f e N|r R| | | |]; subst;
    try (split; [discriminate|intros (s & _ & S); inversion S; fail]).
  - split; [intros E; cbn in E; injection E as <-; exists cur; split; [reflexivity|constructor]|].
    intros (s & -> & S). inversion S; subst. reflexivity.
  - destruct (number_head _ _ _ _ _ N) as (c & r & -> & C). cbn [app stringValue].
    replace (c =? 34) with false by lia. replace (c =? 110) with false by lia. split; [discriminate|intros (s & _ & S); inversion S].
  - apply Forall_cons_iff in B. destruct B as [_ B]. apply bytes_app in B. destruct B as [B _].
    cbn [app stringValue]. cbn [Z.eqb Pos.eqb]. rewrite <- app_assoc. cbn [app]. rewrite rawString_raw by auto.
    destruct (loose_exists r R B) as (s & L). rewrite (unquoted_loose _ _ L B). cbn [option_map]. split.
    + intros E. injection E as <-. exists s. split; auto. constructor. exact L.
    + intros (s' & -> & S). inversion S as [r' s0 L'|]; subst. rewrite (loose_unique _ _ _ L' L B). reflexivity.
Qed.

(** ** Metadata *)
Lemma with_put k v m m' : with_pair k v m m' <-> m' = putPair k v m.
Proof.
  split.
  - intros [(a & w & b & -> & N & ->)|(N & ->)].
    + induction a as [|[k' v'] a IH]; cbn [app putPair]; [rewrite beq_refl; reflexivity|].
      cbn [map fst In] in N. destruct (beq k k') eqn:E; [apply beq_eq in E; subst; tauto|]. f_equal. apply IH. tauto.
    + induction m as [|[k' v'] m IH]; cbn [app putPair]; [reflexivity|]. cbn [map fst In] in N.
      destruct (beq k k') eqn:E; [apply beq_eq in E; subst; tauto|]. f_equal. apply IH. tauto.
  - intros ->. induction m as [|[k' v'] m IH]; cbn [putPair]; [right; split; auto|].
    destruct (beq k k') eqn:E; [apply beq_eq in E; subst k'; left; exists [], v', m; split; [reflexivity|split; [intros []|reflexivity]]|].
    assert (Ne : k' <> k) by (intros ->; rewrite beq_refl in E; discriminate).
    destruct IH as [(a & w & b & Em & N & Ep)|(N & Ep)].
    + left. exists ((k', v') :: a), w, b. rewrite Em at 1. rewrite Ep. split; [reflexivity|]. split; [|reflexivity]. cbn. intuition.
    + right. rewrite Ep. split; [|reflexivity]. cbn. intuition.
Qed.
Lemma app_cons_assoc {A} (a : list A) x b c : (a ++ x :: b) ++ c = a ++ x :: b ++ c.
Proof. rewrite <- app_assoc. reflexivity. Qed.
Ltac unbytes :=
  repeat match goal with
         | H : bytes_ok (_ ++ _) |- _ => apply bytes_app in H; destruct H
         | H : bytes_ok (_ :: _) |- _ => apply Forall_cons_iff in H; destruct H as [_ H]
         | H : Forall _ (_ ++ _) |- _ => apply bytes_app in H; destruct H
         end.
Lemma meta_members l b : jmembers l b -> bytes_ok b -> forall f m rest x, (List.length b < f)%nat ->
  (metaMembers f m (b ++ 125 :: rest) = Some x <-> exists m', x = (m', rest) /\ sets_pairs m l m').
Proof.
  induction 1 as [n v w1 w2 w3 b w4 G1 R G2 G3 T G4|n v l w1 w2 w3 b w4 b' G1 R G2 G3 T G4 M IH]; intros B f m rest x F;
    (destruct f as [|f]; [lia|]); unbytes; pose proof (text_head _ _ T) as (c & r & Eb & J & _); (destruct (loose_exists n R ltac:(auto)) as (k & K));
    repeat (rewrite ?app_cons_assoc, <- ?app_assoc; cbn [app]); cbn [metaMembers]; rewrite skipSpace_gap by auto; cbn [Z.eqb Pos.eqb];
    match goal with |- context [memberName (34 :: n ++ 34 :: w2 ++ 58 :: w3 ++ b ++ ?z)] =>
      replace (memberName (34 :: n ++ 34 :: w2 ++ 58 :: w3 ++ b ++ z)) with (Some (k, b ++ z)) by (rewrite Eb; cbn [app]; symmetry; apply member_name; auto)
    end; cbv iota; clear Eb J.
  - destruct (stringValue [] (b ++ w4 ++ 125 :: rest)) as [[s r2]|] eqn:SV.
    + apply (string_value _ v) in SV; auto. destruct SV as (s' & E & S). injection E as <- ->. rewrite skipSpace_gap by auto. cbn [Z.eqb Pos.eqb]. split.
      * intros E. injection E as <-. eexists. split; [reflexivity|]. econstructor; [exact K|exact S|apply with_put; reflexivity|constructor].
      * intros (m' & -> & P). inversion P as [|m0 n0 k0 v0 s0 l0 m1 m2 K0 S0 W0 P0]; subst. inversion P0; subst.
        rewrite (loose_unique _ _ _ K0 K ltac:(auto)) in *.
        assert (s0 = s) as ->.
        { assert (Q : stringValue [] (b ++ w4 ++ 125 :: rest) = Some (s0, w4 ++ 125 :: rest)) by (apply (string_value [] v); eauto).
          assert (Q' : stringValue [] (b ++ w4 ++ 125 :: rest) = Some (s, w4 ++ 125 :: rest)) by (apply (string_value [] v); eauto). congruence. }
        apply with_put in W0. rewrite W0. reflexivity.
    + split; [discriminate|]. intros (m' & -> & P). inversion P as [|m0 n0 k0 v0 s0 l0 m1 m2 K0 S0 W0 P0]; subst.
      assert (Q : stringValue [] (b ++ w4 ++ 125 :: rest) = Some (s0, w4 ++ 125 :: rest)) by (apply (string_value [] v); eauto). congruence.
  - destruct (stringValue [] (b ++ w4 ++ 44 :: b' ++ 125 :: rest)) as [[s r2]|] eqn:SV.
    + apply (string_value _ v) in SV; auto. destruct SV as (s' & E & S). injection E as <- ->. rewrite skipSpace_gap by auto. cbn [Z.eqb Pos.eqb].
      rewrite IH; auto.
      2:{ repeat (rewrite ?app_length in F; cbn [List.length] in F). lia. }
      split.
      * intros (m' & -> & P). exists m'. split; auto. econstructor; [exact K|exact S|apply with_put; reflexivity|exact P].
      * intros (m' & -> & P). exists m'. split; auto. inversion P as [|m0 n0 k0 v0 s0 l0 m1 m2 K0 S0 W0 P0]; subst.
        rewrite (loose_unique _ _ _ K0 K ltac:(auto)) in *.
        assert (s0 = s) as ->.
        { assert (Q : stringValue [] (b ++ w4 ++ 44 :: b' ++ 125 :: rest) = Some (s0, w4 ++ 44 :: b' ++ 125 :: rest)) by (apply (string_value [] v); eauto).
          assert (Q' : stringValue [] (b ++ w4 ++ 44 :: b' ++ 125 :: rest) = Some (s, w4 ++ 44 :: b' ++ 125 :: rest)) by (apply (string_value [] v); eauto). congruence. }
        apply with_put in W0. rewrite <- W0. exact P0.
    + split; [discriminate|]. intros (m' & -> & P). inversion P as [|m0 n0 k0 v0 s0 l0 m1 m2 K0 S0 W0 P0]; subst.
      assert (Q : stringValue [] (b ++ w4 ++ 44 :: b' ++ 125 :: rest) = Some (s0, w4 ++ 44 :: b' ++ 125 :: rest)) by (apply (string_value [] v); eauto). congruence.
Qed.
Lemma meta_value m v t rest x : jtext v t -> bytes_ok t ->
  (metaValue m (t ++ rest) = Some x <-> exists m', x = (m', rest) /\ sets_meta m v m').
Proof.
  intros T B. inversion T as [| | |t0 neg i f e N|r R| | |w G|l b M]; subst;
    try (split; [discriminate|intros (s & _ & S); inversion S; fail]).
  - split; [intros E; cbn in E; injection E as <-; exists []; split; [reflexivity|constructor]|].
    intros (s & -> & S). inversion S; subst. reflexivity.
  - destruct (number_head _ _ _ _ _ N) as (c & r & -> & C). cbn [app metaValue].
    replace (c =? 123) with false by lia. replace (c =? 110) with false by lia. split; [discriminate|intros (s & _ & S); inversion S].
  - cbn [app metaValue]. cbn [Z.eqb Pos.eqb]. rewrite <- app_assoc. cbn [app metaMembers]. rewrite skipSpace_gap by auto. cbn [Z.eqb Pos.eqb].
    split; [intros E; injection E as <-; exists m; split; [reflexivity|constructor; constructor]|].
    intros (m' & -> & S). inversion S as [l m0 P|]; subst. inversion P; subst. reflexivity.
  - unbytes. cbn [app metaValue]. cbn [Z.eqb Pos.eqb]. rewrite <- app_assoc. cbn [app]. rewrite meta_members; eauto.
    2:{ rewrite app_length. cbn. lia. }
    split; intros (m' & -> & P); exists m'; (split; [reflexivity|]); [constructor; exact P|inversion P; subst; auto].
Qed.

(** ** Names *)
Definition small (c : byte) : Prop := 97 <= c <= 122 /\ c <> 107.
Lemma alike_head c s f : Forall small f -> 128 <= c -> c <> 197 -> ~ alike (c :: s) f.
Proof. intros F C N A. inversion A; subst; try (inversion F as [|? ? Sm _]; subst; unfold small in Sm; lia). Qed.
Lemma fold_alike rs : Forall scalar rs -> forall n f, Forall small f -> (List.length (concat (map utf8_of rs)) <= n)%nat ->
  (foldName n (concat (map utf8_of rs)) = map (fun c => c - 32) f <-> alike (concat (map utf8_of rs)) f).
Proof.
  induction 1 as [|c rs C Fs IH]; intros n f F L; cbn [map concat] in *.
  - split; [destruct n; (destruct f; [constructor|discriminate])|]. intros A. inversion A; subst. destruct n; reflexivity.
  - rewrite app_length in L. pose proof (utf8_len c) as U. destruct n as [|n]; [lia|]. set (s := concat (map utf8_of rs)) in *.
    destruct (Z_lt_ge_dec c 128) as [Lc|Lc].
    + assert (Pc : 0 <= c) by (red in C; lia). rewrite ascii_utf8 in * by lia. cbn [app foldName]. replace (c <? 128) with true by lia. cbn [List.length] in L.
      destruct f as [|x f]; [split; [discriminate|intros A; inversion A]|]. inversion F as [|? ? Sx Ff]; subst. unfold small in Sx. cbn [map].
      specialize (IH n f Ff ltac:(lia)). split.
      * intros E. injection E as E1 E2. apply IH in E2. destruct (in_rng 97 122 c) eqn:R.
        -- assert (c = x) as -> by lia. constructor. exact E2.
        -- assert (c = x - 32) as -> by lia. constructor; [lia|exact E2].
      * intros A. inversion A as [|c0 n0 f0 A0|c0 n0 f0 Rg A0|n0 f0 A0 E]; subst.
        -- replace (in_rng 97 122 x) with true by (unfold in_rng; lia). f_equal. apply IH. exact A0.
        -- replace (in_rng 97 122 (x - 32)) with false by (unfold in_rng; lia). f_equal. apply IH. exact A0.
        -- lia.
    + destruct (high_head c C ltac:(lia)) as (y & z & E & Hy). pose proof (decode_utf8 c s C) as D. pose proof (skip_utf8 c s) as Sk.
      assert (Fi : firstn (List.length (utf8_of c)) (utf8_of c ++ s) = utf8_of c) by (rewrite firstn_app, Nat.sub_diag, firstn_all, app_nil_r; reflexivity).
      assert (Un : foldName (S n) (utf8_of c ++ s) = (if c =? 383 then [83] else if c =? 8490 then [75] else utf8_of c) ++ foldName n s).
      { rewrite E in *. cbn [app] in *. cbn [foldName]. replace (y <? 128) with false by lia. rewrite D, Fi, Sk. reflexivity. }
      rewrite Un. clear Un Fi Sk D. destruct (c =? 383) eqn:Q; [|destruct (c =? 8490) eqn:Q2].
      * assert (c = 383) as -> by lia. cbn [app]. destruct f as [|x f]; [split; [discriminate|intros A; inversion A]|]. inversion F as [|? ? Sx Ff]; subst. unfold small in Sx. cbn [map].
        specialize (IH n f Ff ltac:(lia)). split.
        -- intros K. injection K as K1 K2. assert (x = 115) as -> by lia. apply al_long_s. apply IH. exact K2.
        -- intros A. change (utf8_of 383 ++ s) with (197 :: 191 :: s) in A. inversion A as [|c0 n0 f0 A0|c0 n0 f0 Rg A0|n0 f0 A0]; subst; try lia. f_equal. apply IH. exact A0.
      * assert (c = 8490) as -> by lia. split.
        -- destruct f as [|x f]; [discriminate|]. intros K. cbn in K. injection K as K1 K2. inversion F as [|? ? Sx Ff]; subst. unfold small in Sx. lia.
        -- intros A. destruct (alike_head 226 ([132; 170] ++ s) f F); [lia|lia|exact A].
      * split.
        -- rewrite E. cbn [app]. destruct f as [|x f]; [discriminate|]. intros K. injection K as K1 K2. inversion F as [|? ? Sx Ff]; subst. unfold small in Sx. lia.
        -- intros A. exfalso. destruct f as [|x f]; [inversion A as [A0| | |]; symmetry in A0; apply app_eq_nil in A0; destruct A0 as [A0 _]; destruct (utf8_nonempty c A0)|].
           inversion F as [|? ? Sx Ff]; subst. unfold small in Sx. inversion A as [|c0 n0 f0 A0 E0|c0 n0 f0 Rg A0 E0|n0 f0 A0 E0]; subst.
           ++ rewrite E in E0. injection E0 as -> _. lia.
           ++ rewrite E in E0. injection E0 as E0 _. lia.
           ++ change (utf8_of 383 ++ n0 = utf8_of c ++ s) in E0. apply utf8_prefix in E0; [|red; lia|exact C]. destruct E0 as [E0 _]. lia.
Qed.
Lemma fold_name s f : utf8 s -> Forall small f -> (foldName (List.length s) s = map (fun c => c - 32) f <-> alike s f).
Proof. intros (rs & S & ->) F. apply fold_alike; auto. Qed.
Definition field_name (f : efield) : string := match f with FCode => "code" | FMsg => "msg" | FMeta => "meta" end.
Lemma field_folds n f : fieldNamed n = Some f <-> foldName (List.length n) n = map (fun c => c - 32) (str (field_name f)).
Proof.
  unfold fieldNamed.
  destruct (beq n (str "code")) eqn:E1; [apply beq_eq in E1; subst n; vm_compute; destruct f; split; (reflexivity || discriminate)|].
  destruct (beq n (str "msg")) eqn:E2; [apply beq_eq in E2; subst n; vm_compute; destruct f; split; (reflexivity || discriminate)|].
  destruct (beq n (str "meta")) eqn:E3; [apply beq_eq in E3; subst n; vm_compute; destruct f; split; (reflexivity || discriminate)|].
  clear E1 E2 E3. cbv zeta. generalize (foldName (List.length n) n). intros m.
  destruct (beq m (str "CODE")) eqn:E1; [apply beq_eq in E1; subst m; vm_compute; destruct f; split; (reflexivity || discriminate)|].
  destruct (beq m (str "MSG")) eqn:E2; [apply beq_eq in E2; subst m; vm_compute; destruct f; split; (reflexivity || discriminate)|].
  destruct (beq m (str "META")) eqn:E3; [apply beq_eq in E3; subst m; vm_compute; destruct f; split; (reflexivity || discriminate)|].
  split; [discriminate|]. intros ->. destruct f; vm_compute in E1, E2, E3; discriminate.
Qed.
Lemma field_small f : Forall small (str (field_name f)).
Proof. destruct f; vm_compute str; repeat (apply Forall_cons; [unfold small; lia|]); apply Forall_nil. Qed.
Lemma field_named n f : utf8 n -> (fieldNamed n = Some f <-> alike n (str (field_name f))).
Proof. intros U. rewrite field_folds. apply fold_name; auto. apply field_small. Qed.
Lemma field_called r s f : loose_str r s -> bytes_ok r -> (fieldNamed s = Some f <-> called r (field_name f)).
Proof.
  intros L B. rewrite (field_named s f (loose_utf8 _ _ L)). split; [intros A; exists s; auto|]. intros (s' & L' & A). rewrite (loose_unique _ _ _ L L' B). exact A.
Qed.

(** ** Errors *)
Definition info (e : gerror) : error_info := (ge_code e, ge_msg e, ge_meta e).
(** One member. *)
Definition sets_one (e : gerror) (f : efield) (v : jval) (e' : gerror) : Prop :=
  match f with
  | FCode => exists c, sets_string (ge_code e) v c /\ e' = mkGerror c (ge_msg e) (ge_meta e)
  | FMsg => exists m, sets_string (ge_msg e) v m /\ e' = mkGerror (ge_code e) m (ge_meta e)
  | FMeta => exists d, sets_meta (ge_meta e) v d /\ e' = mkGerror (ge_code e) (ge_msg e) d
  end.
Lemma sets_error_cons e n v l e' : sets_error (info e) ((n, v) :: l) e' <->
  exists f e1, called n (field_name f) /\ sets_one e f v e1 /\ sets_error (info e1) l e'.
Proof.
  destruct e as [c m d]. split.
  - intros S. inversion S; subst; [exists FCode|exists FMsg|exists FMeta]; cbn [sets_one ge_code ge_msg ge_meta field_name]; eexists; (split; [eassumption|]); (split; [eexists; split; [eassumption|reflexivity]|assumption]).
  - intros (f & e1 & K & S & R). destruct f; destruct S as (x & S & ->); cbn [info ge_code ge_msg ge_meta field_name] in *; [eapply se_code|eapply se_msg|eapply se_meta]; eauto.
Qed.
Definition takeMember (e : gerror) (o : option efield) (s : list byte) : option (gerror * list byte) :=
  match o with
  | None => None
  | Some FCode => option_map (fun x => (mkGerror (fst x) (ge_msg e) (ge_meta e), snd x)) (stringValue (ge_code e) s)
  | Some FMsg => option_map (fun x => (mkGerror (ge_code e) (fst x) (ge_meta e), snd x)) (stringValue (ge_msg e) s)
  | Some FMeta => option_map (fun x => (mkGerror (ge_code e) (ge_msg e) (fst x), snd x)) (metaValue (ge_meta e) s)
  end.
Lemma take_member e f v t rest x : jtext v t -> bytes_ok t ->
  (takeMember e (Some f) (t ++ rest) = Some x <-> exists e1, x = (e1, rest) /\ sets_one e f v e1).
Proof.
  intros T B. destruct f; cbn [takeMember sets_one];
  match goal with |- option_map _ ?o = _ <-> _ => destruct o as [[y r]|] eqn:E end; cbn [option_map fst snd].
  - apply (string_value _ v) in E; auto. destruct E as (s & E & S). injection E as -> ->. split.
    + intros K. injection K as <-. eauto.
    + intros (e1 & -> & s' & S' & ->). assert (s' = s) as -> by (assert (A : forall z, sets_string (ge_code e) v z -> stringValue (ge_code e) (t ++ rest) = Some (z, rest)) by (intros z Z; apply (string_value _ v); eauto); pose proof (A _ S); pose proof (A _ S'); congruence). reflexivity.
  - split; [discriminate|]. intros (e1 & -> & s' & S' & ->). assert (A : stringValue (ge_code e) (t ++ rest) = Some (s', rest)) by (apply (string_value _ v); eauto). congruence.
  - apply (string_value _ v) in E; auto. destruct E as (s & E & S). injection E as -> ->. split.
    + intros K. injection K as <-. eauto.
    + intros (e1 & -> & s' & S' & ->). assert (s' = s) as -> by (assert (A : forall z, sets_string (ge_msg e) v z -> stringValue (ge_msg e) (t ++ rest) = Some (z, rest)) by (intros z Z; apply (string_value _ v); eauto); pose proof (A _ S); pose proof (A _ S'); congruence). reflexivity.
  - split; [discriminate|]. intros (e1 & -> & s' & S' & ->). assert (A : stringValue (ge_msg e) (t ++ rest) = Some (s', rest)) by (apply (string_value _ v); eauto). congruence.
  - apply (meta_value _ v) in E; auto. destruct E as (s & E & S). injection E as -> ->. split.
    + intros K. injection K as <-. eauto.
    + intros (e1 & -> & s' & S' & ->). assert (s' = s) as -> by (assert (A : forall z, sets_meta (ge_meta e) v z -> metaValue (ge_meta e) (t ++ rest) = Some (z, rest)) by (intros z Z; apply (meta_value _ v); eauto); pose proof (A _ S); pose proof (A _ S'); congruence). reflexivity.
  - split; [discriminate|]. intros (e1 & -> & s' & S' & ->). assert (A : metaValue (ge_meta e) (t ++ rest) = Some (s', rest)) by (apply (meta_value _ v); eauto). congruence.
Qed.
Lemma error_members_step f e s : errorMembers (S f) e s =
  match skipSpace s with
  | c :: r => if c =? 125 then Some e else match memberName (c :: r) with
    | None => None
    | Some (n, r1) => match takeMember e (fieldNamed n) r1 with
      | None => None
      | Some (e', r2) => match skipSpace r2 with c2 :: r3 => if c2 =? 44 then errorMembers f e' r3 else if c2 =? 125 then Some e' else None | [] => None end
      end
    end
  | [] => None
  end.
Proof. reflexivity. Qed.
Lemma named_one n s e v t rest x : raw_string n -> bytes_ok n -> loose_str n s -> jtext v t -> bytes_ok t ->
  (takeMember e (fieldNamed s) (t ++ rest) = Some x <-> exists f e1, x = (e1, rest) /\ called n (field_name f) /\ sets_one e f v e1).
Proof.
  intros R Bn K T B. destruct (fieldNamed s) as [f|] eqn:N.
  - rewrite (take_member e f v t rest x T B). apply (field_called n s f K Bn) in N. split; [intros (e1 & -> & S); exists f, e1; auto|].
    intros (f' & e1 & -> & K' & S). exists e1. split; auto. assert (f = f') as ->; [|exact S].
    apply (field_called n s f K Bn) in N. apply (field_called n s f' K Bn) in K'. congruence.
  - split; [discriminate|]. intros (f & e1 & -> & K' & S). apply (field_called n s f K Bn) in K'. congruence.
Qed.
Lemma info_inj e e' : info e = info e' -> e = e'.
Proof. destruct e, e'. unfold info. cbn. congruence. Qed.
Lemma error_members l b : jmembers l b -> bytes_ok b -> forall f e rest e', (List.length b < f)%nat ->
  (errorMembers f e (b ++ 125 :: rest) = Some e' <-> sets_error (info e) l (info e')).
Proof.
  induction 1 as [n v w1 w2 w3 b w4 G1 R G2 G3 T G4|n v l w1 w2 w3 b w4 b' G1 R G2 G3 T G4 M IH]; intros B f e rest e' F;
    (destruct f as [|f]; [lia|]); unbytes; pose proof (text_head _ _ T) as (c & r & Eb & J & _); (destruct (loose_exists n R ltac:(auto)) as (k & K));
    repeat (rewrite ?app_cons_assoc, <- ?app_assoc; cbn [app]); rewrite error_members_step; rewrite skipSpace_gap by auto; cbn [Z.eqb Pos.eqb];
    match goal with |- context [memberName (34 :: n ++ 34 :: w2 ++ 58 :: w3 ++ b ++ ?z)] =>
      replace (memberName (34 :: n ++ 34 :: w2 ++ 58 :: w3 ++ b ++ z)) with (Some (k, b ++ z)) by (rewrite Eb; cbn [app]; symmetry; apply member_name; auto)
    end; cbv iota; clear Eb J; rewrite sets_error_cons;
    match goal with |- context [takeMember e (fieldNamed k) (b ++ ?z)] =>
      pose proof (fun x => named_one n k e v b z x R ltac:(auto) K T ltac:(auto)) as NO; destruct (takeMember e (fieldNamed k) (b ++ z)) as [[e1 r2]|] eqn:TM
    end.
  - destruct (proj1 (NO _) eq_refl) as (f0 & e2 & E & K0 & S). injection E as <- ->. rewrite skipSpace_gap by auto. cbn [Z.eqb Pos.eqb]. split.
    + intros E. injection E as <-. exists f0, e1. split; auto. split; auto. constructor.
    + intros (f1 & e2 & K1 & S1 & S2). assert (E : Some (e1, w4 ++ 125 :: rest) = Some (e2, w4 ++ 125 :: rest)) by (apply NO; eauto). injection E as <-.
      remember (info e1) as i1 eqn:E1. remember (info e') as i2 eqn:E2. inversion S2; subst. f_equal. apply info_inj. congruence.
  - split; [discriminate|]. intros (f1 & e2 & K1 & S1 & S2). assert (E : @None (gerror * list byte) = Some (e2, w4 ++ 125 :: rest)) by (apply NO; eauto). discriminate.
  - destruct (proj1 (NO _) eq_refl) as (f0 & e2 & E & K0 & S). injection E as <- ->. rewrite skipSpace_gap by auto. cbn [Z.eqb Pos.eqb].
    rewrite IH; auto.
    2:{ repeat (rewrite ?app_length in F; cbn [List.length] in F). lia. }
    split; [intros P; exists f0, e1; auto|]. intros (f1 & e2 & K1 & S1 & S2).
    assert (E : Some (e1, w4 ++ 44 :: b' ++ 125 :: rest) = Some (e2, w4 ++ 44 :: b' ++ 125 :: rest)) by (apply NO; eauto). injection E as <-. exact S2.
  - split; [discriminate|]. intros (f1 & e2 & K1 & S1 & S2). assert (E : @None (gerror * list byte) = Some (e2, w4 ++ 44 :: b' ++ 125 :: rest)) by (apply NO; eauto). discriminate.
Qed.
Lemma decode_object body l e : bytes_ok body -> json_object body l -> (decodeError body = Some e <-> says_error l (info e)).
Proof.
  intros B (w & t & rest & Eb & G & T & D). unfold decodeError. rewrite (decodeRaw_object body l t w rest Eb G T D). subst body. unbytes.
  inversion T as [| | | | | | |w' G'|l' b M]; subst; cbn [Z.eqb Pos.eqb].
  - rewrite error_members_step. rewrite skipSpace_gap by auto. cbn [Z.eqb Pos.eqb]. split; [intros E; injection E as <-; constructor|].
    intros S. destruct e as [c m d]. unfold says_error, info in S. cbn in S. inversion S; subst. reflexivity.
  - unbytes. apply error_members; auto. rewrite app_length. cbn. lia.
Qed.
Lemma decode_error body e : bytes_ok body ->
  (decodeError body = Some e /\ ge_code e <> [] <-> ge_code e <> [] /\ exists l, json_object body l /\ says_error l (info e)).
Proof.
  intros B. split.
  - intros [H N]. split; auto. pose proof H as H0. unfold decodeError in H. destruct (decodeRaw body) as [[|c r]|] eqn:E; try discriminate.
    destruct (c =? 123) eqn:Q; [|destruct (c =? 110); [injection H as <-; destruct (N eq_refl)|discriminate]].
    assert (c = 123) as -> by lia. destruct (decodeRaw_only _ _ _ E eq_refl) as (w & l & rest & Eb & G & T & D).
    assert (O : json_object body l) by (exists w, (123 :: r), rest; auto). exists l. split; auto. apply (decode_object body l e B O). exact H0.
  - intros [N (l & O & S)]. split; auto. apply (decode_object body l e B O). exact S.
Qed.
Lemma error_decodes body c : bytes_ok body -> (error_body body c <-> c <> [] /\ option_map ge_code (decodeError body) = Some c).
Proof.
  intros B. split.
  - intros (N & l & m & d & O & S). split; auto. assert (E : decodeError body = Some (mkGerror c m d)) by (apply (decode_object body l _ B O); exact S). rewrite E. reflexivity.
  - intros [N E]. split; auto. destruct (decodeError body) as [e|] eqn:D; [|discriminate]. cbn in E. injection E as <-.
    destruct (proj1 (decode_error body e B) (conj D N)) as (_ & l & O & S). exists l, (ge_msg e), (ge_meta e). split; auto.
Qed.
Lemma code_nonempty k : In k twirp_codes -> str k <> [].
Proof. intros I. unfold twirp_codes in I. cbn [In] in I. repeat (destruct I as [<- |I]; [discriminate|]). destruct I. Qed.
Lemma responses q status body x : bytes_ok body -> (go_result q (of_http status body) = x <-> responded q status body x).
Proof.
  intros B. rewrite (go_response q (of_http status body) x B). set (g := of_http status body).
  assert (H : forall c, error_body body c <-> c <> [] /\ gr_err g = Some c) by (intros c; apply error_decodes; exact B).
  split; intros U.
  - destruct U as [r fs t S W T P C|S N|c S R E I|c S R E Z N|c S O P]; cbn [gr_status gr_body g of_http] in *.
    + eapply rp_message; eauto.
    + apply rp_garbage; auto.
    + apply rp_error; auto. apply H. split; [apply code_nonempty; exact I|exact E].
    + eapply rp_odd; eauto. apply H. auto.
    + apply rp_proxy; auto. destruct O as [O|O]; auto. right. intros k K. apply H in K. destruct K as [K1 K2]. destruct O as [O|O]; congruence.
  - destruct U as [r fs t S W T P C|S N|c S R E I|c S R E N|c S O P].
    + eapply und_message; eauto.
    + apply und_garbage; auto.
    + apply und_error; auto. apply (H (str c)). exact E.
    + apply H in E. destruct E as [Z E]. eapply und_odd; eauto.
    + apply (und_proxy q g c); auto. destruct O as [O|O]; auto. right. destruct (gr_err g) as [[|y k]|] eqn:E; auto. destruct (O (y :: k)). apply H. split; [discriminate|reflexivity].
Qed.

(** ** Writing *)
Lemma insert_perm p l : Permutation (p :: l) (insertPair p l).
Proof.
  induction l as [|q r IH]; cbn [insertPair]; [apply Permutation_refl|]. destruct (before (fst p) (fst q)); [apply Permutation_refl|].
  eapply Permutation_trans; [apply perm_swap|]. constructor. exact IH.
Qed.
Lemma sort_perm l : Permutation l (sortPairs l).
Proof.
  induction l as [|p l IH]; cbn [sortPairs fold_right]; [constructor|]. eapply Permutation_trans; [|apply insert_perm]. constructor. exact IH.
Qed.
Lemma go_pairs l : forall d, l <> [] -> Forall pair_ok l -> mends_pairs l d ->
  exists ps, jmembers ps (goPairs l) /\ bytes_ok (goPairs l) /\ Forall2 pair_member d ps /\ Forall (fun m => depth (snd m) = 0) ps.
Proof.
  induction l as [|[k v] l IH]; intros d N F M; [congruence|]. inversion F as [|? ? [Bk Bv] Fl]; subst. inversion M as [|? [k' v'] ? d0 [Mk Mv] M0]; subst. cbn [fst snd] in *.
  destruct (go_string k Bk) as (rk & tk & Ek & Mk' & Rk & Wk & Ok). destruct (go_string v Bv) as (rv & tv & Ev & Mv' & Rv & Wv & Ov).
  rewrite (mends_unique _ _ Mk' _ Mk) in *. rewrite (mends_unique _ _ Mv' _ Mv) in *.
  assert (PM : pair_member (k', v') (rk, JStr rv)) by (split; [exact Rk|exists rv; auto]).
  assert (B34 : forall r, bytes_ok r -> bytes_ok (34 :: r ++ [34])) by (intros r Br; apply bytes_cons; [unfold byte_ok; lia|]; apply bytes_app; split; auto; apply bytes_cons; [unfold byte_ok; lia|constructor]).
  destruct l as [|p l].
  - inversion M0; subst. exists [(rk, JStr rv)]. cbn [goPairs]. rewrite Ek, Ev.
    split; [|split; [|split; [constructor; auto|constructor; auto]]].
    + pose proof (jm_one rk (JStr rv) [] [] [] (34 :: rv ++ [34]) [] gap_nil Wk gap_nil gap_nil (jt_str rv Wv) gap_nil) as J. cbn [app] in J. rewrite !app_nil_r in J. cbn [app]. rewrite <- app_assoc. exact J.
    + apply bytes_app. split; auto. apply bytes_cons; [unfold byte_ok; lia|auto].
  - destruct (IH d0 ltac:(discriminate) Fl M0) as (ps & Jp & Bp & Fp & Dp). exists ((rk, JStr rv) :: ps).
    change (goPairs ((k, v) :: p :: l)) with (goString k ++ 58 :: goString v ++ 44 :: goPairs (p :: l)). rewrite Ek, Ev. set (rest := goPairs (p :: l)) in *.
    split; [|split; [|split; [constructor; auto|constructor; auto]]].
    + pose proof (jm_more rk (JStr rv) ps [] [] [] (34 :: rv ++ [34]) [] rest gap_nil Wk gap_nil gap_nil (jt_str rv Wv) gap_nil Jp) as J. cbn [app] in *. rewrite <- !app_assoc in *. exact J.
    + apply bytes_app. split; auto. apply bytes_cons; [unfold byte_ok; lia|]. apply bytes_app. split; auto. apply bytes_cons; [unfold byte_ok; lia|exact Bp].
Qed.
Lemma cut_is m m1 : cut_message m m1 -> m1 = if 1000000 <? len m then firstn (Z.to_nat 1000000) m else m.
Proof.
  intros [[L ->]|(r & -> & L & N)]; [replace (1000000 <? len m) with false by lia; reflexivity|].
  assert (0 < len r) by (destruct r; [congruence|rewrite len_cons; pose proof (len_nonneg r); lia]). rewrite len_app.
  replace (1000000 <? len m1 + len r) with true by lia. rewrite <- L. unfold len. rewrite Nat2Z.id, firstn_app, Nat.sub_diag, firstn_all, app_nil_r. reflexivity.
Qed.
Lemma cut_exists m : exists m1, cut_message m m1.
Proof.
  destruct (Z_le_gt_dec (len m) 1000000) as [L|L]; [exists m; left; auto|].
  exists (firstn (Z.to_nat 1000000) m). right. exists (skipn (Z.to_nat 1000000) m). set (N := Z.to_nat 1000000). assert (Z.of_nat N = 1000000) by (unfold N; apply Z2Nat.id; lia). clearbody N.
  unfold len in *. split; [symmetry; apply firstn_skipn|]. split; [rewrite firstn_length; lia|]. intros E. apply (f_equal (@List.length Z)) in E. rewrite skipn_length in E. cbn in E. lia.
Qed.
Lemma mends_exists s : bytes_ok s -> exists t, mends s t.
Proof. intros B. destruct (go_string s B) as (_ & t & _ & M & _). eauto. Qed.
Lemma pairs_exist d : Forall pair_ok d -> exists d', mends_pairs d d'.
Proof.
  induction 1 as [|[k v] d [Bk Bv] _ IH]; [exists []; constructor|]. destruct IH as (d' & M). destruct (mends_exists _ Bk) as (k' & K). destruct (mends_exists _ Bv) as (v' & V).
  exists ((k', v') :: d'). constructor; auto.
Qed.
Lemma cut_bytes m m1 : cut_message m m1 -> bytes_ok m -> bytes_ok m1.
Proof. intros [[_ ->]|(r & -> & _ & _)] B; auto. apply bytes_app in B. tauto. Qed.
Lemma plain_member n : plain_name n = true -> raw_string (str n) /\ reads_str (str n) (str n).
Proof. intros P. apply plain_raw. apply plain_chars. exact P. Qed.
Lemma marshal_object c m d c' m1 m' d' : bytes_ok c -> bytes_ok m -> Forall pair_ok d ->
  mends c c' -> cut_message m m1 -> mends m1 m' -> mends_pairs d d' ->
  exists l, json_whole (marshalErrorToJSON (mkGerror c m d)) l /\ error_object c' m' d' l /\ bytes_ok (marshalErrorToJSON (mkGerror c m d)).
Proof.
  intros Bc Bm Bd Mc Cm Mm Md. pose proof (cut_bytes _ _ Cm Bm) as Bm1. unfold marshalErrorToJSON. cbn [ge_code ge_msg ge_meta]. rewrite <- (cut_is _ _ Cm).
  destruct (go_string c Bc) as (rc & tc & Ec & Mc' & Rc & Wc & Oc). destruct (go_string m1 Bm1) as (rm & tm & Em & Mm' & Rm & Wm & Om).
  rewrite (mends_unique _ _ Mc' _ Mc) in *. rewrite (mends_unique _ _ Mm' _ Mm) in *. rewrite Ec, Em.
  destruct (plain_member "code" eq_refl) as [W1 R1]. destruct (plain_member "msg" eq_refl) as [W2 R2]. destruct (plain_member "meta" eq_refl) as [W3 R3].
  assert (B34 : forall r, bytes_ok r -> bytes_ok (34 :: r ++ [34])) by (intros r Br; apply bytes_cons; [unfold byte_ok; lia|]; apply bytes_app; split; auto; apply bytes_cons; [unfold byte_ok; lia|constructor]).
  assert (Whole : forall l b, jmembers l b -> depth (JObj l) <= 10000 -> json_whole (123 :: b ++ [125]) l).
  { intros l b J D. exists [], (123 :: b ++ [125]), []. cbn [app]. rewrite app_nil_r. split; [reflexivity|]. split; [exact gap_nil|]. split; [exact gap_nil|]. split; auto. apply jt_obj. exact J. }
  assert (Last : forall r, raw_string r -> forall n, raw_string n -> jmembers [(n, JStr r)] (34 :: n ++ 34 :: 58 :: 34 :: r ++ [34])).
  { intros r Wr n Wn. pose proof (jm_one n (JStr r) [] [] [] (34 :: r ++ [34]) [] gap_nil Wn gap_nil gap_nil (jt_str r Wr) gap_nil) as J. cbn [app] in J. rewrite !app_nil_r in J. exact J. }
  assert (More : forall r, raw_string r -> forall n, raw_string n -> forall l b, jmembers l b -> jmembers ((n, JStr r) :: l) (34 :: n ++ 34 :: 58 :: 34 :: r ++ 34 :: 44 :: b)).
  { intros r Wr n Wn l b Jl. pose proof (jm_more n (JStr r) l [] [] [] (34 :: r ++ [34]) [] b gap_nil Wn gap_nil gap_nil (jt_str r Wr) gap_nil Jl) as J. cbn [app] in J. rewrite <- !app_assoc in J. exact J. }
  destruct d as [|p d].
  - inversion Md; subst. exists [(str "code", JStr rc); (str "msg", JStr rm)].
    pose proof (Whole _ _ (More rc Wc _ W1 _ _ (Last rm Wm _ W2))) as K.
    assert (Eq : str "{""code"":" ++ (34 :: rc ++ [34]) ++ str ",""msg"":" ++ (34 :: rm ++ [34]) ++ [] ++ [125] =
                 123 :: (34 :: str "code" ++ 34 :: 58 :: 34 :: rc ++ 34 :: 44 :: 34 :: str "msg" ++ 34 :: 58 :: 34 :: rm ++ [34]) ++ [125]).
    { change (str "{""code"":") with (123 :: 34 :: str "code" ++ [34; 58]). change (str ",""msg"":") with (44 :: 34 :: str "msg" ++ [34; 58]).
      repeat (rewrite <- ?app_assoc; cbn [app]). reflexivity. }
    cbn [app] in Eq |- *. cbn [app] in K. rewrite Eq. split; [apply K; vm_compute; discriminate|]. split.
    + exists (str "code"), rc, (str "msg"), rm, []. split; [reflexivity|]. split; [exact R1|]. split; [exact Rc|]. split; [exact R2|]. split; [exact Rm|]. left. auto.
    + rewrite <- Eq. vm_compute str. cbn [app]. repeat (apply bytes_cons; [unfold byte_ok; lia|]). repeat first [apply bytes_app; split | apply bytes_cons; [unfold byte_ok; lia|] | assumption | apply Forall_nil].
  - destruct (Permutation_Forall2 (sort_perm (p :: d)) Md) as (d2 & Pm & M2).
    assert (Fs : Forall pair_ok (sortPairs (p :: d))) by (eapply Permutation_Forall; [apply sort_perm|exact Bd]).
    assert (Ns : sortPairs (p :: d) <> []) by (intros E; pose proof (sort_perm (p :: d)) as Ps; rewrite E in Ps; apply Permutation_sym, Permutation_nil in Ps; discriminate).
    destruct (go_pairs _ d2 Ns Fs M2) as (ps & Jp & Bp & Fp & Dp). set (P := goPairs (sortPairs (p :: d))) in *.
    exists [(str "code", JStr rc); (str "msg", JStr rm); (str "meta", JObj ps)].
    assert (J3 : jmembers [(str "meta", JObj ps)] (34 :: str "meta" ++ 34 :: 58 :: 123 :: P ++ [125])).
    { pose proof (jm_one (str "meta") (JObj ps) [] [] [] (123 :: P ++ [125]) [] gap_nil W3 gap_nil gap_nil (jt_obj ps P Jp) gap_nil) as J. cbn [app] in J. rewrite !app_nil_r in J. exact J. }
    pose proof (Whole _ _ (More rc Wc _ W1 _ _ (More rm Wm _ W2 _ _ J3))) as K.
    assert (Eq : str "{""code"":" ++ (34 :: rc ++ [34]) ++ str ",""msg"":" ++ (34 :: rm ++ [34]) ++ (str ",""meta"":{" ++ P ++ [125]) ++ [125] =
                 123 :: (34 :: str "code" ++ 34 :: 58 :: 34 :: rc ++ 34 :: 44 :: 34 :: str "msg" ++ 34 :: 58 :: 34 :: rm ++ 34 :: 44 :: 34 :: str "meta" ++ 34 :: 58 :: 123 :: P ++ [125]) ++ [125]).
    { change (str "{""code"":") with (123 :: 34 :: str "code" ++ [34; 58]). change (str ",""msg"":") with (44 :: 34 :: str "msg" ++ [34; 58]).
      change (str ",""meta"":{") with (44 :: 34 :: str "meta" ++ [34; 58; 123]). repeat (rewrite <- ?app_assoc; cbn [app]). reflexivity. }
    rewrite Eq. split; [apply K|split].
    + assert (Dz : fold_right (fun m z => Z.max (depth (snd m)) z) 0 ps = 0) by (clear -Dp; induction Dp as [|m ps Hm _ IH]; cbn; [reflexivity|rewrite Hm, IH; reflexivity]).
      cbn [depth fold_right snd]. rewrite Dz. lia.
    + exists (str "code"), rc, (str "msg"), rm, [(str "meta", JObj ps)]. split; [reflexivity|]. split; [exact R1|]. split; [exact Rc|]. split; [exact R2|]. split; [exact Rm|].
      right. split; [inversion Md; discriminate|]. exists (str "meta"), ps, d2. auto.
    + rewrite <- Eq. vm_compute str. cbn [app]. repeat (apply bytes_cons; [unfold byte_ok; lia|]).
      repeat first [apply bytes_app; split | apply bytes_cons; [unfold byte_ok; lia|] | assumption | apply Forall_nil].
Qed.

(** ** From the server to the client *)
Lemma pairs_set d : forall ps m, Forall2 pair_member d ps -> NoDup (map fst (m ++ d)) -> sets_pairs m ps (m ++ d).
Proof.
  induction d as [|[k v] d IH]; intros ps m F N; inversion F as [|? [n w] ? ps0 (Rk & r & Ew & Rv) F0]; subst; [rewrite app_nil_r; constructor|]. cbn [fst snd] in *. subst w.
  eapply sp_cons; [apply reads_loose; exact Rk|constructor; apply reads_loose; exact Rv| |].
  - right. split; [|reflexivity]. rewrite map_app in N. cbn [map fst] in N. apply NoDup_remove_2 in N. intros I. apply N. apply in_or_app. auto.
  - replace (m ++ (k, v) :: d) with ((m ++ [(k, v)]) ++ d) by (rewrite <- app_assoc; reflexivity). apply IH; auto. rewrite <- app_assoc. exact N.
Qed.
Lemma alike_refl s : alike s s.
Proof. induction s; constructor; auto. Qed.
Lemma object_says c m d l : error_object c m d l -> NoDup (map fst d) -> exists d', Permutation d d' /\ says_error l (c, m, d').
Proof.
  intros (n1 & r1 & n2 & r2 & rest & -> & R1 & Rc & R2 & Rm & [[-> ->]|(Nd & n3 & ps & d' & -> & R3 & P & F)]) N.
  - exists []. split; [constructor|]. eapply se_code; [eexists; split; [apply reads_loose; exact R1|apply alike_refl]|constructor; apply reads_loose; exact Rc|].
    eapply se_msg; [eexists; split; [apply reads_loose; exact R2|apply alike_refl]|constructor; apply reads_loose; exact Rm|]. constructor.
  - exists d'. split; auto. eapply se_code; [eexists; split; [apply reads_loose; exact R1|apply alike_refl]|constructor; apply reads_loose; exact Rc|].
    eapply se_msg; [eexists; split; [apply reads_loose; exact R2|apply alike_refl]|constructor; apply reads_loose; exact Rm|].
    eapply se_meta; [eexists; split; [apply reads_loose; exact R3|apply alike_refl]|constructor; apply (pairs_set d' ps []); [exact F|]|constructor].
    cbn [app]. eapply Permutation_NoDup; [|exact N]. apply Permutation_map. exact P.
Qed.
Lemma arrives c m d c' m1 m' d' : bytes_ok c -> bytes_ok m -> Forall pair_ok d ->
  mends c c' -> cut_message m m1 -> mends m1 m' -> mends_pairs d d' -> NoDup (map fst d') ->
  exists d2, decodeError (marshalErrorToJSON (mkGerror c m d)) = Some (mkGerror c' m' d2) /\ Permutation d' d2.
Proof.
  intros Bc Bm Bd Mc Cm Mm Md N. destruct (marshal_object c m d c' m1 m' d' Bc Bm Bd Mc Cm Mm Md) as (l & W & O & B).
  destruct (object_says _ _ _ _ O N) as (d2 & P & S). exists d2. split; auto. apply (decode_object _ l _ B (whole_object _ _ W)). exact S.
Qed.
Lemma pairs_total d : forall ps m, Forall2 pair_member d ps -> exists m', sets_pairs m ps m'.
Proof.
  induction d as [|[k v] d IH]; intros ps m F; inversion F as [|? [n w] ? ps0 (Rk & r & Ew & Rv) F0]; subst; [exists m; constructor|]. cbn [fst snd] in *. subst w.
  destruct (IH ps0 (putPair k v m) F0) as (m' & S). exists m'. eapply sp_cons; [apply reads_loose; exact Rk|constructor; apply reads_loose; exact Rv|apply with_put; reflexivity|exact S].
Qed.
Lemma object_code c m d l : error_object c m d l -> exists d', says_error l (c, m, d').
Proof.
  intros (n1 & r1 & n2 & r2 & rest & -> & R1 & Rc & R2 & Rm & X).
  assert (Y : exists d', sets_error (c, m, []) rest (c, m, d')).
  { destruct X as [[-> ->]|(Nd & n3 & ps & d' & -> & R3 & P & F)]; [exists []; constructor|]. destruct (pairs_total d' ps [] F) as (d2 & S). exists d2.
    eapply se_meta; [eexists; split; [apply reads_loose; exact R3|apply alike_refl]|constructor; exact S|constructor]. }
  destruct Y as (d' & Y). exists d'. eapply se_code; [eexists; split; [apply reads_loose; exact R1|apply alike_refl]|constructor; apply reads_loose; exact Rc|].
  eapply se_msg; [eexists; split; [apply reads_loose; exact R2|apply alike_refl]|constructor; apply reads_loose; exact Rm|]. exact Y.
Qed.
(** The code arrives whatever the message and metadata are. *)
Lemma code_arrives t m d : bytes_ok m -> Forall pair_ok d ->
  option_map ge_code (decodeError (marshalErrorToJSON (mkGerror (code_name (code_of t)) m d))) = Some (code_name (code_of t)).
Proof.
  intros Bm Bd. set (c := code_name (code_of t)). assert (A : bytes_ok c /\ utf8 c).
  { apply ascii_utf8s. unfold c. destruct (code_of t); vm_compute; repeat (apply Forall_cons; [split; congruence|]); apply Forall_nil. }
  destruct A as [Bc Uc]. destruct (cut_exists m) as (m1 & Cm). destruct (mends_exists m1 (cut_bytes _ _ Cm Bm)) as (m' & Mm). destruct (pairs_exist d Bd) as (d' & Md).
  destruct (marshal_object c m d c m1 m' d' Bc Bm Bd (mends_same c Uc) Cm Mm Md) as (l & W & O & B). destruct (object_code _ _ _ _ O) as (d2 & S).
  assert (E : decodeError (marshalErrorToJSON (mkGerror c m d)) = Some (mkGerror c m' d2)) by (apply (decode_object _ l _ B (whole_object _ _ W)); exact S).
  rewrite E. reflexivity.
Qed.
Lemma status_code t : status_of (code_of t) <> 200 /\ isHTTPRedirect (status_of (code_of t)) = false.
Proof. destruct (code_of t); split; (reflexivity || discriminate). Qed.
Lemma error_result t m d q : bytes_ok m -> Forall pair_ok d ->
  go_result q (of_http (status_of (code_of t)) (marshalErrorToJSON (mkGerror (code_name (code_of t)) m d))) = go_result q (of_server (writeError t)).
Proof.
  intros Bm Bd. destruct (status_code t) as [S R]. unfold of_http. rewrite (code_arrives t m d Bm Bd). unfold writeError, of_server. cbn [r_body r_status].
  unfold go_result, errorFromResponse. cbn [gr_status gr_err]. apply Z.eqb_neq in S. rewrite S. reflexivity.
Qed.
Lemma text_result status body q : bytes_ok body -> status <> 200 -> (forall k, ~ error_body body k) ->
  go_result q (of_http status body) = go_result q (of_server (mkHresp status Text)).
Proof.
  intros B S N. unfold go_result, errorFromResponse, of_http, of_server. cbn [gr_status gr_err r_body r_status]. apply Z.eqb_neq in S. rewrite S. cbn [negb].
  destruct (isHTTPRedirect status); [reflexivity|]. destruct (option_map ge_code (decodeError body)) as [c|] eqn:E; [|reflexivity].
  destruct (beq c []) eqn:Z; [reflexivity|]. destruct (N c). apply error_decodes; auto. split; auto. intros ->. discriminate.
Qed.
Lemma reads_error body c m d : bytes_ok body ->
  (decodeError body = Some (mkGerror c m d) /\ c <> [] <-> c <> [] /\ exists l, json_object body l /\ says_error l (c, m, d)).
Proof. intros B. exact (decode_error body (mkGerror c m d) B). Qed.
Lemma mends_iff s t : utf8 s -> (mends s t <-> t = s).
Proof. intros U. split; [apply mends_only; exact U|]. intros ->. apply mends_same. exact U. Qed.
Lemma error_code t m d q : bytes_ok m -> Forall pair_ok d ->
  go_result q (of_http (status_of (code_of t)) (marshalErrorToJSON (mkGerror (code_name (code_of t)) m d))) = GErr (code_name (code_of t)) None /\
  go_result q (of_server (writeError t)) = GErr (code_name (code_of t)) None.
Proof.
  intros Bm Bd. rewrite error_result by auto. assert (E : go_result q (of_server (writeError t)) = GErr (code_name (code_of t)) None); [|auto].
  unfold go_result, errorFromResponse, writeError, of_server. cbn [gr_status gr_err r_body r_status]. destruct (code_of t); reflexivity.
Qed.
