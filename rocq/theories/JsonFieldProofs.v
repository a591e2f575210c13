(** What protojson makes of the members of an object. *)
From Coq Require Import String.
From Verif Require Import ProofBase GoStrings Lib Server SpecLayout SpecWire Wire Twirp SpecTwirp SpecJson
  JsonScan JsonRead JsonScanProofs JsonReadProofs JsonTokenProofs.

(** The message for a list of members. *)
Definition put (k : kind) (num : Z) (v : jval) : option msg :=
  match token_of v with
  | None => None
  | Some KNull => Some []
  | Some t => match unmarshalScalar k t with
              | None => None
              | Some None => Some []
              | Some (Some x) => Some [(num, x)]
              end
  end.
Fixpoint fields (d : jdesc) (seen : list Z) (m : msg) (l : list (list byte * jval)) : option msg :=
  match l with
  | [] => Some m
  | (n, v) :: l =>
      match jstr n with
      | None => None
      | Some s =>
          match findField s d with
          | None => if clearb v then fields d seen m l else None
          | Some (num, k) => if existsb (Z.eqb num) seen then None
                             else match put k num v with None => None | Some a => fields d (num :: seen) (a ++ m) l end
          end
      end
  end.
Lemma unm_read f d seen m s s' : read s = read s' -> unmarshalFields f d seen m s = unmarshalFields f d seen m s'.
Proof. intros E. destruct f; [reflexivity|]. cbn [unmarshalFields]. rewrite E. reflexivity. Qed.
(** One member. *)
Lemma one_member f d seen m n v w1 w2 w3 b rest last : gap w1 -> raw_string n -> gap w2 -> gap w3 -> jtext v b -> stop rest -> depth v <= 9999 ->
  last = Some KObjectOpen \/ last = Some KComma -> bytes_ok (n ++ 34 :: w2 ++ 58 :: w3 ++ b ++ rest) ->
  match jstr n with
  | None => unmarshalFields (S f) d seen m (mkDec (w1 ++ 34 :: n ++ 34 :: w2 ++ 58 :: w3 ++ b ++ rest) last [true]) = None
  | Some s =>
      match findField s d with
      | None => if clearb v then exists l, afterv l /\ unmarshalFields (S f) d seen m (mkDec (w1 ++ 34 :: n ++ 34 :: w2 ++ 58 :: w3 ++ b ++ rest) last [true]) = unmarshalFields f d seen m (mkDec rest l [true])
                else unmarshalFields (S f) d seen m (mkDec (w1 ++ 34 :: n ++ 34 :: w2 ++ 58 :: w3 ++ b ++ rest) last [true]) = None
      | Some (num, k) => if existsb (Z.eqb num) seen then unmarshalFields (S f) d seen m (mkDec (w1 ++ 34 :: n ++ 34 :: w2 ++ 58 :: w3 ++ b ++ rest) last [true]) = None
        else match put k num v with
             | None => unmarshalFields (S f) d seen m (mkDec (w1 ++ 34 :: n ++ 34 :: w2 ++ 58 :: w3 ++ b ++ rest) last [true]) = None
             | Some a => exists l, afterv l /\ unmarshalFields (S f) d seen m (mkDec (w1 ++ 34 :: n ++ 34 :: w2 ++ 58 :: w3 ++ b ++ rest) last [true]) = unmarshalFields f d (num :: seen) (a ++ m) (mkDec rest l [true])
             end
      end
  end.
Proof.
  intros G1 R G2 G3 T St D La B. pose proof (read_name w1 n w2 (w3 ++ b ++ rest) last [] G1 R G2 B La) as Rn.
  cbn [unmarshalFields]. rewrite Rn. clear Rn. destruct (jstr n) as [s|]; [|reflexivity]. cbn [option_map].
  apply bytes_app in B. destruct B as [_ B]. apply Forall_cons_iff in B. destruct B as [_ B]. apply bytes_app in B. destruct B as [_ B]. apply Forall_cons_iff in B. destruct B as [_ B]. apply bytes_app in B. destruct B as [_ B].
  destruct (findField s d) as [[num k]|].
  - destruct (existsb (Z.eqb num) seen); [reflexivity|]. rewrite read_trim.
    assert (C : composite v \/ ~ composite v) by (destruct v; cbn; tauto). destruct C as [C|C].
    + assert (P : exists t' s', (t' = KArrayOpen \/ t' = KObjectOpen) /\ token_of v = Some t' /\ read (mkDec (w3 ++ b ++ rest) (Some (KName s)) [true]) = Some (t', s')).
      { inversion T; subst; cbn in C; try tauto; eexists _, _; (split; [|split; [reflexivity|]]); try (cbn [app]; apply read_open_arr; [auto|reflexivity]); try (cbn [app]; apply read_open_obj; [auto|reflexivity]); auto. }
      destruct P as (t' & s' & Ht & Tk & Rd). unfold put. rewrite Tk, Rd. destruct Ht as [-> | ->]; destruct k; reflexivity.
    + rewrite (read_scalar v b rest w3 (Some (KName s)) [true] T C St B G3 eq_refl). unfold put. destruct (token_of v) as [t'|] eqn:Tk; [|reflexivity]. cbn [option_map].
      destruct (scalar_token v t' C Tk) as [A M].
      assert (K : forall seen' m', unmarshalFields f d seen' m' (mkDec (jtrim rest) (Some t') [true]) = unmarshalFields f d seen' m' (mkDec rest (Some t') [true])) by (intros; apply unm_read, read_trim).
      destruct t'; try (destruct M); try (destruct (unmarshalScalar k _) as [[x|]|]; [| |reflexivity]); try (eexists; (split; [exact A|]); rewrite K; reflexivity).
  - pose proof (proj1 passes v b T (S (List.length (jtrim (w3 ++ b ++ rest)))) 0 [true] (Some (KName s)) rest (@nil Z) eq_refl St ltac:(lia) D B ltac:(constructor)) as P.
    assert (Tb : jtrim (w3 ++ b ++ rest) = b ++ rest).
    { rewrite jtrim_gap by auto. destruct (text_head v b T) as (c & r & -> & J & _). apply jtrim_head. exact J. }
    cbn [jd_in]. rewrite Tb in *. specialize (P ltac:(lia)). cbn [app] in P. unfold skips_to in P.
    destruct (clearb v); [|rewrite P; reflexivity]. destruct P as (f' & l' & _ & A & P). exists l'. split; auto. rewrite P. cbn. apply unm_read, read_trim.
Qed.
Lemma member_fields l b : jmembers l b -> forall f d seen m last, last = Some KObjectOpen \/ last = Some KComma -> deep snd l <= 9999 -> bytes_ok (b ++ [125]) ->
  (List.length (b ++ [125%Z]) < f)%nat ->
  unmarshalFields f d seen m (mkDec (b ++ [125]) last [true]) = option_map (fun m' => (m', mkDec [] (Some KObjectClose) [])) (fields d seen m l).
Proof.
  induction 1 as [n v w1 w2 w3 b w4 G1 R G2 G3 T G4|n v l w1 w2 w3 b w4 b' G1 R G2 G3 T G4 M IH]; intros f d seen m last La D B L; cbn [deep fold_right snd] in D.
  - destruct f as [|f]; [lia|]. repeat (rewrite <- ?app_assoc in *; cbn [app] in *). apply bytes_app in B. destruct B as [_ B]. apply Forall_cons_iff in B. destruct B as [_ B].
    assert (St : stop (w4 ++ [125])) by (apply stop_gap; auto; right; auto).
    pose proof (one_member f d seen m n v w1 w2 w3 b (w4 ++ [125]) last G1 R G2 G3 T St ltac:(lia) La B) as O.
    assert (E : forall seen' m' l, afterv l -> unmarshalFields f d seen' m' (mkDec (w4 ++ [125]) l [true]) = Some (m', mkDec [] (Some KObjectClose) [])).
    { intros seen' m' l A. repeat (rewrite ?app_length in L; cbn [List.length] in L). destruct f as [|f]; [lia|]. cbn [unmarshalFields]. rewrite read_close_obj; auto. }
    cbn [fields]. destruct (jstr n) as [s|]; [|exact O]. destruct (findField s d) as [[num k]|].
    + destruct (existsb (Z.eqb num) seen); [exact O|]. destruct (put k num v) as [a|]; [|exact O]. destruct O as (l' & A & ->). rewrite E by auto. reflexivity.
    + destruct (clearb v); [|exact O]. destruct O as (l' & A & ->). rewrite E by auto. reflexivity.
  - fold (deep (@snd (list byte) jval) l) in D. destruct f as [|f]; [lia|]. repeat (rewrite <- ?app_assoc in B, L |- *; cbn [app] in B, L |- *). apply bytes_app in B. destruct B as [_ B]. apply Forall_cons_iff in B. destruct B as [_ B].
    assert (St : stop (w4 ++ 44 :: b' ++ [125])) by (apply stop_gap; auto; right; auto).
    pose proof (one_member f d seen m n v w1 w2 w3 b (w4 ++ 44 :: b' ++ [125]) last G1 R G2 G3 T St ltac:(lia) La B) as O.
    assert (E : forall seen' m' l', afterv l' -> unmarshalFields f d seen' m' (mkDec (w4 ++ 44 :: b' ++ [125]) l' [true]) =
      option_map (fun m' => (m', mkDec [] (Some KObjectClose) [])) (fields d seen' m' l)).
    { intros seen' m' l' A. rewrite (unm_read f d seen' m' _ _ (read_comma w4 (b' ++ [125]) l' true [] G4 A)). apply IH; auto; [lia| |].
      - apply bytes_app in B. destruct B as [_ B]. apply Forall_cons_iff in B. destruct B as [_ B]. apply bytes_app in B. destruct B as [_ B]. apply Forall_cons_iff in B. destruct B as [_ B].
        apply bytes_app in B. destruct B as [_ B]. apply bytes_app in B. destruct B as [_ B]. apply bytes_app in B. destruct B as [_ B]. apply Forall_cons_iff in B. tauto.
      - repeat (rewrite ?app_length in L; cbn [List.length] in L). repeat (rewrite ?app_length; cbn [List.length]). lia. }
    cbn [fields]. destruct (jstr n) as [s|]; [|exact O]. destruct (findField s d) as [[num k]|].
    + destruct (existsb (Z.eqb num) seen); [exact O|]. destruct (put k num v) as [a|]; [|exact O]. destruct O as (l' & A & ->). apply E. exact A.
    + destruct (clearb v); [|exact O]. destruct O as (l' & A & ->). apply E. exact A.
Qed.
Lemma unmarshal_object d l t : jtext (JObj l) t -> depth (JObj l) <= 10000 -> bytes_ok t -> unmarshalJSON d t = fields d [] [] l.
Proof.
  intros T D B. cbn [depth] in D. fold (deep (@snd (list byte) jval) l) in D.
  assert (K : forall b, t = 123 :: b ++ [125] -> unmarshalFields (S (List.length t)) d [] [] (mkDec (b ++ [125]) (Some KObjectOpen) [true]) =
    option_map (fun m' => (m', mkDec [] (Some KObjectClose) [])) (fields d [] [] l) -> unmarshalJSON d t = fields d [] [] l).
  { intros b E U. unfold unmarshalJSON. rewrite E at 1. change (123 :: b ++ [125]) with ([] ++ 123 :: b ++ [125]). rewrite (read_open_obj [] (b ++ [125]) None []) by (reflexivity || constructor).
    rewrite (unm_read _ _ _ _ (mkDec (jtrim (b ++ [125])) (Some KObjectOpen) [true]) (mkDec (b ++ [125]) (Some KObjectOpen) [true])) by apply read_trim.
    rewrite U. destruct (fields d [] [] l); reflexivity. }
  inversion T as [| | | | | | |w G|l' b M]; subst.
  - apply (K w eq_refl). cbn [unmarshalFields]. rewrite read_close_obj by auto. reflexivity.
  - apply (K b eq_refl). apply member_fields; [exact M|auto|lia|apply Forall_cons_iff in B; tauto|cbn [List.length]; lia].
Qed.
(** The whole: scanner and decoder. *)
Lemma unjson_object d body m : bytes_ok body ->
  (unjson d body = Some m <-> exists l, json_object body l /\ fields (named d (request_names d)) [] [] l = Some m).
Proof.
  intros B. unfold unjson. split.
  - destruct (decodeRaw body) as [raw|] eqn:R; [|discriminate]. intros U.
    assert (H : exists r, raw = 123 :: r).
    { unfold unmarshalJSON in U. destruct (read (mkDec raw None [])) as [[k s]|] eqn:E; [|discriminate]. destruct k; try discriminate.
      assert (Tr : jtrim raw = raw).
      { unfold decodeRaw in R. destruct (readValue BeginValue [] body) as [y|]; [|discriminate]. cbn in R. injection R as <-. apply jtrim_twice. }
      unfold read, read1, parseNext in E. cbn [jd_in jd_open jd_last] in E. rewrite Tr in E. destruct raw as [|c r]; [discriminate|]. exists r. f_equal.
      destruct (c =? 110); [destruct (matchWithDelim (str "null") (c :: r)); discriminate|].
      destruct (c =? 116); [destruct (matchWithDelim (str "true") (c :: r)); discriminate|].
      destruct (c =? 102); [destruct (matchWithDelim (str "false") (c :: r)); discriminate|].
      destruct ((c =? 45) || isDigit c); [destruct (parseNumber (c :: r)) as [[? ?]|]; discriminate|].
      destruct (c =? 34); [destruct (parseString (S (List.length r)) r) as [[? ?]|]; discriminate|].
      destruct (c =? 123) eqn:C; [apply Z.eqb_eq in C; exact C|].
      repeat match type of E with context [if ?t then _ else _] => destruct t; try discriminate end. }
    destruct H as (r & ->). destruct (decodeRaw_only body _ r R eq_refl) as (w & l & rest & Eb & G & T & D).
    exists l. split; [exists w, (123 :: r), rest; auto|]. rewrite (unmarshal_object _ l _ T D) in U; [exact U|]. rewrite Eb in B. apply bytes_app in B. destruct B as [_ B]. apply bytes_app in B. tauto.
  - intros (l & (w & t & rest & Eb & G & T & D) & F). rewrite (decodeRaw_object body l t w rest Eb G T D).
    rewrite (unmarshal_object _ l t T D); [exact F|]. rewrite Eb in B. apply bytes_app in B. destruct B as [_ B]. apply bytes_app in B. tauto.
Qed.
