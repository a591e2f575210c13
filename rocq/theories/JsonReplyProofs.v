(** JSON replies. *)
From Coq Require Import String SpecFloat.
From Verif Require Import ProofBase GoStrings Lib Server SpecLayout SpecWire Wire Twirp SpecTwirp SpecJson SpecJsonReply LayoutProofs Utf8Proofs WireOut
  TwirpReply JsonScan JsonRead JsonScanProofs JsonReadProofs JsonTokenProofs JsonFieldProofs JsonClaims GoClient JsonWrite JsonWriteProofs.

(** ** Objects *)
Definition wrote (ftoa : f32 -> list byte) (f : jfield) (x : list byte * jval) : Prop :=
  let '(n, k, v) := f in
  appendString (str n) = Some (34 :: fst x ++ [34]) /\ raw_string (fst x) /\ bytes_ok (fst x) /\
  exists t, marshalSingular ftoa k v = Some t /\ jtext (snd x) t /\ bytes_ok t /\ depth (snd x) = 0.
Lemma members_gap l b w : jmembers l b -> gap w -> jmembers l (w ++ b).
Proof.
  intros M G. inversion M; subst; rewrite app_assoc; constructor; auto; apply Forall_app; auto.
Qed.
Lemma wrote_members ftoa sp fs l : Forall2 (wrote ftoa) fs l -> fs <> [] -> exists b, marshalFields ftoa sp fs = Some b /\ jmembers l b /\ bytes_ok b.
Proof.
  induction 1 as [|[[n k] v] [x j] fs l W F IH]; intros N; [congruence|]. clear N. cbn [marshalFields]. cbn [wrote fst snd] in W.
  destruct W as (A & R & B & t & M & T & Bt & D). rewrite A, M.
  destruct fs as [|f fs].
  - inversion F; subst. cbn [marshalFields]. eexists. split; [reflexivity|]. split.
    + replace ((34 :: x ++ [34]) ++ 58 :: t ++ [] ++ []) with ([] ++ 34 :: x ++ 34 :: [] ++ 58 :: [] ++ t ++ []) by (cbn [app]; rewrite <- app_assoc; reflexivity).
      apply jm_one; auto using gap_nil.
    + apply bytes_app. split; [constructor; [unfold byte_ok; lia|]; apply bytes_app; split; auto; repeat constructor; lia|].
      constructor; [unfold byte_ok; lia|]. rewrite !app_nil_r. auto.
  - destruct (IH ltac:(discriminate)) as (b & E & J & Bb). rewrite E. eexists. split; [reflexivity|].
    set (w := if sp then [32] else []). assert (G : gap w) by (unfold w; destruct sp; repeat constructor). split.
    + replace ((34 :: x ++ [34]) ++ 58 :: t ++ (44 :: w) ++ b) with ([] ++ 34 :: x ++ 34 :: [] ++ 58 :: [] ++ t ++ [] ++ 44 :: (w ++ b)) by (cbn [app]; rewrite <- app_assoc; reflexivity).
      apply jm_more; auto using gap_nil. apply members_gap; auto.
    + apply bytes_app. split; [constructor; [unfold byte_ok; lia|]; apply bytes_app; split; auto; repeat constructor; lia|].
      constructor; [unfold byte_ok; lia|]. apply bytes_app. split; auto. constructor; [unfold byte_ok; lia|]. apply bytes_app. split; auto.
      unfold w. destruct sp; repeat constructor; lia.
Qed.
Lemma flat_depth ftoa fs l : Forall2 (wrote ftoa) fs l -> depth (JObj l) <= 10000.
Proof.
  intros F. assert (K : fold_right (fun m d => Z.max (depth (snd m)) d) 0 l = 0); [|cbn [depth]; rewrite K; lia].
  induction F as [|[[n k] v] [x j] fs l W F IH]; [reflexivity|]. cbn [fold_right snd]. destruct W as (_ & _ & _ & t & _ & _ & _ & D). cbn [snd] in D. rewrite D, IH. reflexivity.
Qed.
Lemma wrote_object ftoa sp all fs l : Forall2 (wrote ftoa) (filter (fun f => all || populated (snd f)) fs) l ->
  exists b, marshalJSON ftoa sp all fs = Some b /\ jtext (JObj l) b /\ bytes_ok b /\ depth (JObj l) <= 10000.
Proof.
  intros F. unfold marshalJSON. pose proof (flat_depth _ _ _ F) as D. destruct (filter _ fs) as [|f gs].
  - inversion F; subst. cbn [marshalFields]. eexists. split; [reflexivity|]. split; [apply (jt_obj0 []); constructor|]. split; auto. repeat constructor; lia.
  - destruct (wrote_members ftoa sp _ l F ltac:(discriminate)) as (b & E & M & B). rewrite E. eexists. split; [reflexivity|].
    split; [apply jt_obj; auto|]. split; auto. constructor; [unfold byte_ok; lia|]. apply bytes_app. split; auto. repeat constructor; lia.
Qed.

(** ** Fields *)
Definition plain_name (n : string) : bool := forallb (fun c => (32 <=? c) && (c <? 128) && negb (c =? 34) && negb (c =? 92)) (str n).
Lemma plain_chars n : plain_name n = true -> Forall (fun c => 32 <= c < 128 /\ c <> 34 /\ c <> 92) (str n).
Proof. unfold plain_name. rewrite forallb_forall, Forall_forall. intros H c I. specialize (H c I). cbv beta in H. lia. Qed.
Lemma ascii_utf8s s : Forall (fun c => 0 <= c < 128) s -> bytes_ok s /\ utf8 s.
Proof.
  intros F. split; [eapply Forall_impl; [|exact F]; unfold byte_ok; intros c H; cbv beta in H; lia|]. exists s. split; [eapply Forall_impl; [|exact F]; unfold scalar; intros c H; cbv beta in H; lia|].
  induction F as [|c s C F IH]; [reflexivity|]. cbn [map concat]. rewrite ascii_utf8, <- IH by lia. reflexivity.
Qed.
Lemma name_written n : plain_name n = true -> exists x, appendString (str n) = Some (34 :: x ++ [34]) /\ raw_string x /\ bytes_ok x /\ reads_str x (str n).
Proof.
  intros P. apply plain_chars in P. destruct (ascii_utf8s (str n)) as [B U]; [eapply Forall_impl; [|exact P]; intros c H; cbv beta in H; lia|].
  destruct (append_string _ B U) as (x & A & R & Bx). exists x. repeat split; auto. eapply reads_raw; eauto.
Qed.
(** The value of a field, and what it should show. *)
Definition agrees (k : kind) (v : pval) (s : shown) : Prop :=
  match k, v, s with
  | KUint32, VInt z, SUint z' => z = z' /\ u32_ok z
  | KBool, VBool b, SBool b' => b = b'
  | KString, VStr x, SText y => x = y /\ bytes_ok x /\ utf8 x
  | KFloat, VFloat b, SFloat f => b = f32_bits f /\ degrees f
  | _, _, _ => False
  end.
Lemma read_exp x : exp_of x 0 -> match x with None => Some 0 | Some y => expValue y end = Some 0.
Proof.
  intros X. destruct (exp_parsed x 0 X) as [_ P]. cbn in P. destruct x as [[|c y]|]; auto.
  - inversion X as [|s ds e N _ _ E]; subst. destruct s; [|discriminate]. cbn in *. congruence.
  - unfold parseExp in P. destruct (expValue (c :: y)) as [v|]; [|discriminate]. destruct (_ && _); [exact P|discriminate].
Qed.
Definition float_of_nat (neg : bool) (n : Z) : f32 :=
  let f := match n with Zpos x => binary_normalize f32_prec f32_emax (n * 10 ^ 0) 0 false | _ => S754_zero false end in if neg then SFopp f else f.
Lemma float_sweep z : -1000 <= z <= 1000 -> f32_is (float_of_nat (z <? 0) (Z.abs z)) z.
Proof.
  intros B. pose proof (sweep (-1000) 2001 (fun z => f32_isb (float_of_nat (z <? 0) (Z.abs z)) z) ltac:(vm_compute; reflexivity) z ltac:(lia)) as H.
  apply f32_isb_ok. exact H.
Qed.
Lemma put_float i f z : f32_is f z -> -1000 <= z <= 1000 -> put KFloat i (JNum (written (z <? 0) (Z.abs z))) = Some [(i, VFloat (f32_bits f))].
Proof.
  intros F R. pose proof (itoa_number (z <? 0) (Z.abs z) ltac:(lia)) as N. destruct (number_parse _ _ _ _ _ [] N Logic.I) as (x & P & X). rewrite app_nil_r in P.
  unfold put. cbn [token_of]. rewrite P. cbn [unmarshalScalar].
  assert (E : parseFloat (mkParts (z <? 0) (int_of (itoa (Z.abs z))) [] x) = Some f).
  { unfold parseFloat. cbn [np_exp np_int np_frac np_neg]. rewrite (read_exp x X). change (len []) with 0. rewrite decimal_num.
    destruct (itoa_int (Z.abs z) ltac:(lia)) as [I V]. destruct (int_num _ [] I) as [Q _]. rewrite !app_nil_r in Q. rewrite app_nil_r. change (fold_left _ (int_of (itoa (Z.abs z))) 0) with (num (int_of (itoa (Z.abs z)))).
    rewrite Q, V. change (0 - 0) with 0. change (0 <=? 0) with true. cbv iota.
    pose proof (float_sweep z R) as S. rewrite <- (f32_same _ _ _ S F). unfold float_of_nat in *.
    set (g := match Z.abs z with Zpos _ => _ | _ => _ end) in *.
    destruct g as [s|s| |s m e]; auto; destruct S as [_ S]; destruct (z <? 0); contradiction. }
  rewrite E. reflexivity.
Qed.
Lemma put_text num r s : reads_str r s -> raw_string r -> bytes_ok r -> put KString num (JStr r) = Some [(num, VStr s)].
Proof. intros R W B. unfold put. cbn [token_of]. apply (jstr_reads r s W B) in R. rewrite R. reflexivity. Qed.
Lemma field_written ftoa k n v s : agrees k v s -> plain_name n = true ->
  exists m, wrote ftoa (n, KUint32, v) m /\ reads_str (fst m) (str n) /\ shows s (snd m) /\ jstr (fst m) = Some (str n) /\
    forall num, put k num (snd m) = Some [(num, v)].
Proof.
  intros A P. destruct (name_written n P) as (x & An & Rx & Bx & Sx).
  assert (K : forall j, (exists t, marshalSingular ftoa KUint32 v = Some t /\ jtext j t /\ bytes_ok t /\ depth j = 0) -> shows s j ->
    (forall num, put k num j = Some [(num, v)]) -> exists m, wrote ftoa (n, KUint32, v) m /\ reads_str (fst m) (str n) /\ shows s (snd m) /\ jstr (fst m) = Some (str n) /\
    forall num, put k num (snd m) = Some [(num, v)]).
  { intros j W Sh Pu. exists (x, j). cbn [wrote fst snd]. repeat (split; auto). apply jstr_reads; auto. }
  destruct k, v as [z|b|w|y], s as [z'|b'|y'|f]; cbn [agrees] in A; try contradiction.
  - destruct A as [<- U]. apply (K (JNum (written false z))); cbn [marshalSingular shows].
    + exists (written false z). split; [reflexivity|]. unfold u32_ok in U. split; [apply itoa_text; lia|]. split; [apply itoa_bytes; lia|reflexivity].
    + apply (itoa_integer false z). unfold u32_ok in U. lia.
    + intros num. unfold u32_ok in U. apply (put_uint num _ _ (itoa_text false z ltac:(lia)) (itoa_bytes false z ltac:(lia))).
      constructor; [apply (itoa_integer false z); lia|exact U].
  - subst b'. apply (K (JBool b)); cbn [marshalSingular shows]; auto. exists (str (if b then "true" else "false")%string).
    split; [reflexivity|]. destruct b; (split; [constructor|split; [is_bytes|reflexivity]]).
  - destruct A as (-> & z & R & F). apply (K (JNum (written (z <? 0) (Z.abs z)))); cbn [marshalSingular shows].
    + exists (written (z <? 0) (Z.abs z)). rewrite bits_of, (append_degrees ftoa f z F R) by apply F. split; [reflexivity|].
      split; [apply itoa_text; lia|]. split; [apply itoa_bytes; lia|reflexivity].
    + exists z. split; auto. pose proof (itoa_integer (z <? 0) (Z.abs z) ltac:(lia)) as Q. destruct (z <? 0) eqn:E; [replace z with (- Z.abs z) at 2 by lia|replace z with (Z.abs z) at 2 by lia]; exact Q.
    + intros num. apply put_float; auto.
  - destruct A as (<- & B & U). destruct (append_string y B U) as (t & At & Rt & Bt). apply (K (JStr t)); cbn [marshalSingular shows]; auto.
    + exists (34 :: t ++ [34]). split; auto. split; [constructor; eapply reads_raw; eauto|]. split; [|reflexivity]. constructor; [unfold byte_ok; lia|]. apply bytes_app.
      split; auto. repeat constructor; lia.
    + intros num. apply put_text; auto. eapply reads_raw; eauto.
Qed.

(** ** Messages *)
Definition row := (Z * kind * string * pval * shown)%type.
Definition rows (q : rpc) (t : list byte) (r : resp) : list row :=
  map (fun x => let '(((i, k), n), ((_, v), (_, s))) := x in (i, k, n, v, s))
    (combine (combine (reply_desc q) (reply_names q)) (combine (resp_fields t r) (reply_members t r))).
Definition row_ok (x : row) : Prop := let '(i, k, n, v, s) := x in plain_name n = true /\ agrees k v s.
Lemma rows_ok q t r : reply_to q r -> in_types r -> in_degrees r -> readable r -> time_string t -> Forall row_ok (rows q t r).
Proof.
  intros P T D R (Bt & Ut & _).
  destruct q, r; try contradiction; unfold rows;
    cbn [reply_desc reply_names resp_fields reply_members u32s map app dModified combine
      boot_names bypass_names errors_names fans_names profiles_names temps_names comfort_names speed_names flush_names];
    cbn [in_types in_degrees readable] in *;
    repeat match goal with H : Forall _ (_ :: _) |- _ => apply Forall_cons_iff in H; destruct H | H : _ /\ _ |- _ => destruct H end;
    repeat (apply Forall_cons; [split; [vm_compute; reflexivity|cbn [agrees]; auto]|]); apply Forall_nil.
Qed.
Lemma rows_are q t r : reply_to q r ->
  map (fun x => (fst x, KUint32, snd (snd x))) (combine (resp_names r) (resp_fields t r)) = map (fun x : row => let '(i, k, n, v, s) := x in (n, KUint32, v)) (rows q t r) /\
  reply_members t r = map (fun x : row => let '(i, k, n, v, s) := x in (n, s)) (rows q t r) /\
  named (reply_desc q) (reply_names q) = map (fun x : row => let '(i, k, n, v, s) := x in (i, str n, k)) (rows q t r) /\
  resp_fields t r = map (fun x : row => let '(i, k, n, v, s) := x in (i, v)) (rows q t r).
Proof. intros P. destruct q, r; try contradiction; repeat split. Qed.
Lemma filter_all {A} (l : list A) : filter (fun _ => true) l = l.
Proof. induction l as [|x l IH]; [reflexivity|]. cbn. rewrite IH. reflexivity. Qed.
Lemma names_distinct q : NoDup (map (fun x => snd (fst x)) (named (reply_desc q) (reply_names q))) /\
  NoDup (map (fun x => fst (fst x)) (named (reply_desc q) (reply_names q))).
Proof. destruct q; vm_compute; split; repeat constructor; cbn [In]; intuition discriminate. Qed.
(** All members are known fields. *)
Definition holds (x : row) (m : list byte * jval) : Prop :=
  let '(i, k, n, v, s) := x in jstr (fst m) = Some (str n) /\ put k i (snd m) = Some [(i, v)].
Lemma fields_rows d0 : NoDup (map (fun x => snd (fst x)) d0) -> forall rs l, Forall2 holds rs l -> forall seen m,
  (forall i k n v s, In (i, k, n, v, s) rs -> In (i, str n, k) d0 /\ ~ In i seen) -> NoDup (map (fun x : row => let '(i, k, n, v, s) := x in i) rs) ->
  fields d0 seen m l = Some (rev (map (fun x : row => let '(i, k, n, v, s) := x in (i, v)) rs) ++ m).
Proof.
  intros N rs l F. induction F as [|[[[[i k] n] v] s] [x j] rs l H F IH]; intros seen m S D; [reflexivity|]. cbn [holds fst snd] in H. destruct H as [J P].
  cbn [fields]. rewrite J. destruct (S i k n v s (or_introl eq_refl)) as [Id Is]. apply (find_field d0 N) in Id. rewrite Id.
  replace (existsb (Z.eqb i) seen) with false; [|symmetry; apply not_true_iff_false; intros E; apply existsb_exists in E; destruct E as (y & Iy & E); apply Z.eqb_eq in E; subst y; auto].
  rewrite P. cbn [map] in D. inversion D as [|? ? Ni Nd]; subst. rewrite IH.
  - cbn [map rev app]. rewrite <- app_assoc. reflexivity.
  - intros i' k' n' v' s' I'. destruct (S i' k' n' v' s' (or_intror I')) as [A B]. split; auto. intros [<- |Q]; auto.
    apply Ni. apply in_map_iff. exists (i, k', n', v', s'). auto.
  - exact Nd.
Qed.
Lemma rows_written ftoa rs : Forall row_ok rs -> exists l,
  Forall2 (wrote ftoa) (map (fun x : row => let '(i, k, n, v, s) := x in (n, KUint32, v)) rs) l /\
  Forall2 (fun m x => reads_str (fst x) (str (fst m)) /\ shows (snd m) (snd x)) (map (fun x : row => let '(i, k, n, v, s) := x in (n, s)) rs) l /\
  Forall2 holds rs l.
Proof.
  induction 1 as [|[[[[i k] n] v] s] rs [P A] F (l & IW & IS & IH)]; [exists []; repeat split; constructor|].
  destruct (field_written ftoa k n v s A P) as (m & W & R & Sh & J & Pu). exists (m :: l). cbn [map]. repeat split; constructor; auto.
  cbn [holds]. auto.
Qed.
Lemma reply_written ftoa sp q t r : reply_to q r -> in_types r -> in_degrees r -> readable r -> time_string t ->
  exists b l, resp_json ftoa sp t r = Some b /\ jtext (JObj l) b /\ bytes_ok b /\ depth (JObj l) <= 10000 /\ json_reply t r l /\
    fields (named (reply_desc q) (reply_names q)) [] [] l = Some (rev (resp_fields t r)).
Proof.
  intros P T D R Ti. pose proof (rows_ok q t r P T D R Ti) as O. destruct (rows_are q t r P) as (E1 & E2 & E3 & E4).
  destruct (rows_written ftoa _ O) as (l & W & S & H).
  destruct (wrote_object ftoa sp true (map (fun x => (fst x, KUint32, snd (snd x))) (combine (resp_names r) (resp_fields t r))) l) as (b & M & J & B & Dp).
  { cbn [orb]. rewrite filter_all, E1. exact W. }
  exists b, l. split; [exact M|]. split; auto. split; auto. split; auto. split; [unfold json_reply; rewrite E2; exact S|].
  destruct (names_distinct q) as [N1 N2]. rewrite E4. rewrite <- (app_nil_r (rev _)). apply fields_rows; auto.
  - intros i k n v s I. split; auto. rewrite E3. apply in_map_iff. exists (i, k, n, v, s). auto.
  - rewrite E3 in N2. rewrite map_map in N2. replace (map (fun x : row => let '(i, k, n, v, s) := x in i) (rows q t r)) with (map (fun x : row => fst (fst (let '(i, k, n, v, s) := x in (i, str n, k)))) (rows q t r)); auto.
    apply map_ext. intros [[[[i k] n] v] s]. reflexivity.
Qed.
Lemma read_back q t r : reply_to q r -> in_types r -> read_resp q (rev (resp_fields t r)) = r.
Proof.
  intros P T.
  destruct q, r; try contradiction; cbn [in_types] in T;
    repeat match goal with m : pbBootInfo |- _ => destruct m | m : pbBypass |- _ => destruct m | m : pbTemps |- _ => destruct m | m : pbFans |- _ => destruct m
      | m : pbProfiles |- _ => destruct m | m : pbErrors |- _ => destruct m end; try reflexivity.
  cbn in T. repeat match goal with H : Forall _ (_ :: _) |- _ => apply Forall_cons_iff in H; destruct H end.
  unfold read_resp, getFloat. cbn [resp_fields rev app lookup Z.eqb Pos.eqb]. rewrite !bits_of by assumption. reflexivity.
Qed.
