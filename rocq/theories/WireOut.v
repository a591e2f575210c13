(** Writing the protobuf encoding, and what the reader makes of it. *)
From Coq Require Import Floats.SpecFloat.
From Verif Require Import ProofBase GoStrings Lib Server Wire SpecLayout SpecWire WireProofs Utf8Proofs.

(** ** What a decoded message contains *)
Lemma last_cons {A} (x : A) l d : last (x :: l) d = last l x.
Proof. revert x d. induction l as [|y l IH]; intros x d; [reflexivity|]. change (last (x :: y :: l) d) with (last (y :: l) d). rewrite (IH y d), (IH y x). reflexivity. Qed.

Lemma lookup_other {A} n m (a : A) l : n <> m -> lookup n ((m, a) :: l) = lookup n l.
Proof. intros H. simpl. replace (n =? m) with false by lia. reflexivity. Qed.
Lemma lookup_same {A} n (a : A) l : lookup n ((n, a) :: l) = Some a.
Proof. simpl. now rewrite Z.eqb_refl. Qed.

Lemma after_uint d n : lookup n d = Some KUint32 -> forall fs m,
  getInt n (after d m fs) = last (map u32 (varints n fs)) (getInt n m).
Proof.
  intros K. induction fs as [|[n' w] fs IH]; intros m; [reflexivity|]. cbn [after varints].
  destruct (Z.eq_dec n n') as [<-|E].
  - rewrite K. destruct w; cbn [taken_of]; rewrite ?IH; auto.
    cbn [map]. rewrite last_cons. unfold getInt at 1. rewrite lookup_same. reflexivity.
  - assert (G : forall v, getInt n ((n', v) :: m) = getInt n m) by (intros v; unfold getInt; rewrite lookup_other; auto).
    destruct (lookup n' d) as [k|]; [destruct (taken_of k w)|]; rewrite IH, ?G; destruct w; auto.
Qed.
Lemma after_enum d n : lookup n d = Some KEnum -> forall fs m,
  getInt n (after d m fs) = last (map i32 (varints n fs)) (getInt n m).
Proof.
  intros K. induction fs as [|[n' w] fs IH]; intros m; [reflexivity|]. cbn [after varints].
  destruct (Z.eq_dec n n') as [<-|E].
  - rewrite K. destruct w; cbn [taken_of]; rewrite ?IH; auto.
    cbn [map]. rewrite last_cons. unfold getInt at 1. rewrite lookup_same. reflexivity.
  - assert (G : forall v, getInt n ((n', v) :: m) = getInt n m) by (intros v; unfold getInt; rewrite lookup_other; auto).
    destruct (lookup n' d) as [k|]; [destruct (taken_of k w)|]; rewrite IH, ?G; destruct w; auto.
Qed.
Lemma after_bool d n : lookup n d = Some KBool -> forall fs m,
  getBool n (after d m fs) = last (map (fun v => negb (v =? 0)) (varints n fs)) (getBool n m).
Proof.
  intros K. induction fs as [|[n' w] fs IH]; intros m; [reflexivity|]. cbn [after varints].
  destruct (Z.eq_dec n n') as [<-|E].
  - rewrite K. destruct w; cbn [taken_of]; rewrite ?IH; auto.
    cbn [map]. rewrite last_cons. unfold getBool at 1. rewrite lookup_same. reflexivity.
  - assert (G : forall v, getBool n ((n', v) :: m) = getBool n m) by (intros v; unfold getBool; rewrite lookup_other; auto).
    destruct (lookup n' d) as [k|]; [destruct (taken_of k w)|]; rewrite IH, ?G; destruct w; auto.
Qed.
Lemma after_float d n : lookup n d = Some KFloat -> forall fs m,
  getFloat n (after d m fs) = last (map le (words n fs)) (getFloat n m).
Proof.
  intros K. induction fs as [|[n' w] fs IH]; intros m; [reflexivity|]. cbn [after words].
  destruct (Z.eq_dec n n') as [<-|E].
  - rewrite K. destruct w; cbn [taken_of]; rewrite ?IH; auto.
    cbn [map]. rewrite last_cons. unfold getFloat at 1. rewrite lookup_same. reflexivity.
  - assert (G : forall v, getFloat n ((n', v) :: m) = getFloat n m) by (intros v; unfold getFloat; rewrite lookup_other; auto).
    destruct (lookup n' d) as [k|]; [destruct (taken_of k w)|]; rewrite IH, ?G; destruct w; auto.
Qed.
Lemma after_str d n : lookup n d = Some KString -> forall fs m,
  getStr n (after d m fs) = last (strings n fs) (getStr n m).
Proof.
  intros K. induction fs as [|[n' w] fs IH]; intros m; [reflexivity|]. cbn [after strings].
  destruct (Z.eq_dec n n') as [<-|E].
  - rewrite K. destruct w; cbn [taken_of]; rewrite ?IH; auto.
    rewrite last_cons. unfold getStr at 1. rewrite lookup_same. reflexivity.
  - assert (G : forall v, getStr n ((n', v) :: m) = getStr n m) by (intros v; unfold getStr; rewrite lookup_other; auto).
    destruct (lookup n' d) as [k|]; [destruct (taken_of k w)|]; rewrite IH, ?G; destruct w; auto.
Qed.

Lemma last_map {A B} (f : A -> B) l d : last (map f l) (f d) = f (last l d).
Proof. revert d. induction l as [|x l IH]; intros d; [reflexivity|]. cbn [map]. rewrite !last_cons. apply IH. Qed.

Lemma get_uint d n fs : lookup n d = Some KUint32 -> getInt n (after d [] fs) = uint_field n fs.
Proof. intros K. rewrite (after_uint d n K). change (getInt n []) with (u32 0). rewrite last_map. reflexivity. Qed.
Lemma get_enum d n fs : lookup n d = Some KEnum -> getInt n (after d [] fs) = enum_field n fs.
Proof.
  intros K. rewrite (after_enum d n K). change (getInt n []) with (i32 0). rewrite last_map.
  unfold enum_field, uint_field, i32. destruct (_ <? _) eqn:E; lia.
Qed.
Lemma get_bool d n fs : lookup n d = Some KBool -> getBool n (after d [] fs) = bool_field n fs.
Proof. intros K. rewrite (after_bool d n K). change (getBool n []) with (negb (0 =? 0)). rewrite (last_map (fun v => negb (v =? 0))). reflexivity. Qed.
Lemma get_float d n fs : lookup n d = Some KFloat -> getFloat n (after d [] fs) = le (word_field n fs).
Proof. intros K. rewrite (after_float d n K). change (getFloat n []) with (le [0; 0; 0; 0]). rewrite last_map. reflexivity. Qed.
Lemma get_str d n fs : lookup n d = Some KString -> getStr n (after d [] fs) = string_field n fs.
Proof. intros K. rewrite (after_str d n K). reflexivity. Qed.

(** ** Writing numbers *)
Lemma put_varint i : forall v, 0 <= v < 128 * 128 ^ Z.of_nat i ->
  base128 v (putVarint_ i v) /\ (length (putVarint_ i v) <= S i)%nat.
Proof.
  induction i as [|i IH]; intros v V.
  - simpl in V. split; [constructor; lia|simpl; lia].
  - cbn [putVarint_]. destruct (v <? 128) eqn:S; [split; [constructor; lia|simpl; lia]|].
    rewrite Nat2Z.inj_succ, Z.pow_succ_r in V by lia.
    destruct (IH (v / 128)) as (B & L); [split; [lia|]; apply Z.div_lt_upper_bound; lia|].
    split; [|simpl; lia].
    replace v with (v mod 128 + 128 - 128 + 128 * (v / 128)) at 1 by lia. constructor; auto. lia.
Qed.
Lemma put_is_varint v : 0 <= v < 18446744073709551616 -> is_varint v (putVarint v).
Proof.
  intros V. destruct (put_varint 9 v) as (B & L); [change (128 * 128 ^ Z.of_nat 9) with 1180591620717411303424; lia|].
  split; auto. split; auto. lia.
Qed.
Lemma put_is_tag n w : 1 <= n <= 536870911 -> 0 <= w < 8 -> is_varint (8 * n + w) (putTag n w).
Proof. intros N W. apply put_is_varint. lia. Qed.
Lemma put32_len z : length (put32 z) = 4%nat. Proof. reflexivity. Qed.
Lemma put32_le z : 0 <= z < 4294967296 -> le (put32 z) = z.
Proof. intros Z0. unfold put32, le. lia. Qed.
Lemma put32_bytes z : bytes_ok (put32 z).
Proof. unfold put32. repeat constructor; lia. Qed.

(** ** Writing messages *)
Definition wire_of1 (n : Z) (v : pval) : list (Z * wval) :=
  match v with
  | VInt z => if z =? 0 then [] else [(n, WVarint (u64 z))]
  | VBool b => if b then [(n, WVarint 1)] else []
  | VFloat z => if z =? 0 then [] else [(n, WFix32 (put32 z))]
  | VStr s => match s with [] => [] | _ => [(n, WBytes s)] end
  end.
Definition wire_of (fs : msg) : list (Z * wval) := concat (map (fun f => wire_of1 (fst f) (snd f)) fs).
Definition sized (v : pval) : Prop := match v with VStr s => len s < 18446744073709551616 | _ => True end.

Lemma wire_fields_app d mx fs gs b c : wire_fields d mx fs b -> wire_fields d mx gs c -> wire_fields d mx (fs ++ gs) (b ++ c).
Proof.
  induction 1 as [|d mx n w fs t b r N T V W IH]; intros G; [exact G|].
  rewrite <- !app_assoc. cbn [app]. econstructor; eauto.
Qed.
Lemma wire_one d mx n w t b : 1 <= n <= mx -> is_varint (8 * n + wtype w) t -> wire_value d n w b ->
  wire_fields d mx [(n, w)] (t ++ b).
Proof. intros N T V. rewrite <- (app_nil_r b). econstructor; eauto. constructor. Qed.

Lemma put_field n v b : 1 <= n <= 536870911 -> sized v -> putField n v = Some b ->
  wire_fields 10000 536870911 (wire_of1 n v) b.
Proof.
  intros N S H. destruct v as [z|x|z|s]; simpl in H.
  - injection H as <-. simpl. destruct (z =? 0) eqn:E; [constructor|].
    apply wire_one; auto; [apply put_is_tag; simpl; lia|]. constructor. apply put_is_varint. unfold u64. lia.
  - injection H as <-. destruct x; [|constructor].
    apply wire_one; auto; [apply put_is_tag; simpl; lia|]. constructor. apply (put_is_varint 1). lia.
  - injection H as <-. simpl. destruct (z =? 0) eqn:E; [constructor|].
    apply wire_one; auto; [apply put_is_tag; simpl; lia|]. constructor. apply put32_len.
  - destruct (validUTF8 s); [|discriminate]. injection H as <-. simpl. destruct s as [|c s]; [constructor|].
    apply wire_one; auto; [apply put_is_tag; simpl; lia|]. constructor. apply put_is_varint. cbn [sized] in S. unfold len in *. lia.
Qed.
Lemma marshal_wire fs : forall b, Forall (fun f => 1 <= fst f <= 536870911 /\ sized (snd f)) fs -> marshal fs = Some b ->
  encodes (wire_of fs) b.
Proof.
  induction fs as [|[n v] fs IH]; intros b F H.
  - injection H as <-. constructor.
  - inversion F as [|? ? (N & S) F']; subst. cbn [marshal] in H.
    destruct (putField n v) as [x|] eqn:P; [|discriminate]. destruct (marshal fs) as [y|]; [|discriminate].
    injection H as <-. apply wire_fields_app; [apply put_field; auto|]. apply IH; auto.
Qed.
(** Marshalling fails only on a string that is not UTF-8. *)
Lemma marshal_some fs : (exists b, marshal fs = Some b) <-> (forall n s, In (n, VStr s) fs -> validUTF8 s = true).
Proof.
  induction fs as [|[n v] fs IH]; [split; [intros _ ? ? []|exists []; reflexivity]|]. cbn [marshal]. split.
  - intros (b & H) m s [E|I].
    + injection E as -> ->. simpl in H. destruct (validUTF8 s); [reflexivity|discriminate].
    + destruct (putField n v); [|discriminate]. destruct (marshal fs) eqn:M; [|discriminate].
      apply (proj1 IH ltac:(eauto) m s I).
  - intros H. destruct (proj2 IH) as (y & Y); [intros m s I; apply (H m s); right; auto|].
    rewrite Y. destruct v as [z|x|z|s]; cbn [putField]; eauto.
    rewrite (H n s); [eauto|left; reflexivity].
Qed.

Lemma field_app (n : Z) fs gs : varints n (fs ++ gs) = varints n fs ++ varints n gs /\
  strings n (fs ++ gs) = strings n fs ++ strings n gs /\ words n (fs ++ gs) = words n fs ++ words n gs.
Proof.
  induction fs as [|[m w] fs (A & B & C)]; [auto|].
  destruct w; cbn [app varints strings words]; rewrite ?A, ?B, ?C; destruct (Z.eq_dec n m); auto.
Qed.
Lemma field_none n fs : ~ In n (map fst fs) -> varints n (wire_of fs) = [] /\ strings n (wire_of fs) = [] /\ words n (wire_of fs) = [].
Proof.
  induction fs as [|[m v] fs IH]; intros H; [auto|].
  cbn [map fst] in H. apply Decidable.not_or in H as (E & H). destruct (IH H) as (A & B & C).
  change (wire_of ((m, v) :: fs)) with (wire_of1 m v ++ wire_of fs).
  destruct (field_app n (wire_of1 m v) (wire_of fs)) as (-> & -> & ->). rewrite A, B, C, !app_nil_r.
  destruct v as [z|x|z|s]; simpl; [destruct (z =? 0)|destruct x|destruct (z =? 0)|destruct s]; simpl;
    destruct (Z.eq_dec n m); auto; congruence.
Qed.
(** The fields of a message with different field numbers. *)
Lemma field_at n v fs : NoDup (map fst fs) -> In (n, v) fs ->
  varints n (wire_of fs) = varints n (wire_of1 n v) /\ strings n (wire_of fs) = strings n (wire_of1 n v) /\
  words n (wire_of fs) = words n (wire_of1 n v).
Proof.
  induction fs as [|[m w] fs IH]; intros D I; [destruct I|].
  cbn [map fst] in D. inversion D as [|? ? N D']; subst.
  change (wire_of ((m, w) :: fs)) with (wire_of1 m w ++ wire_of fs).
  destruct (field_app n (wire_of1 m w) (wire_of fs)) as (-> & -> & ->).
  destruct I as [E|I].
  - injection E as -> ->. destruct (field_none n fs N) as (-> & -> & ->). rewrite !app_nil_r. auto.
  - destruct (IH D' I) as (-> & -> & ->).
    assert (n <> m) by (intros ->; apply N; apply (in_map fst) in I; auto).
    destruct w as [z|x|z|s]; simpl; [destruct (z =? 0)|destruct x|destruct (z =? 0)|destruct s]; simpl;
      destruct (Z.eq_dec n m); auto; congruence.
Qed.

Lemma out_uint n z fs : NoDup (map fst fs) -> In (n, VInt z) fs -> u32_ok z -> uint_field n (wire_of fs) = z.
Proof.
  intros D I Z0. unfold uint_field. destruct (field_at _ _ _ D I) as (-> & _). unfold u32_ok in Z0. simpl.
  destruct (z =? 0) eqn:E; simpl; [lia|]. destruct (Z.eq_dec n n); [|congruence]. simpl. unfold u64. lia.
Qed.
Lemma out_enum n z fs : NoDup (map fst fs) -> In (n, VInt z) fs -> -2147483648 <= z < 2147483648 -> enum_field n (wire_of fs) = z.
Proof.
  intros D I Z0. unfold enum_field, uint_field. destruct (field_at _ _ _ D I) as (-> & _). simpl.
  destruct (z =? 0) eqn:E; simpl; [lia|]. destruct (Z.eq_dec n n); [|congruence]. simpl. unfold u64.
  destruct (_ <? _) eqn:L; lia.
Qed.
Lemma out_bool n x fs : NoDup (map fst fs) -> In (n, VBool x) fs -> bool_field n (wire_of fs) = x.
Proof.
  intros D I. unfold bool_field. destruct (field_at _ _ _ D I) as (-> & _). simpl.
  destruct x; simpl; [|reflexivity]. destruct (Z.eq_dec n n); [|congruence]. reflexivity.
Qed.
Lemma out_str n s fs : NoDup (map fst fs) -> In (n, VStr s) fs -> string_field n (wire_of fs) = s.
Proof.
  intros D I. unfold string_field. destruct (field_at _ _ _ D I) as (_ & -> & _). simpl.
  destruct s; simpl; [reflexivity|]. destruct (Z.eq_dec n n); [|congruence]. reflexivity.
Qed.
Lemma out_word n z fs : NoDup (map fst fs) -> In (n, VFloat z) fs -> word_field n (wire_of fs) = put32 z.
Proof.
  intros D I. unfold word_field. destruct (field_at _ _ _ D I) as (_ & _ & ->). simpl.
  destruct (z =? 0) eqn:E; simpl; [assert (z = 0) as -> by lia; reflexivity|].
  destruct (Z.eq_dec n n); [|congruence]. reflexivity.
Qed.

(** ** Floats *)
Lemma bits_range f : binary32 f -> 0 <= f32_bits f < 4294967296.
Proof.
  intros B. destruct f as [s|s| |s m e]; simpl in *; try (destruct s; simpl; lia).
  - lia.
  - destruct (Z.pos m <? 8388608) eqn:E; destruct s; simpl; lia.
Qed.
Lemma float_bits f : binary32 f -> float_of (put32 (f32_bits f)) = f.
Proof.
  intros B. pose proof (bits_range f B) as R. unfold put32, float_of.
  destruct f as [s|s| |s m e].
  - destruct s; reflexivity.
  - destruct s; reflexivity.
  - reflexivity.
  - set (z := f32_bits (S754_finite s m e)) in *.
    assert (X : z / 16777216 mod 256 / 128 = (if s then 1 else 0) /\
      z / 16777216 mod 256 mod 128 * 2 + z / 65536 mod 256 / 128 = (if Z.pos m <? 8388608 then 0 else e + 150) /\
      z / 65536 mod 256 mod 128 * 65536 + z / 256 mod 256 * 256 + z mod 256 = (if Z.pos m <? 8388608 then Z.pos m else Z.pos m - 8388608)).
    { unfold z, f32_bits, sign_bit. unfold binary32 in B.
      destruct (Z.pos m <? 8388608) eqn:E; destruct s; lia. }
    destruct X as (-> & -> & ->). unfold binary32 in B.
    replace ((if s then 1 else 0) =? 1) with s by (destruct s; reflexivity).
    destruct (Z.pos m <? 8388608) eqn:E.
    + change (0 =? 255) with false. change (0 =? 0) with true. cbv iota.
      replace (Z.pos m =? 0) with false by lia. f_equal. lia.
    + replace (e + 150 =? 255) with false by lia. replace (e + 150 =? 0) with false by lia.
      replace (Z.pos m - 8388608 + 8388608) with (Z.pos m) by lia. f_equal. lia.
Qed.
Lemma read_float b : length b = 4%nat -> bytes_ok b -> f32_of_bits (le b) = float_of b.
Proof.
  intros L B. destruct b as [|b0 [|b1 [|b2 [|b3 [|]]]]]; try discriminate.
  repeat match goal with H : bytes_ok (_ :: _) |- _ => inversion H; clear H; subst end.
  repeat match goal with H : Forall byte_ok (_ :: _) |- _ => inversion H; clear H; subst end.
  unfold byte_ok in *. unfold f32_of_bits, float_of.
  set (z := le [b0; b1; b2; b3]).
  assert (E : z = b0 + 256 * b1 + 65536 * b2 + 16777216 * b3) by (unfold z, le; lia). clearbody z.
  replace (z / 8388608 mod 256) with (b3 mod 128 * 2 + b2 / 128) by lia.
  replace (z mod 8388608) with (b2 mod 128 * 65536 + b1 * 256 + b0) by lia.
  replace (2147483648 <=? z) with (b3 / 128 =? 1) by (destruct (_ =? _) eqn:?; destruct (_ <=? _) eqn:?; lia).
  set (x := b3 mod 128 * 2 + b2 / 128). set (y := b2 mod 128 * 65536 + b1 * 256 + b0).
  assert (0 <= y) by (subst y; lia).
  destruct (x =? 255); [reflexivity|]. destruct (x =? 0).
  - destruct y as [|p|p]; [reflexivity|reflexivity|lia].
  - destruct (y + 8388608) as [|p|p] eqn:P; [lia|reflexivity|lia].
Qed.
