(** Proofs about libcomfo/proto.go. *)
From Verif Require Import ProofBase Proto SpecProto.

(** ** escaping *)
Lemma escapeData_doubled l : escapeData l = doubled l.
Proof.
  induction l as [|b r IH]; simpl; auto. unfold double7. rewrite IH.
  destruct (b =? 7) eqn:E; simpl; auto. apply Z.eqb_eq in E; subst; auto.
Qed.

Lemma doubled_cons b l : doubled (b :: l) = double7 b ++ doubled l.
Proof. reflexivity. Qed.
Lemma doubled_app a b : doubled (a ++ b) = doubled a ++ doubled b.
Proof. unfold doubled. apply flat_map_app. Qed.

(** The loop can be read two bytes at a time: what unescapeData does after a single 7. *)
Lemma unescape_pair r : unescapeData (7 :: 7 :: r) = 7 :: unescapeData r.
Proof. reflexivity. Qed.
Lemma unescape_other b r : b <> 7 -> unescapeData (b :: r) = b :: unescapeData r.
Proof. intros H. simpl. destruct (b =? 7) eqn:E; auto. lia. Qed.
Lemma unescape_lone b r : b <> 7 -> unescapeData (7 :: b :: r) = unescapeData (b :: r).
Proof. intros H. simpl. destruct (b =? 7) eqn:E; auto. lia. Qed.

Lemma unescape_doubled_app l r : unescapeData (doubled l ++ r) = l ++ unescapeData r.
Proof.
  induction l as [|b l IH]; auto. rewrite doubled_cons. unfold double7.
  destruct (b =? 7) eqn:E.
  - apply Z.eqb_eq in E; subst. simpl app. rewrite unescape_pair, IH. reflexivity.
  - simpl app. rewrite unescape_other by lia. rewrite IH; reflexivity.
Qed.
Lemma unescape_doubled l : unescapeData (doubled l) = l.
Proof. rewrite <- (app_nil_r (doubled l)), unescape_doubled_app; simpl. apply app_nil_r. Qed.

(** An extra leading 7 in front of an escaped string disappears... *)
Lemma unescape_extra7 l : unescapeData (7 :: doubled l) = l.
Proof.
  induction l as [|b l IH]; auto. rewrite doubled_cons. unfold double7.
  destruct (b =? 7) eqn:E.
  - apply Z.eqb_eq in E; subst. simpl app. rewrite unescape_pair, IH; auto.
  - simpl app. rewrite unescape_lone, unescape_other by lia. rewrite unescape_doubled; auto.
Qed.

Lemma doubled_length l : length (doubled l) = (length l + count_occ Z.eq_dec l 7%Z)%nat.
Proof.
  induction l as [|b l IH]; auto. rewrite doubled_cons, app_length, IH. unfold double7. simpl.
  destruct (Z.eq_dec b 7), (b =? 7) eqn:E; simpl; lia.
Qed.

Lemma doubled_pairs l : pairs7 (doubled l).
Proof.
  induction l as [|b l IH]; [constructor|]. rewrite doubled_cons; unfold double7.
  destruct (b =? 7) eqn:E.
  - apply Z.eqb_eq in E; subst. simpl. apply p7_pair; auto.
  - simpl. constructor; auto. lia.
Qed.

Lemma doubled_inj a b : doubled a = doubled b -> a = b.
Proof. intros H. rewrite <- (unescape_doubled a), <- (unescape_doubled b), H; auto. Qed.

Lemma doubled_bytes l : bytes_ok l -> bytes_ok (doubled l).
Proof.
  unfold bytes_ok. induction 1; simpl; auto. unfold double7. destruct (x =? 7); simpl; auto.
  repeat constructor; auto; unfold byte_ok; lia.
Qed.

(** ** unescapeData meets the run specification *)
Lemma unescape_run k r : (forall d, r = 7 :: d -> False) ->
  unescapeData (repeat 7 k ++ r) = repeat 7 (k / 2) ++ unescapeData r.
Proof.
  intros Hr. enough (H : forall n k, (k <= n)%nat ->
    unescapeData (repeat 7 k ++ r) = repeat 7 (k / 2) ++ unescapeData r) by eauto.
  clear k. induction n; intros k Hk.
  - assert (k = 0%nat) by lia; subst; auto.
  - destruct k as [|[|k]]; auto.
    + simpl. destruct r as [|c r]; auto. destruct (c =? 7) eqn:E; auto.
      apply Z.eqb_eq in E; subst. exfalso; eauto.
    + replace (S (S k) / 2)%nat with (S (k / 2)) by (pose proof (Nat.div_add 1 k 2); lia).
      simpl repeat. simpl app. rewrite unescape_pair, IHn by lia. reflexivity.
Qed.

Lemma unescape_spec l : unescaped l (unescapeData l).
Proof.
  enough (H : forall n l, (length l <= n)%nat -> unescaped l (unescapeData l)) by eauto.
  clear l. induction n; intros l Hl.
  - destruct l; [|simpl in Hl; lia]. apply (unesc_end 0).
  - assert (Hs : exists k r, l = repeat 7 k ++ r /\ (r = [] \/ exists b r', r = b :: r' /\ b <> 7)).
    { clear. induction l as [|b l [k [r [-> Hr]]]].
      - exists 0%nat, []; auto.
      - destruct (Z.eq_dec b 7) as [->|N].
        + exists (S k), r; auto.
        + exists 0%nat, (b :: repeat 7 k ++ r); split; eauto. }
    destruct Hs as (k & r & -> & [->|(b & r' & -> & N)]).
    + rewrite unescape_run by discriminate. simpl. rewrite !app_nil_r. apply unesc_end.
    + rewrite unescape_run by (intros ? [=]; auto). rewrite unescape_other by auto.
      apply unesc_run; auto. apply IHn. rewrite app_length in Hl; simpl in Hl; lia.
Qed.

Lemma unescaped_fun l d : unescaped l d -> unescapeData l = d.
Proof.
  induction 1.
  - rewrite <- (app_nil_r (repeat 7 k)), unescape_run by discriminate. simpl. apply app_nil_r.
  - rewrite unescape_run by (intros ? [=]; auto). rewrite unescape_other, IHunescaped by auto; auto.
Qed.
Lemma unescaped_iff l d : unescaped l d <-> unescapeData l = d.
Proof. split; [apply unescaped_fun|intros <-; apply unescape_spec]. Qed.

Lemma unescape_length l : (length (unescapeData l) <= length l)%nat.
Proof.
  enough (H : forall n l, (length l <= n)%nat -> (length (unescapeData l) <= length l)%nat) by eauto.
  clear l. induction n; intros l Hl; (destruct l as [|b l]; [simpl; lia|]); [simpl in Hl; lia|].
  simpl in Hl. destruct (Z.eq_dec b 7) as [->|N].
  - destruct l as [|c l]; [simpl; lia|]. destruct (Z.eq_dec c 7) as [->|N].
    + rewrite unescape_pair. specialize (IHn l). simpl in *; lia.
    + rewrite unescape_lone by auto. specialize (IHn (c :: l)). simpl in Hl, IHn |- *; lia.
  - rewrite unescape_other by auto. specialize (IHn l). simpl; lia.
Qed.
Lemma unescape_bytes l : bytes_ok l -> bytes_ok (unescapeData l).
Proof.
  enough (H : forall n l, (length l <= n)%nat -> bytes_ok l -> bytes_ok (unescapeData l)) by eauto.
  clear l. unfold bytes_ok. induction n; intros l Hl B; (destruct l as [|b l]; [simpl; auto|]); [simpl in Hl; lia|].
  inversion B; subst. simpl in Hl. destruct (Z.eq_dec b 7) as [->|N].
  - destruct l as [|c l]; [simpl; auto|]. inversion H2; subst. destruct (Z.eq_dec c 7) as [->|N].
    + rewrite unescape_pair. constructor; auto. apply IHn; auto. simpl in Hl; lia.
    + rewrite unescape_lone by auto. apply IHn; auto; simpl in *; lia.
  - rewrite unescape_other by auto. constructor; auto. apply IHn; auto; lia.
Qed.

(** ** checksum *)
Lemma fold_sum l : forall s, u8 (fold_left (fun s v => u64 (s + v)) l (u64 s)) = (s + sum l) mod 256.
Proof.
  induction l as [|b l IH]; intros s; simpl.
  - unfold u8, u64. rewrite Z.add_0_r. 
    rewrite <- Znumtheory.Zmod_div_mod; auto; try lia. exists 72057594037927936; reflexivity.
  - rewrite Z.add_assoc, <- (IH (s + b)). f_equal. f_equal. unfold u64.
    rewrite Zplus_mod_idemp_l; auto. 
  Qed.
Lemma sum_app a b : sum (a ++ b) = sum a + sum b.
Proof. induction a; simpl; auto. rewrite IHa; lia. Qed.

Lemma checksum_spec cmd n data :
  calculateChecksum cmd n data = (cmd + n + sum data + 173) mod 256.
Proof.
  unfold calculateChecksum. cbv zeta.
  replace (u64 (fold_left (fun s v => u64 (s + v)) data (u64 (u64 (0 + cmd) + n)) + 173))
    with (fold_left (fun s v => u64 (s + v)) (data ++ [173]) (u64 (u64 (0 + cmd) + n)))
    by (rewrite fold_left_app; reflexivity).
  replace (u64 (u64 (0 + cmd) + n)) with (u64 (cmd + n))
    by (unfold u64; rewrite Zplus_mod_idemp_l; auto).
  rewrite fold_sum, sum_app. simpl. f_equal. lia.
Qed.
Lemma checksum_range cmd n data : 0 <= calculateChecksum cmd n data < 256.
Proof. rewrite checksum_spec. apply Z.mod_pos_bound; lia. Qed.

Lemma differ1_sum x y : differ1 x y -> bytes_ok x -> bytes_ok y ->
  (sum x - sum y) mod 256 <> 0 /\ length x = length y.
Proof.
  unfold bytes_ok. induction 1; simpl; intros B1 B2; inversion B1; inversion B2; subst; unfold byte_ok in *.
  - split; auto. lia.
  - destruct IHdiffer1 as [I1 I2]; auto. split; [|lia]. rewrite <- (Z.add_opp_r).
    replace (a + sum l + - (a + sum m)) with (sum l - sum m) by lia. auto.
Qed.

(** ** MarshalPacket *)
Lemma copy_at_app (a b c src : list Z) lo hi :
  lo = length a -> hi = (length a + length b)%nat -> length src = length b ->
  copy_at (a ++ b ++ c) lo hi src = Done (a ++ src ++ c).
Proof.
  intros -> -> H. unfold copy_at. rewrite !app_length.
  replace (_ && _)%bool with true by (symmetry; apply andb_true_intro; split; apply Nat.leb_le; lia).
  replace (Nat.min (length a + length b - length a) (length src)) with (length src) by lia.
  rewrite firstn_all, firstn_app, Nat.sub_diag, firstn_all. simpl firstn. rewrite app_nil_r.
  rewrite H. replace (length a + length b)%nat with (length (a ++ b)) by (rewrite app_length; auto).
  rewrite (app_assoc a b c), skipn_app, Nat.sub_diag, skipn_all. reflexivity.
Qed.
Lemma set_at_app (a c : list Z) x i y : i = length a -> set_at (a ++ x :: c) i y = Done (a ++ y :: c).
Proof.
  intros ->. unfold set_at. rewrite app_length. simpl length.
  replace (Nat.ltb _ _) with true by (symmetry; apply Nat.ltb_lt; lia).
  rewrite firstn_app, Nat.sub_diag, firstn_all. simpl firstn. rewrite app_nil_r.
  rewrite skipn_app, skipn_all2 by lia. replace (S (length a) - length a)%nat with 1%nat by lia.
  reflexivity.
Qed.

Lemma marshal_wire p :
  MarshalPacket p =
  if Z.of_nat (length (p_data p)) >? 255 then Done ([], Some ErrTooLong)
  else Done (wire (p_cmd p) (p_data p), None).
Proof.
  unfold MarshalPacket. cbv zeta. destruct (_ >? 255) eqn:E; auto.
  rewrite escapeData_doubled. unfold wire, cksum_byte. remember (doubled (p_data p)) as d.
  assert (L : u8 (Z.of_nat (length (p_data p))) = Z.of_nat (length (p_data p))).
  { unfold u8. apply Z.mod_small. lia. }
  rewrite L, checksum_spec.
  replace (repeat 0 (length d + 4)) with ([] ++ [0;0] ++ 0 :: repeat 0 (length d) ++ [0])
    by (replace (length d + 4)%nat with (2 + (1 + (length d + 1)))%nat by lia;
        rewrite !repeat_app; reflexivity).
  rewrite copy_at_app by reflexivity. cbn [obind].
  replace ([] ++ [0; p_cmd p] ++ 0 :: repeat 0 (length d) ++ [0])
    with ([0; p_cmd p] ++ 0 :: repeat 0 (length d) ++ [0]) by reflexivity.
  rewrite set_at_app by reflexivity. cbn [obind].
  replace ([0; p_cmd p] ++ Z.of_nat (length (p_data p)) :: repeat 0 (length d) ++ [0])
    with ([0; p_cmd p; Z.of_nat (length (p_data p))] ++ repeat 0 (length d) ++ [0]) by reflexivity.
  rewrite copy_at_app by (rewrite ?repeat_length; reflexivity). cbn [obind].
  rewrite app_assoc, set_at_app by (rewrite app_length; simpl; lia). cbn [obind].
  rewrite <- app_assoc. reflexivity.
Qed.

(** ** UnmarshalPacket *)
(** The shape of any input of at least 4 bytes. *)
Lemma at_least_4 (l : list Z) : (4 <= length l)%nat ->
  exists z cmd n raw ck, l = z :: cmd :: n :: raw ++ [ck].
Proof.
  intros H. destruct l as [|z [|c [|n r]]]; simpl in H; try lia.
  destruct r as [|x r]; simpl in H; [lia|].
  destruct (@exists_last _ (x :: r)) as (raw & ck & E); [discriminate|].
  rewrite E. eauto 10.
Qed.

Lemma unmarshal_eq z cmd n raw ck :
  UnmarshalPacket (z :: cmd :: n :: raw ++ [ck]) =
  let data := unescapeData raw in
  if negb (n =? Z.of_nat (length data)) then Done (zero_packet, Some ErrPayloadSize)
  else if negb (ck =? (cmd + n + sum data + 173) mod 256) then Done (zero_packet, Some ErrVerifyChecksum)
  else Done (mkPacket cmd data false, None).
Proof.
  unfold UnmarshalPacket. cbv zeta.
  assert (L : length (z :: cmd :: n :: raw ++ [ck]) = (length raw + 4)%nat)
    by (simpl; rewrite app_length; simpl; lia).
  rewrite L. replace (Nat.ltb (length raw + 4) 4) with false by (symmetry; apply Nat.ltb_ge; lia).
  replace (length raw + 4 - 1)%nat with (S (S (S (length raw)))) by lia.
  unfold idx. cbn [cmdOffset lenOffset plus nth_error obind].
  rewrite nth_error_app2 by lia. rewrite Nat.sub_diag. cbn [nth_error obind].
  unfold slice. rewrite L. cbn [dataOffset lenOffset cmdOffset plus].
  replace (Nat.leb 3 (S (S (S (length raw)))) && Nat.leb (S (S (S (length raw)))) (length raw + 4))%bool with true
    by (symmetry; apply andb_true_intro; split; apply Nat.leb_le; lia).
  cbn [obind skipn]. replace (S (S (S (length raw))) - 3)%nat with (length raw) by lia.
  rewrite firstn_app, Nat.sub_diag, firstn_all. cbn [firstn]. rewrite app_nil_r.
  unfold verifyChecksum. rewrite checksum_spec. reflexivity.
Qed.

Lemma unmarshal_short l : (length l < 4)%nat -> UnmarshalPacket l = Done (zero_packet, Some ErrPktLen).
Proof. intros H. unfold UnmarshalPacket. apply Nat.ltb_lt in H. rewrite H. auto. Qed.

Lemma unmarshal_done l : exists p e, UnmarshalPacket l = Done (p, e).
Proof.
  destruct (Nat.lt_ge_cases (length l) 4) as [H|H].
  - rewrite unmarshal_short; eauto.
  - destruct (at_least_4 l H) as (z & c & n & raw & ck & ->). rewrite unmarshal_eq. cbv zeta.
    destruct (negb _); eauto. destruct (negb _); eauto.
Qed.

Lemma wire_shape cmd data :
  wire cmd data = 0 :: cmd :: Z.of_nat (length data) :: doubled data ++ [cksum_byte cmd data].
Proof. reflexivity. Qed.

Lemma unmarshal_wire cmd data : UnmarshalPacket (wire cmd data) = Done (mkPacket cmd data false, None).
Proof.
  rewrite wire_shape, unmarshal_eq. cbv zeta. rewrite unescape_doubled, Z.eqb_refl. cbn [negb].
  unfold cksum_byte. rewrite Z.eqb_refl. reflexivity.
Qed.

(** ** single-byte corruption *)

Lemma split_doubled_at data i x : nth_error (doubled data) i = Some x ->
  exists d1 d d2, data = d1 ++ d :: d2 /\
    ((d <> 7 /\ x = d /\ i = length (doubled d1)) \/
     (d = 7 /\ x = 7 /\ (i = length (doubled d1) \/ i = S (length (doubled d1))))).
Proof.
  revert i. induction data as [|b r IH]; intros i H.
  - destruct i; discriminate.
  - rewrite doubled_cons in H. unfold double7 in H. destruct (b =? 7) eqn:E.
    + apply Z.eqb_eq in E; subst. destruct i as [|[|i]].
      * injection H as <-. exists [], 7, r. split; [auto|right; auto].
      * injection H as <-. exists [], 7, r. split; [auto|right; auto].
      * destruct (IH i H) as (d1 & d & d2 & -> & C). exists (7 :: d1), d, d2. split; auto.
        rewrite doubled_cons. simpl. intuition lia.
    + destruct i as [|i].
      * injection H as <-. exists [], b, r. split; [auto|left]. repeat split; auto. lia.
      * destruct (IH i H) as (d1 & d & d2 & -> & C). exists (b :: d1), d, d2. split; auto.
        rewrite doubled_cons. unfold double7. rewrite E. simpl. intuition lia.
Qed.

(** Replacing position [i] of a list. *)
Definition subst_at (l : list Z) (i : nat) (y : Z) : list Z := firstn i l ++ y :: skipn (S i) l.

Lemma subst_at_app a x b y : subst_at (a ++ x :: b) (length a) y = a ++ y :: b.
Proof.
  unfold subst_at. rewrite firstn_app, Nat.sub_diag, firstn_all. simpl firstn. rewrite app_nil_r.
  f_equal. f_equal. rewrite skipn_app. rewrite skipn_all2 by lia.
  replace (S (length a) - length a)%nat with 1%nat by lia. reflexivity.
Qed.
Lemma nth_error_split_eq (l : list Z) i x : nth_error l i = Some x ->
  exists a b, l = a ++ x :: b /\ length a = i.
Proof. intros H. destruct (nth_error_split l i H) as (a & b & -> & <-). eauto. Qed.

Lemma unescape_corrupt data i x y :
  nth_error (doubled data) i = Some x -> x <> y -> bytes_ok data -> byte_ok y ->
  let d := unescapeData (subst_at (doubled data) i y) in
  length d <> length data \/ (sum d - sum data) mod 256 <> 0.
Proof.
  intros N XY B BY. cbv zeta.
  destruct (split_doubled_at _ _ _ N) as (d1 & d & d2 & -> & C).
  assert (Bd : byte_ok d) by (apply Forall_app in B as [_ B]; inversion B; auto).
  unfold byte_ok in *.
  rewrite doubled_app, doubled_cons.
  destruct C as [(D & -> & ->)|(-> & -> & Hi)].
  - unfold double7. replace (d =? 7) with false by lia. cbn [app].
    rewrite subst_at_app, unescape_doubled_app.
    destruct (Z.eq_dec y 7) as [->|Y].
    + left. rewrite unescape_extra7. rewrite !app_length; simpl; lia.
    + right. rewrite unescape_other, unescape_doubled by auto.
      rewrite !sum_app. simpl. lia.
  - cbn [double7 Z.eqb Pos.eqb app]. destruct Hi as [->| ->].
    + rewrite subst_at_app, unescape_doubled_app.
      rewrite unescape_other, unescape_extra7 by auto.
      right. rewrite !sum_app; simpl. lia.
    + replace (doubled d1 ++ 7 :: 7 :: doubled d2) with ((doubled d1 ++ [7]) ++ 7 :: doubled d2)
        by (rewrite <- app_assoc; auto).
      replace (S (length (doubled d1))) with (length (doubled d1 ++ [7])) by (rewrite app_length; simpl; lia).
      rewrite subst_at_app, <- app_assoc, unescape_doubled_app. cbn [app].
      rewrite unescape_lone, unescape_other, unescape_doubled by auto.
      right. rewrite !sum_app; simpl. lia.
Qed.

Lemma corrupt_detected cmd data i x y :
  byte_ok cmd -> bytes_ok data -> (length data <= 255)%nat ->
  nth_error (wire cmd data) i = Some x -> i <> 0%nat -> byte_ok y -> y <> x ->
  exists e, UnmarshalPacket (subst_at (wire cmd data) i y) = Done (zero_packet, Some e).
Proof.
  intros Bc Bd Ld N I By YX. rewrite wire_shape in *. unfold byte_ok in *.
  destruct i as [|[|[|i]]]; [congruence|..].
  - injection N as <-. 
    change (subst_at (0 :: cmd :: Z.of_nat (length data) :: doubled data ++ [cksum_byte cmd data]) 1 y)
      with (0 :: y :: Z.of_nat (length data) :: doubled data ++ [cksum_byte cmd data]).
    rewrite unmarshal_eq. cbv zeta. rewrite unescape_doubled, Z.eqb_refl. cbn [negb].
    unfold cksum_byte. destruct (negb _) eqn:E; eauto. exfalso. lia.
  - injection N as <-.
    change (subst_at (0 :: cmd :: Z.of_nat (length data) :: doubled data ++ [cksum_byte cmd data]) 2 y)
      with (0 :: cmd :: y :: doubled data ++ [cksum_byte cmd data]).
    rewrite unmarshal_eq. cbv zeta. rewrite unescape_doubled.
    destruct (negb _) eqn:E; eauto. exfalso. lia.
  - cbn [nth_error] in N.
    change (subst_at (0 :: cmd :: Z.of_nat (length data) :: doubled data ++ [cksum_byte cmd data]) (S (S (S i))) y)
      with (0 :: cmd :: Z.of_nat (length data) :: subst_at (doubled data ++ [cksum_byte cmd data]) i y).
    destruct (Nat.lt_ge_cases i (length (doubled data))) as [Hi|Hi].
    + rewrite nth_error_app1 in N by auto.
      replace (subst_at (doubled data ++ [cksum_byte cmd data]) i y)
        with (subst_at (doubled data) i y ++ [cksum_byte cmd data]).
      2:{ unfold subst_at. rewrite firstn_app, skipn_app.
          replace (i - length (doubled data))%nat with 0%nat by lia.
          replace (S i - length (doubled data))%nat with 0%nat by lia.
          cbn [firstn skipn]. rewrite app_nil_r, <- app_assoc. reflexivity. }
      rewrite unmarshal_eq. cbv zeta.
      destruct (unescape_corrupt data i x y N) as [C|C]; auto.
      * destruct (negb _) eqn:E; eauto. exfalso. lia.
      * destruct (negb _) eqn:E; eauto. destruct (negb (_ =? _ mod 256)) eqn:E2; eauto.
        exfalso. unfold cksum_byte in E2. lia.
    + rewrite nth_error_app2 in N by auto.
      assert (i = length (doubled data)) as ->.
      { destruct (i - length (doubled data))%nat as [|[|?]] eqn:E; try discriminate. lia. }
      rewrite Nat.sub_diag in N. injection N as <-.
      rewrite subst_at_app. rewrite unmarshal_eq. cbv zeta. rewrite unescape_doubled, Z.eqb_refl.
      cbn [negb]. unfold cksum_byte in *. destruct (negb _) eqn:E; eauto. exfalso. lia.
Qed.
