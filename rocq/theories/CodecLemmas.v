(** Lemmas in exactly the form of the codec property theorems (C01-C06). *)
From Verif Require Import ProofBase Proto SpecProto ProtoProofs.

Lemma round_trip cmd data x : (length data <= 255)%nat ->
  exists bs, MarshalPacket (mkPacket cmd data x) = Done (bs, None) /\
             UnmarshalPacket bs = Done (mkPacket cmd data false, None).
Proof.
  intros H. exists (wire cmd data). rewrite marshal_wire. simpl.
  replace (_ >? 255) with false by lia. split; auto. apply unmarshal_wire.
Qed.

Lemma marshal_format cmd data x :
  ((255 < length data)%nat -> MarshalPacket (mkPacket cmd data x) = Done ([], Some ErrTooLong)) /\
  ((length data <= 255)%nat -> exists k, 0 <= k < 256 /\
     (cmd + Z.of_nat (length data) + sum data + 173 - k) mod 256 = 0 /\
     MarshalPacket (mkPacket cmd data x) =
       Done ([0; cmd; Z.of_nat (length data)] ++ doubled data ++ [k], None)).
Proof.
  split; intros H; rewrite marshal_wire; simpl.
  - replace (_ >? 255) with true by lia. auto.
  - replace (_ >? 255) with false by lia. exists (cksum_byte cmd data). unfold cksum_byte. splits; auto; lia.
Qed.

Lemma unmarshal_exact l :
  ((length l < 4)%nat -> UnmarshalPacket l = Done (zero_packet, Some ErrPktLen)) /\
  (forall z cmd n raw ck, l = z :: cmd :: n :: raw ++ [ck] ->
     exists data, unescaped raw data /\ (forall data', unescaped raw data' -> data' = data) /\
       (n <> Z.of_nat (length data) -> UnmarshalPacket l = Done (zero_packet, Some ErrPayloadSize)) /\
       (n = Z.of_nat (length data) -> ck <> cksum_byte cmd data ->
          UnmarshalPacket l = Done (zero_packet, Some ErrVerifyChecksum)) /\
       (n = Z.of_nat (length data) -> ck = cksum_byte cmd data ->
          UnmarshalPacket l = Done (mkPacket cmd data false, None))) /\
  ((4 <= length l)%nat -> exists z cmd n raw ck, l = z :: cmd :: n :: raw ++ [ck]).
Proof.
  split; [apply unmarshal_short|split; [|apply at_least_4]].
  intros z cmd n raw ck ->. exists (unescapeData raw). split; [apply unescape_spec|].
  split; [intros d H; symmetry; apply unescaped_fun; auto|].
  rewrite unmarshal_eq. cbv zeta. unfold cksum_byte.
  split; [|split].
  - intros H. replace (n =? _) with false by lia. reflexivity.
  - intros -> H. rewrite Z.eqb_refl. cbn [negb]. apply Z.eqb_neq in H. rewrite H. reflexivity.
  - intros -> ->. rewrite !Z.eqb_refl. reflexivity.
Qed.

Lemma escaping data :
  unescapeData (escapeData data) = data /\
  escapeData data = doubled data /\
  (forall data', escapeData data' = escapeData data -> data' = data) /\
  length (escapeData data) = (length data + count_occ Z.eq_dec data 7%Z)%nat /\
  pairs7 (escapeData data).
Proof.
  rewrite escapeData_doubled. splits; auto using unescape_doubled, doubled_length, doubled_pairs.
  intros d. rewrite escapeData_doubled. apply doubled_inj.
Qed.

Lemma checksum_formula cmd n data : calculateChecksum cmd n data = (cmd + n + sum data + 173) mod 256.
Proof. apply checksum_spec. Qed.

Lemma checksum_single cmd n data cmd' n' data' :
  differ1 (cmd :: n :: data) (cmd' :: n' :: data') ->
  bytes_ok (cmd :: n :: data) -> bytes_ok (cmd' :: n' :: data') ->
  calculateChecksum cmd n data <> calculateChecksum cmd' n' data'.
Proof.
  intros D B1 B2. apply differ1_sum in D as [D _]; auto. simpl in D.
  rewrite !checksum_spec. intros E. apply D. clear D B1 B2. lia.
Qed.

Lemma corruption_detected cmd data x a b v y :
  byte_ok cmd -> bytes_ok data ->
  MarshalPacket (mkPacket cmd data x) = Done (a ++ v :: b, None) ->
  a <> [] -> byte_ok y -> y <> v ->
  exists e, UnmarshalPacket (a ++ y :: b) = Done (zero_packet, Some e).
Proof.
  intros Bc Bd M A By YV. rewrite marshal_wire in M. cbn [p_data p_cmd] in M.
  destruct (_ >? 255) eqn:L; [discriminate|]. injection M as M.
  rewrite <- (subst_at_app a v b y), <- M.
  apply corrupt_detected with (x := v); auto.
  - lia.
  - rewrite M, nth_error_app2, Nat.sub_diag by lia. reflexivity.
  - destruct a; [congruence|discriminate].
Qed.
