(** Properties C01-C06: packets. *)
From Verif Require Import GoBase Proto SpecProto CodecLemmas.

Theorem C01_round_trip : forall cmd data x, (length data <= 255)%nat ->
  exists bs, MarshalPacket (mkPacket cmd data x) = Done (bs, None) /\
             UnmarshalPacket bs = Done (mkPacket cmd data false, None).
Proof. exact round_trip. Qed.
Print Assumptions C01_round_trip.
Example C01_ex : (length [7; 7; 15; 200] <= 255)%nat /\
  MarshalPacket (mkPacket 210 [7; 7; 15; 200] true) = Done ([0; 210; 4; 7; 7; 7; 7; 15; 200; 104], None).
Proof. split; [apply Nat.leb_le; reflexivity|reflexivity]. Qed.

Theorem C02_wire_format : forall cmd data x,
  ((255 < length data)%nat -> MarshalPacket (mkPacket cmd data x) = Done ([], Some ErrTooLong)) /\
  ((length data <= 255)%nat -> exists k, 0 <= k < 256 /\
     (cmd + Z.of_nat (length data) + sum data + 173 - k) mod 256 = 0 /\
     MarshalPacket (mkPacket cmd data x) =
       Done ([0; cmd; Z.of_nat (length data)] ++ doubled data ++ [k], None)).
Proof. exact marshal_format. Qed.
Print Assumptions C02_wire_format.
Example C02_ex : (255 < length (repeat 7 256))%nat /\ (length (repeat 7 255) <= 255)%nat.
Proof. rewrite !repeat_length. split; [apply Nat.ltb_lt|apply Nat.leb_le]; reflexivity. Qed.

Theorem C03_unmarshal_exact : forall l,
  ((length l < 4)%nat -> UnmarshalPacket l = Done (zero_packet, Some ErrPktLen)) /\
  (forall z cmd n raw ck, l = z :: cmd :: n :: raw ++ [ck] ->
     exists data, unescaped raw data /\ (forall data', unescaped raw data' -> data' = data) /\
       (n <> Z.of_nat (length data) -> UnmarshalPacket l = Done (zero_packet, Some ErrPayloadSize)) /\
       (n = Z.of_nat (length data) -> ck <> cksum_byte cmd data ->
          UnmarshalPacket l = Done (zero_packet, Some ErrVerifyChecksum)) /\
       (n = Z.of_nat (length data) -> ck = cksum_byte cmd data ->
          UnmarshalPacket l = Done (mkPacket cmd data false, None))) /\
  ((4 <= length l)%nat -> exists z cmd n raw ck, l = z :: cmd :: n :: raw ++ [ck]).
Proof. exact unmarshal_exact. Qed.
Print Assumptions C03_unmarshal_exact.
Example C03_ex :
  UnmarshalPacket [0; 12; 1; 7; 7; 193] = Done (mkPacket 12 [7] false, None) /\
  UnmarshalPacket [0; 12; 2; 7; 7; 193] = Done (zero_packet, Some ErrPayloadSize) /\
  UnmarshalPacket [0; 12; 1; 7; 7; 194] = Done (zero_packet, Some ErrVerifyChecksum).
Proof. repeat split. Qed.

Theorem C04_escaping_lossless : forall data,
  unescapeData (escapeData data) = data /\
  escapeData data = doubled data /\
  (forall data', escapeData data' = escapeData data -> data' = data) /\
  length (escapeData data) = (length data + count_occ Z.eq_dec data 7%Z)%nat /\
  pairs7 (escapeData data).
Proof. exact escaping. Qed.
Print Assumptions C04_escaping_lossless.
Example C04_ex : escapeData [1; 7; 7; 15; 7] = [1; 7; 7; 7; 7; 15; 7; 7].
Proof. reflexivity. Qed.

Theorem C05_checksum_formula : forall cmd n data,
  calculateChecksum cmd n data = (cmd + n + sum data + 173) mod 256.
Proof. exact checksum_formula. Qed.
Print Assumptions C05_checksum_formula.
Theorem C05_checksum_single_difference : forall cmd n data cmd' n' data',
  differ1 (cmd :: n :: data) (cmd' :: n' :: data') ->
  bytes_ok (cmd :: n :: data) -> bytes_ok (cmd' :: n' :: data') ->
  calculateChecksum cmd n data <> calculateChecksum cmd' n' data'.
Proof. exact checksum_single. Qed.
Print Assumptions C05_checksum_single_difference.
Example C05_ex : differ1 [1; 2; 3; 4] [1; 2; 255; 4] /\ bytes_ok [1; 2; 3; 4] /\ bytes_ok [1; 2; 255; 4] /\
  calculateChecksum 1 2 [3; 4] = 183 /\ calculateChecksum 1 2 [255; 4] = 179.
Proof. repeat split; repeat constructor; discriminate. Qed.

Theorem C06_corruption_detected : forall cmd data x a b v y,
  byte_ok cmd -> bytes_ok data ->
  MarshalPacket (mkPacket cmd data x) = Done (a ++ v :: b, None) ->
  a <> [] -> byte_ok y -> y <> v ->
  exists e, UnmarshalPacket (a ++ y :: b) = Done (zero_packet, Some e).
Proof. exact corruption_detected. Qed.
Print Assumptions C06_corruption_detected.
Example C06_ex : byte_ok 12 /\ bytes_ok [7] /\
  MarshalPacket (mkPacket 12 [7] true) = Done ([0; 12; 1] ++ 7 :: [7; 193], None) /\
  UnmarshalPacket ([0; 12; 1] ++ 8 :: [7; 193]) = Done (zero_packet, Some ErrVerifyChecksum).
Proof. repeat split; repeat constructor; discriminate. Qed.
