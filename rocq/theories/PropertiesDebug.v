(** Properties C116 and C117: the compressed descriptor; the text of packets. *)
From Coq Require Import String.
From Verif Require Import GoBase Proto Wire Twirp SpecDescriptor Descriptor SpecGzip GzipProofs GzipRead GzipClaims PacketText SpecPacketText PacketTextProofs.

(** C116: what ServiceDescriptor returns can be unzipped, to the descriptor of rpc/comfo/comfo.proto in the Go code and nothing else, *)
Theorem C116_descriptor : unzips (fst serviceDescriptor) go_rawDesc.
Proof. exact zip_reads. Qed.
Print Assumptions C116_descriptor.
Theorem C116_describes : forall d, unzips (fst serviceDescriptor) d -> d = go_rawDesc /\ describes d comfo_proto.
Proof. exact zip_describes. Qed.
Print Assumptions C116_describes.
(** and the index is that of the service. *)
Theorem C116_service : exists s, nth_error (f_services comfo_proto) (snd serviceDescriptor) = Some s /\ s_name s = "Comfo"%string.
Proof. exact zip_service. Qed.
Print Assumptions C116_service.
(** A gzip file has one content. *)
Theorem C116_unique : forall z d d', unzips z d -> unzips z d' -> d = d'.
Proof. exact unzips_unique. Qed.
Print Assumptions C116_unique.
(** One with a block that is stored, one with a block in the fixed code (and a copy that overlaps itself), one whose check sum is wrong. *)
Example C116_ex :
  unzips [31; 139; 8; 0; 0; 0; 0; 0; 0; 255; 1; 5; 0; 250; 255; 99; 111; 109; 102; 111; 78; 245; 80; 213; 5; 0; 0; 0] (str "comfo") /\
  unzips [31; 139; 8; 0; 0; 0; 0; 0; 0; 255; 75; 76; 74; 132; 66; 69; 0; 97; 46; 46; 249; 11; 0; 0; 0] (str "ababababab!") /\
  forall d, ~ unzips [31; 139; 8; 0; 0; 0; 0; 0; 0; 255; 75; 76; 74; 132; 66; 69; 0; 98; 46; 46; 249; 11; 0; 0; 0] d.
Proof.
  split; [apply (unzips_sound 1 20); vm_compute; reflexivity|]. split; [apply (unzips_sound 1 20); vm_compute; reflexivity|].
  intros d (m & x & o & body & crc & isz & pad & E & Lm & Lc & Li & D & _ & C & _).
  destruct m as [|m1 [|m2 [|m3 [|m4 [|]]]]]; try discriminate. cbn in E. injection E as <- <- <- <- <- <- E.
  assert (length body = 7)%nat as L by (apply (f_equal (@length byte)) in E; rewrite !app_length in E; cbn in E; Lia.lia).
  do 7 (destruct body as [|? body]; [discriminate|]). destruct body; [|discriminate]. cbn in E. injection E as <- <- <- <- <- <- <- E.
  destruct crc as [|c1 [|c2 [|c3 [|c4 [|]]]]]; try discriminate. cbn in E. injection E as <- <- <- <- E.
  assert (exists r, deflated [] (bits [75; 76; 74; 132; 66; 69; 0]) (str "ababababab!") r) as [r F]
    by (eexists; apply (inflate_sound 1 20); vm_compute; reflexivity).
  destruct (deflated_unique _ _ _ _ D _ _ F) as [-> _]. vm_compute in C. discriminate.
Qed.

(** C117: the text of a packet says command, payload and whether a reply is expected; *)
Theorem C117_shows : forall p, byte_ok (p_cmd p) -> bytes_ok (p_data p) -> shows (packetText p) p.
Proof. exact packetText_shows. Qed.
Print Assumptions C117_shows.
(** two packets with the same text are the same. *)
Theorem C117_unique : forall t p q, shows t p -> shows t q -> p = q.
Proof. exact shows_unique. Qed.
Print Assumptions C117_unique.
Example C117_ex : packetText (mkPacket 210 [40; 7; 0] true) = str "<Packet {Command: d2, Data: [40 7 0], Expect: true}>" /\
  packetText (mkPacket 3 [] false) = str "<Packet {Command: 3, Data: [], Expect: false}>".
Proof. split; reflexivity. Qed.
