(** Concrete cases for PropertiesFrame.v and PropertiesQuery.v. *)
From Verif Require Import ProofBase Proto SpecProto SpecFrame SpecConn ProtoProofs Scanner Conn
  FrameProofs ReplyProofs ReadProofs Proc Lib QueryProofs FrameLemmas Samples.

Lemma few_empty_nonempty chunks : Forall (fun c => c <> []) chunks -> few_empty chunks.
Proof.
  intros H a b E. rewrite E in H. apply Forall_app in H as [_ H]. apply Forall_app in H as [H _].
  inversion H. contradiction.
Qed.
Ltac chunks_ok := apply few_empty_nonempty; repeat (apply Forall_cons; [discriminate|]); apply Forall_nil.

Lemma readable_dec cmd data : {readable cmd data} + {~ readable cmd data}.
Proof. apply clean_dec. Qed.

(** A string starting with a byte other than 7 followed by a clean string... *)
Lemma clean_check l : splitFunc l = None -> clean l.
Proof. intros H. apply split_none in H. exact H. Qed.

Lemma unreadable_payload cmd n : (2 <= n)%nat ->
  exists data, length data = n /\ bytes_ok data /\ ~ readable cmd data.
Proof.
  intros L. exists (7 :: 15 :: repeat 0 (n - 2)). splits.
  - simpl. rewrite repeat_length. lia.
  - constructor; [unfold byte_ok; lia|]. constructor; [unfold byte_ok; lia|].
    apply Forall_forall. intros x I. apply repeat_spec in I. subst. unfold byte_ok; lia.
  - intros R. refine (R [cmd; Z.of_nat (length (7 :: 15 :: repeat 0 (n - 2)))] 15
      (repeat 0 (n - 2) ++ [cksum_byte cmd (7 :: 15 :: repeat 0 (n - 2))]) eq_refl _).
    unfold ctl; auto.
Qed.

Lemma unreadable_refuted cmd n : (2 <= n)%nat -> exists data, length data = n /\ bytes_ok data /\
  forall c chunks, delivers c chunks -> concat chunks = reply cmd data ->
    exists e, fst (ReadPacket c true) = Done (zero_packet, Some e).
Proof.
  intros L. destruct (unreadable_payload cmd n L) as (data & Ld & B & U). exists data. splits; auto.
  intros c chunks D E. apply (read_reply c chunks cmd data []); auto. rewrite app_nil_r. auto.
Qed.

Lemma quiet_fresh d : quiet (fresh d).
Proof. split; reflexivity. Qed.

Lemma corrupt_refuted : exists data chunks a x y b out w',
  bytes_ok data /\ byte_ok y /\ y <> x /\
  reply 210 data = a ++ x :: b /\ concat chunks = a ++ y :: b /\
  let w := world0 (script [pieces chunks]) in
  quiet (w_conn w) /\ replies (w_conn w) (framed 209 []) chunks /\
  run (QueryPacket (mkPacket 209 [] true)) w = (RDone (out, None), w') /\
  out <> mkPacket 210 data false.
Proof.
  exists [135; 7; 15], [[7; 243; 7; 240; 0; 210; 1; 135; 7; 7; 15; 31; 7; 15]],
    [7; 243; 7; 240; 0; 210], 3, 1, [135; 7; 7; 15; 31; 7; 15], (mkPacket 210 [135] false). eexists.
  splits; try (vm_compute; reflexivity); try discriminate.
  - repeat constructor; discriminate.
  - split; [discriminate|reflexivity].
  - cbv zeta. splits; [split; reflexivity| |vm_compute; reflexivity|discriminate].
    unfold replies. splits; [chunks_ok|discriminate|]. eexists; eexists. split; reflexivity.
Qed.
