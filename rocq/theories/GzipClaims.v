(** The descriptor in comfo.twirp.go. *)
From Coq Require Import String.
From Verif Require Import GoBase SpecGzip GzipProofs GzipRead SpecDescriptor Descriptor DescriptorProofs DescriptorClaims.

Lemma zip_reads : unzips (fst serviceDescriptor) go_rawDesc.
Proof. apply (unzips_sound 4 3000). vm_compute. reflexivity. Qed.
Lemma zip_describes d : unzips (fst serviceDescriptor) d -> d = go_rawDesc /\ describes d comfo_proto.
Proof. intros H. rewrite (unzips_unique _ _ _ H zip_reads). split; [reflexivity|exact go_describes]. Qed.
Lemma zip_service : exists s, nth_error (f_services comfo_proto) (snd serviceDescriptor) = Some s /\ s_name s = "Comfo"%string.
Proof. eexists. split; reflexivity. Qed.
