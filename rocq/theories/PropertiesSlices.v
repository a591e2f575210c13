(** Properties C48 and C64: slices, arrays and aliasing. *)
From Verif Require Import GoBase Proto SpecProto SpecFrame SpecConn Slices SpecSlices SlicesProofs.

(** C48: any number of goroutines send any packets and ACKs, interleaved at the level of single memory
    accesses, the runtime giving any capacities.  Arrays that existed before are never changed, what is
    sent are the frames, and nobody gets stuck. *)
Theorem C48_frames : forall h xss ex s m, constants h -> Forall2 (sent_all h) xss ex -> hexec s (hspawn h xss) = Some m ->
  preserved h (h_heap m) /\
  forall i t, nth_error (h_ths m) i = Some t ->
    (exists e rest, nth_error ex i = Some e /\ e = h_out t ++ rest /\ (finished t -> rest = [])) /\
    (finished t \/ exists n, forall c, (n <= c)%nat -> hstep (i, c) m <> None).
Proof. exact frames_concurrent. Qed.
Print Assumptions C48_frames.
(** The payload of the second packet is the array of the start sequence itself. *)
Example C48_ex : let h := [[7; 240]; [7; 15]; [7; 243]; [1; 2; 3; 4]] in
  let xs := [SendPacket 153 (mkSlc 3 1 2 3); SendPacket 205 (mkSlc 0 0 2 2); SendAck] in
  let os := [framed 153 [2; 3]; framed 205 [7; 240]; [7; 243]] in
  constants h /\ Forall2 (sent_all h) [xs; xs] [os; os] /\
  match hexec (turns 98) (hspawn h [xs; xs]) with
  | Some m => map h_out (h_ths m) = [os; os] /\ Forall finished (h_ths m)
  | None => False
  end.
Proof.
  cbv zeta. split; [reflexivity|]. split.
  - assert (S : sent_all [[7; 240]; [7; 15]; [7; 243]; [1; 2; 3; 4]] [SendPacket 153 (mkSlc 3 1 2 3); SendPacket 205 (mkSlc 0 0 2 2); SendAck]
      ([framed 153 [2; 3]] ++ [framed 205 [7; 240]] ++ [[7; 243]] ++ [])).
    { repeat (constructor; [econstructor; try (eexists; repeat split; simpl; lia); simpl; lia|]). constructor; constructor. }
    repeat constructor; exact S.
  - vm_compute. split; [reflexivity|]. repeat constructor; eexists; reflexivity.
Qed.

(** C64: these functions can be seen as functions on byte strings: the result is a new array, the content
    that of the functions in Proto.v, and nothing else has changed. *)
Theorem C64_new_slices : forall h g s bs, slice_of h s bs ->
  (exists o h', hrun g (hescapeData s) h = Some (o, h', []) /\ preserved h h' /\ slice_of h' o (escapeData bs) /\ (length h <= s_arr o)%nat) /\
  (exists o h', hrun g (hunescapeData s) h = Some (o, h', []) /\ preserved h h' /\ slice_of h' o (unescapeData bs) /\ (length h <= s_arr o)%nat) /\
  ((length bs <= 4)%nat -> exists o h', hrun g (hleftPad32 s) h = Some (o, h', []) /\ preserved h h' /\
     slice_of h' o (repeat 0 (4 - length bs) ++ bs) /\ (length h <= s_arr o)%nat).
Proof. exact new_slices. Qed.
Print Assumptions C64_new_slices.
Theorem C64_new_packet : forall h g s cmd bs, slice_of h s bs ->
  ((length bs <= 255)%nat -> exists o h', hrun g (hMarshalPacket cmd s) h = Some (Some o, h', []) /\ preserved h h' /\
     MarshalPacket (mkPacket cmd bs true) = Done (wire cmd bs, None) /\ slice_of h' o (wire cmd bs) /\ (length h <= s_arr o)%nat) /\
  ((255 < length bs)%nat -> hrun g (hMarshalPacket cmd s) h = Some (None, h, [])).
Proof. exact new_packet. Qed.
Print Assumptions C64_new_packet.
Example C64_ex : let h := [[7; 240]; [7; 15]; [7; 243]; [1; 2; 7; 4]] in
  slice_of h (mkSlc 3 1 3 3) [2; 7; 4] /\
  match hrun (fun _ => 5%nat) (hMarshalPacket 153 (mkSlc 3 1 3 3)) h with
  | Some (Some o, h', []) => nth_error h' (s_arr o) = Some [0; 153; 3; 2; 7; 7; 4; 86]
  | _ => False
  end.
Proof. cbv zeta. split; [eexists; repeat split; simpl; lia|]. vm_compute. reflexivity. Qed.
