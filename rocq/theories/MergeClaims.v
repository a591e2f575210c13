(** Cases for PropertiesMerge.v. *)
From Verif Require Import ProofBase Proto SpecProto SpecFrame SpecConn SpecLayout Conn Proc Lib Server SpecServer SpecUnit UnitClaims Machine SpecMachine
  Samples SamplesServer SamplesUnit SamplesMachine SpecMerge.

Definition lost_changes : list change := [One 1 42; All all30].
Lemma runs_okb its : forallb (fun x => match x with Run _ | Pass _ => true | _ => false end) its = true -> only_runs its.
Proof. intros H. apply Forall_forall. intros x I. rewrite forallb_forall in H. specialize (H x I). destruct x; auto; discriminate. Qed.
Lemma lost_setting : quiet lost_conn /\ unit_at 0 true vent2 (c_dev lost_conn) /\ vent_ok 0 vent2 /\ Forall (change_ok 0) lost_changes /\
  only_runs lost_schedule /\
  match exec lost_schedule (spawn (map changing lost_changes) (mkMem lost_conn init_shared 0)) with
  | Some m => results m = [Some None; Some None] /\
      read_back (g_conn (m_g m)) = RDone (mkProf 15 42 40 70 true 15 42 50 70 35 35 2, None)
  | None => False
  end.
Proof.
  destruct vent2_unit as (A & B & C). splits; auto.
  - repeat constructor; cbn; unfold byte_ok; lia.
  - apply runs_okb. reflexivity.
  - vm_compute. auto.
Qed.
(** The same unit; the mode is changed, the comfort temperature, and the profiles, while one profile is being changed. *)
Definition mode_changes : list change := [One 1 42; Mode 4; All all30; One 0 77; Warm 23].
Definition mode_schedule : list item := repeat (Run 0) 6 ++ repeat (Run 1) 5 ++ [Pass 1] ++ repeat (Run 2) 5 ++ repeat (Run 4) 5 ++ repeat (Run 0) 6 ++ repeat (Run 3) 12.
Definition lined_conn : conn := w_conn (simulated fans_payload).
(** The comfort temperature the unit then shows. *)
Definition warmth (c : conn) : option f32 :=
  match fst (run GetTemperatures (mkWorld c tt [] 0 [])) with RDone (t, None) => Some (Comfort t) | _ => None end.
Lemma mode_setting : lined 15 lined_conn vent2 /\ Forall (change_ok 15) mode_changes /\ only_runs mode_schedule /\
  match exec mode_schedule (spawn (map changing mode_changes) (mkMem lined_conn init_shared 0)) with
  | Some m => results m = [Some None; Some None; Some None; Some None; Some None] /\ warmth (g_conn (m_g m)) = Some (f32_of_Z 23) /\
      read_back (g_conn (m_g m)) = RDone (mkProf 77 42 40 70 true 77 42 50 70 35 35 4, None)
  | None => False
  end.
Proof.
  splits.
  - apply simulated_fans.
  - repeat constructor; cbn; unfold byte_ok; lia.
  - apply runs_okb. reflexivity.
  - vm_compute. auto.
Qed.
Lemma three_setting : Forall (fun x => 0 <= fst x <= 3 /\ 0 <= snd x <= 100 /\ 0 <= snd x) [(1, 42); (3, 90); (1, 43)] /\ only_runs three_schedule.
Proof. split; [repeat constructor; cbn; lia|apply runs_okb; reflexivity]. Qed.
