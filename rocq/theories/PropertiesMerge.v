(** C41 and C42: several callers change a unit at once. *)
From Coq Require Import Permutation.
From Verif Require Import GoBase Proto SpecProto SpecFrame SpecConn SpecLayout SpecUnit Scanner Conn Proc Lib Server SpecServer Machine SpecMachine
  Samples SamplesServer SamplesUnit SamplesMachine SpecMerge Merge MergeClaims.

(** C41: changes of single profiles that all report success are all there, if no other call changed the
    same profile; nothing else is changed. *)
Theorem C41_profile_effect : forall lo rel u (mv : list (Z * Z)) c s clk its m,
  Forall (fun x => 0 <= fst x <= 3 /\ 0 <= snd x <= 100 /\ lo <= snd x) mv ->
  quiet c -> unit_at lo rel u (c_dev c) -> vent_ok lo u -> only_runs its ->
  exec its (spawn (map (fun x => SetFanProfile (fst x) (snd x)) mv) (mkMem c s clk)) = Some m -> Forall (fun t => t_p t = Ret None) (m_ts m) ->
  exists u', unit_at lo rel u' (c_dev (g_conn (m_g m))) /\ u_mode u' = u_mode u /\ u_comfort u' = u_comfort u /\ forall i, (i < 4)%nat ->
    (exists v, In (Z.of_nat i, v) mv /\ nth i (u_out u') 0 = v /\ nth i (u_in u') 0 = v) \/
    ((forall v, ~ In (Z.of_nat i, v) mv) /\ nth i (u_out u') 0 = nth i (u_out u) 0 /\ nth i (u_in u') 0 = nth i (u_in u) 0).
Proof. exact profiles_effect. Qed.
Print Assumptions C41_profile_effect.
Example C41_effect_ex : (quiet lost_conn /\ unit_at 0 true vent2 (c_dev lost_conn) /\ vent_ok 0 vent2) /\
  (Forall (fun x => 0 <= fst x <= 3 /\ 0 <= snd x <= 100 /\ 0 <= snd x) [(1, 42); (3, 90); (1, 43)] /\ only_runs three_schedule) /\
  match exec three_schedule (spawn (map (fun x => SetFanProfile (fst x) (snd x)) [(1, 42); (3, 90); (1, 43)]) (mkMem lost_conn init_shared 0)) with
  | Some m => results m = [Some None; Some None; Some None]
  | None => False
  end.
Proof.
  split; [exact (let '(conj a (conj b (conj c _))) := lost_setting in conj a (conj b c))|]. split; [exact three_setting|]. vm_compute. reflexivity.
Qed.

(** C42.  As stated it is false (C42_lost_update_refuted).  What does hold, for any number of calls of
    SetFanProfile, SetFanProfiles, SetSpeed and SetComfort at once: they act one after the other, except that calls of
    SetFanProfiles falling into a SetFanProfile may be undone by it ([merges]).  No SetFanProfile is lost
    to another one, and no SetSpeed or SetComfort at all. *)
Theorem C42_changes_partial : forall lo rel u xs c s clk its m, Forall (change_ok lo) xs -> quiet c -> unit_at lo rel u (c_dev c) -> vent_ok lo u ->
  only_runs its -> exec its (spawn (map changing xs) (mkMem c s clk)) = Some m -> Forall (fun t => t_p t = Ret None) (m_ts m) ->
  exists l u', Permutation l xs /\ merges u l u' /\ unit_at lo rel u' (c_dev (g_conn (m_g m))).
Proof. exact changes_merge. Qed.
Print Assumptions C42_changes_partial.
Example C42_ex : quiet lost_conn /\ unit_at 0 true vent2 (c_dev lost_conn) /\ vent_ok 0 vent2 /\ Forall (change_ok 0) lost_changes /\
  only_runs lost_schedule /\
  match exec lost_schedule (spawn (map changing lost_changes) (mkMem lost_conn init_shared 0)) with
  | Some m => results m = [Some None; Some None] /\
      read_back (g_conn (m_g m)) = RDone (mkProf 15 42 40 70 true 15 42 50 70 35 35 2, None)
  | None => False
  end.
Proof. exact lost_setting. Qed.

(** On a reliable line to a unit that sends readable packets they all succeed. *)
Theorem C42_changes_succeed : forall lo u xs c s clk its m rs, Forall (change_ok lo) xs -> lined lo c u ->
  only_runs its -> exec its (spawn (map changing xs) (mkMem c s clk)) = Some m -> Forall2 (fun t r => t_p t = Ret r) (m_ts m) rs ->
  Forall (fun r => r = None) rs.
Proof. exact changes_succeed. Qed.
Print Assumptions C42_changes_succeed.
Example C42_succeed_ex : lined 15 lined_conn vent2 /\ Forall (change_ok 15) mode_changes /\ only_runs mode_schedule /\
  match exec mode_schedule (spawn (map changing mode_changes) (mkMem lined_conn init_shared 0)) with
  | Some m => results m = [Some None; Some None; Some None; Some None; Some None] /\ warmth (g_conn (m_g m)) = Some (f32_of_Z 23) /\
      read_back (g_conn (m_g m)) = RDone (mkProf 77 42 40 70 true 77 42 50 70 35 35 4, None)
  | None => False
  end.
Proof. exact mode_setting. Qed.
