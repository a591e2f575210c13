(** Arguments and cached temperatures outside the ranges of C26, C28 and C29. *)
From Coq Require Import SpecFloat.
From Verif Require Import ProofBase GoStrings Proto SpecProto SpecFrame SpecConn SpecOps SpecLayout SpecServer ProtoProofs
  Scanner Conn FrameProofs ReplyProofs ReadProofs Proc Lib QueryProofs FrameLemmas LayoutProofs TrimProofs OpLemmas Server
  ServerProofs ServerLemmas Samples ServerOps SpecArgs.

Lemma u8_256 n : u8 n = n mod 256. Proof. reflexivity. Qed.
Lemma u8_u8 n : u8 (n mod 256) = u8 n.
Proof. unfold u8. apply Z.mod_mod. lia. Qed.
(** As programs, so whatever else runs. *)
Lemma speed_modulo n : n mod 256 <> 0 -> handle (SetFanSpeedR n false) = handle (SetFanSpeedR (n mod 256) false).
Proof.
  intros N. assert (n <> 0) by (intros ->; apply N; reflexivity). cbn [handle]. unfold SetFanSpeed, modifySpeed.
  rewrite u8_u8. replace (n =? 0) with false by lia. replace (n mod 256 =? 0) with false by lia. reflexivity.
Qed.
Lemma speed_zero w n : idle w -> n <> 0 -> n mod 256 = 0 -> run (handle (SetFanSpeedR n false)) w = (RDone (RespErr (InvalidArgument (ArgFanSpeed 0))), w).
Proof.
  intros I N Z. destruct (run_rpc (SetFanSpeedR n false) w I) as [R _]; [discriminate|]. rewrite R. cbn [f_rpc]. unfold f_speed, modifySpeed.
  replace (n =? 0) with false by lia. cbn [negb andb]. rewrite u8_256, Z. reflexivity.
Qed.
Lemma profile_modulo m t : handle (SetFanProfileR m t) = handle (SetFanProfileR (m mod 256) t).
Proof. cbn [handle]. unfold SetFanProfileRPC. rewrite u8_u8. reflexivity. Qed.
Lemma profile_target w m t : idle w -> exists r w', run (handle (SetFanProfileR m (t mod 256))) w = (RDone r, w') /\
  run (handle (SetFanProfileR m t)) w = (RDone (told_target t r), w').
Proof.
  intros I. destruct (run_rpc (SetFanProfileR m t) w I) as [R _]; [discriminate|]. destruct (run_rpc (SetFanProfileR m (t mod 256)) w I) as [R2 _]; [discriminate|].
  rewrite R, R2. eexists _, _. split; [reflexivity|]. cbn [f_rpc]. unfold f_profile. rewrite !u8_u8.
  destruct (_ || _); [reflexivity|]. destruct (_ || _); [reflexivity|]. destruct (profile_in _ _); [|reflexivity]. destruct (negb _); [|reflexivity].
  destruct (fprofile _ _ _) as [[e|] cn]; reflexivity.
Qed.
Lemma comfort_any w t k : idle w -> 0 <= t -> f32_is (Comfort (sh_temp (w_sh w))) k -> -20 <= k <= 107 ->
  exists r w' l, run (handle (SetComfortTempR t)) w = (RDone r, w') /\ idle w' /\ added w w' l /\
  (255 < t -> r = RespErr (InvalidArgument ArgComfortTemp) /\ w' = w) /\
  (t = k mod 256 -> r = RespComfort false (k mod 2 ^ 32) t /\ w' = w) /\
  (108 <= t <= 255 -> t <> k mod 256 -> r = RespErr (Internal (LibErr ErrTooHigh)) /\ l = [] /\ w_sh w' = w_sh w) /\
  (t <= 107 -> t <> k ->
     (exists out e, exchange 211 [2 * (t + 20)] false out (Some e) l /\
        r = RespErr (Internal (LibErr e)) /\ w_sh w' = w_sh w) \/
     (exists out l1 l2, l = l1 ++ l2 /\ exchange 211 [2 * (t + 20)] false out None l1 /\
        one_query CTemp l2 /\ r = RespComfort true (k mod 2 ^ 32) t)).
Proof.
  intros I T0 F K. destruct (run_rpc (SetComfortTempR t) w I) as [R I']; [discriminate|].
  cbn [f_rpc] in *. exists (fst (f_comfort t w)), (snd (f_comfort t w)).
  unfold f_comfort in *. cbv zeta in *.
  assert (U8 : f32_to_u8 (Comfort (sh_temp (w_sh w))) = k mod 256).
  { unfold f32_to_u8. rewrite (is_trunc _ _ F). reflexivity. }
  assert (U32 : f32_to_u32 (Comfort (sh_temp (w_sh w))) = k mod 2 ^ 32).
  { unfold f32_to_u32. rewrite (is_trunc _ _ F). reflexivity. }
  rewrite U8, U32 in *. set (k8 := k mod 256) in *. set (k32 := k mod 2 ^ 32) in *.
  assert (B : 0 <= k8 < 256) by (apply Z.mod_pos_bound; lia).
  assert (S : k8 = k \/ k8 = k + 256 /\ k < 0).
  { destruct (Z_lt_dec k 0); [right|left]; unfold k8; [split; [|auto]; symmetry; apply Z.mod_unique with (q := -1); lia|apply Z.mod_small; lia]. }
  clearbody k8 k32.
  destruct (t >? 255) eqn:T.
  { exists []. splits; auto using added_nil; try lia; auto. }
  assert (Ut : u8 t = t) by (apply Z.mod_small; lia). rewrite Ut in *.
  destruct (k8 =? t) eqn:E; cbn [negb] in *.
  { assert (k8 = t) by lia. subst k8. exists []. splits; auto using added_nil; try lia. }
  destruct (t >? 107) eqn:T7.
  { assert (Q : setq (SRComfort (f32_of_Z t)) (w_conn w) = (Some ErrTooHigh, w_conn w)).
    { unfold setq, EncodeSetRequest. cbn [requestType SetRequest_MarshalBinary].
      destruct (of_Z_exact t ltac:(lia)) as [_ Tt]. unfold temperature_MarshalBinary. rewrite Tt, T7. reflexivity. }
    rewrite Q in *. cbn [fst snd] in *. exists []. splits; auto using added_nil; try lia. }
  assert (En : EncodeSetRequest (SRComfort (f32_of_Z t)) = (mkPacket 211 [2 * (t + 20)] false, None)).
  { unfold EncodeSetRequest. cbn [requestType SetRequest_MarshalBinary]. rewrite temp_encode by lia. reflexivity. }
  destruct (setq_cases _ w _ _ En) as (l & out & A & X).
  destruct (setq _ (w_conn w)) as [[e|] cn]; cbn [fst snd] in *.
  - exists l. splits; auto; try lia. intros _ _. left. exists out, e. auto.
  - destruct (upd_forced CTemp (set_conn w cn)) as (l2 & A2 & Q2 & _).
    exists (l ++ l2). splits; auto; try lia.
    + eapply added_app; eauto.
    + intros _ _. right. exists out, l, l2. auto.
Qed.
Lemma rpm_modulo l f : Fans_Unmarshal l = Done (f, None) ->
  InSpeed f = (1875000 / be_at l 2 2) mod 65536 /\ OutSpeed f = (1875000 / be_at l 4 2) mod 65536.
Proof. intros H. apply fans_decodes in H as (_ & _ & _ & _ & _ & Hi & Ho). split; [exact Hi|exact Ho]. Qed.
