(** The statements of PropertiesServer.v, from the lemmas about the operations. *)
From Coq Require Import SpecFloat.
From Verif Require Import ProofBase GoStrings Proto SpecProto SpecFrame SpecConn SpecOps SpecLayout SpecServer ProtoProofs
  Scanner Conn FrameProofs ReplyProofs ReadProofs Proc Lib QueryProofs FrameLemmas LayoutProofs TrimProofs OpLemmas Server
  ServerProofs ServerLemmas ServerOps ServerTimes Samples SamplesServer.

Lemma refresh_failure w c force : idle w -> exists w' l, run (Update c force) w = (RDone tt, w') /\ idle w' /\
  added w w' l /\
  (fetched c l = [] -> w_sh w' = w_sh w) /\
  (forall p r, fetched c l = p :: r -> r = [] /\ stamp (w_sh w') c = w_clk w' /\
     (bytes_ok p -> layout_of c p (cached (w_sh w') c)) /\
     forall c', c' <> c -> cached (w_sh w') c' = cached (w_sh w) c' /\ stamp (w_sh w') c' = stamp (w_sh w) c').
Proof.
  intros I. destruct (refresh_spec w c force I) as (w' & l & R & I' & A & K & Q1 & Q2 & F0 & F1).
  exists w', l. splits; auto; eapply F1; eauto.
Qed.

Lemma refresh_decision w c force : idle w -> exists w' l, run (Update c force) w = (RDone tt, w') /\
  added w w' l /\
  (force = true \/ 4500000000 < w_clk w' - stamp (w_sh w) c -> one_query c l) /\
  (force = false -> w_clk w' - stamp (w_sh w) c <= 4500000000 -> l = []).
Proof.
  intros I. destruct (refresh_spec w c force I) as (w' & l & R & I' & A & K & Q1 & Q2 & F0 & F1).
  exists w', l. splits; auto.
Qed.

Lemma speed_claim w abs rel o : idle w -> 0 <= abs -> CurrentMode (sh_prof (w_sh w)) = o -> 0 <= o < 256 ->
  exists r w' l, run (handle (SetFanSpeedR abs rel)) w = (RDone r, w') /\ added w w' l /\
    speed_outcome o (speed_target o abs rel) w r w' l.
Proof.
  intros I A Co O. destruct (speed_spec w abs rel o I A Co O) as (r & w' & l & R & _ & Ad & _ & S & _).
  exists r, w', l. auto.
Qed.

Lemma speed_abs w n o : idle w -> 1 <= n <= 255 -> CurrentMode (sh_prof (w_sh w)) = o -> 0 <= o < 256 ->
  exists r w' l, run (handle (SetFanSpeedR n false)) w = (RDone r, w') /\ added w w' l /\
    speed_outcome o (Some n) w r w' l /\
    (4 < n -> r = RespErr (InvalidArgument (ArgFanSpeed n)) /\ w' = w).
Proof.
  intros I N Co O. destruct (speed_spec w n false o I ltac:(lia) Co O) as (r & w' & l & R & _ & Ad & _ & S & _).
  unfold speed_target in S. replace (n =? 0) with false in S by lia. rewrite Z.mod_small in S by lia.
  exists r, w', l. splits; auto; intros H; inversion S; subst;
    repeat match goal with H : Some _ = Some _ |- _ => injection H as H; subst end; auto; try discriminate; try lia.
  rewrite Z.mod_small by lia. auto.
Qed.

Lemma speed_257 : exists w, idle w /\ CurrentMode (sh_prof (w_sh w)) = 2 /\
  fst (run (handle (SetFanSpeedR 257 false)) w) = RDone (RespSpeed true 2 1) /\
  exists a r b, c_log (w_conn (snd (run (handle (SetFanSpeedR 257 false)) w))) = a ++ Wr (framed 153 [1]) r :: b.
Proof.
  exists (started (acked ++ answer 12 [15; 15; 8; 0; 9; 0] ++ answer 206 (prof_payload 1))).
  splits; try (vm_compute; reflexivity).
  exists (firstn 18 (c_log (w_conn (snd (run (handle (SetFanSpeedR 257 false)) (started (acked ++ answer 12 [15; 15; 8; 0; 9; 0] ++ answer 206 (prof_payload 1)))))))),
    (mkWres 9 None),
    (skipn 19 (c_log (w_conn (snd (run (handle (SetFanSpeedR 257 false)) (started (acked ++ answer 12 [15; 15; 8; 0; 9; 0] ++ answer 206 (prof_payload 1)))))))).
  vm_compute. reflexivity.
Qed.

Lemma profile_271 : exists w, idle w /\
  fst (run (handle (SetFanProfileR 257 271)) w) = RDone (RespProfile false 15 271) /\
  fst (run (handle (SetFanProfileR 2 300)) w) = RDone (RespProfile true 35 300).
Proof.
  exists (started (answer 206 (prof_payload 2) ++ acked ++ answer 206 (prof_payload 2))).
  splits; vm_compute; reflexivity.
Qed.

Lemma no_leak o w : idle w -> exists w', run (perform o) w = (RDone tt, w') /\ idle w'.
Proof. intros I. destruct (run_op o w I). eauto. Qed.

Lemma flush_claim w c : idle w -> exists b w' l, run (FlushCaches_body c) w = (RDone b, w') /\ added w w' l /\
  (b = true <-> In c [0; 1; 2; 3; 4; 10]) /\ queries (flushes c) l.
Proof.
  intros I. destruct (flush_spec w c I) as (b & w' & l & R & _ & A & B & Q & _). exists b, w', l. auto.
Qed.

Lemma flush_fresh w c : idle w -> exists b w' l, run (FlushCaches_body c) w = (RDone b, w') /\ added w w' l /\
  forall k, In k (flushes c) ->
    (fetched k l = [] -> cached (w_sh w') k = cached (w_sh w) k /\ stamp (w_sh w') k = stamp (w_sh w) k) /\
    (forall p r, fetched k l = p :: r -> r = [] /\ w_clk w <= stamp (w_sh w') k /\
       (bytes_ok p -> layout_of k p (cached (w_sh w') k))).
Proof.
  intros I. destruct (flush_spec w c I) as (b & w' & l & R & _ & A & _ & _ & C). exists b, w', l. auto.
Qed.

Lemma flush_lies : exists w w', idle w /\ run (FlushCaches_body 2) w = (RDone true, w') /\
  stamp (w_sh w') CTemp < w_clk w /\ cached (w_sh w') CTemp = cached (w_sh w) CTemp.
Proof.
  exists (add_clock (started []) 60000000000).
  exists (snd (run (FlushCaches_body 2) (add_clock (started []) 60000000000))).
  splits; vm_compute; reflexivity.
Qed.

Lemma lookup_percent p v : 1 <= v <= 4 -> Lookup p v = (in_percent p v, out_percent p v, None).
Proof. intros V. assert (v = 1 \/ v = 2 \/ v = 3 \/ v = 4) as [-> |[-> |[-> | ->]]] by lia; reflexivity. Qed.

Lemma update_poll_claim w n v : idle w -> 1 <= v <= 4 ->
  exists r w' l, run (UpdatePoll n v) w = (RDone r, w') /\ idle w' /\ added w w' l /\
  let hit := at_profile (sh_prof (w_sh w)) v in
  ((exists k, (k < n)%nat /\ r = None /\ w' = nth_poll w k /\ hit w' /\
      (forall j, (j < k)%nat -> ~ hit (nth_poll w j)) /\ queries (repeat CFans (S k)) l) \/
   (r = Some ErrSetPollFailed /\ (forall j, (j < n)%nat -> ~ hit (nth_poll w j)) /\
      queries (repeat CFans n) l /\ w_clk w + Z.of_nat n * half_second <= w_clk w')).
Proof. intros I V. exact (update_poll_spec w n v _ _ I (lookup_percent (sh_prof (w_sh w)) v V)). Qed.

Lemma poll_failure_internal w w1 v : idle w -> 1 <= v <= 4 -> v <> CurrentMode (sh_prof (w_sh w)) ->
  run (SetSpeed v) w = (RDone None, w1) ->
  (forall j, (j < 10)%nat -> ~ at_profile (sh_prof (w_sh w)) v (nth_poll w1 j)) ->
  exists w', run (handle (SetFanSpeedR v false)) w = (RDone (RespErr (Internal ErrSetPollFailed)), w').
Proof.
  intros I V N St P. pose proof (lookup_percent (sh_prof (w_sh w)) v V) as Lk.
  unfold at_profile in P. set (i := in_percent _ _) in *. set (u := out_percent _ _) in *. destruct (run_rpc (SetFanSpeedR v false) w I) as [R _]; [discriminate|].
  exists (snd (f_rpc (SetFanSpeedR v false) w)). rewrite R. f_equal. f_equal. cbn [f_rpc]. unfold f_speed. cbv zeta.
  assert (U : u8 v = v) by (apply Z.mod_small; lia).
  assert (M : modifySpeed (CurrentMode (sh_prof (w_sh w))) v false = (v, None)).
  { unfold modifySpeed. replace (v =? 0) with false by lia. cbn [negb andb]. rewrite U.
    replace ((v <? 1) || (v >? 4)) with false by lia. reflexivity. }
  rewrite M, U. replace (v =? _) with false by lia. cbn [negb].
  unfold SetSpeed in St. rewrite run_setQuery in St by (apply idle_lock, I).
  destruct (setq (SRSpeed v) (w_conn w)) as [e cn]. cbn [fst snd] in St. injection St as -> <-.
  unfold f_updpoll. cbn [set_conn w_sh]. rewrite Lk.
  destruct (poll_spec 10 i u (set_conn w cn)) as (l & _ & _ & [(k & K & _ & F & _)|(E & _)]); [exact I| |].
  - exfalso. exact (P k K F).
  - destruct (f_poll 10 i u (set_conn w cn)) as [e w2]. cbn [fst] in E. subst e. reflexivity.
Qed.

Lemma poll_failure_lost w w' abs rel o : idle w -> 0 <= abs -> CurrentMode (sh_prof (w_sh w)) = o -> 0 <= o < 256 ->
  run (handle (SetFanSpeedR abs rel)) w = (RDone (RespErr (Internal ErrSetPollFailed)), w') ->
  http_reply (w_clk w) (w_clk w') (RespErr (Internal ErrSetPollFailed)) = None.
Proof.
  intros I A Co O H. destruct (speed_spec w abs rel o I A Co O) as (r & w2 & l & R & _ & Ad & _ & _ & S).
  rewrite H in R. injection R as <- <-. specialize (S eq_refl).
  unfold http_reply, WriteTimeout, second. replace (_ <? _) with false by lia. reflexivity.
Qed.

Lemma poll_failure_occurs : exists w w', idle w /\ CurrentMode (sh_prof (w_sh w)) = 2 /\
  run (handle (SetFanSpeedR 3 false)) w = (RDone (RespErr (Internal ErrSetPollFailed)), w') /\
  http_reply (w_clk w) (w_clk w') (RespErr (Internal ErrSetPollFailed)) = None.
Proof.
  exists (started (acked ++ concat (repeat (answer 12 fans_payload) 10))).
  exists (snd (run (handle (SetFanSpeedR 3 false)) (started (acked ++ concat (repeat (answer 12 fans_payload) 10))))).
  splits; vm_compute; reflexivity.
Qed.

Lemma getter_message w c : idle w -> typed (cached (w_sh w) c) ->
  run (handle (getter_rpc c)) w = (RDone (message (cached (w_sh w) c)), w).
Proof.
  intros I T. destruct (does_getter c w) as [R _]; [intros l _; apply idle_lock, I|].
  rewrite R. cbn [fst snd]. rewrite umsg_typed; auto.
Qed.
