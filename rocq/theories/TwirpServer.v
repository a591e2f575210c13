(** Proofs about the server as seen over HTTP. *)
From Coq Require Import String.
From Verif Require Import ProofBase GoStrings Proto SpecProto SpecFrame SpecConn SpecLayout Conn Proc Lib Server QueryProofs SpecServer ServerProofs ServerLemmas ServerOps
  Client Wire Twirp ClientHttp SpecWire SpecTwirp TwirpProofs TwirpReply Samples SamplesServer.

Lemma serve_answer ul uj t h a w : front ul uj h = Answer a -> run (serveHTTP ul uj t h) w = (RDone a, w).
Proof. intros F. unfold serveHTTP. rewrite F. reflexivity. Qed.
Lemma serve_call ul uj t h pb q w : front ul uj h = Call pb q -> run (serveHTTP ul uj t h) w =
  match run (handle q) w with
  | (RDone r, w') => (RDone (respond pb t r), w')
  | (RPanic, w') => (RPanic, w')
  | (RBlocked, w') => (RBlocked, w')
  end.
Proof. intros F. unfold serveHTTP. rewrite F, run_bind. reflexivity. Qed.

Definition good (w : world shared) : Prop :=
  forall c, typed (cached (w_sh w) c) /\ in_types (message (cached (w_sh w) c)).

Lemma blank_types c : in_types (message (blank c)).
Proof. destruct c; simpl; auto; unfold u32_ok; splits; auto; try lia; repeat constructor; simpl; try lia. Qed.
Lemma mod_bytes_ok p a t b : bytes_ok (a ++ t ++ b) -> p = t -> bytes_ok p.
Proof. intros B ->. apply Forall_app in B as [_ B]. apply Forall_app in B as [B _]. exact B. Qed.
Lemma typed_types c p v : bytes_ok p -> accepted c p = true -> layout_of c p v -> in_types (message v).
Proof.
  intros B A L. pose proof (layout_typed c p v B L) as T. unfold typed in T. cbv zeta in T.
  destruct c, v; try contradiction; cbn [message in_types layout_of accepted] in *.
  - destruct L as (_ & _ & _ & (pre & post & E & _)).
    assert (Bn : bytes_ok (skipn 3 p)) by (rewrite <- (firstn_skipn 3 p) in B; apply Forall_app in B; apply B).
    assert (Ln : (length (skipn 3 p) <= 10)%nat) by (rewrite skipn_length; apply Nat.eqb_eq in A; lia).
    rewrite E in Bn, Ln. rewrite !app_length in Ln. simpl. unfold u32_ok. splits; try lia.
    + apply (mod_bytes_ok _ _ _ _ Bn eq_refl).
    + unfold len. lia.
  - simpl. unfold u32_ok. splits; lia.
  - unfold temps_layout in L. simpl. destruct L as ((F1 & _) & (F2 & _) & (F3 & _) & (F4 & _) & (F5 & _) & L).
    destruct L as ((F6 & _) & (F7 & _) & (F8 & _)). repeat constructor; auto.
  - simpl. unfold u32_ok. splits; lia.
  - simpl. unfold u32_ok. repeat constructor; try lia.
  - exact I.
Qed.

Lemma fetches_accepted c h p : In p (flat_map (op_fetches c) h) -> accepted c p = true.
Proof.
  rewrite in_flat_map. intros ([o l] & _ & I). unfold op_fetches, fetched in I.
  destruct o as [[]| |]; apply filter_In in I; tauto.
Qed.
Lemma reach_good ops w0 h w : idle w0 -> w_sh w0 = init_shared -> history ops w0 = (h, w) ->
  (forall c, Forall bytes_ok (flat_map (op_fetches c) h)) -> idle w /\ good w.
Proof.
  intros I S H B. split; [apply (history_tracks ops w0 h w I H)|]. intros c.
  destruct (getters_serve_last w0 ops h w c I S H (B c)) as [L _]. unfold holds_last in L.
  destruct (rev (flat_map (op_fetches c) h)) as [|p r] eqn:E.
  - rewrite L. split; [apply blank_typed|apply blank_types].
  - assert (Ip : In p (flat_map (op_fetches c) h)) by (rewrite in_rev, E; left; reflexivity).
    specialize (B c). rewrite Forall_forall in B.
    split; [eapply layout_typed; eauto|]. eapply typed_types; eauto. eapply fetches_accepted; eauto.
Qed.

Lemma u32_range x : u32_ok (u32 x).
Proof. unfold u32_ok, u32. lia. Qed.
Lemma f_types q w : good w -> args_ok q -> in_types (fst (f_rpc q w)) /\
  (reply_to q (fst (f_rpc q w)) \/ exists e, fst (f_rpc q w) = RespErr e).
Proof.
  intros G A. destruct q; cbn [f_rpc fst args_ok] in *;
    try (match goal with |- context [cached (w_sh w) ?c] => destruct (G c) as [G1 G2]; rewrite umsg_typed by exact G1 end;
         split; [exact G2|left; exact I]).
  - unfold f_comfort. destruct (t >? 255); [simpl; eauto|]. destruct (negb _); [|simpl; split; [split; auto; apply u32_range|auto]].
    destruct (setq _ _) as [[e|] c]; simpl; [eauto|]. split; [split; auto; apply u32_range|auto].
  - unfold f_speed. cbv zeta. destruct (modifySpeed _ _ _) as [v [e|]]; [simpl; eauto|].
    destruct (negb _); [|simpl; split; [split; auto using u32_range|auto]].
    destruct (setq _ _) as [[e|] c]; simpl; [eauto|].
    destruct (f_updpoll _ _ _) as [[e|] c']; simpl; [eauto|]. split; [split; auto using u32_range|auto].
  - destruct A as [_ A]. unfold f_profile. cbv zeta. destruct ((u8 mode <? 1) || _); [simpl; eauto|].
    destruct ((u8 tgt <? 15) || _); [simpl; eauto|].
    destruct (profile_in _ _) as [o|]; [|simpl; eauto].
    destruct (negb _); [|simpl; split; [split; auto using u32_range|auto]].
    destruct (fprofile _ _ _) as [[e|] cn]; simpl; [eauto|]. split; [split; auto using u32_range|auto].
  - simpl. auto.
Qed.

(** ** Requests over HTTP *)
Lemma f_readable q w : good w -> args_ok q -> reads_well q w -> readable (fst (f_rpc q w)).
Proof.
  intros G A R. destruct (f_types q w G A) as [_ [T|(e & E)]]; [|rewrite E; exact I].
  destruct q; try (destruct (fst (f_rpc _ w)); try contradiction; exact I).
  cbn [f_rpc fst]. rewrite umsg_typed by apply G. exact R.
Qed.
(** C70 *)
Lemma http_same {B} ul uj t (q : rpc) (k : reply -> pyres B) w : idle w -> good w -> time_string t -> args_ok q ->
  (forall c, q <> FlushCacheR c) -> reads_well q w -> askHTTP ul uj t (Asks q k) w = ask (Asks q k) w.
Proof.
  intros I G Ti A N R. unfold askHTTP, ask. destruct (post_called q A) as (h & -> & _ & F).
  rewrite (serve_call ul uj t h true q w (F ul uj)). destruct (run_rpc q w I N) as [-> _].
  unfold reply_of, http_reply. do 3 f_equal. set (r := fst (f_rpc q w)).
  assert (E : seen (stub_result q (respond true t r)) = Reply r).
  { destruct (f_types q w G A) as [T [P|(e & E)]]; fold r in T.
    - rewrite reply_read; auto. apply f_readable; auto.
    - fold r in E. rewrite E. destruct e; reflexivity. }
  rewrite E. destruct (_ <? _); reflexivity.
Qed.

Lemma reached_same {B} ops w0 h w : idle w0 -> w_sh w0 = init_shared -> history ops w0 = (h, w) ->
  (forall c, Forall bytes_ok (flat_map (op_fetches c) h)) ->
  forall ul uj t (m : method B), time_string t -> sendable m -> name_readable m w -> askHTTP ul uj t m w = ask m w.
Proof.
  intros I S H By ul uj t m Ti Sd R. destruct (reach_good ops w0 h w I S H By) as [I' G].
  destruct m as [e|q k]; [reflexivity|]. destruct Sd as [A N]. apply http_same; auto.
Qed.
Lemma methods_sendable : (forall s, sendable (set_fan_speed s)) /\ sendable increase_fan_speed /\ sendable decrease_fan_speed /\
  (forall t, sendable (set_comfort_temperature t)) /\ (forall p t, sendable (configure_fan_profile p t)) /\
  sendable get_bootinfo /\ sendable get_bypass /\ sendable get_temps /\ sendable get_fans /\ sendable get_fan_profiles /\
  sendable get_errors /\ sendable ping /\ (forall A l (m : method A), sendable m -> sendable (async l m)).
Proof.
  assert (P : forall p, py_in p VALID_SPEEDS = true -> u32_ok p).
  { intros p. unfold py_in, VALID_SPEEDS. simpl. unfold u32_ok. lia. }
  splits; try (simpl; splits; auto; try discriminate; unfold u32_ok; lia).
  - intros s. unfold set_fan_speed. destruct (py_in s _) eqn:E; simpl; auto. split; auto. discriminate.
  - intros [t|]; simpl; auto. destruct ((t <? 0) || (t >? 255)) eqn:E; simpl; auto. split; [unfold u32_ok; lia|discriminate].
  - intros p t. unfold configure_fan_profile. destruct (py_in p _) eqn:E; simpl; auto.
    destruct ((t <? 15) || (t >? 100)) eqn:F; simpl; auto. split; [split; auto; unfold u32_ok; lia|discriminate].
  - intros A [l|] m Sm; simpl; auto.
Qed.

(** C69 *)
Lemma http_getter ops w0 h w c : idle w0 -> w_sh w0 = init_shared -> history ops w0 = (h, w) ->
  (forall c, Forall bytes_ok (flat_map (op_fetches c) h)) ->
  exists hr, post (getter_rpc c) = Some hr /\ forall ul uj t, time_string t ->
    exists a, run (serveHTTP ul uj t hr) w = (RDone a, w) /\
    (readable (message (cached (w_sh w) c)) -> stub_result (getter_rpc c) a = Got (message (cached (w_sh w) c))) /\
    (~ readable (message (cached (w_sh w) c)) -> r_status a = 500).
Proof.
  intros I S H By. destruct (reach_good ops w0 h w I S H By) as [I' G].
  destruct (post_called (getter_rpc c)) as (hr & P & _ & F); [destruct c; exact Logic.I|].
  exists hr. split; auto. intros ul uj t Ti. rewrite (serve_call ul uj t hr true _ w (F ul uj)).
  destruct (getters_serve_last w0 ops h w c I S H (By c)) as [_ ->].
  eexists. split; [reflexivity|]. split; intros R.
  - apply reply_read; auto; [|apply G]. destruct c; exact Logic.I.
  - rewrite reply_unreadable; auto. apply G.
Qed.
Definition latin1_boot : list Z := [3; 60; 32; 67; 97; 102; 233; 32; 51; 53; 48; 32; 32].
Lemma latin1_refuted : exists ops w0 h w hr, idle w0 /\ w_sh w0 = init_shared /\ history ops w0 = (h, w) /\
  (forall c, Forall bytes_ok (flat_map (op_fetches c) h)) /\
  fst (run (handle GetBootInfo) w) = RDone (RespBoot (mkPbBoot 3 60 32 [67; 97; 102; 233; 32; 51; 53; 48])) /\
  post GetBootInfo = Some hr /\
  forall ul uj t, run (serveHTTP ul uj t hr) w = (RDone (mkHresp 500 (ErrorJson TMarshal)), w).
Proof.
  set (w0 := server (script (answer 104 latin1_boot)) init_shared).
  destruct (history [OTick TickGlacial] w0) as [h w] eqn:H.
  exists [OTick TickGlacial], w0, h, w.
  assert (I : idle w0) by reflexivity. assert (S : w_sh w0 = init_shared) by reflexivity.
  assert (P : forall c, flat_map (op_fetches c) h = match c with CBoot => [latin1_boot] | _ => [] end).
  { change h with (fst (h, w)). rewrite <- H. intros []; vm_compute; reflexivity. }
  assert (By : forall c, Forall bytes_ok (flat_map (op_fetches c) h)).
  { intros c. rewrite P. destruct c; repeat constructor; unfold byte_ok; lia. }
  assert (M : cached (w_sh w) CBoot = VBoot (mkBoot 3 60 32 [67; 97; 102; 233; 32; 51; 53; 48])).
  { change w with (snd (h, w)). rewrite <- H. vm_compute. reflexivity. }
  destruct (post_called GetBootInfo) as (hr & Po & _ & F); [exact Logic.I|]. exists hr.
  destruct (getters_serve_last w0 _ h w CBoot I S H (By CBoot)) as [_ R]. cbn [getter_rpc] in R. rewrite M in R.
  splits; auto; [rewrite R; reflexivity|].
  intros ul uj t. rewrite (serve_call ul uj t hr true _ w (F ul uj)), R. reflexivity.
Qed.
