(** Executions of the server with its front end, cut in two; goroutines that have not begun. *)
From Verif Require Import ProofBase Proto SpecProto SpecFrame SpecConn SpecLayout Conn Proc Lib Server SpecServer ServerLemmas
  Client Wire Twirp ClientHttp SpecWire SpecTwirp TwirpProofs TwirpReply TwirpServer Machine SpecMachine MachineBase MachineInv MachineLive
  MachineFlush MachineClaims HttpMachine SpecHttp HttpProofs SpecFresh.

Section Split.
Variables (ul : list byte -> list byte) (uj : desc -> list byte -> option msg).
Notation ren := (renumber ul uj).
Notation nm := (num ul uj).

(** Numbers of calls differ. *)
Lemma num_less hs i i' x pb q : (i < i')%nat -> nth_error hs i = Some x -> front ul uj (fst x) = Call pb q -> (nm hs i < nm hs i')%nat.
Proof.
  intros L N F. unfold num. assert (E : firstn i' hs = firstn i hs ++ x :: firstn (i' - S i) (skipn (S i) hs)).
  { clear F. revert i' x hs L N. induction i as [|i IH]; intros [|i'] x [|y hs] L N; try lia; try discriminate; cbn in N |- *.
    - injection N as <-. rewrite Nat.sub_0_r. reflexivity.
    - f_equal. apply IH; auto. lia. }
  rewrite E. unfold calls. rewrite flat_map_app, app_length. cbn [flat_map]. rewrite F. cbn. lia.
Qed.
Lemma num_inj hs i i' x pb q x' pb' q' : nth_error hs i = Some x -> front ul uj (fst x) = Call pb q ->
  nth_error hs i' = Some x' -> front ul uj (fst x') = Call pb' q' -> nm hs i = nm hs i' -> i = i'.
Proof.
  intros N F N' F' E. destruct (Nat.lt_trichotomy i i') as [L|[L|L]]; auto;
    [pose proof (num_less _ _ _ _ _ _ L N F)|pose proof (num_less _ _ _ _ _ _ L N' F')]; lia.
Qed.

(** A goroutine that does something is a call. *)
Lemma acting hs mh m x mh' i : sim ul uj hs mh m -> exec1 mh x = Some mh' -> x = Run i \/ x = Flush i ->
  exists y pb q, nth_error hs i = Some y /\ front ul uj (fst y) = Call pb q.
Proof.
  intros (_ & _ & P) E X. assert (T : exists t, nth_error (m_ts mh) i = Some t /\ forall a, t <> mkThread (Ret a) []).
  { destruct X as [-> | ->]; cbn [exec1] in E.
    - destruct (nth_error (m_ts mh) i) as [t|]; [|discriminate]. exists t. split; auto. intros a ->. discriminate.
    - destruct (m_wk mh); [discriminate|]. destruct (nth_error (m_ts mh) i) as [t|]; [|discriminate]. exists t. split; auto. intros a ->. discriminate. }
  destruct T as (t & N & Na). destruct (pairs_at _ _ _ _ _ P _ _ N) as (y & Ny & [(a & _ & ->)|(pb & q & p & h & F & _)]); [destruct (Na a eq_refl)|eauto].
Qed.
Lemma waits_renumber hs i j : is_call ul uj hs i j -> forall xs mh m mh', sim ul uj hs mh m -> exec xs mh = Some mh' -> waits i xs ->
  waits j (map (ren hs) xs).
Proof.
  intros (-> & y & pb & q & Ny & F). induction xs as [|x xs IH]; intros mh m mh' S E W; [constructor|]. cbn [exec map] in *.
  destruct (exec1 mh x) as [m1|] eqn:E1; [|discriminate]. inversion W as [|? ? [W1 W2] W']; subst.
  destruct (sim_step _ _ _ _ _ _ _ S E1) as (m2 & _ & S2). constructor; [|eapply IH; eauto].
  fold (nm hs i). split; intros X.
  - destruct x as [i'| | | | |]; cbn [renumber] in X; try discriminate. injection X as X.
    destruct (acting _ _ _ _ _ i' S E1 ltac:(auto)) as (y' & pb' & q' & Ny' & F'). rewrite (num_inj _ _ _ _ _ _ _ _ _ Ny' F' Ny F X) in W1. auto.
  - destruct x as [| | | |i'|]; cbn [renumber] in X; try discriminate. injection X as X.
    destruct (acting _ _ _ _ _ i' S E1 ltac:(auto)) as (y' & pb' & q' & Ny' & F'). rewrite (num_inj _ _ _ _ _ _ _ _ _ Ny' F' Ny F X) in W2. auto.
Qed.

(** Two halves. *)
Lemma halves hs c clk xs mh0 ys mh : exec xs (serve_http ul uj hs c clk) = Some mh0 -> exec ys mh0 = Some mh ->
  exists m0 m, exec (map (ren hs) xs) (serve (calls ul uj hs) c clk) = Some m0 /\ sim ul uj hs mh0 m0 /\
    exec (map (ren hs) ys) m0 = Some m /\ sim ul uj hs mh m.
Proof.
  intros E1 E2. destruct (sim_reach _ _ _ _ _ _ _ E1) as (m0 & E1' & S0). destruct (sim_exec _ _ _ _ _ _ _ S0 E2) as (m & E2' & S).
  exists m0, m. auto.
Qed.
Lemma exec_app2 {A} xs : forall ys (m m' : machine A), exec (xs ++ ys) m = Some m' -> exists m1, exec xs m = Some m1 /\ exec ys m1 = Some m'.
Proof.
  induction xs as [|x xs IH]; intros ys m m' E; cbn [exec app] in *; [eauto|].
  destruct (exec1 m x) as [m1|]; [|discriminate]. eauto.
Qed.
Lemma exec_both {A} xs : forall ys (m m1 m' : machine A), exec xs m = Some m1 -> exec ys m1 = Some m' -> exec (xs ++ ys) m = Some m'.
Proof.
  induction xs as [|x xs IH]; intros ys m m1 m' E E'; cbn [exec app] in *; [congruence|].
  destruct (exec1 m x) as [m2|]; [|discriminate]. eauto.
Qed.
(** A moment of the server is one of the server with its front end. *)
Lemma moment_up hs ys mh0 m0 mh ys1 ys2 m1 : sim ul uj hs mh0 m0 -> exec ys mh0 = Some mh -> map (ren hs) ys = ys1 ++ ys2 ->
  exec ys1 m0 = Some m1 -> exists zs1 zs2 mh1, ys = zs1 ++ zs2 /\ ys1 = map (ren hs) zs1 /\ ys2 = map (ren hs) zs2 /\
    exec zs1 mh0 = Some mh1 /\ exec zs2 mh1 = Some mh /\ sim ul uj hs mh1 m1.
Proof.
  intros S E Sp E1. destruct (map_eq_app _ _ _ _ Sp) as (zs1 & zs2 & -> & <- & <-).
  destruct (exec_app2 _ _ _ _ E) as (mh1 & Ea & Eb). destruct (sim_exec _ _ _ _ _ _ _ S Ea) as (m1' & E1' & S1).
  rewrite E1 in E1'. injection E1' as <-. exists zs1, zs2, mh1. splits; auto.
Qed.

(** What the Python stub makes of the answer of a goroutine. *)
Lemma sim_client hs c clk xs mh m i q h t : exec xs (serve_http ul uj hs c clk) = Some mh -> legal mh -> sim ul uj hs mh m ->
  exec (map (ren hs) xs) (serve (calls ul uj hs) c clk) = Some m ->
  nth_error hs i = Some (h, t) -> post q = Some h -> args_ok q -> time_string t ->
  is_call ul uj hs i (nm hs i) /\ nth_error (calls ul uj hs) (nm hs i) = Some q /\
  forall a, answered mh i a -> exists r, answered m (nm hs i) r /\
      (readable r -> stub_result q a = as_seen r) /\ (~ readable r -> stub_result q a = Twirp TMarshal).
Proof.
  intros E Lg S E' N Po A Ti. destruct (http_client _ _ _ _ _ _ _ E Lg) as (m' & E'' & _ & H). rewrite E' in E''. injection E'' as <-.
  destruct (H _ _ _ _ N Po A Ti) as (j & Ic & Nj & Hj). pose proof Ic as (Ej & _). fold (nm hs i) in Ej. subst j. auto.
Qed.
End Split.
