(** The server under concurrent HTTP requests does what the server of [serve] does. *)
From Coq Require Import String.
From Verif Require Import ProofBase Proto SpecProto SpecFrame SpecConn SpecLayout Conn Proc Lib Server SpecServer ServerLemmas
  Client Wire Twirp ClientHttp SpecWire SpecTwirp TwirpProofs TwirpReply TwirpServer Machine SpecMachine MachineBase MachineInv MachineLive
  MachineFlush MachineClaims HttpMachine SpecHttp.

Section Http.
Variables (ul : list byte -> list byte) (uj : desc -> list byte -> option msg).

Definition reply_with (pb : bool) (t : list byte) (p : sproc resp) : sproc hresp := do r <- p; Ret (respond pb t r).

Inductive pairs : list (hreq * list byte) -> list (thread hresp) -> list (thread resp) -> Prop :=
| pa_nil : pairs [] [] []
| pa_answer x a hs ts us : front ul uj (fst x) = Answer a -> pairs hs ts us ->
    pairs (x :: hs) (mkThread (Ret a) [] :: ts) us
| pa_call x pb q p h hs ts us : front ul uj (fst x) = Call pb q -> pairs hs ts us ->
    pairs (x :: hs) (mkThread (reply_with pb (snd x) p) h :: ts) (mkThread p h :: us).

Definition num (hs : list (hreq * list byte)) (i : nat) : nat := length (calls ul uj (firstn i hs)).
Lemma num_call x pb q hs i : front ul uj (fst x) = Call pb q -> num (x :: hs) (S i) = S (num hs i).
Proof. intros F. unfold num, calls. cbn [firstn flat_map]. rewrite F. reflexivity. Qed.
Lemma num_answer x a hs i : front ul uj (fst x) = Answer a -> num (x :: hs) (S i) = num hs i.
Proof. intros F. unfold num, calls. cbn [firstn flat_map]. rewrite F. reflexivity. Qed.

Lemma pairs_start hs : pairs hs (map (fun x => mkThread (serveHTTP ul uj (snd x) (fst x)) []) hs)
  (map (fun r => mkThread (handle r) []) (calls ul uj hs)).
Proof.
  induction hs as [|x hs IH]; [constructor|]. cbn [map]. unfold calls. cbn [flat_map]. unfold serveHTTP at 1.
  destruct (front ul uj (fst x)) as [a|pb q] eqn:F; cbn [app map].
  - eapply pa_answer; eauto.
  - eapply pa_call; eauto.
Qed.

(** Goroutine [i], seen from the HTTP side ... *)
Lemma pairs_at hs ts us : pairs hs ts us -> forall i t, nth_error ts i = Some t ->
  exists x, nth_error hs i = Some x /\
  ((exists a, front ul uj (fst x) = Answer a /\ t = mkThread (Ret a) []) \/
   exists pb q p h, front ul uj (fst x) = Call pb q /\ t = mkThread (reply_with pb (snd x) p) h /\
     nth_error us (num hs i) = Some (mkThread p h) /\
     forall p' h', pairs hs (set_nth i (mkThread (reply_with pb (snd x) p') h') ts) (set_nth (num hs i) (mkThread p' h') us)).
Proof.
  induction 1 as [|x a hs ts us F P IH|x pb q p h hs ts us F P IH]; intros [|i] t N; try discriminate; cbn [nth_error] in N.
  - injection N as <-. exists x. split; auto. left. eauto.
  - destruct (IH _ _ N) as (y & Ny & [L|(pb & q & p & h & F' & E & Nu & U)]); exists y; split; auto.
    right. exists pb, q, p, h. rewrite (num_answer _ _ _ _ F). splits; auto.
    intros. cbn [set_nth]. eapply pa_answer; eauto.
  - injection N as <-. exists x. split; auto. right. exists pb, q, p, h. splits; auto.
    intros. cbn. eapply pa_call; eauto.
  - destruct (IH _ _ N) as (y & Ny & [L|(pb' & q' & p' & h' & F' & E & Nu & U)]); exists y; split; auto.
    right. exists pb', q', p', h'. rewrite (num_call _ _ _ _ _ F). splits; auto.
    intros. cbn [set_nth]. eapply pa_call; eauto.
Qed.
(** ... and from the other. *)
Lemma pairs_back hs ts us : pairs hs ts us -> forall j p h, nth_error us j = Some (mkThread p h) ->
  exists i x pb q, num hs i = j /\ nth_error hs i = Some x /\ front ul uj (fst x) = Call pb q /\
    nth_error ts i = Some (mkThread (reply_with pb (snd x) p) h).
Proof.
  induction 1 as [|x a hs ts us F P IH|x pb q p h hs ts us F P IH]; intros j p' h' N.
  - destruct j; discriminate.
  - destruct (IH _ _ _ N) as (i & y & pb & q & E & Ny & F' & Nt). exists (S i), y, pb, q. rewrite (num_answer _ _ _ _ F). auto.
  - destruct j as [|j]; cbn [nth_error] in N.
    + injection N as <- <-. exists 0%nat, x, pb, q. splits; auto.
    + destruct (IH _ _ _ N) as (i & y & pb' & q' & E & Ny & F' & Nt). exists (S i), y, pb', q'. rewrite (num_call _ _ _ _ _ F). splits; auto.
Qed.
Lemma pairs_free hs ts us l : pairs hs ts us -> free (map t_h ts) l = free (map t_h us) l /\ rfree (map t_h ts) l = rfree (map t_h us) l.
Proof.
  induction 1 as [|x a hs ts us F P [IH1 IH2]|x pb q p h hs ts us F P [IH1 IH2]]; auto; unfold free, rfree in *; cbn [map forallb t_h];
    rewrite IH1, IH2; auto.
Qed.

Definition sim (hs : list (hreq * list byte)) (mh : machine hresp) (m : machine resp) : Prop :=
  m_g mh = m_g m /\ m_wk mh = m_wk m /\ pairs hs (m_ts mh) (m_ts m).

Lemma free_app a b l : free (a ++ b) l = free a l && free b l.
Proof. unfold free. apply forallb_app. Qed.
Lemma rfree_app a b l : rfree (a ++ b) l = rfree a l && rfree b l.
Proof. unfold rfree. apply forallb_app. Qed.
Lemma sim_free hs mh m l : sim hs mh m ->
  free (locks_held mh) l = free (locks_held m) l /\ rfree (locks_held mh) l = rfree (locks_held m) l.
Proof.
  intros (_ & W & P). unfold locks_held. rewrite W, !free_app, !rfree_app. destruct (pairs_free _ _ _ l P) as [-> ->]. auto.
Qed.
Lemma sim_tstep {B} hs mh m (t : thread B) g : sim hs mh m -> tstep (locks_held mh) t g = tstep (locks_held m) t g.
Proof.
  intros S. unfold tstep. destruct (t_p t); auto; destruct (sim_free _ _ _ l S) as [E1 E2]; rewrite ?E1, ?E2; auto.
Qed.

Lemma reply_ret pb t p a : reply_with pb t p = Ret a -> exists r, p = Ret r /\ a = respond pb t r.
Proof. destruct p; try discriminate. cbn. intros [= <-]. eauto. Qed.
Lemma step_down pb t p h ls g t' g' : tstep ls (mkThread (reply_with pb t p) h) g = Some (t', g') ->
  exists p1 h1, tstep ls (mkThread p h) g = Some (mkThread p1 h1, g') /\ t' = mkThread (reply_with pb t p1) h1.
Proof.
  intros H. destruct (is_ret p) as [(a & ->)|N]; [discriminate|]. apply tstep_bind in H; auto.
Qed.
Lemma step_up pb t p h ls g t' g' : tstep ls (mkThread p h) g = Some (t', g') ->
  exists t'', tstep ls (mkThread (reply_with pb t p) h) g = Some (t'', g').
Proof.
  unfold tstep, reply_with. cbn [t_p t_h]. destruct p; cbn [bind]; intros H; try discriminate;
    repeat match type of H with context [match ?x with _ => _ end] => destruct x end; try discriminate; injection H as <- <-; eauto.
Qed.

(** Every step of the server with its front end is a step of the server. *)
Lemma sim_step hs mh m x mh' : sim hs mh m -> exec1 mh x = Some mh' ->
  exists m', exec1 m (renumber ul uj hs x) = Some m' /\ sim hs mh' m'.
Proof.
  intros S H. pose proof S as (G & W & P). destruct x as [i| |d|tk|i|i]; cbn [renumber exec1] in *.
  - destruct (nth_error (m_ts mh) i) as [t|] eqn:N; [|discriminate].
    destruct (tstep _ t _) as [[t' g']|] eqn:St; [|discriminate]. injection H as <-.
    destruct (pairs_at _ _ _ P _ _ N) as (x & _ & [(a & _ & ->)|(pb & q & p & h & _ & -> & Nu & U)]); [discriminate|].
    destruct (step_down _ _ _ _ _ _ _ _ St) as (p1 & h1 & E & ->). fold (num hs i). rewrite Nu.
    rewrite <- (sim_tstep _ _ _ _ _ S), <- G, E. eexists. split; [reflexivity|]. unfold sim. cbn. splits; auto.
  - rewrite <- W. destruct (m_wk mh) as [t|] eqn:E; [|discriminate].
    rewrite <- (sim_tstep _ _ _ _ _ S), <- G.
    destruct (t_p t) as [[]| | | | | | | | | | | | | |], (t_h t);
      try (injection H as <-; eexists; split; [reflexivity|]; unfold sim; cbn; splits; auto; fail);
      destruct (tstep _ t _) as [[t' g']|]; try discriminate; injection H as <-; eexists; (split; [reflexivity|]); unfold sim; cbn; splits; auto.
  - injection H as <-. eexists. split; [reflexivity|]. unfold sim. cbn. rewrite G, W. splits; auto.
  - rewrite <- W. destruct (m_wk mh); [discriminate|]. injection H as <-. eexists. split; [reflexivity|]. unfold sim. cbn. splits; auto.
  - rewrite <- W. destruct (m_wk mh); [discriminate|]. destruct (nth_error (m_ts mh) i) as [t|] eqn:N; [|discriminate].
    destruct (pairs_at _ _ _ P _ _ N) as (x & _ & [(a & _ & ->)|(pb & q & p & h & _ & -> & Nu & U)]); [discriminate|].
    fold (num hs i). rewrite Nu. cbn [t_p t_h] in *. destruct p; try discriminate. cbn in H. injection H as <-.
    eexists. split; [reflexivity|]. unfold sim. cbn. splits; auto; apply U.
  - rewrite <- W. destruct (m_wk mh) as [w|]; [|discriminate]. destruct (nth_error (m_ts mh) i) as [t|] eqn:N; [|discriminate].
    destruct (pairs_at _ _ _ P _ _ N) as (x & _ & [(a & _ & ->)|(pb & q & p & h & _ & -> & Nu & U)]); [destruct (t_p w); discriminate|].
    fold (num hs i). rewrite Nu. cbn [t_p t_h] in *. destruct (t_p w); try discriminate. destruct p; try discriminate. cbn in H. injection H as <-.
    eexists. split; [reflexivity|]. unfold sim. cbn. splits; auto; apply U.
Qed.
Lemma sim_exec hs xs : forall mh m mh', sim hs mh m -> exec xs mh = Some mh' ->
  exists m', exec (map (renumber ul uj hs) xs) m = Some m' /\ sim hs mh' m'.
Proof.
  induction xs as [|x xs IH]; intros mh m mh' S H; cbn [exec map] in *.
  - injection H as <-. eauto.
  - destruct (exec1 mh x) as [m1|] eqn:E; [|discriminate]. destruct (sim_step _ _ _ _ _ S E) as (m2 & -> & S2). eauto.
Qed.
Lemma sim_start hs c clk : sim hs (serve_http ul uj hs c clk) (serve (calls ul uj hs) c clk).
Proof. unfold sim, serve_http, serve. cbn. splits; auto. apply pairs_start. Qed.
Lemma sim_reach hs c clk xs mh : exec xs (serve_http ul uj hs c clk) = Some mh ->
  exists m, exec (map (renumber ul uj hs) xs) (serve (calls ul uj hs) c clk) = Some m /\ sim hs mh m.
Proof. apply sim_exec, sim_start. Qed.

(** What is possible on the server is possible with the front end. *)
Lemma waits_down hs mh m l : sim hs mh m -> writer_waits mh l -> writer_waits m l.
Proof.
  intros (_ & W & P) [(i & t & k & N & E)|R]; [left|right; rewrite <- W; exact R].
  destruct (pairs_at _ _ _ P _ _ N) as (x & _ & [(a & _ & ->)|(pb & q & p & h & _ & -> & Nu & _)]); [discriminate|].
  cbn in E. destruct p; try discriminate. cbn in E. injection E as <- _.
  exists (num hs i). do 2 eexists. split; [exact Nu|reflexivity].
Qed.
Lemma possible_up hs mh m y : sim hs mh m -> working y -> possible m y -> exists x, working x /\ possible mh x.
Proof.
  intros S Wo [Ex Co]. pose proof S as (G & W & P). destruct y as [j| |d|tk|j|j]; try contradiction; cbn [exec1] in Ex.
  - destruct (nth_error (m_ts m) j) as [[p h]|] eqn:N; [|congruence].
    destruct (tstep _ _ _) as [[t' g']|] eqn:St; [|congruence].
    destruct (pairs_back _ _ _ P _ _ _ N) as (i & x & pb & q & _ & _ & _ & Nt).
    destruct (step_up pb (snd x) _ _ _ _ _ _ St) as (t2 & E).
    exists (Run i). split; [exact I|]. split.
    + cbn [exec1]. rewrite Nt, (sim_tstep _ _ _ _ _ S), G, E. discriminate.
    + intros t l k Nt' E'. rewrite Nt in Nt'. injection Nt' as <-. cbn in E'. destruct p; try discriminate. cbn in E'. injection E' as <- _.
      intros Wt. eapply Co; eauto; [reflexivity|]. eapply waits_down; eauto.
  - exists RunWk. split; [exact I|]. split.
    + cbn [exec1]. rewrite W. destruct (m_wk m) as [t|]; [|congruence]. rewrite (sim_tstep _ _ _ _ _ S), G.
      destruct (t_p t) as [[]| | | | | | | | | | | | | |], (t_h t); try discriminate;
        destruct (tstep _ _ _) as [[]|]; congruence.
    + rewrite W. intros t l k E1 E2 Wt. eapply Co; eauto. eapply waits_down; eauto.
  - destruct (m_wk m) eqn:E; [congruence|]. destruct (nth_error (m_ts m) j) as [[p h]|] eqn:N; [|congruence].
    destruct (pairs_back _ _ _ P _ _ _ N) as (i & x & pb & q & _ & _ & _ & Nt).
    exists (Flush i). split; [exact I|]. split; [|exact I]. cbn [exec1]. rewrite W, Nt. cbn in *. destruct p; try congruence. discriminate.
  - destruct (m_wk m) as [w|] eqn:E; [|congruence]. destruct (nth_error (m_ts m) j) as [[p h]|] eqn:N; [|destruct (t_p w); congruence].
    destruct (pairs_back _ _ _ P _ _ _ N) as (i & x & pb & q & _ & _ & _ & Nt).
    exists (Succ i). split; [exact I|]. split; [|exact I]. cbn [exec1]. rewrite W, Nt. cbn in *.
    destruct (t_p w); try congruence. destruct p; try congruence. discriminate.
Qed.
Lemma finished_up hs mh m : sim hs mh m -> finished m -> finished mh.
Proof.
  intros (_ & W & P) (F & N). split; [|congruence]. clear W N. induction P; auto; constructor; cbn; eauto.
  - inversion F as [|? ? (r & E) F']; subst. cbn in E. subst. cbn. eauto.
  - inversion F; auto.
Qed.

Lemma http_no_panic hs c clk xs m : exec xs (serve_http ul uj hs c clk) = Some m ->
  (forall i t, nth_error (m_ts m) i = Some t -> t_p t <> Crash) /\ (forall t, m_wk m = Some t -> t_p t <> Crash).
Proof.
  intros E. destruct (sim_reach _ _ _ _ _ E) as (m' & E' & S). pose proof S as (_ & W & P).
  destruct (no_panic _ _ _ _ _ E') as [N1 N2]. split; [|rewrite W; exact N2].
  intros i t N X. destruct (pairs_at _ _ _ P _ _ N) as (x & _ & [(a & _ & ->)|(pb & q & p & h & _ & -> & Nu & _)]); [discriminate|].
  cbn in X. destruct p; try discriminate. apply (N1 _ _ Nu eq_refl).
Qed.
Lemma http_step hs mh m : sim hs mh m -> (exists xs c clk, exec xs (serve (calls ul uj hs) c clk) = Some m) ->
  ~ finished mh -> exists x, working x /\ possible mh x.
Proof.
  intros S (xs & c & clk & E) N. destruct (no_deadlock _ _ _ _ _ E) as (D & _ & _).
  destruct D as (y & W & Po); [intros F; apply N; eapply finished_up; eauto|]. eapply possible_up; eauto.
Qed.
Lemma exec_app {A} xs : forall ys (m : machine A), exec (xs ++ ys) m = match exec xs m with Some m' => exec ys m' | None => None end.
Proof. induction xs as [|x xs IH]; intros; cbn; auto. destruct (exec1 m x); auto. Qed.
Lemma http_completes hs : forall mh m, sim hs mh m -> (exists xs c clk, exec xs (serve (calls ul uj hs) c clk) = Some m) ->
  exists ys m', Forall working ys /\ proceeds mh ys m' /\ finished m'.
Proof.
  intros mh. induction mh as [mh IH] using (well_founded_ind (@works_wf hresp)). intros m S R.
  assert (D : finished mh \/ ~ finished mh).
  { unfold finished. destruct (Forall_Exists_dec (fun t : thread hresp => exists r, t_p t = Ret r)) with (l := m_ts mh) as [F|F].
    - intros t. destruct (t_p t); eauto; right; intros (r & E); discriminate.
    - destruct (m_wk mh); [right; intros [_ H]; discriminate|left; auto].
    - right. intros [H _]. apply Exists_exists in F as (t & In_ & N). rewrite Forall_forall in H. auto. }
  destruct D as [F|F]; [exists [], mh; splits; auto; constructor|].
  destruct (http_step _ _ _ S R F) as (y & W & P). destruct (exec1 mh y) as [m1|] eqn:E; [|destruct P; congruence].
  destruct (sim_step _ _ _ _ _ S E) as (m2 & E2 & S2).
  destruct (IH m1 (ex_intro _ y (conj W E)) m2 S2) as (xs & m' & Fw & Pr & Fi).
  { destruct R as (xs & c & clk & Ex). exists (xs ++ [renumber ul uj hs y]), c, clk. rewrite exec_app, Ex. cbn. rewrite E2. reflexivity. }
  exists (y :: xs), m'. splits; auto. econstructor; eauto.
Qed.
Lemma http_no_deadlock hs c clk xs m : exec xs (serve_http ul uj hs c clk) = Some m ->
  (~ finished m -> exists x, working x /\ possible m x) /\ Acc works m /\
  exists ys m', Forall working ys /\ proceeds m ys m' /\ finished m'.
Proof.
  intros E. destruct (sim_reach _ _ _ _ _ E) as (m' & E' & S). splits.
  - eapply http_step; eauto.
  - apply works_wf.
  - eapply http_completes; eauto.
Qed.
Lemma http_wire hs c clk xs m : exec xs (serve_http ul uj hs c clk) = Some m -> rfree (locks_held m) LPm = true ->
  exists l, c_log (g_conn (m_g m)) = c_log c ++ l /\ session l.
Proof.
  intros E F. destruct (sim_reach _ _ _ _ _ E) as (m' & E' & S). rewrite (proj2 (sim_free _ _ _ LPm S)) in F.
  destruct (wire_discipline _ _ _ _ _ E' F) as (l & L). destruct S as (-> & _). eauto.
Qed.

Lemma pairs_length hs ts us : pairs hs ts us -> length ts = length hs.
Proof. induction 1; cbn; auto. Qed.
Lemma nth_app_len {T} (a b : list T) x : nth_error (a ++ x :: b) (length a) = Some x.
Proof. induction a; auto. Qed.
Lemma num_nth hs : forall i x pb q, nth_error hs i = Some x -> front ul uj (fst x) = Call pb q -> nth_error (calls ul uj hs) (num hs i) = Some q.
Proof.
  intros i x pb q N F. destruct (nth_error_split _ _ N) as (a & b & -> & L). unfold num.
  rewrite firstn_app, <- L, Nat.sub_diag, firstn_all, firstn_O, app_nil_r. unfold calls. rewrite flat_map_app. cbn [flat_map]. rewrite F. cbn [app].
  apply nth_app_len.
Qed.
(** The refinement. *)
Lemma http_refines hs c clk xs mh : exec xs (serve_http ul uj hs c clk) = Some mh ->
  exists m, exec (map (renumber ul uj hs) xs) (serve (calls ul uj hs) c clk) = Some m /\ m_g mh = m_g m /\
  forall i h t, nth_error hs i = Some (h, t) ->
    match front ul uj h with
    | Answer a => answered mh i a
    | Call pb q => exists j, is_call ul uj hs i j /\ nth_error (calls ul uj hs) j = Some q /\
        forall a, answered mh i a <-> exists r, answered m j r /\ a = respond pb t r
    end.
Proof.
  intros E. destruct (sim_reach _ _ _ _ _ E) as (m & E' & S). exists m. split; auto. split; [apply S|]. destruct S as (_ & _ & P).
  intros i h t N. assert (Nt : exists th, nth_error (m_ts mh) i = Some th).
  { destruct (nth_error (m_ts mh) i) eqn:X; eauto. apply nth_error_None in X. rewrite (pairs_length _ _ _ P) in X.
    pose proof (proj1 (nth_error_Some hs i) ltac:(congruence)). lia. }
  destruct Nt as (th & Nt). destruct (pairs_at _ _ _ P _ _ Nt) as (x & Nx & C). rewrite N in Nx. injection Nx as <-. cbn [fst snd] in C.
  destruct C as [(a & F & ->)|(pb & q & p & hd & F & -> & Nu & _)]; rewrite F.
  - exists (mkThread (Ret a) []). auto.
  - exists (num hs i). splits.
    + split; [reflexivity|]. exists (h, t), pb, q. auto.
    + eapply num_nth; eauto.
    + intros a. split.
      * intros (t1 & N1 & E1). rewrite Nt in N1. injection N1 as <-. apply reply_ret in E1 as (r & -> & ->).
        exists r. split; auto. eexists. split; [exact Nu|reflexivity].
      * intros (r & (t1 & N1 & E1) & ->). rewrite Nu in N1. injection N1 as <-. cbn in E1. subst p.
        eexists. split; [exact Nt|reflexivity].
Qed.

(** Refused requests are answered whatever the others do. *)
Lemma http_refused hs c clk xs m i h t : exec xs (serve_http ul uj hs c clk) = Some m -> nth_error hs i = Some (h, t) ->
  ascii (h_ctype h) ->
  (forall name, ~ (addressed h name /\ (media "application/protobuf" (h_ctype h) \/ media "application/json" (h_ctype h)))) ->
  exists a, answered m i a /\ refusal h a.
Proof.
  intros E N A R. destruct (http_refines _ _ _ _ _ E) as (m' & _ & _ & H). specialize (H _ _ _ N).
  destruct (front_refused ul uj h A R) as (a & F & Re). rewrite F in H. eauto.
Qed.
Lemma seen_types (m : machine resp) k v : legal m -> seen m k v -> in_types (message v).
Proof.
  intros Lg [->|(pl & I & D)]; [apply blank_types|].
  pose proof (proj1 (Forall_forall _ _) (Lg k) pl I) as B.
  eapply typed_types; eauto. unfold fetched in I. apply filter_In in I. tauto.
Qed.
Lemma getter_meaning k fs : (forall q, meaning (rpc_name (getter_rpc k)) fs = Some q -> q = getter_rpc k).
Proof. intros q. destruct k; cbn; intros [= <-]; reflexivity. Qed.
Lemma http_snapshot hs c clk xs m i h t k fs a : exec xs (serve_http ul uj hs c clk) = Some m -> legal m ->
  nth_error hs i = Some (h, t) -> bytes_ok (h_body h) -> ascii (h_ctype h) -> time_string t ->
  addressed h (rpc_name (getter_rpc k)) -> media "application/protobuf" (h_ctype h) -> encodes fs (h_body h) ->
  answered m i a -> exists v, seen m k v /\
    (readable (message v) -> exists b fs', a = mkHresp 200 (Protobuf b) /\ encodes fs' b /\ carries t (message v) fs') /\
    (~ readable (message v) -> r_status a = 500).
Proof.
  intros E Lg N B As Ti Ad Me En An. destruct (http_refines _ _ _ _ _ E) as (m' & E' & G & H). specialize (H _ _ _ N).
  destruct (front_protobuf ul uj h _ B As Ad Me) as [Fc _]. destruct (Fc _ En) as (q & Mq & F).
  apply getter_meaning in Mq. subst q. rewrite F in H. destruct H as (j & _ & Nj & Hj). apply Hj in An. destruct An as (r & Ar & Ea). rewrite Ea. clear Ea.
  assert (Lg' : legal m') by (unfold legal in *; rewrite <- G; exact Lg).
  destruct (snapshot _ _ _ _ _ _ _ _ E' Lg' Nj Ar) as (v & -> & Sv).
  exists v. split; [unfold seen, brought in *; rewrite G; exact Sv|].
  pose proof (seen_types _ _ _ Lg' Sv) as T. split; intros Rd.
  - apply reply_sent; auto. destruct v; discriminate.
  - rewrite reply_unreadable; auto.
Qed.

(** What the stub of the Python client makes of the answers. *)
Lemma seen_reply (m : machine resp) k v : seen m k v -> reply_to (getter_rpc k) (message v).
Proof. intros [->|(pl & _ & D)]; [destruct k; exact I|]. destruct k, v; try contradiction; exact I. Qed.
Lemma getter_of q : (exists k, q = getter_rpc k) \/ match q with SetComfortTempR _ | SetFanSpeedR _ _ | SetFanProfileR _ _ | FlushCacheR _ => True | _ => False end.
Proof.
  destruct q; auto; left;
    [exists CBoot|exists CBypass|exists CErr|exists CFans|exists CProf|exists CTemp]; reflexivity.
Qed.
Lemma answer_types rs c clk xs m j q r : exec xs (serve rs c clk) = Some m -> legal m -> nth_error rs j = Some q -> args_ok q ->
  answered m j r -> in_types r /\ (reply_to q r \/ exists e, r = RespErr e).
Proof.
  intros E Lg N A An. destruct (getter_of q) as [(k & ->)|Set_].
  { destruct (snapshot _ _ _ _ _ _ _ _ E Lg N An) as (v & -> & S). split; [eapply seen_types; eauto|left; eapply seen_reply; eauto]. }
  destruct q as [| | | | | |t|a b|md t|k]; try contradiction; cbn [args_ok] in A.
  4: { destruct (flush_answers _ _ _ _ _ _ _ _ E N An) as (b & -> & _). split; [exact I|left; exact I]. }
  all: pose proof (answer_of _ _ _ _ _ _ _ _ E N An ltac:(discriminate)) as W; destruct r; cbn in W; try contradiction; cbn [in_types reply_to];
    try (split; [exact I|right; eauto]).
  - destruct W as (-> & v & _ & ->). split; [split; auto; apply u32_range|auto].
  - destruct W as (B & (v & _ & ->) & _). split; [split; [apply u32_range|unfold u32_ok; lia]|auto].
  - destruct W as (-> & v & _ & ->). split; [split; [apply u32_range|tauto]|auto].
Qed.
Lemma stub_sees q t r : in_types r -> (reply_to q r \/ exists e, r = RespErr e) -> time_string t ->
  (readable r -> stub_result q (respond true t r) = as_seen r) /\ (~ readable r -> stub_result q (respond true t r) = Twirp TMarshal).
Proof.
  intros T [R|(e & ->)] Ti.
  - split; intros Rd.
    + rewrite reply_read; auto. destruct r; try reflexivity. destruct q; contradiction.
    + rewrite reply_unreadable; auto.
  - split; intros Rd; [destruct e; reflexivity|destruct (Rd I)].
Qed.
Lemma http_client hs c clk xs mh : exec xs (serve_http ul uj hs c clk) = Some mh -> legal mh ->
  exists m, exec (map (renumber ul uj hs) xs) (serve (calls ul uj hs) c clk) = Some m /\ m_g mh = m_g m /\
  forall i q h t, nth_error hs i = Some (h, t) -> post q = Some h -> args_ok q -> time_string t ->
    exists j, is_call ul uj hs i j /\ nth_error (calls ul uj hs) j = Some q /\
    forall a, answered mh i a -> exists r, answered m j r /\
      (readable r -> stub_result q a = as_seen r) /\ (~ readable r -> stub_result q a = Twirp TMarshal).
Proof.
  intros E Lg. destruct (http_refines _ _ _ _ _ E) as (m & E' & G & H). exists m. split; auto. split; auto.
  intros i q h t N Po A Ti. specialize (H _ _ _ N). destruct (post_called q A) as (h' & Po' & _ & F). rewrite Po in Po'. injection Po' as <-.
  rewrite F in H. destruct H as (j & Ic & Nj & Hj). exists j. splits; auto. intros a An. apply Hj in An. destruct An as (r & Ar & Ea). rewrite Ea.
  exists r. split; auto. assert (Lg' : legal m) by (unfold legal in *; rewrite <- G; exact Lg).
  destruct (answer_types _ _ _ _ _ _ _ _ E' Lg' Nj A Ar) as (T & R). apply stub_sees; auto.
Qed.
Lemma http_speed hs c clk xs m i h t a ab rl md o v : exec xs (serve_http ul uj hs c clk) = Some m -> legal m ->
  nth_error hs i = Some (h, t) -> post (SetFanSpeedR ab rl) = Some h -> u32_ok ab -> time_string t -> answered m i a ->
  stub_result (SetFanSpeedR ab rl) a = Got (RespSpeed md o v) ->
  1 <= v <= 4 /\ (exists p, seen m CProf (VProf p) /\ o = CurrentMode p) /\
  (md = true -> exists p f1 f2, seen m CProf (VProf p) /\ seen m CFans (VFans f1) /\ seen m CFans (VFans f2) /\
     InPercent f1 = in_percent p v /\ OutPercent f2 = out_percent p v).
Proof.
  intros E Lg N Po A Ti An St. destruct (http_client _ _ _ _ _ E Lg) as (m' & E' & G & H).
  destruct (H _ _ _ _ N Po A Ti) as (j & _ & Nj & Hj). destruct (Hj _ An) as (r & Ar & Rd & Nr).
  assert (Lg' : legal m') by (unfold legal in *; rewrite <- G; exact Lg).
  assert (Er : r = RespSpeed md o v).
  { assert (R : readable r) by (destruct (answer_types _ _ _ _ _ _ _ _ E' Lg' Nj A Ar) as (_ & [R|(e & ->)]); [destruct r; try contradiction|]; exact I).
    rewrite (Rd R) in St. destruct r; cbn in St; congruence. }
  subst r. destruct (speed_answer _ _ _ _ _ _ _ _ _ _ _ E' Lg' Nj Ar) as (B & S1 & S2).
  unfold seen, brought in *. rewrite G. splits; auto; apply B.
Qed.
End Http.
