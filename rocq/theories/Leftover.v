(** Lemmas behind PropertiesLine.v: readers left behind by timeouts. *)
From Verif Require Import ProofBase Proto SpecProto SpecFrame SpecConn ProtoProofs Scanner Conn FrameProofs ReplyProofs ReadProofs Proc FrameLemmas Samples.

Lemma dealt_clean evs : forall q, Forall arrives evs -> Forall clean (dealt q evs) -> q <> [] -> Forall clean q.
Proof.
  induction evs as [|[bs e| |] r IH]; intros q A H N; cbn [dealt] in H; auto; inversion A; subst.
  - destruct q as [|x q]; [contradiction|]. apply IH in H; auto; [|destruct q; discriminate].
    apply Forall_app in H as [Ha Hb]. apply Forall_inv in Hb. constructor; auto. eapply clean_app_l; eauto.
  - destruct q as [|x q]; [contradiction|]. apply IH in H; auto; [|destruct q; discriminate].
    apply Forall_app in H as [Ha Hb]. apply Forall_inv in Hb. constructor; auto.
Qed.
Lemma dealt_pieces chunks : forall q, dealt q (pieces chunks) = deal q chunks.
Proof. induction chunks as [|bs r IH]; intros q; cbn [pieces map dealt deal]; auto. destruct q; auto. Qed.

Definition fit (room : Z) (s : scanner) : Prop := good s /\ s_end s + room <= 4096 /\ splitFunc (s_data s) = None.
Definition fitb (room : Z) (s : scanner) : Prop := fit room s /\ 4096 <= s_buflen s.
Lemma blocked_fit room s : 0 <= room -> blocked room s -> clean (s_data s) -> fitb room s.
Proof.
  intros R (E & S & B & L) C. unfold fitb, fit, good, s_end. splits; auto. apply split_clean; auto.
Qed.
Lemma fit_less r r' s : r' <= r -> fit r s -> fit r' s.
Proof. unfold fit. intros L (? & ? & ?). splits; auto. lia. Qed.
Lemma fitb_less r r' s : r' <= r -> fitb r s -> fitb r' s.
Proof. unfold fitb. intros L [F ?]. split; auto. eapply fit_less; eauto. Qed.
Lemma fit_read room s : 0 <= room -> fit room s -> exists s', scan_top s = TRead s' /\ fitb room s' /\ s_data s' = s_data s.
Proof.
  intros R (G & L & S). destruct (scan_top_read s G ltac:(lia) S) as (s' & T & G' & D & En & _ & B).
  exists s'. unfold fitb, fit. rewrite D. splits; auto. lia.
Qed.
Lemma fit_feed room s bs : fitb (len bs + room) s -> bs <> [] -> 0 <= room -> clean (s_data s ++ bs) ->
  fitb room (scan_feed s bs None) /\ s_data (scan_feed s bs None) = s_data s ++ bs.
Proof.
  intros ((G & L & S) & B) N R C. destruct (scan_feed_good s bs G B ltac:(lia) ltac:(congruence)) as (G' & D & En & _).
  split; auto. unfold fitb, fit. rewrite D, En. splits; auto; [lia|apply split_clean; auto|].
  unfold scan_feed. replace (s_buflen s - s_end s <? len bs) with false by lia.
  destruct (0 <? len bs); [exact B|]. destruct (_ >? _); exact B.
Qed.
Lemma len_pos {A} (l : list A) : l <> [] -> 0 < len l.
Proof. destruct l; [contradiction|]. intros _. unfold len. simpl. lia. Qed.

Lemma scan_wait_dealt rest : (rest = [] \/ exists r, rest = Expire :: r) -> forall evs pre s post,
  Forall arrives evs ->
  Forall (fitb (len (concat (data_of evs)))) (pre ++ post) -> fit (len (concat (data_of evs))) s ->
  Forall clean (dealt (map s_data (pre ++ s :: post)) evs) ->
  exists os, scan_wait (evs ++ rest) pre s post = (STime, tl rest, os) /\
    map s_data os = dealt (map s_data (pre ++ s :: post)) evs.
Proof.
  intros Hr. induction evs as [|x evs IH]; intros pre s post N F Fs C.
  - destruct (fit_read (len (@nil Z)) s ltac:(unfold len; simpl; lia) Fs) as (s' & T & _ & D). cbn [map app dealt] in *.
    exists (pre ++ s' :: post). split.
    + destruct Hr as [-> |(r & ->)]; cbn [scan_wait]; rewrite T; reflexivity.
    + rewrite !map_app. cbn [map]. rewrite D. reflexivity.
  - inversion N as [|? ? Nb Nr]; subst. destruct x as [bs e| |]; [| contradiction|].
    + destruct Nb as [Nb ->]. cbn [data_of concat] in *.
      assert (Ll : len (bs ++ concat (data_of evs)) = len bs + len (concat (data_of evs))) by (unfold len; rewrite app_length; lia).
      assert (L0 : 0 <= len (concat (data_of evs))) by (unfold len; lia). assert (Lb := len_pos bs Nb).
      rewrite Ll in *. destruct (fit_read (len bs + len (concat (data_of evs))) s ltac:(lia) Fs) as (s' & T & Fb & D).
      cbn [map app]. cbn [scan_wait]. rewrite T.
      destruct pre as [|o pre].
      * cbn [app map dealt] in C. rewrite <- D in C.
        assert (Cx : clean (s_data s' ++ bs)).
        { apply dealt_clean in C; auto; [|destruct (map s_data post); discriminate]. apply Forall_app in C as [_ C]. apply Forall_inv in C. exact C. }
        destruct (fit_feed _ s' bs Fb Nb L0 Cx) as [Ff Df].
        destruct (IH post (scan_feed s' bs None) []) as (os & W & Ds); auto.
        -- rewrite app_nil_r. eapply Forall_impl; [|exact F]. intros x. apply fitb_less. lia.
        -- apply Ff.
        -- rewrite map_app. cbn [map]. rewrite Df. exact C.
        -- exists os. split; [exact W|]. rewrite Ds, map_app. cbn [map app dealt]. rewrite Df, D. reflexivity.
      * cbn [app map dealt] in C. inversion F as [|? ? Fo Fr]; subst.
        assert (Cx : clean (s_data o ++ bs)).
        { apply dealt_clean in C; auto; [|destruct (map s_data (pre ++ s :: post)); discriminate]. apply Forall_app in C as [_ C]. apply Forall_inv in C. exact C. }
        destruct (fit_feed _ o bs Fo Nb L0 Cx) as [Ff Df].
        destruct (fit_read _ _ L0 (proj1 Ff)) as (o' & To & Fo' & Do). rewrite To.
        assert (Eq : map s_data (pre ++ s :: post) ++ [s_data o ++ bs] = map s_data (pre ++ s' :: post ++ [o'])).
        { rewrite !map_app. cbn [map]. rewrite !map_app. cbn [map]. rewrite Do, Df, D, <- app_assoc. reflexivity. }
        rewrite Eq in C.
        destruct (IH pre s' (post ++ [o'])) as (os & W & Ds); auto.
        -- rewrite app_assoc. apply Forall_app. split; [|constructor; auto]. eapply Forall_impl; [|exact Fr]. intros x. apply fitb_less. lia.
        -- eapply fit_less; [|apply Fb]. lia.
        -- exists os. split; [exact W|]. rewrite Ds. cbn [app map dealt]. rewrite Eq. reflexivity.
    + cbn [data_of] in *. assert (L0 : 0 <= len (concat (data_of evs))) by (unfold len; lia).
      destruct (fit_read _ s L0 Fs) as (s' & T & Fb & D). cbn [app scan_wait]. rewrite T. destruct pre as [|o pre].
      * destruct (IH post s' []) as (os & W & Ds); auto.
        -- rewrite app_nil_r. exact F.
        -- apply Fb.
        -- cbn [app map dealt] in C. rewrite map_app. cbn [map]. rewrite D. exact C.
        -- exists os. split; [exact W|]. rewrite Ds, map_app. cbn [map app dealt]. rewrite D. reflexivity.
      * assert (Eq : map s_data (pre ++ s' :: post ++ [o]) = map s_data (pre ++ s :: post) ++ [s_data o]).
        { rewrite !map_app. cbn [map]. rewrite !map_app. cbn [map]. rewrite D, <- app_assoc. reflexivity. }
        inversion F as [|? ? Fo Fr]; subst.
        destruct (IH pre s' (post ++ [o])) as (os & W & Ds); auto.
        -- rewrite app_assoc. apply Forall_app. split; [exact Fr|constructor; auto].
        -- apply Fb.
        -- rewrite Eq. exact C.
        -- exists os. split; [exact W|]. rewrite Ds, Eq. reflexivity.
Qed.

Lemma dealt_timeout c expect evs rest : c_pend c = evs ++ rest -> (rest = [] \/ exists r, rest = Expire :: r) ->
  Forall arrives evs -> Forall (blocked (len (concat (data_of evs)))) (c_orph c) -> len (concat (data_of evs)) <= 4096 ->
  let after := dealt (map s_data (c_orph c) ++ [[]]) evs in
  Forall clean after ->
  exists c', ReadPacket c expect = (Done (zero_packet, Some ErrTimeout), c') /\
    c_pend c' = tl rest /\ c_dev c' = c_dev c /\ map s_data (c_orph c') = after.
Proof.
  intros P Hr N B L0 after C. unfold after in *. clear after.
  assert (Lp : 0 <= len (concat (data_of evs))) by (unfold len; lia).
  assert (Co : Forall clean (map s_data (c_orph c))).
  { apply dealt_clean in C; auto; [|destruct (map s_data (c_orph c)); discriminate]. apply Forall_app in C. apply C. }
  assert (Fo : Forall (fitb (len (concat (data_of evs)))) (c_orph c)).
  { apply Forall_forall. intros s I. apply blocked_fit; auto. rewrite Forall_forall in B; auto.
    rewrite Forall_forall in Co. apply Co, in_map, I. }
  assert (Fn : fit (len (concat (data_of evs))) new_scanner).
  { unfold fit. splits; [apply good_new| |reflexivity]. unfold s_end, len in *. simpl. lia. }
  assert (W : exists s os, ScanTimeout c new_scanner = (([], Some ErrTimeout), s, mkConn (c_dev c) (tl rest) os (c_log c)) /\
     map s_data os = dealt (map s_data (c_orph c) ++ [[]]) evs).
  { unfold ScanTimeout.
    destruct (scan_wait_dealt rest Hr evs (c_orph c) new_scanner [] N) as (os & W & Ds); auto.
    - rewrite app_nil_r. exact Fo.
    - rewrite map_app. exact C.
    - rewrite map_app in Ds. cbn [map] in Ds. change (s_data new_scanner) with (@nil Z) in Ds. rewrite P.
      destruct evs as [|[bs e| |] evs].
      + cbn [map app] in *. destruct Hr as [-> |(r & ->)].
        * rewrite W. eauto.
        * destruct (fit_read _ _ Lp Fn) as (s' & T & _ & D). rewrite T. cbn [tl]. eexists; eexists. split; [reflexivity|].
          rewrite map_app. cbn [map]. rewrite D. cbn [dealt]. reflexivity.
      + cbn [map app] in *. rewrite W. eauto.
      + apply Forall_inv in N. contradiction.
      + cbn [map app] in *. rewrite W. eauto. }
  destruct W as (s & os & W & Ds). unfold ReadPacket. rewrite W. eexists. splits; [reflexivity|reflexivity|reflexivity|exact Ds].
Qed.
Lemma data_pieces chunks : data_of (pieces chunks) = chunks.
Proof. induction chunks as [|bs r IH]; [reflexivity|]. cbn [pieces map data_of]. f_equal. exact IH. Qed.
Lemma in_turn c expect chunks rest : c_pend c = pieces chunks ++ rest -> (rest = [] \/ exists r, rest = Expire :: r) ->
  Forall (fun bs => bs <> []) chunks -> Forall (blocked (len (concat chunks))) (c_orph c) -> len (concat chunks) <= 4096 ->
  let after := deal (map s_data (c_orph c) ++ [[]]) chunks in
  Forall clean after ->
  exists c', ReadPacket c expect = (Done (zero_packet, Some ErrTimeout), c') /\
    c_pend c' = tl rest /\ c_dev c' = c_dev c /\ map s_data (c_orph c') = after.
Proof.
  intros P Hr N B L after C. unfold after in *. rewrite <- dealt_pieces in C. rewrite <- dealt_pieces.
  eapply dealt_timeout; eauto; rewrite ?data_pieces; auto.
  apply Forall_map. eapply Forall_impl; [|exact N]. intros bs H. cbn. auto.
Qed.

(** ** counting them *)
Lemma scan_wait_orph evs : forall pre s post sr r os, scan_wait evs pre s post = (sr, r, os) ->
  (length os <= length pre + length post + match sr with STime => 1 | _ => 0 end)%nat.
Proof.
  induction evs as [|x evs IH]; intros pre s post sr r os H; cbn [scan_wait] in H; destruct (scan_top s) as [tok s'|s'|s'].
  all: try (injection H as <- <- <-; rewrite app_length; cbn [length]; lia).
  destruct x as [bs e| |]; [|injection H as <- <- <-; rewrite app_length; cbn [length]; lia|].
  2:{ destruct pre as [|o pre]; apply IH in H; try rewrite app_length in H; cbn [length] in *; destruct sr; lia. }
  destruct pre as [|o pre]; [apply IH in H; cbn [length] in *; lia|].
  destruct (scan_top (scan_feed o bs e)); apply IH in H; try rewrite app_length in H; cbn [length] in *; destruct sr; lia.
Qed.
Lemma ScanTimeout_orph c s tok e s' c' : ScanTimeout c s = ((tok, e), s', c') ->
  (e = None \/ e = Some ErrTimeout) /\
  (length (c_orph c') <= length (c_orph c) + match e with None => 0 | Some _ => 1 end)%nat /\ c_log c' = c_log c.
Proof.
  unfold ScanTimeout. intros H.
  assert (G : forall x, match scan_wait (c_pend c) (c_orph c) s [] with
      | (STok tok s', r, os) => ((tok, None), s', mkConn (c_dev c) r os (c_log c))
      | (SFalse s', r, os) => (([], None), s', mkConn (c_dev c) r os (c_log c))
      | (STime, r, os) => (([], Some ErrTimeout), s, mkConn (c_dev c) r os (c_log c))
      end = x -> x = ((tok, e), s', c') -> 
      (e = None \/ e = Some ErrTimeout) /\
      (length (c_orph c') <= length (c_orph c) + match e with None => 0 | Some _ => 1 end)%nat /\ c_log c' = c_log c).
  { intros x E ->. destruct (scan_wait _ _ _ _) as [[sr r] os] eqn:W in E. apply scan_wait_orph in W. cbn [length] in W.
    destruct sr; inversion E; subst; clear E; cbn [c_orph c_log]; splits; auto; lia. }
  destruct (c_pend c) as [|[bs e0| |] r] eqn:P; try (eapply G; eauto; fail).
  destruct (scan_top s); injection H as <- <- <- <-; cbn [c_orph c_log]; splits; auto; try rewrite app_length; cbn [length]; lia.
Qed.
Lemma unmarshal_no_timeout l q e : UnmarshalPacket l = Done (q, Some e) -> e <> ErrTimeout.
Proof.
  unfold UnmarshalPacket, obind. destruct (Nat.ltb _ 4); [congruence|].
  destruct (idx l _); [|discriminate]. destruct (idx l _); [|discriminate]. destruct (idx l _); [|discriminate].
  destruct (slice _ _ _); [|discriminate]. destruct (negb _); [congruence|]. destruct (negb _); congruence.
Qed.
Lemma read_orph c expect p e c' : ReadPacket c expect = (Done (p, e), c') ->
  (length (c_orph c') <= length (c_orph c) + (match e with Some ErrTimeout => 1 | _ => 0 end))%nat /\ c_log c' = c_log c.
Proof.
  unfold ReadPacket. destruct (ScanTimeout c new_scanner) as [[[t1 e1] s1] c1] eqn:S1.
  apply ScanTimeout_orph in S1 as (E1 & L1 & G1). destruct E1 as [-> | ->].
  2:{ intros H. injection H as <- <- <-. auto. }
  destruct (negb (len t1 =? 0)); [intros H; injection H as <- <- <-; split; auto; lia|].
  destruct (negb expect); [intros H; injection H as <- <- <-; split; auto; lia|].
  destruct (ScanTimeout c1 s1) as [[[t2 e2] s2] c2] eqn:S2.
  apply ScanTimeout_orph in S2 as (E2 & L2 & G2). destruct E2 as [-> | ->].
  2:{ intros H. injection H as <- <- <-. split; [lia|congruence]. }
  destruct (negb (len t2 =? 0)); [intros H; injection H as <- <- <-; split; [lia|congruence]|].
  destruct (ScanTimeout c2 s2) as [[[t3 e3] s3] c3] eqn:S3.
  apply ScanTimeout_orph in S3 as (E3 & L3 & G3). destruct E3 as [-> | ->].
  2:{ intros H. injection H as <- <- <-. split; [lia|congruence]. }
  destruct (_ && _); [intros H; injection H as <- <- <-; split; [lia|congruence]|].
  destruct (len t3 >=? 4); [|intros H; injection H as <- <- <-; split; [lia|congruence]].
  intros H. injection H as H <-. split; [|congruence].
  destruct e as [e|]; [|lia]. apply unmarshal_no_timeout in H. destruct e; lia || contradiction.
Qed.
Lemma timeouts_app a b : timeouts (a ++ b) = (timeouts a + timeouts b)%nat.
Proof. unfold timeouts. rewrite filter_app, app_length. reflexivity. Qed.

Lemma run_orph {S A} (p : proc S A) : forall w, exists l, c_log (w_conn (snd (run p w))) = c_log (w_conn w) ++ l /\
  (length (c_orph (w_conn (snd (run p w)))) <= length (c_orph (w_conn w)) + timeouts l)%nat.
Proof.
  assert (Z : forall w : world S, exists l, c_log (w_conn w) = c_log (w_conn w) ++ l /\
            (length (c_orph (w_conn w)) <= length (c_orph (w_conn w)) + timeouts l)%nat)
    by (intros w; exists []; rewrite app_nil_r; split; auto; lia).
  induction p as [a| |l k IH|l k IH|l k IH|l k IH|bs k IH|x k IH|k IH|f k IH|k IH|d k IH|c k IH|k IH|b k IH]; intros w; cbn [run snd]; auto.
  - destruct (can_lock _ _); [exact (IH (set_held w _))|apply Z].
  - destruct (release _ _ _); [exact (IH (set_held w _))|apply Z].
  - destruct (can_rlock _ _); [exact (IH (set_held w _))|apply Z].
  - destruct (release _ _ _); [exact (IH (set_held w _))|apply Z].
  - unfold do_write, conn_write. destruct (react _ bs) as [[d evs] r].
    match goal with |- context [run _ ?x] => set (w' := x) end. destruct (IH r w') as (l & L & O).
    exists ([Wr bs r] ++ l). rewrite L, app_assoc. split; [reflexivity|]. rewrite timeouts_app. exact O.
  - unfold do_read. destruct (ReadPacket _ x) as [[[p e]|] c'] eqn:R.
    + apply read_orph in R as [Lo Lg]. match goal with |- context [run _ ?y] => set (w' := y) end.
      destruct (IH p e w') as (l & L & O). exists ([Rd x p e] ++ l). rewrite L, app_assoc.
      unfold w' in *. cbn [set_conn w_conn log_io c_log c_orph] in *. rewrite Lg. split; [reflexivity|].
      rewrite timeouts_app. unfold timeouts at 1. cbn [filter].
      destruct e as [[]|]; cbn [length]; lia.
    + exfalso. destruct (read_total (w_conn w) x) as (p & e & c2 & E & _). rewrite E in R. discriminate.
  - destruct (IH (set_sh w (f (w_sh w)))) as (l & L & O). exists l. auto.
  - destruct (IH (w_clk (tick_clock w)) (tick_clock w)) as (l & L & O). exists l. auto.
  - destruct (IH (add_clock w d)) as (l & L & O). exists l. auto.
Qed.
