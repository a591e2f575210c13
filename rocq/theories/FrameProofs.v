(** Proofs about the split function and bufio.Scanner (libcomfo/conn.go:50-124). *)
From Verif Require Import ProofBase Proto SpecProto SpecFrame SpecConn ProtoProofs Scanner Conn.

Lemma is_ctl_iff c : is_ctl c = true <-> ctl c.
Proof. unfold is_ctl, ctl, ack, start, end_. lia. Qed.
Lemma ctl_dec c : {ctl c} + {~ ctl c}.
Proof. destruct (is_ctl c) eqn:E; [left|right]; rewrite <- is_ctl_iff; congruence. Qed.
Lemma not7_ctl c : ctl c -> c <> 7.
Proof. unfold ctl; lia. Qed.

Lemma clean_nil : clean [].
Proof. intros [|? ?]; discriminate. Qed.
Lemma clean_one b : clean [b].
Proof. intros [|? [|? ?]]; discriminate. Qed.
Lemma clean_cons b l : clean (b :: l) <-> clean l /\ ~ (b = 7 /\ exists c r, l = c :: r /\ ctl c).
Proof.
  split.
  - intros H. split.
    + intros a c r ->. apply (H (b :: a) c r). reflexivity.
    + intros [-> (c & r & -> & C)]. apply (H [] c r); auto.
  - intros [H1 H2] a c r E C. destruct a as [|x a]; injection E as -> ->.
    + apply H2; eauto.
    + apply (H1 a c r); auto.
Qed.
Lemma clean_app_l a b : clean (a ++ b) -> clean a.
Proof. intros H x c y -> C. apply (H x c (y ++ b)); auto. rewrite <- app_assoc; auto. Qed.
Lemma clean_app_r a b : clean (a ++ b) -> clean b.
Proof. intros H x c y -> C. apply (H (a ++ x) c y); auto. rewrite <- app_assoc; auto. Qed.

(** ** the split function finds the first control sequence *)
Lemma split_from_some l : forall i pre n tok, split_from i pre l = Some (n, tok) ->
  exists t c r, l = t ++ 7 :: c :: r /\ ctl c /\ clean (t ++ [7]) /\ n = (i + length t + 2)%nat /\ tok = rev pre ++ t.
Proof.
  induction l as [|b l IH]; intros i pre n tok H; [discriminate|].
  destruct l as [|c l]; [discriminate|].
  cbn [split_from] in H. destruct ((b =? esc) && is_ctl c) eqn:E.
  - injection H as <- <-. apply andb_prop in E as [E1 E2]. apply Z.eqb_eq in E1. unfold esc in E1. subst.
    apply is_ctl_iff in E2. exists [], c, l. split; [reflexivity|]. split; [exact E2|]. split; [apply clean_one|]. split; [simpl; lia|]. rewrite app_nil_r; auto.
  - apply IH in H as (t & c' & r & Hl & C & Cl & Hn & Ht). exists (b :: t), c', r.
    rewrite Hl. splits; auto.
    + simpl. apply clean_cons. split; auto. intros [-> (x & y & Hx & Cx)].
      destruct t as [|t0 t]; injection Hx as <- <-; injection Hl as -> ->.
      * apply (not7_ctl 7); auto.
      * apply is_ctl_iff in Cx. unfold esc in E. rewrite Cx in E. simpl in E. congruence.
    + simpl; lia.
    + rewrite Ht. simpl. rewrite <- app_assoc. reflexivity.
Qed.
Lemma split_from_none l : forall i pre, split_from i pre l = None -> clean l.
Proof.
  induction l as [|b l IH]; intros i pre H; [apply clean_nil|].
  destruct l as [|c l]; [apply clean_one|].
  cbn [split_from] in H. destruct ((b =? esc) && is_ctl c) eqn:E; [discriminate|].
  apply clean_cons. split; eauto. intros [-> (x & y & Hx & Cx)]. injection Hx as -> ->.
  apply is_ctl_iff in Cx. unfold esc in E. rewrite Cx in E. simpl in E. congruence.
Qed.

Lemma split_some l n tok : splitFunc l = Some (n, tok) ->
  exists c r, l = tok ++ 7 :: c :: r /\ ctl c /\ clean (tok ++ [7]) /\ n = (length tok + 2)%nat.
Proof.
  intros H. apply split_from_some in H as (t & c & r & -> & C & Cl & -> & ->). simpl.
  exists c, r. auto.
Qed.
Lemma split_none l : splitFunc l = None -> clean l.
Proof. apply split_from_none. Qed.

(** The first control sequence is unique. *)
Lemma first_ctl_unique t1 c1 r1 t2 c2 r2 :
  t1 ++ 7 :: c1 :: r1 = t2 ++ 7 :: c2 :: r2 -> ctl c1 -> ctl c2 ->
  clean (t1 ++ [7]) -> clean (t2 ++ [7]) -> t1 = t2 /\ c1 = c2 /\ r1 = r2.
Proof.
  revert t2. induction t1 as [|b t1 IH]; intros [|b2 t2] E C1 C2 L1 L2; simpl in *.
  - injection E as -> ->; auto.
  - exfalso. injection E as <- E. destruct t2 as [|x t2]; simpl in *; injection E as E0 E; subst.
    + apply (not7_ctl 7); auto.
    + apply clean_cons in L2 as [_ L2]. apply L2. split; eauto.
  - exfalso. injection E as -> E. destruct t1 as [|x t1]; simpl in *; injection E as E0 E; subst.
    + apply (not7_ctl 7); auto.
    + apply clean_cons in L1 as [_ L1]. apply L1. split; eauto.
  - injection E as -> E. destruct (IH t2 E) as (-> & -> & ->); auto.
    + apply clean_cons in L1; tauto.
    + apply clean_cons in L2; tauto.
Qed.

Lemma split_first tok c r : ctl c -> clean (tok ++ [7]) ->
  splitFunc (tok ++ 7 :: c :: r) = Some ((length tok + 2)%nat, tok).
Proof.
  intros C L. destruct (splitFunc _) as [[n t]|] eqn:E.
  - apply split_some in E as (c' & r' & E & C' & L' & ->).
    symmetry in E. apply first_ctl_unique in E as (-> & _); auto.
  - apply split_none in E. exfalso. apply (E tok c r); auto.
Qed.
Lemma split_clean l : clean l -> splitFunc l = None.
Proof.
  intros H. destruct (splitFunc l) as [[n t]|] eqn:E; auto.
  apply split_some in E as (c & r & -> & C & _). exfalso. eapply H; eauto.
Qed.

Lemma skipn_tok (tok : list Z) c r : skipn (length tok + 2) (tok ++ 7 :: c :: r) = r.
Proof.
  rewrite skipn_app, skipn_all2 by lia. replace (length tok + 2 - length tok)%nat with 2%nat by lia.
  reflexivity.
Qed.

(** More input does not change a token already found. *)
Lemma split_app l m n tok : splitFunc l = Some (n, tok) -> splitFunc (l ++ m) = Some (n, tok).
Proof.
  intros H. apply split_some in H as (c & r & -> & C & L & ->).
  rewrite <- app_assoc. simpl. apply split_first; auto.
Qed.
Lemma split_len l n tok : splitFunc l = Some (n, tok) -> (n <= length l)%nat.
Proof. intros H. apply split_some in H as (c & r & -> & _ & _ & ->). rewrite app_length; simpl; lia. Qed.

(** ** The scanner on error-free input of at most 4096 bytes *)

Definition good (s : scanner) : Prop :=
  s_err s = None /\ 0 <= s_start s /\
  ((s_buflen s = 0 /\ s_start s = 0 /\ s_data s = []) \/ 4096 <= s_buflen s).

Lemma good_new : good new_scanner.
Proof. unfold good, new_scanner; simpl. intuition lia. Qed.

Lemma scan_top_tok s n tok : good s -> splitFunc (s_data s) = Some (n, tok) ->
  exists s', scan_top s = TTok tok s' /\ good s' /\ s_data s' = skipn n (s_data s) /\
             s_end s' = s_end s /\ s_loop s' = s_loop s.
Proof.
  intros (E & S & G) H. pose proof (split_len _ _ _ H) as L.
  assert (0 < len (s_data s)).
  { unfold len. apply split_some in H as (c & r & -> & _). rewrite app_length; simpl; lia. }
  unfold scan_top. rewrite E. replace (0 <? len (s_data s)) with true by lia. cbn [orb].
  rewrite H. replace (length (s_data s) <? n)%nat with false by (symmetry; apply Nat.ltb_ge; lia).
  eexists; split; [reflexivity|]. split; [|split; [|split]]; auto.
  - unfold good; simpl. splits; auto; try lia. right. destruct G as [(-> & _ & G)|G]; auto.
    rewrite G in L. destruct n; [|simpl in L; lia]. rewrite G in H. discriminate.
  - unfold s_end, len. simpl. rewrite skipn_length. lia.
Qed.

Lemma scan_grow_good s : good s -> s_end s <= 4096 -> exists s', scan_grow s = TRead s' /\ good s' /\
  s_data s' = s_data s /\ s_end s' <= s_end s /\ s_loop s' = s_loop s /\ 4096 <= s_buflen s'.
Proof.
  intros (E & S & G) L. unfold scan_grow.
  cbv zeta. match goal with |- context [if ?c then ?a else s] => set (s1 := if c then a else s) end.
  assert (H1 : good s1 /\ s_data s1 = s_data s /\ s_end s1 <= s_end s /\ s_loop s1 = s_loop s /\ s_buflen s1 = s_buflen s).
  { unfold s1. destruct (_ && _) eqn:C.
    - unfold good, s_end; simpl. intuition lia.
    - unfold good; intuition lia. }
  destruct H1 as ((E1 & S1 & G1) & D1 & En1 & L1 & B1). clearbody s1.
  destruct (s_end s1 =? s_buflen s1) eqn:C.
  - replace (s_buflen s1 >=? maxTokenSize) with false by (unfold maxTokenSize; lia).
    eexists; split; [reflexivity|]. unfold good, s_end; cbn [s_buflen s_start s_data s_err s_loop].
    unfold s_end in *. rewrite D1 in *. 
    assert (4096 <= Z.min (if s_buflen s1 * 2 =? 0 then startBufSize else s_buflen s1 * 2) maxTokenSize).
    { unfold startBufSize, maxTokenSize. destruct (s_buflen s1 * 2 =? 0) eqn:Z; lia. }
    intuition lia.
  - eexists; split; [reflexivity|]. assert (4096 <= s_buflen s1).
    { destruct G1 as [(? & ? & G1)|?]; auto. unfold s_end, len in C. rewrite G1 in C. simpl in C. lia. }
    unfold good; intuition lia.
Qed.

Lemma scan_top_read s : good s -> s_end s <= 4096 -> splitFunc (s_data s) = None ->
  exists s', scan_top s = TRead s' /\ good s' /\
  s_data s' = s_data s /\ s_end s' <= s_end s /\ s_loop s' = s_loop s /\ 4096 <= s_buflen s'.
Proof.
  intros G L H. unfold scan_top. destruct G as (E & G). rewrite E, H. cbn [orb].
  destruct (0 <? len (s_data s)); cbn [orb]; apply scan_grow_good; unfold good; auto.
Qed.

(** At most 100 consecutive empty reads, the first [k] having happened already. *)
Fixpoint empties_ok (k : Z) (chunks : list (list Z)) : Prop :=
  match chunks with
  | [] => True
  | [] :: r => k + 1 <= 100 /\ empties_ok (k + 1) r
  | _ :: r => empties_ok 0 r
  end.

Lemma scan_feed_good s bs : good s -> 4096 <= s_buflen s -> s_end s + len bs <= 4096 ->
  (bs = [] -> s_loop s + 1 <= 100) ->
  let s' := scan_feed s bs None in
  good s' /\ s_data s' = s_data s ++ bs /\ s_end s' = s_end s + len bs /\
  s_loop s' = match bs with [] => s_loop s + 1 | _ => 0 end.
Proof.
  intros (E & S & G) B L Em. unfold scan_feed.
  replace (s_buflen s - s_end s <? len bs) with false by lia.
  destruct bs as [|b bs].
  - cbn [len length Z.of_nat]. rewrite Z.ltb_irrefl.
    specialize (Em eq_refl). cbn [s_loop s_buflen s_start s_data s_err].
    replace (s_loop s + 1 >? maxConsecutiveEmptyReads) with false by (unfold maxConsecutiveEmptyReads; lia).
    unfold good, s_end, len; simpl. rewrite app_nil_r. intuition lia.
  - replace (0 <? len (b :: bs)) with true by (unfold len; simpl; lia).
    unfold good, s_end, len; simpl. rewrite app_length. simpl. intuition lia.
Qed.

Definition total (chunks : list (list Z)) : Z := len (concat chunks).

Lemma scan_wait_good chunks : forall s,
  good s -> s_end s + total chunks <= 4096 -> empties_ok (s_loop s) chunks ->
  match splitFunc (s_data s ++ concat chunks) with
  | Some (n, tok) =>
      exists chunks' s', scan_wait (pieces chunks) [] s [] = (STok tok s', pieces chunks', []) /\
        s_data s' ++ concat chunks' = skipn n (s_data s ++ concat chunks) /\
        (exists used, chunks = used ++ chunks') /\ good s' /\ s_end s' + total chunks' <= 4096 /\ empties_ok (s_loop s') chunks'
  | None => exists s', scan_wait (pieces chunks) [] s [] = (STime, [], [s'])
  end.
Proof.
  induction chunks as [|bs chunks IH]; intros s G L Em.
  - simpl concat. rewrite app_nil_r. change (total []) with 0 in L.
    destruct (splitFunc (s_data s)) as [[n tok]|] eqn:E.
    + destruct (scan_top_tok _ _ _ G E) as (s' & T & G' & D & En & Lo).
      exists [], s'. simpl. rewrite T. splits; auto.
      * rewrite app_nil_r; auto.
      * exists []; auto.
      * change (total []) with 0. lia.
    + destruct (scan_top_read s) as (s' & T & _); auto; try lia.
      exists s'. simpl. rewrite T. reflexivity.
  - assert (Tot : total (bs :: chunks) = len bs + total chunks).
    { unfold total, len. simpl. rewrite app_length; lia. }
    assert (0 <= total chunks) by (unfold total, len; lia).
    assert (0 <= len bs) by (unfold len; lia).
    cbn [concat].
    destruct (splitFunc (s_data s)) as [[n tok]|] eqn:E.
    + rewrite (split_app _ (bs ++ concat chunks) _ _ E).
      destruct (scan_top_tok _ _ _ G E) as (s' & T & G' & D & En & Lo).
      exists (bs :: chunks), s'. cbn [scan_wait pieces map]. rewrite T. split; [reflexivity|].
      rewrite D, En, Lo. splits; auto; try apply G'; [|exists []; auto].
      cbn [concat]. rewrite skipn_app. 
      replace (n - length (s_data s))%nat with 0%nat by (apply split_len in E; lia). reflexivity.
    + destruct (scan_top_read s) as (s1 & T & G1 & D1 & En1 & Lo1 & B1); auto; try lia.
      destruct (scan_feed_good s1 bs) as (G2 & D2 & En2 & Lo2); auto; try lia.
      { rewrite Lo1. intros ->. simpl in Em. tauto. }
      specialize (IH (scan_feed s1 bs None)).
      cbn [scan_wait pieces map]. rewrite T. fold (pieces chunks).
      rewrite D2, D1, <- app_assoc in IH.
      assert (Em2 : empties_ok (s_loop (scan_feed s1 bs None)) chunks)
        by (rewrite Lo2; destruct bs; simpl in Em; [rewrite Lo1|]; tauto).
      specialize (IH G2 ltac:(lia) Em2).
      destruct (splitFunc (s_data s ++ bs ++ concat chunks)) as [[n tok]|]; auto.
      destruct IH as (ch & s' & W & D & (used & U) & R).
      exists ch, s'. splits; auto; try apply R. exists (bs :: used). simpl. rewrite <- U. reflexivity.
Qed.

(** The result of a read as a function of the bytes received. *)
Definition pure_read (expect : bool) (bs : list Z) : outcome (packet * option err) :=
  match splitFunc bs with
  | None => Done (zero_packet, Some ErrTimeout)
  | Some (n, tok) =>
      if negb (len tok =? 0) then Done (zero_packet, Some ErrScanInput)
      else if negb expect then Done (zero_packet, None)
      else match splitFunc (skipn n bs) with
           | None => Done (zero_packet, Some ErrTimeout)
           | Some (n2, tok) =>
               if negb (len tok =? 0) then Done (zero_packet, Some ErrScanInput)
               else match splitFunc (skipn n2 (skipn n bs)) with
                    | None => Done (zero_packet, Some ErrTimeout)
                    | Some (_, tok) =>
                        if (len tok >? 0) && (len tok <? 4) then Done (zero_packet, Some ErrTooShort)
                        else if len tok >=? 4 then UnmarshalPacket tok
                        else Done (zero_packet, None)
                    end
           end
  end.

Lemma scan_timeout_pieces chunks c s : c_pend c = pieces chunks -> c_orph c = [] ->
  ScanTimeout c s =
  match scan_wait (pieces chunks) [] s [] with
  | (STok tok s', r, os) => ((tok, None), s', mkConn (c_dev c) r os (c_log c))
  | (SFalse s', r, os) => (([], None), s', mkConn (c_dev c) r os (c_log c))
  | (STime, r, os) => (([], Some ErrTimeout), s, mkConn (c_dev c) r os (c_log c))
  end.
Proof. intros H1 H2. unfold ScanTimeout. rewrite H1, H2. destruct chunks; reflexivity. Qed.

(** The bytes behind the last token a successful read looks at. *)
Definition pure_rest (expect : bool) (bs : list Z) : list Z :=
  match splitFunc bs with
  | None => []
  | Some (n, _) =>
      if negb expect then skipn n bs
      else match splitFunc (skipn n bs) with
           | None => []
           | Some (n2, _) =>
               match splitFunc (skipn n2 (skipn n bs)) with
               | None => []
               | Some (n3, _) => skipn n3 (skipn n2 (skipn n bs))
               end
           end
  end.

Lemma read_pieces_rest chunks c expect :
  c_pend c = pieces chunks -> c_orph c = [] -> total chunks <= 4096 -> empties_ok 0 chunks ->
  fst (ReadPacket c expect) = pure_read expect (concat chunks) /\
  forall p, pure_read expect (concat chunks) = Done (p, None) ->
    exists used chunks' buf, chunks = used ++ chunks' /\
      snd (ReadPacket c expect) = mkConn (c_dev c) (pieces chunks') [] (c_log c) /\
      buf ++ concat chunks' = pure_rest expect (concat chunks).
Proof.
  intros P O T Em. unfold ReadPacket, pure_read, pure_rest.
  rewrite (scan_timeout_pieces chunks); auto.
  pose proof (scan_wait_good chunks new_scanner good_new) as W. simpl s_data in W. simpl app in W.
  specialize (W ltac:(unfold s_end, len; simpl; lia) Em).
  destruct (splitFunc (concat chunks)) as [[n tok]|] eqn:E1.
  2:{ destruct W as (s' & ->). split; [reflexivity|discriminate]. }
  destruct W as (ch1 & s1 & -> & D1 & (us1 & U1) & G1 & T1 & Em1).
  destruct (negb (len tok =? 0)); [split; [reflexivity|discriminate]|].
  destruct expect; cbn [negb].
  2:{ split; [reflexivity|]. intros p _. exists us1, ch1, (s_data s1). auto. }
  rewrite (scan_timeout_pieces ch1) by reflexivity. cbn [c_pend c_orph c_dev c_log].
  pose proof (scan_wait_good ch1 s1 G1 T1 Em1) as W. rewrite D1 in W.
  destruct (splitFunc (skipn n (concat chunks))) as [[n2 tok2]|] eqn:E2.
  2:{ destruct W as (s' & ->). split; [reflexivity|discriminate]. }
  destruct W as (ch2 & s2 & -> & D2 & (us2 & U2) & G2 & T2 & Em2).
  destruct (negb (len tok2 =? 0)); [split; [reflexivity|discriminate]|].
  rewrite (scan_timeout_pieces ch2) by reflexivity. cbn [c_pend c_orph c_dev c_log].
  pose proof (scan_wait_good ch2 s2 G2 T2 Em2) as W. rewrite D2 in W.
  destruct (splitFunc (skipn n2 (skipn n (concat chunks)))) as [[n3 tok3]|] eqn:E3.
  2:{ destruct W as (s' & ->). split; [reflexivity|discriminate]. }
  destruct W as (ch3 & s3 & -> & D3 & (us3 & U3) & _).
  assert (Ex : exists used chunks' buf, chunks = used ++ chunks' /\
    mkConn (c_dev c) (pieces ch3) [] (c_log c) = mkConn (c_dev c) (pieces chunks') [] (c_log c) /\
    buf ++ concat chunks' = skipn n3 (skipn n2 (skipn n (concat chunks)))).
  { exists (us1 ++ us2 ++ us3), ch3, (s_data s3). splits; auto. subst. rewrite <- !app_assoc. reflexivity. }
  destruct (_ && _); [split; [reflexivity|discriminate]|].
  destruct (_ >=? _); split; try reflexivity; auto.
Qed.

Lemma read_pieces chunks c expect :
  c_pend c = pieces chunks -> c_orph c = [] -> total chunks <= 4096 -> empties_ok 0 chunks ->
  fst (ReadPacket c expect) = pure_read expect (concat chunks).
Proof. intros. apply read_pieces_rest; auto. Qed.

(** No 101 consecutive empty reads anywhere. *)
Lemma empties_ok_runs chunks : forall k, 0 <= k <= 100 ->
  (forall a b, repeat [] (Z.to_nat k) ++ chunks <> a ++ repeat [] 101 ++ b) -> empties_ok k chunks.
Proof.
  induction chunks as [|bs chunks IH]; intros k K H; simpl; auto.
  destruct bs as [|x bs].
  - assert (E : repeat [] (Z.to_nat k) ++ [] :: chunks = repeat [] (Z.to_nat (k + 1)) ++ chunks :> list (list Z)).
    { replace (Z.to_nat (k + 1)) with (Z.to_nat k + 1)%nat by lia. rewrite repeat_app, <- app_assoc. reflexivity. }
    rewrite E in H.
    assert (k + 1 <= 100).
    { destruct (Z.le_gt_cases (k + 1) 100); auto. exfalso.
      apply (H [] chunks). replace (Z.to_nat (k + 1)) with 101%nat by lia. reflexivity. }
    split; auto. apply IH; auto. lia.
  - apply IH; [lia|]. intros a b E. simpl in E.
    apply (H (repeat [] (Z.to_nat k) ++ (x :: bs) :: a) b). rewrite <- app_assoc. simpl. rewrite E. reflexivity.
Qed.

Lemma few_empty_ok chunks : few_empty chunks -> empties_ok 0 chunks.
Proof. intros H. apply empties_ok_runs; [lia|exact H]. Qed.

Lemma read_delivers c chunks expect : delivers c chunks ->
  fst (ReadPacket c expect) = pure_read expect (concat chunks).
Proof. intros (P & O & F & L). apply read_pieces; auto using few_empty_ok. Qed.
