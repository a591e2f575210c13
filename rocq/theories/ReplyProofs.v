(** Reading a reply: exact, possibly unreadable, possibly corrupted. *)
From Verif Require Import ProofBase Proto SpecProto SpecFrame ProtoProofs Scanner Conn FrameProofs.

Definition body_read (bs : list Z) : outcome (packet * option err) :=
  match splitFunc bs with
  | None => Done (zero_packet, Some ErrTimeout)
  | Some (_, tok) =>
      if (len tok >? 0) && (len tok <? 4) then Done (zero_packet, Some ErrTooShort)
      else if len tok >=? 4 then UnmarshalPacket tok
      else Done (zero_packet, None)
  end.

Lemma split_empty c r : ctl c -> splitFunc (7 :: c :: r) = Some (2%nat, []).
Proof. intros C. apply (split_first [] c r); auto. apply clean_one. Qed.

Lemma pure_read_two c1 c2 rest : ctl c1 -> ctl c2 ->
  pure_read true (7 :: c1 :: 7 :: c2 :: rest) = body_read rest.
Proof.
  intros C1 C2. unfold pure_read. rewrite split_empty by auto. simpl. rewrite split_empty by auto. reflexivity.
Qed.

Lemma len0 {A} (l : list A) : len l =? 0 = true -> l = [].
Proof. destruct l; unfold len; simpl; auto. lia. Qed.

Lemma pure_read_inv bs :
  (exists e, pure_read true bs = Done (zero_packet, Some e)) \/
  (exists c1 c2 rest, ctl c1 /\ ctl c2 /\ bs = 7 :: c1 :: 7 :: c2 :: rest /\ pure_read true bs = body_read rest).
Proof.
  unfold pure_read. destruct (splitFunc bs) as [[n tok]|] eqn:E; [|eauto].
  destruct (len tok =? 0) eqn:L; cbn [negb]; [|eauto]. apply len0 in L. subst.
  apply split_some in E as (c1 & r1 & -> & C1 & _ & ->). simpl.
  destruct (splitFunc r1) as [[n2 tok]|] eqn:E; [|eauto].
  destruct (len tok =? 0) eqn:L; cbn [negb]; [|eauto]. apply len0 in L. subst.
  apply split_some in E as (c2 & r2 & -> & C2 & _ & ->). simpl.
  right. exists c1, c2, r2. auto.
Qed.

(** ** cleanliness of the wire *)
Lemma clean_snoc7 l : clean (l ++ [7]) <-> clean l.
Proof.
  split; [apply clean_app_l|]. induction l as [|b l IH]; intros H; [apply clean_one|].
  simpl. apply clean_cons in H as [H1 H2]. apply clean_cons. split; auto.
  intros [-> (c & r & E & C)]. destruct l as [|x l]; injection E as E1 E2; subst.
  - apply (not7_ctl 7); auto.
  - apply H2; eauto.
Qed.
Lemma clean_cons_doubled k d : forall x, clean (x :: doubled d ++ [k]) <-> clean (x :: d ++ [k]).
Proof.
  induction d as [|y d IH]; intros x; [reflexivity|].
  rewrite doubled_cons. unfold double7. destruct (Z.eqb_spec y 7) as [->|Y]; simpl.
  - rewrite (clean_cons x (7 :: 7 :: _)), (clean_cons 7 (7 :: _)), (clean_cons x (7 :: d ++ _)), IH.
    split.
    + intros ((H1 & H2) & H3). split; auto. intros [-> (c & r & E & C)]. injection E as <- <-.
      apply (not7_ctl 7); auto.
    + intros (H1 & H2). split; [split; auto|].
      * intros [_ (c & r & E & C)]. injection E as <- <-. apply (not7_ctl 7); auto.
      * intros [_ (c & r & E & C)]. injection E as <- <-. apply (not7_ctl 7); auto.
  - rewrite (clean_cons x (y :: _)), (clean_cons x (y :: d ++ _)), IH.
    split; intros (H1 & H2); (split; [auto|]); intros [-> (c & r & E & C)]; injection E as <- <-;
      apply H2; eauto.
Qed.
Lemma wire_clean cmd data : clean (wire cmd data) <-> readable cmd data.
Proof.
  rewrite wire_shape. unfold readable, fields.
  rewrite (clean_cons 0), (clean_cons cmd), (clean_cons cmd (_ :: data ++ _)), clean_cons_doubled.
  split; [intros ((H1 & H2) & H3)|intros (H1 & H2)]; splits; auto.
  - intros [-> (c & r & E & C)]. injection E as <- <-. apply H2. eauto.
  - intros [-> (c & r & E & C)]. injection E as <- <-. apply H2. eauto.
  - intros [? _]. discriminate.
Qed.

(** ** weights: a 7 counts 1, any other byte 2 *)
Definition w7 (b : Z) : Z := if b =? 7 then 1 else 2.
Definition weight (l : list Z) : Z := fold_right (fun b s => w7 b + s) 0 l.
Lemma weight_app a b : weight (a ++ b) = weight a + weight b.
Proof. induction a; simpl; auto. rewrite IHa. lia. Qed.
Lemma w7_range b : 1 <= w7 b <= 2.
Proof. unfold w7. destruct (b =? 7); lia. Qed.
Lemma weight_nonneg l : 0 <= weight l.
Proof. induction l as [|b l]; simpl; [lia|]. pose proof (w7_range b). lia. Qed.
Lemma weight_doubled d : weight (doubled d) = 2 * len d.
Proof.
  induction d as [|b d IH]; auto. rewrite doubled_cons, weight_app, IH. unfold double7, len, w7. simpl length.
  destruct (b =? 7) eqn:E; simpl; unfold w7; [simpl|rewrite E]; lia.
Qed.
Lemma weight_unescape l : 2 * len (unescapeData l) <= weight l.
Proof.
  enough (H : forall n l, (length l <= n)%nat -> 2 * len (unescapeData l) <= weight l) by eauto.
  clear l. unfold len. induction n; intros l Hl; (destruct l as [|b l]; [simpl; lia|]); [simpl in Hl; lia|].
  simpl in Hl. destruct (Z.eq_dec b 7) as [->|N].
  - destruct l as [|c l]; [simpl; unfold w7; simpl; lia|]. destruct (Z.eq_dec c 7) as [->|N].
    + rewrite unescape_pair. specialize (IHn l ltac:(simpl in Hl; lia)). simpl in *. unfold w7. simpl. lia.
    + rewrite unescape_lone by auto. specialize (IHn (c :: l) ltac:(simpl in *; lia)).
      change (weight (7 :: c :: l)) with (1 + weight (c :: l)). lia.
  - rewrite unescape_other by auto. specialize (IHn l ltac:(lia)). simpl. unfold w7 at 1.
    destruct (b =? 7) eqn:E; lia.
Qed.
Lemma subst_at_split l i x y : nth_error l i = Some x ->
  exists a b, l = a ++ x :: b /\ subst_at l i y = a ++ y :: b /\ i = length a.
Proof.
  intros H. destruct (nth_error_split l i H) as (a & b & -> & <-). exists a, b.
  rewrite subst_at_app. auto.
Qed.
Lemma weight_subst l i x y : nth_error l i = Some x -> weight (subst_at l i y) <= weight l + 1.
Proof.
  intros H. destruct (subst_at_split l i x y H) as (a & b & -> & -> & _).
  rewrite !weight_app. simpl. pose proof (w7_range x). pose proof (w7_range y). lia.
Qed.

(** A packet cut short by a control sequence inside it is rejected. *)
Lemma cut_rejected x0 cmd n D k tok c r :
  x0 :: cmd :: n :: D ++ [k] = tok ++ 7 :: c :: r -> ctl c -> weight D <= 2 * n + 1 ->
  (4 <= length tok)%nat ->
  exists e, UnmarshalPacket tok = Done (zero_packet, Some e).
Proof.
  intros E C W L. destruct (at_least_4 tok L) as (z & c' & n' & raw & ck & ->).
  simpl in E. rewrite <- app_assoc in E. simpl in E. injection E as -> -> -> E.
  assert (H : weight (D ++ [k]) = weight (raw ++ ck :: 7 :: c :: r)) by (rewrite E; auto).
  rewrite !weight_app in H. simpl in H. unfold w7 in H at 3.
  change (7 =? 7) with true in H. cbv iota in H.
  pose proof (w7_range k). pose proof (w7_range ck). pose proof (weight_nonneg r).
  assert (w7 c = 2) by (unfold w7; apply not7_ctl in C; destruct (c =? 7) eqn:X; auto; lia).
  pose proof (weight_unescape raw) as U.
  rewrite unmarshal_eq. cbv zeta. unfold len in U.
  replace (n' =? Z.of_nat (length (unescapeData raw))) with false by lia. cbn [negb]. eauto.
Qed.

(** Body of a reply whose first control sequence is the one at the end. *)
Lemma body_clean w c : clean w -> ctl c -> (4 <= length w)%nat ->
  body_read (w ++ [7; c]) = UnmarshalPacket w.
Proof.
  intros H C L. unfold body_read. rewrite (split_first w c []); auto; [|apply clean_snoc7; auto].
  unfold len. replace ((_ >? 0) && _) with false by lia. replace (_ >=? 4) with true by lia. reflexivity.
Qed.

(** Otherwise the token ends at a control sequence inside the body. *)
Lemma body_cut w c : ~ clean w -> exists tok c' r, w = tok ++ 7 :: c' :: r /\ ctl c' /\ clean (tok ++ [7]) /\
  splitFunc (w ++ [7; c]) = Some ((length tok + 2)%nat, tok).
Proof.
  intros H. destruct (splitFunc w) as [[n tok]|] eqn:E.
  - pose proof E as E'. apply split_some in E as (c' & r & -> & C & L & ->).
    exists tok, c', r. splits; auto. apply split_app; auto.
  - exfalso. apply H. apply split_none; auto.
Qed.

Lemma clean_dec l : {clean l} + {~ clean l}.
Proof.
  destruct (splitFunc l) as [[n tok]|] eqn:E.
  - right. intros H. apply split_some in E as (c & r & -> & C & _). eapply H; eauto.
  - left. apply split_none; auto.
Qed.

(** Outcome of reading something that should be the packet [cmd, data]. *)
Definition faithful (cmd : Z) (data : list Z) (r : outcome (packet * option err)) : Prop :=
  r = Done (mkPacket cmd data false, None) \/ (exists e, r = Done (zero_packet, Some e)) \/
  r = Done (zero_packet, None).

Lemma body_cut_faithful x0 cmd n D k cmd0 data0 c : weight D <= 2 * n + 1 ->
  ~ clean (x0 :: cmd :: n :: D ++ [k]) ->
  faithful cmd0 data0 (body_read ((x0 :: cmd :: n :: D ++ [k]) ++ [7; c])).
Proof.
  intros W H. destruct (body_cut _ c H) as (tok & c' & r & E & C & L & S).
  unfold body_read. rewrite S. destruct ((len tok >? 0) && (len tok <? 4)) eqn:E1; [right; left; eauto|].
  destruct (len tok >=? 4) eqn:E2; [|right; right; auto].
  right; left. eapply cut_rejected; eauto. unfold len in *; lia.
Qed.

Lemma wire_len4 cmd data : (4 <= length (wire cmd data))%nat.
Proof. rewrite wire_shape. simpl. rewrite app_length. simpl. lia. Qed.

(** *** C07 *)
Lemma reply_readable cmd data extra : readable cmd data ->
  pure_read true (reply cmd data ++ extra) = Done (mkPacket cmd data false, None).
Proof.
  intros R. unfold reply. cbn [app]. rewrite pure_read_two by (unfold ctl; auto).
  rewrite <- app_assoc. cbn [app]. unfold body_read. rewrite split_first; [|unfold ctl; auto|apply clean_snoc7, wire_clean; auto].
  pose proof (wire_len4 cmd data). unfold len.
  replace ((_ >? 0) && _) with false by lia. replace (_ >=? 4) with true by lia. apply unmarshal_wire.
Qed.
Lemma reply_unreadable cmd data extra : ~ readable cmd data ->
  exists e, pure_read true (reply cmd data ++ extra) = Done (zero_packet, Some e).
Proof.
  intros R. unfold reply. cbn [app]. rewrite pure_read_two by (unfold ctl; auto).
  rewrite <- wire_clean in R. destruct (body_cut _ 15 R) as (tok & c' & r & E & C & L & S).
  rewrite <- app_assoc. unfold body_read.
  replace (wire cmd data ++ [7; 15] ++ extra) with ((wire cmd data ++ [7; 15]) ++ extra) by (rewrite <- app_assoc; auto).
  rewrite (split_app _ extra _ _ S). destruct ((len tok >? 0) && (len tok <? 4)) eqn:E1; [eauto|].
  destruct (len tok >=? 4) eqn:E2.
  - rewrite wire_shape in E. eapply cut_rejected; eauto.
    + rewrite weight_doubled. unfold len. lia.
    + unfold len in *; lia.
  - exfalso. assert (tok = []) as -> by (apply len0; unfold len in *; lia).
    rewrite wire_shape in E. discriminate.
Qed.

(** *** C11, as a function of the bytes received *)
Lemma nth_error_app_case (a b : list Z) i x : nth_error (a ++ b) i = Some x ->
  (nth_error a i = Some x /\ (i < length a)%nat) \/
  (nth_error b (i - length a) = Some x /\ (length a <= i)%nat).
Proof.
  intros H. destruct (Nat.lt_ge_cases i (length a)).
  - rewrite nth_error_app1 in H by auto; auto.
  - rewrite nth_error_app2 in H by auto; auto.
Qed.
Lemma subst_at_app1 a b i y : (i < length a)%nat -> subst_at (a ++ b) i y = subst_at a i y ++ b.
Proof.
  intros H. unfold subst_at. rewrite firstn_app, skipn_app.
  replace (i - length a)%nat with 0%nat by lia. replace (S i - length a)%nat with 0%nat by lia.
  simpl. rewrite app_nil_r, <- app_assoc. reflexivity.
Qed.
Lemma subst_at_app2 a b i y : (length a <= i)%nat -> subst_at (a ++ b) i y = a ++ subst_at b (i - length a) y.
Proof.
  intros H. unfold subst_at. rewrite firstn_app, skipn_app.
  rewrite firstn_all2 by lia. rewrite (skipn_all2 a) by lia. rewrite <- app_assoc.
  replace (S i - length a)%nat with (S (i - length a)) by lia. reflexivity.
Qed.
Lemma subst_at_cons a l i y : subst_at (a :: l) (S i) y = a :: subst_at l i y.
Proof. reflexivity. Qed.
Lemma subst_at_0 a l y : subst_at (a :: l) 0 y = y :: l.
Proof. reflexivity. Qed.

(** Corruption inside the body of the frame. *)
Lemma body_corrupt cmd data i x y :
  byte_ok cmd -> bytes_ok data -> (length data <= 255)%nat ->
  nth_error (wire cmd data) i = Some x -> byte_ok y -> y <> x ->
  faithful cmd data (body_read (subst_at (wire cmd data) i y ++ [7; 15])) \/
  (i = 2%nat /\ ~ readable cmd data /\
   exists p, body_read (subst_at (wire cmd data) i y ++ [7; 15]) = Done (p, None) /\ length (p_data p) <> length data).
Proof.
  intros Bc Bd Ld N By YX.
  assert (Ctl15 : ctl 15) by (unfold ctl; auto).
  destruct (clean_dec (subst_at (wire cmd data) i y)) as [Cl|Cl].
  - left. rewrite body_clean; auto.
    2:{ destruct (subst_at_split _ _ _ y N) as (a & b & E & -> & _). pose proof (wire_len4 cmd data) as L.
        rewrite E in L. rewrite app_length in *. simpl in *. auto. }
    destruct i as [|i].
    + rewrite wire_shape, subst_at_0, unmarshal_eq. cbv zeta. rewrite unescape_doubled, Z.eqb_refl.
      cbn [negb]. unfold cksum_byte. rewrite Z.eqb_refl. left. reflexivity.
    + right; left. eapply corrupt_detected; eauto.
  - rewrite wire_shape in *.
    destruct i as [|[|[|i]]].
    + left. rewrite subst_at_0 in *. apply body_cut_faithful; auto. rewrite weight_doubled; unfold len; lia.
    + left. rewrite subst_at_cons, subst_at_0 in *. apply body_cut_faithful; auto. rewrite weight_doubled; unfold len; lia.
    + rewrite !subst_at_cons, subst_at_0 in *. injection N as <-.
      destruct (body_cut _ 15 Cl) as (tok & c' & r & E & C & L & S).
      unfold body_read. rewrite S. destruct ((len tok >? 0) && (len tok <? 4)) eqn:E1; [left; right; left; eauto|].
      destruct (len tok >=? 4) eqn:E2; [|left; right; right; auto].
      destruct (at_least_4 tok) as (z & c2 & n' & raw & ck & ->); [unfold len in *; lia|].
      destruct (unmarshal_done (z :: c2 :: n' :: raw ++ [ck])) as (p & e & U).
      pose proof U as U'. rewrite unmarshal_eq in U'. cbv zeta in U'.
      assert (n' = y). { simpl in E. injection E as _ _ -> _; auto. }
      subst n'.
      destruct (negb (y =? _)) eqn:Ey; [left; right; left; eexists; rewrite unmarshal_eq; cbv zeta; rewrite Ey; reflexivity|].
      destruct (negb (ck =? _)) eqn:Ek; [left; right; left; eexists; rewrite unmarshal_eq; cbv zeta; rewrite Ey, Ek; reflexivity|].
      injection U' as <- <-. right. splits; auto.
      * intros R. apply Cl. intros a c b Eq Hc.
        (* a control sequence behind the length byte would also be in the original *)
        simpl in E. rewrite <- app_assoc in E. injection E as <- <- E.
        apply wire_clean in R. rewrite wire_shape in R.
        apply (clean_app_r [0; cmd; Z.of_nat (length data)]) in R.
        apply (R (raw ++ [ck]) c' r); auto. rewrite <- app_assoc. exact E.
      * eexists. split; [rewrite U; reflexivity|]. simpl. lia.
    + left. rewrite !subst_at_cons in *. cbn [nth_error] in N.
      destruct (nth_error_app_case _ _ _ _ N) as [[N' Hi]|[N' Hi]].
      * rewrite subst_at_app1 in * by auto. apply body_cut_faithful; auto.
        pose proof (weight_subst _ _ _ y N'). rewrite weight_doubled in H. unfold len in H. lia.
      * rewrite subst_at_app2 in * by auto.
        destruct (i - length (doubled data))%nat as [|[|j]]; try discriminate.
        rewrite subst_at_0 in *. apply body_cut_faithful; auto. rewrite weight_doubled; unfold len; lia.
Qed.

(** Corruption of the frame end. *)
Lemma end_corrupt cmd data i x y : nth_error [7; 15] i = Some x -> y <> x ->
  faithful cmd data (body_read (wire cmd data ++ subst_at [7; 15] i y)).
Proof.
  intros N YX. destruct (clean_dec (wire cmd data)) as [Cl|Cl].
  - destruct i as [|[|i]]; [| |destruct i; discriminate].
    + injection N as <-. rewrite subst_at_0. unfold body_read.
      destruct (splitFunc (wire cmd data ++ [y; 15])) as [[n tok]|] eqn:S; [|right; left; eauto].
      apply split_some in S as (c & r & E & C & L & ->).
      (* the control sequence must straddle the end of the packet *)
      assert (Hr : wire cmd data = tok ++ [7] /\ c = y /\ r = [15]).
      { destruct r as [|r0 r].
        - change (tok ++ [7; c]) with (tok ++ [7] ++ [c]) in E. rewrite !app_assoc in E.
          change [y; 15] with ([y] ++ [15]) in E. rewrite app_assoc in E.
          apply app_inj_tail in E as [E ->]. apply app_inj_tail in E as [_ ->]. exfalso; auto.
        - destruct (@exists_last _ (r0 :: r)) as (r1 & r2 & Er); [discriminate|]. rewrite Er in E |- *.
          change [y; 15] with ([y] ++ [15]) in E. 
          replace (tok ++ 7 :: c :: r1 ++ [r2]) with ((tok ++ 7 :: c :: r1) ++ [r2]) in E
            by (rewrite <- app_assoc; reflexivity).
          rewrite app_assoc in E. apply app_inj_tail in E as [E <-].
          destruct r1 as [|r0' r1'].
          + replace (tok ++ [7; c]) with ((tok ++ [7]) ++ [c]) in E by (rewrite <- app_assoc; reflexivity).
            apply app_inj_tail in E as [-> ->]. auto.
          + exfalso. destruct (@exists_last _ (r0' :: r1')) as (r3 & r4 & Er'); [discriminate|]. rewrite Er' in E.
            replace (tok ++ 7 :: c :: r3 ++ [r4]) with ((tok ++ 7 :: c :: r3) ++ [r4]) in E
              by (rewrite <- app_assoc; reflexivity).
            apply app_inj_tail in E as [E _]. apply (Cl tok c r3); auto. }
      destruct Hr as (E' & -> & ->). clear E.
      destruct ((len tok >? 0) && (len tok <? 4)) eqn:E1; [right; left; eauto|].
      destruct (len tok >=? 4) eqn:E2; [|right; right; auto].
      right; left. rewrite wire_shape in E'.
      destruct (at_least_4 tok) as (z & c2 & n' & raw & ck & ->); [unfold len in *; lia|].
      simpl in E'. rewrite <- app_assoc in E'. injection E' as <- <- <- E'.
      replace (raw ++ [ck; 7]) with ((raw ++ [ck]) ++ [7]) in E' by (rewrite <- app_assoc; reflexivity).
      apply app_inj_tail in E' as [E' _].
      assert (H : weight (doubled data) = weight (raw ++ [ck])) by (rewrite E'; auto).
      rewrite weight_doubled, weight_app in H. simpl in H. pose proof (w7_range ck).
      pose proof (weight_unescape raw) as U. unfold len in *.
      rewrite unmarshal_eq. cbv zeta. 
      replace (Z.of_nat (length data) =? Z.of_nat (length (unescapeData raw))) with false by lia. cbn [negb]. eauto.
    + injection N as <-. rewrite subst_at_cons, subst_at_0. destruct (ctl_dec y) as [C|C].
      * rewrite body_clean; auto using wire_len4. left. apply unmarshal_wire.
      * unfold body_read. rewrite split_clean; [right; left; eauto|].
        replace (wire cmd data ++ [7; y]) with ((wire cmd data ++ [7]) ++ [y]) by (rewrite <- app_assoc; reflexivity).
        apply clean_snoc7 in Cl. intros a c b E Hc.
        destruct b as [|b0 b].
        -- replace (a ++ [7; c]) with ((a ++ [7]) ++ [c]) in E by (rewrite <- app_assoc; reflexivity).
           apply app_inj_tail in E as [_ ->]. auto.
        -- destruct (@exists_last _ (b0 :: b)) as (b1 & b2 & Eb); [discriminate|]. rewrite Eb in E.
           replace (a ++ 7 :: c :: b1 ++ [b2]) with ((a ++ 7 :: c :: b1) ++ [b2]) in E by (rewrite <- app_assoc; reflexivity).
           apply app_inj_tail in E as [E _]. apply (Cl a c b1); auto.
  - (* an earlier control sequence hides the end *)
    destruct (body_cut _ 15 Cl) as (tok & c' & r & E & C & L & _).
    unfold body_read.
    replace (wire cmd data ++ subst_at [7; 15] i y) with (tok ++ 7 :: c' :: r ++ subst_at [7; 15] i y)
      by (rewrite E, <- app_assoc; reflexivity).
    rewrite split_first by auto.
    destruct ((len tok >? 0) && (len tok <? 4)) eqn:E1; [right; left; eauto|].
    destruct (len tok >=? 4) eqn:E2; [|right; right; auto].
    right; left. rewrite wire_shape in E. eapply cut_rejected; eauto.
    + rewrite weight_doubled; unfold len; lia.
    + unfold len in *; lia.
Qed.

Lemma reply_corrupt cmd data i x y :
  byte_ok cmd -> bytes_ok data -> (length data <= 255)%nat ->
  nth_error (reply cmd data) i = Some x -> byte_ok y -> y <> x ->
  let r := pure_read true (subst_at (reply cmd data) i y) in
  faithful cmd data r \/
  (~ readable cmd data /\ exists p, r = Done (p, None) /\ length (p_data p) <> length data).
Proof.
  intros Bc Bd Ld N By YX. cbv zeta.
  assert (Hrep : reply cmd data = 7 :: 243 :: 7 :: 240 :: (wire cmd data ++ [7; 15])) by reflexivity.
  rewrite Hrep in N |- *.
  destruct (pure_read_inv (subst_at (7 :: 243 :: 7 :: 240 :: wire cmd data ++ [7; 15]) i y)) as [(e & E)|(c1 & c2 & rest & C1 & C2 & E & R)].
  { rewrite E. left; right; left; eauto. }
  rewrite R. clear R.
  destruct i as [|[|[|[|i]]]]; cbn [nth_error] in N.
  - injection N as <-. rewrite subst_at_0 in E. injection E as -> _. congruence.
  - rewrite !subst_at_cons, subst_at_0 in E. remember (wire cmd data ++ [7; 15]) as W eqn:HW. injection E as _ _ <-. subst W. 
    left. destruct (clean_dec (wire cmd data)) as [Cl|Cl].
    + rewrite body_clean; auto using wire_len4; [|unfold ctl; auto]. left. apply unmarshal_wire.
    + rewrite wire_shape in *. apply body_cut_faithful; auto. rewrite weight_doubled; unfold len; lia.
  - injection N as <-. rewrite !subst_at_cons, subst_at_0 in E. injection E as _ -> _. congruence.
  - rewrite !subst_at_cons, subst_at_0 in E. remember (wire cmd data ++ [7; 15]) as W eqn:HW. injection E as _ _ <-. subst W.
    left. destruct (clean_dec (wire cmd data)) as [Cl|Cl].
    + rewrite body_clean; auto using wire_len4; [|unfold ctl; auto]. left. apply unmarshal_wire.
    + rewrite wire_shape in *. apply body_cut_faithful; auto. rewrite weight_doubled; unfold len; lia.
  - rewrite !subst_at_cons in E. remember (subst_at (wire cmd data ++ [7; 15]) i y) as W eqn:HW.
    injection E as _ _ <-. subst W.
    destruct (nth_error_app_case _ _ _ _ N) as [[N' Hi]|[N' Hi]].
    + rewrite subst_at_app1 by auto. 
      destruct (body_corrupt cmd data i x y) as [H|(_ & H)]; auto.
    + rewrite subst_at_app2 by auto. left. eapply end_corrupt; eauto.
Qed.
