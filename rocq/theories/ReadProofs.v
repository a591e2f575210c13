(** ReadPacket on an arbitrary connection. *)
From Verif Require Import ProofBase Proto SpecProto SpecFrame SpecConn ProtoProofs Scanner Conn FrameProofs ReplyProofs.

Lemma sublist_refl {A} (l : list A) : sublist l l.
Proof. induction l; [apply sub_nil|apply sub_keep; auto]. Qed.
Lemma sublist_nil_l {A} (l : list A) : sublist [] l.
Proof. induction l; constructor; auto. Qed.
Lemma sublist_app {A} (a b c d : list A) : sublist a b -> sublist c d -> sublist (a ++ c) (b ++ d).
Proof. intros H. induction H; simpl; intros; auto; [apply sub_skip|apply sub_keep]; auto. Qed.
Lemma sublist_trans {A} (b c : list A) : sublist b c -> forall a, sublist a b -> sublist a c.
Proof.
  induction 1; intros a' Ha; auto.
  - apply sub_skip; auto.
  - inversion Ha; subst; [apply sub_skip|apply sub_keep]; auto.
Qed.

Lemma data_of_app a b : data_of (a ++ b) = data_of a ++ data_of b.
Proof. induction a as [|[bs e| |] a IH]; simpl; congruence. Qed.

(** A scanner that can only return false from now on. *)
Definition dead (s : scanner) : Prop := s_err s <> None /\ splitFunc (s_data s) = None.

Lemma set_err_some s e : s_err (set_err s e) <> None.
Proof. unfold set_err; simpl. destruct (s_err s) as [[]|]; discriminate. Qed.

Lemma scan_grow_inv s : s_err s = None -> splitFunc (s_data s) = None ->
  match scan_grow s with
  | TTok _ _ => False
  | TFalse s' => dead s' /\ s_data s' = s_data s
  | TRead s' => s_data s' = s_data s /\ s_err s' = None
  end.
Proof.
  intros E H. unfold scan_grow. cbv zeta.
  match goal with |- context [if ?c then ?a else s] => set (s1 := if c then a else s) end.
  assert (H1 : s_data s1 = s_data s /\ s_err s1 = None) by (unfold s1; destruct (_ && _); auto).
  destruct H1 as [D1 E1]. clearbody s1.
  destruct (_ =? _); [|auto]. destruct (_ >=? _).
  - unfold dead. simpl. rewrite D1, E1. splits; auto; discriminate.
  - simpl. auto.
Qed.

Lemma scan_top_inv s :
  match scan_top s with
  | TTok tok s' => exists c, ctl c /\ clean (tok ++ [7]) /\ s_data s = tok ++ 7 :: c :: s_data s' /\ s_err s' = s_err s
  | TFalse s' => dead s' /\ splitFunc (s_data s) = None
  | TRead s' => s_data s' = s_data s /\ s_err s = None /\ s_err s' = None /\ splitFunc (s_data s) = None
  end.
Proof.
  unfold scan_top. cbv zeta.
  destruct (s_err s) eqn:E.
  - rewrite orb_true_r. destruct (splitFunc (s_data s)) as [[n tok]|] eqn:S.
    + pose proof (split_len _ _ _ S) as L. apply split_some in S as (c & r & D & C & Cl & ->).
      replace (length (s_data s) <? _)%nat with false by (symmetry; apply Nat.ltb_ge; lia).
      exists c. cbn [s_data s_err]. splits; auto. rewrite D at 2. rewrite skipn_tok. auto.
    + unfold dead; simpl. splits; auto; discriminate.
  - destruct (0 <? len (s_data s)) eqn:L0; cbn [orb].
    + destruct (splitFunc (s_data s)) as [[n tok]|] eqn:S.
      * pose proof (split_len _ _ _ S) as L. apply split_some in S as (c & r & D & C & Cl & ->).
        replace (length (s_data s) <? _)%nat with false by (symmetry; apply Nat.ltb_ge; lia).
        exists c. cbn [s_data s_err]. splits; auto. rewrite D at 2. rewrite skipn_tok. auto.
      * pose proof (scan_grow_inv s E S) as G. destruct (scan_grow s); intuition.
    + assert (S : splitFunc (s_data s) = None).
      { destruct (s_data s); [reflexivity|]. unfold len in L0; simpl in L0; lia. }
      pose proof (scan_grow_inv s E S) as G. destruct (scan_grow s); intuition.
Qed.

Lemma dead_top s : dead s -> exists s', scan_top s = TFalse s' /\ dead s'.
Proof.
  intros [E S]. pose proof (scan_top_inv s) as T. destruct (scan_top s) as [tok s'|s'|s'].
  - destruct T as (c & C & Cl & D & _). rewrite D, split_first in S by auto. discriminate.
  - exists s'. tauto.
  - tauto.
Qed.

Lemma scan_feed_inv s bs e :
  s_data (scan_feed s bs e) = s_data s \/ s_data (scan_feed s bs e) = s_data s ++ bs.
Proof.
  unfold scan_feed. destruct (_ <? _); [auto|]. right.
  destruct e; [reflexivity|]. destruct (0 <? len bs); [reflexivity|]. cbv zeta. destruct (_ >? _); reflexivity.
Qed.

Lemma scan_wait_inv evs : forall pre s post res r os,
  scan_wait evs pre s post = (res, r, os) ->
  exists used got, evs = used ++ r /\ sublist got (data_of used) /\
    match res with
    | STok tok s' => exists c, ctl c /\ clean (tok ++ [7]) /\ s_data s ++ concat got = tok ++ 7 :: c :: s_data s'
    | SFalse s' => dead s'
    | STime => True
    end.
Proof.
  induction evs as [|ev evs IH]; intros pre s post res r os H;
    pose proof (scan_top_inv s) as T; simpl in H; destruct (scan_top s) as [tok s'|s'|s'] eqn:ET.
  - injection H as <- <- <-. exists [], []. split; [auto|]. split; [constructor|].
    destruct T as (c & C & Cl & D & _). exists c. simpl. rewrite app_nil_r. auto.
  - injection H as <- <- <-. exists [], []. split; [auto|]. split; [constructor|]. tauto.
  - injection H as <- <- <-. exists [], []. split; [auto|]. split; [constructor|]. auto.
  - injection H as <- <- <-. exists [], []. split; [auto|]. split; [constructor|].
    destruct T as (c & C & Cl & D & _). exists c. simpl. rewrite app_nil_r. auto.
  - injection H as <- <- <-. exists [], []. split; [auto|]. split; [constructor|]. tauto.
  - destruct T as (D & _). destruct ev as [bs e| |].
    + destruct pre as [|o pre].
      * apply IH in H as (used & got & -> & Sub & Hres).
        destruct (scan_feed_inv s' bs e) as [F|F].
        -- exists (Data bs e :: used), got. split; [auto|]. split; [simpl; apply sub_skip; auto|].
           destruct res; auto. rewrite F, D in Hres. auto.
        -- exists (Data bs e :: used), (bs :: got). split; [auto|]. split; [simpl; apply sub_keep; auto|].
           destruct res; auto. rewrite F, D, <- app_assoc in Hres. auto.
      * assert (H' : exists post', scan_wait evs pre s' post' = (res, r, os))
          by (destruct (scan_top (scan_feed o bs e)); eauto).
        destruct H' as [post' H']. apply IH in H' as (used & got & -> & Sub & Hres).
        exists (Data bs e :: used), got. split; [auto|]. split; [simpl; apply sub_skip; auto|].
        rewrite D in Hres. auto.
    + injection H as <- <- <-. exists [Expire], []. split; [auto|]. split; [constructor|]. auto.
    + assert (H' : exists pre' post', scan_wait evs pre' s' post' = (res, r, os)) by (destruct pre; eauto).
      destruct H' as (pre' & post' & H'). apply IH in H' as (used & got & -> & Sub & Hres).
      exists (Turn :: used), got. split; [auto|]. split; [exact Sub|]. rewrite D in Hres. auto.
Qed.

(** ScanTimeout: what it returns and what it leaves. *)
Definition same_line (c c' : conn) : Prop :=
  c_dev c' = c_dev c /\ c_log c' = c_log c.

Lemma scan_timeout_inv c s tok e s' c' : ScanTimeout c s = ((tok, e), s', c') ->
  same_line c c' /\
  exists used got, c_pend c = used ++ c_pend c' /\ sublist got (data_of used) /\
    ((e = Some ErrTimeout /\ tok = []) \/
     (e = None /\ exists k, ctl k /\ clean (tok ++ [7]) /\ s_data s ++ concat got = tok ++ 7 :: k :: s_data s') \/
     (e = None /\ tok = [] /\ dead s')).
Proof.
  unfold ScanTimeout. intros H.
  assert (K : (exists r, c_pend c = Expire :: r /\
                match scan_top s with
                | TRead s' => (([], Some ErrTimeout), s', mkConn (c_dev c) r (c_orph c ++ [s']) (c_log c))
                | _ => (([], Some ErrTimeout), s, mkConn (c_dev c) r (c_orph c) (c_log c))
                end = ((tok, e), s', c')) \/
              match scan_wait (c_pend c) (c_orph c) s [] with
              | (STok tok s', r, os) => ((tok, None), s', mkConn (c_dev c) r os (c_log c))
              | (SFalse s', r, os) => (([], None), s', mkConn (c_dev c) r os (c_log c))
              | (STime, r, os) => (([], Some ErrTimeout), s, mkConn (c_dev c) r os (c_log c))
              end = ((tok, e), s', c')).
  { destruct (c_pend c) as [|[| |] ?]; eauto. }
  clear H. destruct K as [(r & P & H)|H].
  - assert (H' : exists os, c' = mkConn (c_dev c) r os (c_log c) /\ tok = [] /\ e = Some ErrTimeout).
    { destruct (scan_top s); injection H as <- <- <- <-; eauto. }
    destruct H' as (os & -> & -> & ->). split; [unfold same_line; auto|].
    exists [Expire], []. simpl. splits; auto. constructor.
  - destruct (scan_wait (c_pend c) (c_orph c) s []) as [[res r] os] eqn:W.
    apply scan_wait_inv in W as (used & got & P & Sub & Hres).
    destruct res; injection H as <- <- <- <-; (split; [unfold same_line; auto|]); exists used, got; simpl; splits; auto.
Qed.

Lemma dead_scan_timeout c s tok e s' c' : dead s -> ScanTimeout c s = ((tok, e), s', c') ->
  tok = [] /\ (e = Some ErrTimeout \/ (e = None /\ dead s')).
Proof.
  intros Dd H. destruct (dead_top s Dd) as (s1 & T & D1).
  unfold ScanTimeout in H. 
  assert (W : forall evs pre post, scan_wait evs pre s post = (SFalse s1, evs, pre ++ post)).
  { intros evs pre post. destruct evs; simpl; rewrite T; reflexivity. }
  destruct (c_pend c) as [|[| |] ?]; rewrite ?T, ?W in H; injection H as <- <- <- <-; auto.
Qed.

Lemma same_line_trans a b c : same_line a b -> same_line b c -> same_line a c.
Proof. unfold same_line. intuition congruence. Qed.

Lemma unmarshal_err_zero l p e : UnmarshalPacket l = Done (p, Some e) -> p = zero_packet.
Proof.
  destruct (Nat.lt_ge_cases (length l) 4) as [H|H].
  - rewrite unmarshal_short by auto. congruence.
  - destruct (at_least_4 l H) as (z & c & n & raw & ck & ->). rewrite unmarshal_eq. cbv zeta.
    destruct (negb _); [congruence|]. destruct (negb _); congruence.
Qed.

Lemma read_packet_inv c expect o c' : ReadPacket c expect = (o, c') ->
  same_line c c' /\
  exists p e used got, o = Done (p, e) /\ c_pend c = used ++ c_pend c' /\ sublist got (data_of used) /\
    (p = zero_packet \/
     (e = None /\ expect = true /\ exists body, framed_body got body /\ UnmarshalPacket body = Done (p, None))).
Proof.
  unfold ReadPacket. intros H.
  destruct (ScanTimeout c new_scanner) as [[[tok1 e1] s1] c1] eqn:T1.
  pose proof (scan_timeout_inv _ _ _ _ _ _ T1) as (SL1 & u1 & g1 & P1 & Sub1 & R1).
  destruct e1 as [e1|].
  { injection H as <- <-. split; auto. exists zero_packet, (Some e1), u1, g1. splits; auto. }
  destruct (negb (len tok1 =? 0)) eqn:L1.
  { injection H as <- <-. split; auto. exists zero_packet, (Some ErrScanInput), u1, g1. splits; auto. }
  apply negb_false_iff, len0 in L1. subst tok1.
  destruct expect; cbn [negb] in H.
  2:{ injection H as <- <-. split; auto. exists zero_packet, None, u1, g1. splits; auto. }
  destruct (ScanTimeout c1 s1) as [[[tok2 e2] s2] c2] eqn:T2.
  pose proof (scan_timeout_inv _ _ _ _ _ _ T2) as (SL2 & u2 & g2 & P2 & Sub2 & R2).
  assert (SL12 := same_line_trans _ _ _ SL1 SL2).
  assert (P12 : c_pend c = (u1 ++ u2) ++ c_pend c2) by (rewrite <- app_assoc; congruence).
  assert (Sub12 : sublist (g1 ++ g2) (data_of (u1 ++ u2))) by (rewrite data_of_app; apply sublist_app; auto).
  destruct e2 as [e2|].
  { injection H as <- <-. split; auto. exists zero_packet, (Some e2), (u1 ++ u2), (g1 ++ g2). splits; auto. }
  destruct (negb (len tok2 =? 0)) eqn:L2.
  { injection H as <- <-. split; auto. exists zero_packet, (Some ErrScanInput), (u1 ++ u2), (g1 ++ g2). splits; auto. }
  apply negb_false_iff, len0 in L2. subst tok2.
  destruct (ScanTimeout c2 s2) as [[[tok3 e3] s3] c3] eqn:T3.
  pose proof (scan_timeout_inv _ _ _ _ _ _ T3) as (SL3 & u3 & g3 & P3 & Sub3 & R3).
  assert (SL := same_line_trans _ _ _ SL12 SL3).
  assert (P : c_pend c = ((u1 ++ u2) ++ u3) ++ c_pend c3) by (rewrite <- app_assoc; congruence).
  assert (Sub : sublist ((g1 ++ g2) ++ g3) (data_of ((u1 ++ u2) ++ u3)))
    by (rewrite (data_of_app (u1 ++ u2)); apply sublist_app; auto).
  destruct e3 as [e3|].
  { injection H as <- <-. split; auto. exists zero_packet, (Some e3), ((u1 ++ u2) ++ u3), ((g1 ++ g2) ++ g3). splits; auto. }
  destruct ((len tok3 >? 0) && (len tok3 <? 4)) eqn:L3.
  { injection H as <- <-. split; auto. exists zero_packet, (Some ErrTooShort), ((u1 ++ u2) ++ u3), ((g1 ++ g2) ++ g3). splits; auto. }
  destruct (len tok3 >=? 4) eqn:L4.
  2:{ injection H as <- <-. split; auto. exists zero_packet, None, ((u1 ++ u2) ++ u3), ((g1 ++ g2) ++ g3). splits; auto. }
  injection H as <- <-. split; auto.
  destruct (unmarshal_done tok3) as (p & e & U).
  exists p, e, ((u1 ++ u2) ++ u3), ((g1 ++ g2) ++ g3). splits; auto.
  destruct e as [e|]; [left; eapply unmarshal_err_zero; eauto|]. right. splits; auto.
  exists tok3. split; auto.
  (* a dead scanner would have returned an empty token *)
  assert (tok3 <> []) by (intros ->; unfold len in L4; simpl in L4; lia).
  destruct R3 as [[? _]|[(_ & k3 & C3 & Cl3 & D3)|(_ & ? & _)]]; try congruence.
  destruct R2 as [[? _]|[(_ & k2 & C2 & Cl2 & D2)|(_ & _ & Dd)]]; try congruence.
  2:{ apply dead_scan_timeout in T3 as (? & _); [contradiction|auto]. }
  destruct R1 as [[? _]|[(_ & k1 & C1 & Cl1 & D1)|(_ & _ & Dd)]]; try congruence.
  2:{ exfalso. apply dead_scan_timeout in T2 as (_ & [?|(_ & Dd2)]); auto; [congruence|].
      apply dead_scan_timeout in T3 as (? & _); auto. }
  exists k1, k2, k3, (s_data s3). splits; auto.
  simpl in D1, D2. rewrite !concat_app, D1. cbn [app]. f_equal. f_equal.
  rewrite D2. cbn [app]. f_equal. f_equal. exact D3.
Qed.

(** ** a calm line never makes the scanner fail *)
Lemma no_read_error_tl x evs : no_read_error (x :: evs) -> no_read_error evs.
Proof. intros H bs e I. eapply H; simpl; eauto. Qed.

Lemma scan_wait_calm evs : forall pre s post res r os,
  good s -> no_read_error evs -> s_end s + len (concat (data_of evs)) <= 4096 ->
  0 <= s_loop s -> s_loop s + Z.of_nat (empty_reads evs) <= 100 ->
  scan_wait evs pre s post = (res, r, os) ->
  match res with
  | STok tok s' => good s' /\ no_read_error r /\ s_end s' + len (concat (data_of r)) <= 4096 /\
                   0 <= s_loop s' /\ s_loop s' + Z.of_nat (empty_reads r) <= 100
  | SFalse _ => False
  | STime => True
  end.
Proof.
  induction evs as [|ev evs IH]; intros pre s post res r os G NE T Ls L H; simpl in H.
  - assert (s_end s <= 4096) by (unfold len in T; simpl in T; lia).
    destruct (splitFunc (s_data s)) as [[n tok]|] eqn:S.
    + destruct (scan_top_tok _ _ _ G S) as (s' & E & G' & D & En & Lo). rewrite E in H. injection H as <- <- <-.
      rewrite En, Lo. auto.
    + destruct (scan_top_read s) as (s' & E & _); auto. rewrite E in H. injection H as <- <- <-. auto.
  - assert (0 <= len (concat (data_of (ev :: evs)))) by (unfold len; lia).
    assert (s_end s <= 4096) by lia.
    destruct (splitFunc (s_data s)) as [[n tok]|] eqn:S.
    + destruct (scan_top_tok _ _ _ G S) as (s' & E & G' & D & En & Lo). rewrite E in H. injection H as <- <- <-.
      rewrite En, Lo. auto.
    + destruct (scan_top_read s) as (s1 & E & G1 & D1 & En1 & Lo1 & B1); auto. rewrite E in H.
      destruct ev as [bs e| |]; [|injection H as <- <- <-; auto|].
      2:{ apply no_read_error_tl in NE. assert (H' : exists pre' post', scan_wait evs pre' s1 post' = (res, r, os)) by (destruct pre; eauto).
          destruct H' as (pre' & post' & H'). unfold empty_reads in *. cbn [data_of filter] in *. apply IH in H'; auto; lia. }
      assert (e = None) as -> by (destruct e as [e|]; auto; exfalso; eapply NE; simpl; eauto).
      apply no_read_error_tl in NE. simpl in T, H0.
      assert (T' : len (bs ++ concat (data_of evs)) = len bs + len (concat (data_of evs)))
        by (unfold len; rewrite app_length; lia).
      rewrite T' in *.
      assert (0 <= len bs /\ 0 <= len (concat (data_of evs))) by (unfold len; lia).
      assert (Le : s_loop s + match bs with [] => 1 | _ => 0 end + Z.of_nat (empty_reads evs) <= 100).
      { destruct bs; unfold empty_reads in L |- *; simpl in L |- *; lia. }
      destruct pre as [|o pre].
      * destruct (scan_feed_good s1 bs) as (G2 & D2 & En2 & Lo2); auto; try lia.
        { intros ->. simpl in Le. lia. }
        apply IH in H; auto; try lia; rewrite Lo2; destruct bs; simpl in Le; lia.
      * assert (H' : exists post', scan_wait evs pre s1 post' = (res, r, os))
          by (destruct (scan_top (scan_feed o bs None)); eauto).
        destruct H' as [post' H']. apply IH in H'; auto; try lia.
        destruct bs; lia.
Qed.

(** A read that does not expect data succeeds only with a leading control sequence,
    if the line is calm. *)
Lemma scan_timeout_calm c tok s' c' : ScanTimeout c new_scanner = ((tok, None), s', c') -> calm (c_pend c) ->
  exists used got k, c_pend c = used ++ c_pend c' /\ sublist got (data_of used) /\
    ctl k /\ concat got = tok ++ 7 :: k :: s_data s'.
Proof.
  unfold ScanTimeout. intros H (NE & T & Em).
  destruct (scan_wait (c_pend c) (c_orph c) new_scanner []) as [[res r] os] eqn:E.
  pose proof (scan_wait_inv _ _ _ _ _ _ _ E) as (u & g & P & Sub & R).
  pose proof E as Ca. apply scan_wait_calm in Ca; auto using good_new; [|simpl; lia|simpl; lia].
  assert (H' : match res with
               | STok tok s' => ((tok, None), s', mkConn (c_dev c) r os (c_log c))
               | SFalse s' => (([], None), s', mkConn (c_dev c) r os (c_log c))
               | STime => (([], Some ErrTimeout), new_scanner, mkConn (c_dev c) r os (c_log c))
               end = (tok, None, s', c')).
  { destruct (c_pend c) as [|[| |] ?]; try (rewrite E in H; exact H).
    destruct (scan_top new_scanner); discriminate. }
  destruct res; try contradiction; try discriminate. injection H' as <- <- <-.
  destruct R as (k & C & _ & D). exists u, g, k. simpl in D |- *. auto.
Qed.

Lemma read_ack_inv c p c' : ReadPacket c false = (Done (p, None), c') -> calm (c_pend c) ->
  exists used got k extra, c_pend c = used ++ c_pend c' /\ sublist got (data_of used) /\
    ctl k /\ concat got = 7 :: k :: extra.
Proof.
  unfold ReadPacket. intros H Ca.
  destruct (ScanTimeout c new_scanner) as [[[tok e] s] c1] eqn:T1.
  destruct e as [e|]; [discriminate|].
  apply scan_timeout_calm in T1 as (u & g & k & P & Sub & C & D); auto.
  destruct (negb (len tok =? 0)) eqn:L; [discriminate|]. cbn [negb] in H. injection H as <- <-.
  apply negb_false_iff, len0 in L. subst tok.
  exists u, g, k, (s_data s). auto.
Qed.
