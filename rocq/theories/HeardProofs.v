(** What a query makes of anything it hears: behind the theorems of PropertiesHeard.v (C129). *)
From Verif Require Import ProofBase Proto SpecProto SpecFrame SpecConn SpecLayout LayoutProofs ProtoProofs CodecLemmas Scanner Conn Proc Lib FrameProofs ReplyProofs ReadProofs QueryProofs FrameLemmas OpLemmas SpecHeard.

Definition bytes_in (evs : list ev) : Z := len (concat (data_of evs)).
Lemma bytes_in_nonneg evs : 0 <= bytes_in evs.
Proof. unfold bytes_in, len. lia. Qed.
Lemma bytes_in_data bs e r : bytes_in (Data bs e :: r) = len bs + bytes_in r.
Proof. unfold bytes_in, len. cbn [data_of concat]. rewrite app_length. lia. Qed.
(** What a scanner will find. *)
Definition left_ (s : scanner) (evs : list ev) (l : list Z) (x : ending) : Prop :=
  (good s /\ 0 <= s_loop s /\ s_loop s + Z.of_nat (empty_reads evs) <= 100 /\ s_end s + bytes_in evs <= 4096 /\ exists l', l = s_data s ++ l' /\ hears evs l' x) \/
  (s_err s <> None /\ l = s_data s /\ x = Break).

Lemma top_err s : s_err s <> None ->
  match splitFunc (s_data s) with
  | Some (n, tok) => exists s', scan_top s = TTok tok s' /\ s_err s' <> None /\ s_data s' = skipn n (s_data s)
  | None => exists s', scan_top s = TFalse s' /\ s_err s' <> None /\ s_data s' = []
  end.
Proof.
  intros E. unfold scan_top. destruct (s_err s) as [e|] eqn:Er; [|congruence]. rewrite orb_true_r.
  destruct (splitFunc (s_data s)) as [[n tok]|] eqn:S.
  - apply split_len in S. replace (length (s_data s) <? n)%nat with false by (symmetry; apply Nat.ltb_ge; lia). eexists. split; [reflexivity|]. split; [discriminate|reflexivity].
  - eexists. split; [reflexivity|]. split; [discriminate|reflexivity].
Qed.
Lemma feed_err s bs e : good s -> 4096 <= s_buflen s -> s_end s + len bs <= 4096 ->
  s_err (scan_feed s bs (Some e)) <> None /\ s_data (scan_feed s bs (Some e)) = s_data s ++ bs.
Proof.
  intros G B L. unfold scan_feed. replace (s_buflen s - s_end s <? len bs) with false by lia. split; [apply set_err_some|reflexivity].
Qed.
Lemma wait_left evs : forall s l x, left_ s evs l x ->
  match splitFunc l with
  | Some (n, tok) => exists evs' s' used, scan_wait evs [] s [] = (STok tok s', evs', []) /\ left_ s' evs' (skipn n l) x /\ evs = used ++ evs'
  | None => match x with
            | Silence => exists r os, scan_wait evs [] s [] = (STime, r, os)
            | Break => exists s' evs' used, scan_wait evs [] s [] = (SFalse s', evs', []) /\ left_ s' evs' [] Break /\ evs = used ++ evs'
            end
  end.
Proof.
  induction evs as [|v evs IH]; intros s l x [(G & L0 & Lo & En & l' & -> & H)|(E & -> & ->)].
  2,4: pose proof (top_err s E) as T; destruct (splitFunc (s_data s)) as [[n tok]|];
    destruct T as (s' & T & E' & D'); [exists [], s', [] + exists (v :: evs), s', []|exists s', [], [] + exists s', (v :: evs), []]; cbn [scan_wait]; rewrite T; (split; [reflexivity|]); (split; [|reflexivity]); right; rewrite D'; auto.
  - inversion H; subst. rewrite app_nil_r. destruct (splitFunc (s_data s)) as [[n tok]|] eqn:E.
    + destruct (scan_top_tok _ _ _ G E) as (s' & T & G' & D & En' & Lo').
      exists [], s', []. cbn [scan_wait]. rewrite T. split; [reflexivity|]. split; [|reflexivity].
      left. rewrite Lo', En'. splits; auto. exists []. split; [rewrite app_nil_r; auto|constructor].
    + destruct (scan_top_read s G) as (s' & T & _); auto; [pose proof (bytes_in_nonneg []); lia|].
      cbn [scan_wait]. rewrite T. eauto.
  - destruct (splitFunc (s_data s)) as [[n tok]|] eqn:E.
    + rewrite (split_app _ l' _ _ E). destruct (scan_top_tok _ _ _ G E) as (s' & T & G' & D & En' & Lo').
      exists (v :: evs), s', []. cbn [scan_wait]. rewrite T. split; [reflexivity|]. split; [|reflexivity].
      left. rewrite Lo', En'. split; [exact G'|]. split; [exact L0|]. split; [exact Lo|]. split; [exact En|]. exists l'. split; [|exact H].
      rewrite D, skipn_app. replace (n - length (s_data s))%nat with 0%nat by (apply split_len in E; lia). reflexivity.
    + pose proof (bytes_in_nonneg (v :: evs)). destruct (scan_top_read s G ltac:(lia) E) as (s1 & T & G1 & D1 & En1 & Lo1 & B1).
      cbn [scan_wait]. rewrite T. inversion H; subst.
      * rewrite app_nil_r, E. eauto.
      * assert (K : left_ s1 evs (s_data s1 ++ l') x).
        { left. split; [exact G1|]. split; [lia|]. split; [rewrite Lo1; exact Lo|]. split; [change (bytes_in (Turn :: evs)) with (bytes_in evs) in En; lia|]. eauto. }
        specialize (IH s1 _ _ K). rewrite D1 in IH. destruct (splitFunc (s_data s ++ l')) as [[n tok]|]; [|destruct x; [exact IH|]].
        -- destruct IH as (evs' & s' & used & -> & K' & U). exists evs', s', (Turn :: used). split; [reflexivity|]. split; [exact K'|]. rewrite U. reflexivity.
        -- destruct IH as (s' & evs' & used & -> & K' & U). exists s', evs', (Turn :: used). split; [reflexivity|]. split; [exact K'|]. rewrite U. reflexivity.
      * rewrite bytes_in_data in En. pose proof (bytes_in_nonneg evs).
        destruct (feed_err s1 l' e G1 B1 ltac:(lia)) as (Fe & Fd).
        assert (K : left_ (scan_feed s1 l' (Some e)) evs (s_data s ++ l') Break) by (right; rewrite Fd, D1; auto).
        specialize (IH _ _ _ K). destruct (splitFunc (s_data s ++ l')) as [[n tok]|].
        -- destruct IH as (evs' & s' & used & -> & K' & U). exists evs', s', (Data l' (Some e) :: used). split; [reflexivity|]. split; [exact K'|]. rewrite U. reflexivity.
        -- destruct IH as (s' & evs' & used & -> & K' & U). exists s', evs', (Data l' (Some e) :: used). split; [reflexivity|]. split; [exact K'|]. rewrite U. reflexivity.
      * rewrite bytes_in_data in En. pose proof (bytes_in_nonneg evs). assert (0 <= len bs) by (unfold len; lia).
        assert (Em : Z.of_nat (empty_reads (Data bs None :: evs)) = (match bs with [] => 1 | _ => 0 end) + Z.of_nat (empty_reads evs)).
        { unfold empty_reads. cbn [filter]. destruct bs; cbn [length]; lia. }
        destruct (scan_feed_good s1 bs G1 B1 ltac:(lia)) as (G2 & D2 & En2 & Lo2).
        { intros ->. lia. }
        assert (K : left_ (scan_feed s1 bs None) evs (s_data s ++ bs ++ l) x).
        { left. split; [exact G2|]. split; [rewrite Lo2; destruct bs; lia|]. split; [rewrite Lo2; destruct bs; lia|]. split; [rewrite En2; lia|]. exists l. rewrite D2, D1, <- app_assoc. auto. }
        specialize (IH _ _ _ K). destruct (splitFunc (s_data s ++ bs ++ l)) as [[n tok]|]; [|destruct x; [exact IH|]].
        -- destruct IH as (evs' & s' & used & -> & K' & U). exists evs', s', (Data bs None :: used). split; [reflexivity|]. split; [exact K'|]. rewrite U. reflexivity.
        -- destruct IH as (s' & evs' & used & -> & K' & U). exists s', evs', (Data bs None :: used). split; [reflexivity|]. split; [exact K'|]. rewrite U. reflexivity.
Qed.

(** ** ScanTimeout *)
Definition punctual (evs : list ev) : Prop := ~ In Expire evs.
Lemma scan_left c s l x : c_orph c = [] -> left_ s (c_pend c) l x -> (forall r, c_pend c = Expire :: r -> s = new_scanner) ->
  match splitFunc l with
  | Some (n, tok) => exists s' c' used, ScanTimeout c s = ((tok, None), s', c') /\ left_ s' (c_pend c') (skipn n l) x /\ c_orph c' = [] /\ c_pend c = used ++ c_pend c'
  | None => match x with
            | Silence => exists s' c', ScanTimeout c s = (([], Some ErrTimeout), s', c')
            | Break => exists s' c' used, ScanTimeout c s = (([], None), s', c') /\ left_ s' (c_pend c') [] Break /\ c_orph c' = [] /\ c_pend c = used ++ c_pend c'
            end
  end.
Proof.
  intros O L N. unfold ScanTimeout. pose proof (wait_left _ _ _ _ L) as W. rewrite O.
  destruct (c_pend c) as [|[bs e| |] r] eqn:P.
  3:{ rewrite (N r eq_refl) in *. cbn [new_scanner s_data] in *. destruct L as [(_ & _ & _ & _ & l' & -> & H)|(E & _)]; [|destruct (E eq_refl)].
      inversion H; subst. eexists. eexists. reflexivity. }
  all: destruct (splitFunc l) as [[n tok]|]; [|destruct x].
  all: first [destruct W as (evs' & s' & used & -> & K & U); exists s'; eexists; exists used; split; [reflexivity|]; split; [exact K|]; split; [reflexivity|exact U]
             |destruct W as (s' & evs' & used & -> & K & U); exists s'; eexists; exists used; split; [reflexivity|]; split; [exact K|]; split; [reflexivity|exact U]
             |destruct W as (r' & os & ->); eexists; eexists; reflexivity].
Qed.

Lemma content_of t : exists p e, (if (len t >? 0) && (len t <? 4) then Done (zero_packet, Some ErrTooShort) else if len t >=? 4 then UnmarshalPacket t else Done (zero_packet, None)) = Done (p, e) /\ content t p e.
Proof.
  destruct t as [|b t]; [exists zero_packet, None; split; [reflexivity|constructor]|].
  set (l := b :: t). assert (1 <= length l)%nat by (cbn; lia).
  destruct (Nat.lt_ge_cases (length l) 4) as [S|S].
  - replace ((len l >? 0) && (len l <? 4)) with true by (unfold len; lia). eexists. eexists. split; [reflexivity|]. apply co_short. lia.
  - replace ((len l >? 0) && (len l <? 4)) with false by (unfold len; lia). replace (len l >=? 4) with true by (unfold len; lia).
    destruct (unmarshal_exact l) as (_ & U & V). destruct (V S) as (z & cmd & n & raw & ck & E). destruct (U _ _ _ _ _ E) as (data & Un & Uu & A & B & C).
    destruct (Z.eq_dec n (Z.of_nat (length data))) as [En|En]; [destruct (Z.eq_dec ck (cksum_byte cmd data)) as [Ek|Ek]|].
    + rewrite (C En Ek). eexists. eexists. split; [reflexivity|]. apply co_packet. exists z, raw. split; [exact Un|]. rewrite E, En, Ek. reflexivity.
    + rewrite (B En Ek). eexists. eexists. split; [reflexivity|]. apply co_bad; [exact S|]. intros c' d' (z' & raw' & Un' & E').
      rewrite E in E'. injection E' as <- <- En' E'. apply app_inj_tail in E' as [<- Ek']. rewrite (Uu _ Un') in Ek'. auto.
    + rewrite (A En). eexists. eexists. split; [reflexivity|]. apply co_bad; [exact S|]. intros c' d' (z' & raw' & Un' & E').
      rewrite E in E'. injection E' as <- <- En' E'. apply app_inj_tail in E' as [<- Ek']. rewrite (Uu _ Un') in En'. auto.
Qed.
Lemma marks_snoc n l k r : marks n l (7 :: k :: r) -> ctl k -> marks (S n) l r.
Proof.
  revert l. induction n as [|n IH]; intros l M C; inversion M; subst; [apply ma_more; [exact C|apply ma_none]|]. apply ma_more; auto.
Qed.
Lemma punctual_app used evs : punctual (used ++ evs) -> forall r, evs = Expire :: r -> forall s, s = new_scanner.
Proof. intros P r ->. destruct P. apply in_or_app. right. left. reflexivity. Qed.
Lemma before_of l n t : splitFunc l = Some (n, t) -> before_mark l t /\ forall m, t = [] -> forall l0, marks m l0 l -> marks (S m) l0 (skipn n l).
Proof.
  intros S. apply split_some in S as (k & r & -> & C & Cl & ->). split; [exists k, r; auto|].
  intros m -> l0 M. cbn [app] in M. cbn. eapply marks_snoc; eauto.
Qed.

Lemma read_heard c expect l x : c_orph c = [] -> hears (c_pend c) l x -> modest (c_pend c) -> (expect = true -> punctual (c_pend c)) ->
  exists p e c', ReadPacket c expect = (Done (p, e), c') /\ judged expect l x p e.
Proof.
  intros O H (B & Em) Pu.
  assert (L : left_ new_scanner (c_pend c) l x).
  { left. split; [apply good_new|]. unfold s_end. cbn [new_scanner s_loop s_start s_data]. split; [lia|]. split; [lia|]. split; [unfold bytes_in; change (len []) with 0; lia|]. exists l. auto. }
  unfold ReadPacket. pose proof (scan_left c _ l x O L ltac:(auto)) as S1.
  destruct (splitFunc l) as [[n1 t1]|] eqn:E1.
  2:{ apply split_none in E1. destruct x.
      - destruct S1 as (s' & c' & ->). eexists. eexists. eexists. split; [reflexivity|]. eapply (ju_silence expect 0); [constructor|destruct expect; lia|exact E1].
      - destruct S1 as (s1 & c1 & u1 & -> & K1 & O1 & P1). change (negb (len [] =? 0)) with false. cbv iota.
        destruct expect; cbn [negb].
        2:{ eexists. eexists. eexists. split; [reflexivity|]. eapply (ju_break false 0); [constructor|lia|exact E1]. }
        assert (N1 : forall r, c_pend c1 = Expire :: r -> s1 = new_scanner) by (intros r Er; eapply punctual_app; [rewrite <- P1; auto|exact Er]).
        pose proof (scan_left c1 s1 [] Break O1 K1 N1) as S2. cbn [splitFunc split_from] in S2. change (splitFunc []) with (@None (nat * list Z)) in S2. cbv iota in S2.
        destruct S2 as (s2 & c2 & u2 & -> & K2 & O2 & P2). change (negb (len [] =? 0)) with false. cbv iota.
        assert (N2 : forall r, c_pend c2 = Expire :: r -> s2 = new_scanner) by (intros r Er; eapply (punctual_app (u1 ++ u2)); [rewrite <- app_assoc, <- P2, <- P1; auto|exact Er]).
        pose proof (scan_left c2 s2 [] Break O2 K2 N2) as S3. change (splitFunc []) with (@None (nat * list Z)) in S3. cbv iota in S3.
        destruct S3 as (s3 & c3 & u3 & -> & _). eexists. eexists. eexists. split; [reflexivity|]. eapply (ju_break true 0); [constructor|lia|exact E1]. }
  destruct (before_of _ _ _ E1) as (B1 & M1). destruct S1 as (s1 & c1 & u1 & -> & K1 & O1 & P1).
  destruct (len t1 =? 0) eqn:Z1; cbn [negb].
  2:{ eexists. eexists. eexists. split; [reflexivity|]. eapply (ju_stray expect 0); [constructor|destruct expect; lia|exact B1|]. intros ->. discriminate. }
  apply len0 in Z1. subst t1. specialize (M1 0%nat eq_refl l (ma_none l)). set (l1 := skipn n1 l) in *.
  destruct expect; cbn [negb].
  2:{ eexists. eexists. eexists. split; [reflexivity|]. eapply ju_ack. exact M1. }
  assert (N1 : forall r, c_pend c1 = Expire :: r -> s1 = new_scanner) by (intros r Er; eapply punctual_app; [rewrite <- P1; auto|exact Er]).
  pose proof (scan_left c1 s1 l1 x O1 K1 N1) as S2.
  destruct (splitFunc l1) as [[n2 t2]|] eqn:E2.
  2:{ apply split_none in E2. destruct x.
      - destruct S2 as (s' & c' & ->). eexists. eexists. eexists. split; [reflexivity|]. eapply (ju_silence true 1); [exact M1|lia|exact E2].
      - destruct S2 as (s2 & c2 & u2 & -> & K2 & O2 & P2). change (negb (len [] =? 0)) with false. cbv iota.
        assert (N2 : forall r, c_pend c2 = Expire :: r -> s2 = new_scanner) by (intros r Er; eapply (punctual_app (u1 ++ u2)); [rewrite <- app_assoc, <- P2, <- P1; auto|exact Er]).
        pose proof (scan_left c2 s2 [] Break O2 K2 N2) as S3. change (splitFunc []) with (@None (nat * list Z)) in S3. cbv iota in S3.
        destruct S3 as (s3 & c3 & u3 & -> & _). eexists. eexists. eexists. split; [reflexivity|]. eapply (ju_break true 1); [exact M1|lia|exact E2]. }
  destruct (before_of _ _ _ E2) as (B2 & M2). destruct S2 as (s2 & c2 & u2 & -> & K2 & O2 & P2).
  destruct (len t2 =? 0) eqn:Z2; cbn [negb].
  2:{ eexists. eexists. eexists. split; [reflexivity|]. eapply (ju_stray true 1); [exact M1|lia|exact B2|]. intros ->. discriminate. }
  apply len0 in Z2. subst t2. specialize (M2 1%nat eq_refl l M1). set (l2 := skipn n2 l1) in *.
  assert (N2 : forall r, c_pend c2 = Expire :: r -> s2 = new_scanner) by (intros r Er; eapply (punctual_app (u1 ++ u2)); [rewrite <- app_assoc, <- P2, <- P1; auto|exact Er]).
  pose proof (scan_left c2 s2 l2 x O2 K2 N2) as S3.
  destruct (splitFunc l2) as [[n3 t3]|] eqn:E3.
  2:{ apply split_none in E3. destruct x.
      - destruct S3 as (s' & c' & ->). eexists. eexists. eexists. split; [reflexivity|]. eapply (ju_silence true 2); [exact M2|lia|exact E3].
      - destruct S3 as (s3 & c3 & u3 & -> & _). eexists. eexists. eexists. split; [reflexivity|]. eapply (ju_break true 2); [exact M2|lia|exact E3]. }
  destruct (before_of _ _ _ E3) as (B3 & _). destruct S3 as (s3 & c3 & u3 & -> & _).
  destruct (content_of t3) as (p & e & Ct & Co). exists p, e, c3.
  split; [|eapply ju_data; eauto].
  destruct ((len t3 >? 0) && (len t3 <? 4)); [congruence|]. destruct (len t3 >=? 4); congruence.
Qed.

(** ** a query *)
Lemma query_heard cmd data expect c d evs r l x : quiet c -> (length data <= 255)%nat ->
  react (c_dev c) (framed cmd data) = (d, evs, r) -> w_err r = None -> hears evs l x -> modest evs -> (expect = true -> ~ In Expire evs) ->
  exists q qe e c', query (mkPacket cmd data expect) c = ((q, e), c') /\ judged expect l x q qe /\
    (qe <> None -> e = qe) /\
    (qe = None -> expect = true -> p_cmd q <> (cmd + 1) mod 256 -> e = Some ErrInvalidResponse) /\
    (qe = None -> (expect = true -> p_cmd q = (cmd + 1) mod 256) -> (e = None <-> takes_ack d)).
Proof.
  intros (P & O) L R E H M N. unfold query. cbn [p_cmd p_data p_expect].
  replace (Z.of_nat (length data) >? 255) with false by lia. unfold conn_write at 1. rewrite frame_framed. cbn [p_cmd p_data]. rewrite R, E, P. cbn [app].
  match goal with |- context [ReadPacket ?x _] => set (c1 := x) end.
  destruct (read_heard c1 expect l x O H M N) as (q & qe & c2 & Rd & J).
  rewrite Rd. cbv zeta. destruct qe as [qe|].
  { exists q, (Some qe), (Some qe). eexists. split; [reflexivity|]. split; [exact J|]. split; [auto|]. split; discriminate. }
  destruct (expect && negb (p_cmd q =? u8 (cmd + 1))) eqn:Ck.
  { exists q, None, (Some ErrInvalidResponse). eexists. split; [reflexivity|]. split; [exact J|]. split; [congruence|]. split; [auto|].
    intros _ Y. apply andb_true_iff in Ck as [Ck1 Ck2]. apply negb_true_iff, Z.eqb_neq in Ck2. unfold u8 in Ck2. destruct (Ck2 (Y Ck1)). }
  assert (D2 : c_dev c2 = d).
  { pose proof (read_packet_inv _ _ _ _ Rd) as ((Dv & _) & _). unfold c1 in Dv. cbn [c_dev] in Dv. congruence. }
  unfold conn_write. cbn [log_io c_dev]. rewrite D2. unfold takes_ack, ack_seq. destruct (react d [7; 243]) as [[d2 evs2] r2].
  exists q, None, (ack_err r2). eexists. split; [reflexivity|]. split; [exact J|]. split; [congruence|]. split.
  - intros _ X Nq. rewrite X in Ck. cbn [andb] in Ck. apply negb_false_iff, Z.eqb_eq in Ck. unfold u8 in Ck. congruence.
  - intros _ _. unfold ack_err. destruct (w_err r2); [split; [discriminate|intros [? _]; discriminate]|].
    destruct (Z.eqb_spec (w_n r2) 2); split; auto; try discriminate. intros [_ ?]; congruence.
Qed.
Lemma query_heard_run cmd data expect (w : world unit) d evs r l x : w_held w = [] -> quiet (w_conn w) -> (length data <= 255)%nat ->
  react (c_dev (w_conn w)) (framed cmd data) = (d, evs, r) -> w_err r = None -> hears evs l x -> modest evs -> (expect = true -> ~ In Expire evs) ->
  exists q qe e c', run (QueryPacket (mkPacket cmd data expect)) w = (RDone (q, e), set_conn w c') /\ judged expect l x q qe /\
    (qe <> None -> e = qe) /\
    (qe = None -> expect = true -> p_cmd q <> (cmd + 1) mod 256 -> e = Some ErrInvalidResponse) /\
    (qe = None -> (expect = true -> p_cmd q = (cmd + 1) mod 256) -> (e = None <-> takes_ack d)).
Proof.
  intros I Q L R E H M N. destruct (query_heard cmd data expect (w_conn w) d evs r l x Q L R E H M N) as (q & qe & e & c' & Qe & J & A).
  exists q, qe, e, c'. split; [|auto]. rewrite run_query by auto using idle_pm. rewrite Qe. reflexivity.
Qed.
(** ** a set *)
Lemma marks_one l l' : marks 1 l l' -> exists k, ctl k /\ l = 7 :: k :: l'.
Proof. intros M. inversion M; subst. inversion H1; subst. eauto. Qed.
Lemma judged_set l x p e : judged false l x p e ->
  (e = None <-> (exists k r, ctl k /\ l = 7 :: k :: r) \/ (x = Break /\ clean l)).
Proof.
  assert (F : forall t, before_mark l t -> t <> [] -> ~ ((exists k r, ctl k /\ l = 7 :: k :: r) \/ (x = Break /\ clean l))).
  { intros t (k & r & -> & C & Cl) Nt [(k' & r' & C' & El)|(_ & Cn)]; [|eapply Cn; eauto].
    apply (first_ctl_unique t k r [] k' r') in El as (-> & _); auto; apply clean_one. }
  intros J. inversion J; subst.
  - assert (n = 0%nat) as -> by lia. inversion H; subst. split; [discriminate|]. intros K. destruct (F t H1 H2 K).
  - assert (n = 0%nat) as -> by lia. inversion H; subst. split; [discriminate|]. intros [(k & r & C & ->)|(? & _)]; [|discriminate]. destruct (H1 [] k r eq_refl C).
  - assert (n = 0%nat) as -> by lia. inversion H; subst. split; auto.
  - apply marks_one in H as (k & C & ->). split; eauto 6.
Qed.
Lemma encoded op cmd data : sets_with op cmd data -> (length data <= 255)%nat /\ exists sr, op = setQuery sr /\ EncodeSetRequest sr = (mkPacket cmd data false, None).
Proof.
  intros K. inversion K as [v Hv|t Ht|q]; subst; (split; [cbn; lia|]); eexists; (split; [reflexivity|]).
  - unfold EncodeSetRequest. cbn [requestType SetRequest_MarshalBinary]. replace (v >? 4) with false by lia. reflexivity.
  - unfold EncodeSetRequest. cbn [requestType SetRequest_MarshalBinary].
    destruct temperature_codec as (_ & C & _). destruct (C t ltac:(lia)) as (_ & -> & _). reflexivity.
  - reflexivity.
Qed.
Lemma set_heard op cmd data (w : world unit) d evs r l x : sets_with op cmd data -> w_held w = [] -> quiet (w_conn w) ->
  react (c_dev (w_conn w)) (framed cmd data) = (d, evs, r) -> w_err r = None -> hears evs l x -> modest evs -> takes_ack d ->
  exists e c', run op w = (RDone e, set_conn w c') /\
    (e = None <-> (exists k rest, ctl k /\ l = 7 :: k :: rest) \/ (x = Break /\ clean l)).
Proof.
  intros K I Q Re Er H M T. destruct (encoded op cmd data K) as (Ln & sr & -> & E).
  rewrite run_setQuery by auto using idle_pm. unfold setq. rewrite E.
  destruct (query_heard cmd data false (w_conn w) d evs r l x Q Ln Re Er H M) as (q & qe & e & c' & Qe & J & A & _ & B); [discriminate|].
  rewrite Qe. exists e, c'. split; [reflexivity|]. rewrite <- (judged_set l x q qe J). destruct qe as [qe|].
  - rewrite A by discriminate. split; discriminate.
  - split; [auto|]. intros _. apply B; auto. discriminate.
Qed.
(** ** a data query *)
Lemma verified_len t cmd data : verified t cmd data -> (4 <= length t)%nat.
Proof. intros (z & raw & _ & ->). cbn. rewrite app_length. cbn. lia. Qed.
Lemma verified_same t cmd data cmd' data' : verified t cmd data -> verified t cmd' data' -> cmd = cmd' /\ data = data'.
Proof.
  intros (z & raw & U & E) (z' & raw' & U' & E'). rewrite E in E'. injection E' as _ <- _ E'. split; [reflexivity|]. apply app_inj_tail in E' as [<- _].
  destruct (unmarshal_exact t) as (_ & V & _). destruct (V _ _ _ _ _ E) as (d0 & _ & Uq & _). rewrite (Uq _ U), (Uq _ U'). reflexivity.
Qed.
Lemma marks_split n l a : marks n l a -> forall m b, marks m l b -> (n <= m)%nat -> marks (m - n) a b.
Proof.
  induction 1 as [l|n k l rest C M IH]; intros m b M' Le; [rewrite Nat.sub_0_r; exact M'|].
  destruct m as [|m]; [lia|]. inversion M'; subst. cbn. apply IH; auto. lia.
Qed.
Lemma before_not_clean l t : before_mark l t -> ~ clean l.
Proof. intros (k & r & -> & C & _) Cl. exact (Cl t k r eq_refl C). Qed.
Lemma marks_mark n l a : marks (S n) l a -> before_mark l [].
Proof. intros M. inversion M; subst. exists k, l0. split; [reflexivity|]. split; [assumption|apply clean_one]. Qed.
Lemma before_same l t t' : before_mark l t -> before_mark l t' -> t = t'.
Proof. intros (k & r & E & C & Cl) (k' & r' & E' & C' & Cl'). rewrite E in E'. apply first_ctl_unique in E' as (-> & _); auto. Qed.
Lemma judged_data l l' t x cmd data p e : marks 2 l l' -> before_mark l' t -> verified t cmd data -> judged true l x p e -> p = mkPacket cmd data false /\ e = None.
Proof.
  intros M B V J. inversion J; subst; clear J.
  - exfalso. assert (Bl : before_mark l'0 []).
    { pose proof (marks_split _ _ _ H _ _ M ltac:(lia)) as M'. replace (2 - n)%nat with (S (1 - n)) in M' by lia. eapply marks_mark; eauto. }
    apply H2. eapply before_same; eauto.
  - exfalso. pose proof (marks_split _ _ _ H _ _ M ltac:(lia)) as M'. destruct (2 - n)%nat eqn:En; [inversion M'; subst; exact (before_not_clean _ _ B H1)|].
    exact (before_not_clean _ _ (marks_mark _ _ _ M') H1).
  - exfalso. pose proof (marks_split _ _ _ H _ _ M ltac:(lia)) as M'. destruct (2 - n)%nat eqn:En; [inversion M'; subst; exact (before_not_clean _ _ B H1)|].
    exact (before_not_clean _ _ (marks_mark _ _ _ M') H1).
  - pose proof (marks_split _ _ _ H _ _ M ltac:(lia)) as M'. cbn in M'. inversion M'; subst.
    pose proof (before_same _ _ _ B H0). subst t0. pose proof (verified_len _ _ _ V) as Ln.
    inversion H1; subst; [cbn in Ln; lia|lia| |exfalso; eapply H3; eauto].
    destruct (verified_same _ _ _ _ _ V H2) as [-> ->]. auto.
Qed.
Lemma data_heard cmd rd (w : world unit) d evs r l x : w_held w = [] -> quiet (w_conn w) -> (length rd <= 255)%nat -> (cmd + 1) mod 256 <> 0 ->
  react (c_dev (w_conn w)) (framed cmd rd) = (d, evs, r) -> w_err r = None -> hears evs l x -> modest evs -> ~ In Expire evs -> takes_ack d ->
  exists q e c', run (QueryPacket (mkPacket cmd rd true)) w = (RDone (q, e), set_conn w c') /\
    forall data, (e = None /\ q = mkPacket ((cmd + 1) mod 256) data false) <-> exists l' t, marks 2 l l' /\ before_mark l' t /\ verified t ((cmd + 1) mod 256) data.
Proof.
  intros I Q L N0 R E H M N T.
  destruct (query_heard_run cmd rd true w d evs r l x I Q L R E H M (fun _ => N)) as (q & qe & e & c' & Rn & J & A1 & A2 & A3).
  exists q, e, c'. split; [exact Rn|]. intros data. split.
  - intros (-> & Eq). destruct qe as [qe|]; [discriminate A1; discriminate|]. subst q.
    inversion J as [| |n0 l0 l1 n1 M1 C1| |l0 l1 t x0 p e M1 B1 Co]; subst.
    + congruence.
    + inversion Co; subst; [congruence|]. eauto.
  - intros (l' & t & M' & B & V). destruct (judged_data _ _ _ _ _ _ _ _ M' B V J) as [-> ->]. split; [|reflexivity]. apply A3; auto.
Qed.
