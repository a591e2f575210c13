(** Proofs for PropertiesDuration.v: ReqTime says the duration. *)
From Coq Require Import String.
From Verif Require Import ProofBase Lib Server Wire Twirp SpecWire SpecTwirp SpecJson SpecJsonReply SpecDuration JsonScanProofs JsonReadProofs JsonWrite JsonWriteProofs
  Utf8Proofs WireOut TwirpReply JsonReplyProofs JsonGoProofs Duration.

(** ** Writing *)
Lemma frac_true i : forall v buf, 0 <= v -> exists ds, fmtFrac i v true buf = (46 :: ds ++ buf, v / 10 ^ Z.of_nat i) /\ Forall dig ds /\
  len ds = Z.of_nat i /\ num ds = v mod 10 ^ Z.of_nat i.
Proof.
  induction i as [|i IH]; intros v buf V.
  - exists []. cbn. rewrite Z.div_1_r, Z.mod_1_r. repeat split; auto.
  - cbn [fmtFrac]. rewrite Bool.orb_true_l. destruct (IH (v / 10) (48 + v mod 10 :: buf)) as (ds & -> & D & L & N); [lia|].
    assert (P : 10 ^ Z.of_nat (S i) = 10 * 10 ^ Z.of_nat i) by (rewrite Nat2Z.inj_succ, Z.pow_succ_r; lia).
    assert (Q : 0 < 10 ^ Z.of_nat i) by (apply Z.pow_pos_nonneg; lia).
    exists (ds ++ [48 + v mod 10]). rewrite P, Z.div_div, <- app_assoc by lia. split; [reflexivity|].
    split; [apply Forall_app; split; auto; constructor; [unfold dig; lia|constructor]|].
    rewrite len_app, L. change (len [48 + v mod 10]) with 1. split; [lia|].
    rewrite num_app, N. change (len [48 + v mod 10]) with 1. rewrite Z.rem_mul_r by lia. unfold num. cbn [fold_left]. lia.
Qed.
Lemma frac_false i : forall v, 0 <= v -> exists x f, fmtFrac i v false [] = (x, v / 10 ^ Z.of_nat i) /\ frac_part x f /\
  len f <= Z.of_nat i /\ num f * 10 ^ (Z.of_nat i - len f) = v mod 10 ^ Z.of_nat i.
Proof.
  induction i as [|i IH]; intros v V.
  - exists [], []. cbn. rewrite Z.div_1_r, Z.mod_1_r. split; auto. split; [left; auto|]. split; [reflexivity || (vm_compute; discriminate)|reflexivity].
  - cbn [fmtFrac]. rewrite Bool.orb_false_l.
    assert (P : 10 ^ Z.of_nat (S i) = 10 * 10 ^ Z.of_nat i) by (rewrite Nat2Z.inj_succ, Z.pow_succ_r; lia).
    assert (Q : 0 < 10 ^ Z.of_nat i) by (apply Z.pow_pos_nonneg; lia).
    destruct (v mod 10 =? 0) eqn:E; cbn [negb].
    + destruct (IH (v / 10)) as (x & f & -> & F & L & N); [lia|]. exists x, f. rewrite P, Z.div_div by lia. split; [reflexivity|]. split; auto. split; [lia|].
      rewrite Z.rem_mul_r, <- N by lia. replace (Z.of_nat (S i) - len f) with (Z.succ (Z.of_nat i - len f)) by lia. rewrite Z.pow_succ_r by lia. lia.
    + destruct (frac_true i (v / 10) [48 + v mod 10]) as (ds & -> & D & L & N); [lia|].
      exists (46 :: ds ++ [48 + v mod 10]), (ds ++ [48 + v mod 10]). rewrite P, Z.div_div by lia. split; [reflexivity|].
      assert (Le : len (ds ++ [48 + v mod 10]) = Z.of_nat (S i)) by (rewrite len_app, L; change (len [48 + v mod 10]) with 1; lia).
      rewrite Le, Z.sub_diag. split; [right; split; [reflexivity|]; split; [destruct ds; discriminate|apply Forall_app; split; auto; constructor; [unfold dig; lia|constructor]]|].
      split; [lia|]. rewrite num_app, N. change (len [48 + v mod 10]) with 1. rewrite Z.rem_mul_r by lia. unfold num. cbn [fold_left]. lia.
Qed.
Lemma int_digits i : int_part i -> i <> [] /\ Forall dig i.
Proof. intros [-> |(c & r & -> & C & R)]; (split; [discriminate|]); repeat constructor; auto; unfold dig; lia. Qed.
Lemma part_frac i w v x f u : 0 <= w -> frac_part x f -> len f <= Z.of_nat i -> num f * 10 ^ (Z.of_nat i - len f) = v mod 10 ^ Z.of_nat i ->
  time_unit u (10 ^ Z.of_nat i) -> time_part (itoa w ++ x ++ u) (w * 10 ^ Z.of_nat i + v mod 10 ^ Z.of_nat i).
Proof.
  intros W F L N U. destruct (itoa_int w W) as [I V]. destruct (int_digits _ I) as [Ne D].
  exists (itoa w), x, f, u, (10 ^ Z.of_nat i). split; auto. split; auto. split; auto. split; auto. split; auto.
  rewrite num_app, V, <- N. pose proof (len_nonneg f). replace (10 ^ Z.of_nat i) with (10 ^ (Z.of_nat i - len f) * 10 ^ len f) by (rewrite <- Z.pow_add_r by lia; f_equal; lia).
  lia.
Qed.
Lemma part_whole w u s : 0 <= w -> time_unit u s -> time_part (itoa w ++ u) (w * s).
Proof.
  intros W U. destruct (itoa_int w W) as [I V]. destruct (int_digits _ I) as [Ne D].
  exists (itoa w), [], [], u, s. split; auto. split; auto. split; auto. split; [left; auto|]. split; auto. rewrite app_nil_r, V. change (len []) with 0. lia.
Qed.
Lemma duration_says d : says_time (durString d) d.
Proof.
  unfold durString. exists (d <? 0). set (u := Z.abs d). assert (U : 0 <= u) by (unfold u; lia).
  eexists. exists u. split; [reflexivity|]. split; [|unfold u; destruct (d <? 0) eqn:E; lia].
  destruct (u <? 1000000000) eqn:E.
  - destruct (u =? 0) eqn:E0; [replace u with (0 * 1000000000) by lia; constructor; apply (part_whole 0 (str "s")); [lia|constructor]|].
    assert (G : forall i t, time_unit t (10 ^ Z.of_nat i) -> time_parts (let (f, v) := fmtFrac i u false [] in itoa v ++ f ++ t) u).
    { intros i t Ut. destruct (frac_false i u U) as (x & f & -> & F & L & N). constructor.
      assert (Q : 0 < 10 ^ Z.of_nat i) by (apply Z.pow_pos_nonneg; lia).
      replace u with (u / 10 ^ Z.of_nat i * 10 ^ Z.of_nat i + u mod 10 ^ Z.of_nat i) at 2 by (rewrite (Z.div_mod u (10 ^ Z.of_nat i)) at 3; lia).
      apply (part_frac i _ u x f t); auto. apply Z.div_pos; lia. }
    destruct (u <? 1000); [apply (G 0%nat); constructor|]. destruct (u <? 1000000); [apply (G 3%nat)|apply (G 6%nat)]; constructor.
  - destruct (frac_false 9 u U) as (x & f & -> & F & L & N). change (10 ^ Z.of_nat 9) with 1000000000 in *. set (v := u / 1000000000) in *.
    assert (V : u = v * 1000000000 + u mod 1000000000) by (unfold v; lia). assert (V0 : 0 <= v) by (unfold v; lia).
    pose proof (part_frac 9 (v mod 60) u x f (str "s") ltac:(lia) F L N ltac:(constructor)) as Sec. change (10 ^ Z.of_nat 9) with 1000000000 in Sec.
    destruct (0 <? v / 60) eqn:M.
    + pose proof (part_whole (v / 60 mod 60) (str "m") _ ltac:(lia) ltac:(constructor)) as Min.
      destruct (0 <? v / 60 / 60) eqn:H.
      * pose proof (part_whole (v / 60 / 60) (str "h") _ ltac:(lia) ltac:(constructor)) as Hour.
        replace u with (v / 60 / 60 * 3600000000000 + (v / 60 mod 60 * 60000000000 + (v mod 60 * 1000000000 + u mod 1000000000))) by lia.
        rewrite <- app_assoc. apply tp_more; auto. apply tp_more; auto. apply tp_one; auto.
      * replace u with (v / 60 mod 60 * 60000000000 + (v mod 60 * 1000000000 + u mod 1000000000)) by lia.
        cbn [app]. apply tp_more; auto. apply tp_one; auto.
    + cbn [app]. replace u with (v mod 60 * 1000000000 + u mod 1000000000) by lia. apply tp_one; auto.
Qed.

(** ** Reading *)
Definition nodig (a : list byte) : Prop := match a with [] => True | c :: _ => ~ dig c end.
Lemma digit_span i : forall i' a a', Forall dig i -> Forall dig i' -> nodig a -> nodig a' -> i ++ a = i' ++ a' -> i = i' /\ a = a'.
Proof.
  induction i as [|c i IH]; intros [|c' i'] a a' D D' N N' E; cbn [app] in E.
  - auto.
  - subst a. inversion D'; subst. contradiction.
  - subst a'. inversion D; subst. contradiction.
  - injection E as -> E. inversion D; inversion D'; subst. destruct (IH i' a a') as [-> ->]; auto.
Qed.
Definition follows (r : list byte) : Prop := match r with [] => True | c :: _ => dig c end.
Lemma unit_head u s r : time_unit u s -> exists c t, u ++ r = c :: t /\ ~ dig c /\ c <> 46.
Proof. destruct 1; eexists; eexists; (split; [reflexivity|]); (split; [intros [_ B]; vm_compute in B; exact (B eq_refl)|vm_compute; discriminate]). Qed.
Lemma unit_unique u s u' s' r r' : time_unit u s -> time_unit u' s' -> follows r -> follows r' -> u ++ r = u' ++ r' -> s = s' /\ r = r'.
Proof.
  intros U U' F F' E. destruct U, U'; repeat match type of E with context [str ?x] => let y := eval vm_compute in (str x) in change (str x) with y in E end;
    cbn [app] in E; try discriminate E; injection E; intros; subst; auto; cbn [follows] in *; unfold dig in *; lia.
Qed.
Lemma part_unique t n t' n' r r' : time_part t n -> time_part t' n' -> follows r -> follows r' -> t ++ r = t' ++ r' -> n = n' /\ r = r'.
Proof.
  intros (i & x & f & u & s & -> & _ & D & F & U & V) (i' & x' & f' & u' & s' & -> & _ & D' & F' & U' & V') Fr Fr' E.
  rewrite <- !app_assoc in E.
  assert (H : forall x f u s r, frac_part x f -> time_unit u s -> nodig (x ++ u ++ r)).
  { intros x0 f0 u0 s0 r0 [[-> _]|(-> & _)] U0; cbn [app]; [|cbn; unfold dig; lia]. destruct (unit_head u0 s0 r0 U0) as (c & t & -> & N & _). exact N. }
  destruct (digit_span i i' (x ++ u ++ r) (x' ++ u' ++ r') D D' (H _ _ _ _ r F U) (H _ _ _ _ r' F' U') E) as [-> E1]. clear E.
  assert (Hu : forall u s r, time_unit u s -> nodig (u ++ r)).
  { intros u0 s0 r0 U0. destruct (unit_head u0 s0 r0 U0) as (c & t & -> & N & _). exact N. }
  assert (E2 : f = f' /\ u ++ r = u' ++ r').
  { destruct F as [[-> ->]|(-> & _ & Df)], F' as [[-> ->]|(-> & _ & Df')]; cbn [app] in E1.
    - auto.
    - destruct (unit_head u s r U) as (c & t & Eu & _ & N). rewrite Eu in E1. injection E1 as -> _. lia.
    - destruct (unit_head u' s' r' U') as (c & t & Eu & _ & N). rewrite Eu in E1. injection E1 as <- _. lia.
    - injection E1 as E1. apply (digit_span f f'); eauto. }
  destruct E2 as [-> E2]. destruct (unit_unique u s u' s' r r' U U' Fr Fr' E2) as [-> ->]. split; auto.
  rewrite V in V'. apply Z.mul_reg_r in V'; auto. pose proof (Z.pow_pos_nonneg 10 (len f') ltac:(lia) (len_nonneg f')). lia.
Qed.
Lemma part_head t n : time_part t n -> exists c r, t = c :: r /\ dig c.
Proof. intros (i & x & f & u & s & -> & N & D & _). destruct i as [|c i]; [destruct (N eq_refl)|]. inversion D; subst. exists c, (i ++ x ++ u). auto. Qed.
Lemma parts_head t n : time_parts t n -> exists c r, t = c :: r /\ dig c.
Proof. induction 1 as [t n P|t n t' n' P _ _]; destruct (part_head t n P) as (c & r & -> & D); eexists; eexists; split; try reflexivity; auto. Qed.
Lemma parts_unique t n : time_parts t n -> forall n', time_parts t n' -> n = n'.
Proof.
  induction 1 as [t n P|t n t' m P Ps IH]; intros n' P'; inversion P' as [t0 n0 P0|t0 n0 t1 m1 P0 P1]; subst.
  - destruct (part_unique t n t n' [] [] P P0 I I eq_refl); auto.
  - destruct (parts_head t1 m1 P1) as (c & r & -> & D).
    destruct (part_unique (t0 ++ c :: r) n t0 n0 [] (c :: r) P P0 I D) as [_ E]; [apply app_nil_r|discriminate].
  - destruct (parts_head t' m Ps) as (c & r & -> & D).
    destruct (part_unique t n (t ++ c :: r) n' (c :: r) [] P P0 D I) as [_ E]; [symmetry; apply app_nil_r|discriminate].
  - destruct (parts_head t' m Ps) as (c & r & -> & D). destruct (parts_head t1 m1 P1) as (c' & r' & -> & D').
    destruct (part_unique t n t0 n0 (c :: r) (c' :: r') P P0 D D') as [-> E]; [auto|]. rewrite E in *. f_equal. apply IH; auto.
Qed.
Lemma says_unique t d d' : says_time t d -> says_time t d' -> d = d'.
Proof.
  intros (neg & t1 & n & E & P & ->) (neg' & t2 & n' & E' & P' & ->). rewrite E in E'. clear E t.
  destruct (parts_head _ _ P) as (c & r & -> & D). destruct (parts_head _ _ P') as (c' & r' & -> & D').
  destruct neg, neg'; cbn [app] in E'; injection E'; intros; subst; try (unfold dig in *; lia); rewrite (parts_unique _ _ P _ P'); reflexivity.
Qed.

(** ** The text in replies *)
Definition tame (n : Z) (t : list byte) : Prop := bytes_ok t /\ utf8 t /\ len t <= n.
Lemma utf8_app a b : utf8 a -> utf8 b -> utf8 (a ++ b).
Proof. intros (x & X & ->) (y & Y & ->). exists (x ++ y). split; [apply Forall_app; auto|]. rewrite map_app, concat_app. reflexivity. Qed.
Lemma tame_app n m a b : tame n a -> tame m b -> tame (n + m) (a ++ b).
Proof. intros (A & B & C) (A' & B' & C'). split; [apply bytes_app; auto|]. split; [apply utf8_app; auto|]. rewrite len_app. lia. Qed.
Lemma tame_ascii n t : Forall (fun c => 0 <= c < 128) t -> len t <= n -> tame n t.
Proof. intros F L. destruct (ascii_utf8s t F) as [A B]. repeat split; auto. Qed.
Lemma dig_ascii t : Forall dig t -> Forall (fun c => 0 <= c < 128) t.
Proof. intros F. eapply Forall_impl; [|exact F]. unfold dig. lia. Qed.
Lemma itoa_len f : forall n, (List.length (itoa_ f n) <= f)%nat.
Proof. induction f as [|f IH]; intros n; cbn [itoa_]; [auto|]. destruct (n <? 10); [cbn; lia|]. rewrite app_length. cbn [List.length]. specialize (IH (n / 10)). lia. Qed.
Lemma tame_itoa n : 0 <= n <= 9223372036854775808 -> tame 64 (itoa n).
Proof.
  intros N. apply tame_ascii; [apply dig_ascii; apply int_digits; apply itoa_int; lia|].
  unfold len, itoa. pose proof (itoa_len (S (Z.to_nat (Z.log2 n))) n). assert (Z.log2 n <= 63) by (change 63 with (Z.log2 9223372036854775808); apply Z.log2_le_mono; lia).
  pose proof (Z.log2_nonneg n). lia.
Qed.
Lemma tame_frac n x f : frac_part x f -> len f <= n -> tame (n + 1) x.
Proof.
  intros F L. pose proof (len_nonneg f). apply tame_ascii; destruct F as [[-> ->]|(-> & _ & D)]; try rewrite len_cons; try (change (len (@nil byte)) with 0; lia); try lia; [constructor|].
  constructor; [lia|apply dig_ascii; auto].
Qed.
Lemma tame_unit u s : time_unit u s -> tame 3 u.
Proof.
  intros U. destruct U; [| | | | |]; match goal with |- tame _ ?x => let y := eval vm_compute in x in change x with y end.
  2: { split; [repeat (apply Forall_cons; [unfold byte_ok; lia|]); apply Forall_nil|]. split; [|vm_compute; discriminate].
       exists [181; 115]. split; [repeat (apply Forall_cons; [unfold scalar; lia|]); apply Forall_nil|reflexivity]. }
  all: apply tame_ascii; [repeat (apply Forall_cons; [lia|]); apply Forall_nil|vm_compute; discriminate].
Qed.
Lemma tame_le n m t : tame n t -> n <= m -> tame m t.
Proof. intros (A & B & C) L. repeat split; auto. lia. Qed.
Lemma tame_nil : tame 0 [].
Proof. apply tame_ascii; [constructor|reflexivity || (vm_compute; discriminate)]. Qed.
Lemma duration_tame d : -9223372036854775808 <= d < 9223372036854775808 -> tame 1000 (durString d).
Proof.
  intros D. unfold durString. set (u := Z.abs d). assert (U : 0 <= u <= 9223372036854775808) by (unfold u; lia).
  apply (tame_le (1 + 999)); [|lia]. apply tame_app.
  { destruct (d <? 0); [apply tame_ascii; [repeat constructor; lia|vm_compute; discriminate]|apply (tame_le 0); [apply tame_nil|lia]]. }
  destruct (u <? 1000000000) eqn:E.
  - destruct (u =? 0) eqn:E0; [apply (tame_le 3); [|lia]; apply tame_ascii; [|vm_compute; discriminate];
      match goal with |- Forall _ ?x => let y := eval vm_compute in x in change x with y end; repeat (constructor; [lia|]); constructor|].
    assert (G : forall i s t, time_unit t s -> (i <= 9)%nat -> tame 999 (let (f, v) := fmtFrac i u false [] in itoa v ++ f ++ t)).
    { intros i s t Ut Li. destruct (frac_false i u (proj1 U)) as (x & f & -> & F & L & N).
      assert (Q : 0 < 10 ^ Z.of_nat i) by (apply Z.pow_pos_nonneg; lia).
      apply (tame_le (64 + ((9 + 1) + 3))); [|lia]. apply tame_app; [|apply tame_app; [|eapply tame_unit; eauto]].
      - apply tame_itoa. split; [apply Z.div_pos; lia|]. apply (Z.le_trans _ u); [|lia]. apply Z.div_le_upper_bound; nia.
      - eapply tame_frac; [eauto|]. lia. }
    destruct (u <? 1000); [apply (G 0%nat 1); [constructor|lia]|]. destruct (u <? 1000000); [apply (G 3%nat 1000)|apply (G 6%nat 1000000)]; try constructor; lia.
  - destruct (frac_false 9 u (proj1 U)) as (x & f & -> & F & L & N). change (10 ^ Z.of_nat 9) with 1000000000. set (v := u / 1000000000) in *.
    assert (V : 0 <= v <= 9223372036854775808) by (unfold v; lia).
    apply (tame_le (((64 + 3) + (64 + 3)) + (64 + ((9 + 1) + 3)))); [|lia]. apply tame_app.
    + destruct (0 <? v / 60); [|apply (tame_le 0); [apply tame_nil|lia]]. apply tame_app.
      * destruct (0 <? v / 60 / 60); [|apply (tame_le 0); [apply tame_nil|lia]]. apply tame_app; [apply tame_itoa; lia|eapply tame_unit; constructor].
      * apply tame_app; [apply tame_itoa; lia|eapply tame_unit; constructor].
    + apply tame_app; [apply tame_itoa; lia|]. apply tame_app; [eapply tame_frac; [eauto|lia]|eapply tame_unit; constructor].
Qed.
Lemma duration_string d : -9223372036854775808 <= d < 9223372036854775808 -> time_string (durString d).
Proof. intros D. destruct (duration_tame d D) as (A & B & C). repeat split; auto. lia. Qed.
Lemma reply_says ftoa sp d r : -9223372036854775808 <= d < 9223372036854775808 -> in_types r ->
  match r with RespComfort _ _ _ | RespSpeed _ _ _ | RespProfile _ _ _ | RespFlush _ => True | _ => False end ->
  exists b l t x, resp_json ftoa sp (durString d) r = Some b /\ json_whole b l /\ member l "ReqTime" (JStr x) /\ reads_str x t /\ says_time t d.
Proof.
  intros D T R. assert (N : forall e, r <> RespErr e) by (intros e ->; contradiction).
  destruct (json_said ftoa sp (durString d) r N T) as (b & l & E & _ & W & J); auto using duration_string; try (destruct r; try contradiction; exact I).
  exists b, l, (durString d).
  assert (M : exists x, member l "ReqTime" (JStr x) /\ reads_str x (durString d)).
  { unfold json_reply in J. assert (In ("ReqTime"%string, SText (durString d)) (reply_members (durString d) r)) as I.
    { destruct r; try contradiction; cbn; auto. }
    clear - I J. induction J as [|m y ms ys [Rn S] J IH]; [destruct I|]. destruct I as [-> |I].
    - cbn [fst snd] in *. destruct y as [n v]. cbn [fst snd] in *. destruct v as [|b|z|x|a|o]; try contradiction. exists x. split; [|exact S]. exists n. split; [left; reflexivity|auto].
    - destruct (IH I) as (x & (n & In_ & Rn') & Rx). exists x. split; auto. exists n. split; [right; auto|auto]. }
  destruct M as (x & M & Rx). exists x. auto using duration_says.
Qed.
