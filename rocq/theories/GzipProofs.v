(** At most one content of a gzip file. *)
From Coq Require Import Lia.
From Verif Require Import GoBase SpecGzip.

(** ** Numbers *)
Lemma len_ge {A} (l : list A) : 0 <= len l. Proof. unfold len. lia. Qed.
Lemma len_app_ {A} (a b : list A) : len (a ++ b) = len a + len b.
Proof. unfold len. rewrite app_length. lia. Qed.
Lemma msb_bound l : 0 <= msb_number l < 2 ^ len l.
Proof.
  induction l as [|b l IH]; [cbn; lia|]. cbn [msb_number]. replace (len (b :: l)) with (len l + 1) by (unfold len; cbn [length]; lia).
  rewrite Z.pow_add_r by (try apply len_ge; lia). destruct b; cbn [Z.b2z]; lia.
Qed.
Lemma msb_app a b : msb_number (a ++ b) = msb_number a * 2 ^ len b + msb_number b.
Proof.
  induction a as [|x a IH]; [reflexivity|]. cbn [app msb_number]. rewrite IH, len_app_, Z.pow_add_r by apply len_ge. ring.
Qed.
Lemma msb_inj a b : length a = length b -> msb_number a = msb_number b -> a = b.
Proof.
  revert b. induction a as [|x a IH]; intros [|y b] L E; try discriminate; [reflexivity|]. injection L as L. cbn [msb_number] in E.
  assert (len a = len b) as LL by (unfold len; lia). rewrite LL in E.
  pose proof (msb_bound a) as Ba. pose proof (msb_bound b) as Bb. rewrite LL in Ba.
  destruct x, y; cbn [Z.b2z] in E; try (exfalso; lia); (f_equal; apply IH; [exact L|lia]).
Qed.

(** ** Words are not prefixes of one another *)
Lemma zsum_le {A} (f g : A -> Z) l : (forall x, In x l -> f x <= g x) -> zsum (map f l) <= zsum (map g l).
Proof.
  induction l as [|x l IH]; intros H; [cbn; lia|]. cbn. pose proof (H x (or_introl eq_refl)).
  assert (zsum (map f l) <= zsum (map g l)) by (apply IH; intros; apply H; right; assumption). unfold zsum in *. lia.
Qed.
Lemma zsum_lt {A} (f g : A -> Z) l x k : (forall x, In x l -> f x <= g x) -> In x l -> f x + k <= g x -> zsum (map f l) + k <= zsum (map g l).
Proof.
  induction l as [|y l IH]; intros H I K; [contradiction|]. cbn. pose proof (H y (or_introl eq_refl)) as Hy.
  assert (H' : forall x, In x l -> f x <= g x) by (intros; apply H; right; assumption).
  destruct I as [->|I].
  - pose proof (zsum_le f g l H'). unfold zsum in *. lia.
  - pose proof (IH H' I K). unfold zsum in *. lia.
Qed.
Lemma zsum_scale {A} (f : A -> Z) k l : zsum (map f l) * k = zsum (map (fun x => f x * k) l).
Proof. induction l as [|x l IH]; [reflexivity|]. cbn. unfold zsum in *. rewrite <- IH. lia. Qed.
Lemma in_numbered (l : list nat) s n : nth_error l s = Some n -> forall k, In (k + s, n)%nat (combine (seq k (length l)) l).
Proof.
  revert s. induction l as [|x l IH]; intros [|s] H k; try discriminate; cbn [length seq combine].
  - injection H as ->. left. f_equal. lia.
  - right. replace (k + S s)%nat with (S k + s)%nat by lia. apply IH. exact H.
Qed.
Lemma value_mono lens s n s' n' : nth_error lens s = Some n -> nth_error lens s' = Some n' -> n <> 0%nat ->
  precedes s n s' n' = true -> (code_value lens s n + 1) * 2 ^ Z.of_nat (n' - n) <= code_value lens s' n'.
Proof.
  intros N N' Z0 P. unfold code_value. rewrite Z.mul_add_distr_r, Z.mul_1_l, zsum_scale.
  assert (LE : (n <= n')%nat).
  { unfold precedes in P. apply andb_prop in P as [_ P]. apply Bool.orb_prop in P as [P|P]; [apply Nat.ltb_lt in P; lia|].
    apply andb_prop in P as [P _]. apply Nat.eqb_eq in P. lia. }
  apply (zsum_lt _ _ _ (s, n)).
  - intros [a m] _. cbn [fst snd]. destruct (precedes a m s n) eqn:E; [|destruct (precedes a m s' n'); try lia; apply Z.pow_nonneg; lia].
    assert (precedes a m s' n' = true /\ (m <= n)%nat) as [-> M].
    { unfold precedes in *. apply andb_prop in P as [_ P]. apply andb_prop in E as [-> E]. cbn [andb].
      rewrite Bool.orb_true_iff, Bool.andb_true_iff, Nat.ltb_lt, Nat.eqb_eq, Nat.ltb_lt in P, E.
      rewrite Bool.orb_true_iff, Bool.andb_true_iff, Nat.ltb_lt, Nat.eqb_eq, Nat.ltb_lt. lia. }
    rewrite <- Z.pow_add_r by lia. apply Z.eq_le_incl. f_equal. lia.
  - exact (in_numbered lens s n N 0%nat).
  - cbn [fst snd]. rewrite P.
    assert (precedes s n s n = false) as ->.
    { unfold precedes. rewrite Nat.ltb_irrefl, Nat.eqb_refl, Nat.ltb_irrefl. cbn. apply Bool.andb_false_r. }
    lia.
Qed.
Lemma prefix_split {A} (a b c d : list A) : a ++ b = c ++ d -> (length a <= length c)%nat -> exists e, c = a ++ e /\ b = e ++ d.
Proof.
  revert c. induction a as [|x a IH]; intros c E L; [exists c; split; [reflexivity|exact E]|].
  destruct c as [|y c]; [cbn in L; lia|]. cbn in E. injection E as -> E. destruct (IH c E) as (e & -> & ->); [cbn in L; lia|].
  exists e. split; reflexivity.
Qed.
Lemma app_same {A} (a b c d : list A) : a ++ b = c ++ d -> length a = length c -> a = c /\ b = d.
Proof.
  intros E L. destruct (prefix_split a b c d E) as (e & -> & ->); [lia|]. rewrite app_length in L.
  destruct e; [|cbn in L; lia]. rewrite app_nil_r. auto.
Qed.
Lemma word_le lens s w s' w' r r' : word lens s w -> word lens s' w' -> w ++ r = w' ++ r' -> (length w <= length w')%nat ->
  s = s' /\ w = w' /\ r = r'.
Proof.
  intros (n & N & Z0 & L & V) (n' & N' & Z0' & L' & V') E LE.
  destruct (prefix_split _ _ _ _ E LE) as (e & -> & ->). rewrite msb_app in V'. rewrite app_length in L'.
  assert (EL : len e = Z.of_nat (n' - n)) by (unfold len; lia). pose proof (msb_bound e) as B. rewrite EL in *. rewrite V in V'.
  destruct (Nat.eq_dec s s') as [->|D].
  - assert (n = n') by congruence. destruct e; [|cbn in L'; lia]. rewrite app_nil_r. auto.
  - exfalso. destruct (precedes s n s' n') eqn:P.
    + pose proof (value_mono _ _ _ _ _ N N' Z0 P). lia.
    + assert (precedes s' n' s n = true) as P'.
      { unfold precedes in *. assert (forall m, m <> 0%nat -> (m =? 0)%nat = false) as Q by (intros; apply Nat.eqb_neq; assumption).
        rewrite (Q n Z0) in P. rewrite (Q n' Z0'). cbn [negb andb] in *. apply Bool.orb_false_iff in P as [P1 P2]. apply Nat.ltb_ge in P1.
        rewrite Bool.orb_true_iff, Bool.andb_true_iff, Nat.ltb_lt, Nat.eqb_eq, Nat.ltb_lt.
        assert (n = n') as -> by lia. rewrite Nat.eqb_refl in P2. cbn [andb] in P2. apply Nat.ltb_ge in P2. lia. }
      pose proof (value_mono _ _ _ _ _ N' N Z0' P') as M. assert (n = n').
      { unfold precedes in P'. apply andb_prop in P' as [_ P']. apply Bool.orb_prop in P' as [P'|P']; [apply Nat.ltb_lt in P'; lia|].
        apply andb_prop in P' as [P' _]. apply Nat.eqb_eq in P'. lia. }
      rewrite <- H in V', B, M. replace (Z.of_nat (n - n)) with 0 in * by lia. change (2 ^ 0) with 1 in *. lia.
Qed.
Lemma word_unique lens s w s' w' r r' : word lens s w -> word lens s' w' -> w ++ r = w' ++ r' -> s = s' /\ w = w' /\ r = r'.
Proof.
  intros W W' E. destruct (Nat.le_ge_cases (length w) (length w')) as [L|L].
  - eapply word_le; eassumption.
  - destruct (word_le _ _ _ _ _ _ _ W' W (eq_sym E) L) as (-> & -> & ->). auto.
Qed.

(** ** Copies, contents, lengths *)
Lemma nth_ext_ {A} (a b : list A) : (forall i, nth_error a i = nth_error b i) -> a = b.
Proof.
  revert b. induction a as [|x a IH]; intros [|y b] H.
  - reflexivity.
  - specialize (H 0%nat). discriminate.
  - specialize (H 0%nat). discriminate.
  - pose proof (H 0%nat) as H0. injection H0 as ->. f_equal. apply IH. intros i. exact (H (S i)).
Qed.
Lemma copies_unique out n d o1 o2 : copies out n d o1 -> copies out n d o2 -> o1 = o2.
Proof.
  intros (D & m1 & E1 & L1 & H1) (_ & m2 & E2 & L2 & H2). apply nth_ext_.
  assert (LL : length o1 = length o2) by (subst; rewrite !app_length; unfold len in *; lia).
  intros i. induction i as [i IH] using (well_founded_induction lt_wf).
  destruct (Nat.lt_ge_cases i (length out)) as [A|A].
  - rewrite E1, E2, !nth_error_app1 by exact A. reflexivity.
  - destruct (Nat.lt_ge_cases i (length o1)) as [B|B].
    + specialize (H1 (Z.of_nat i)). specialize (H2 (Z.of_nat i)). unfold len in *.
      rewrite Nat2Z.id in H1, H2. rewrite H1, H2 by lia. apply IH. lia.
    + rewrite (proj2 (nth_error_None o1 i)), (proj2 (nth_error_None o2 i)) by lia. reflexivity.
Qed.
Lemma contents_unique lit dist out b out1 r1 : contents lit dist out b out1 r1 ->
  forall out2 r2, contents lit dist out b out2 r2 -> out1 = out2 /\ r1 = r2.
Proof.
  induction 1 as [out w r W|out s w b out' r W S C IH|out k w x e j w' x' e' base base' o1 b out' r W N L W' N' L' K C IH]; intros out2 r2 H.
  - remember (w ++ r) as c eqn:E. destruct H as [out v t V|out s v c o2 t V S C|out k v x e j v' x' e' base base' o1 c o2 t V N L V' N' L' K C].
    + destruct (word_unique _ _ _ _ _ _ _ V W E) as (_ & _ & ->). auto.
    + destruct (word_unique _ _ _ _ _ _ _ V W E) as (-> & _). lia.
    + destruct (word_unique _ _ _ _ _ _ _ V W E) as (Q & _). lia.
  - remember (w ++ b) as c eqn:E. destruct H as [out v t V|out s2 v c o2 t V S2 C2|out k v x e j v' x' e' base base' o1 c o2 t V N L V' N' L' K C2].
    + destruct (word_unique _ _ _ _ _ _ _ V W E) as (<- & _). lia.
    + destruct (word_unique _ _ _ _ _ _ _ V W E) as (-> & _ & ->). apply IH. exact C2.
    + destruct (word_unique _ _ _ _ _ _ _ V W E) as (Q & _). lia.
  - remember (w ++ e ++ w' ++ e' ++ b) as c eqn:E.
    destruct H as [out v t V|out s2 v c o2 t V S2 C2|out k2 v y f j2 v' y' f' base2 base2' o2 c o3 t V N2 L2 V' N2' L2' K2 C2].
    + destruct (word_unique _ _ _ _ _ _ _ V W E) as (Q & _). lia.
    + destruct (word_unique _ _ _ _ _ _ _ V W E) as (Q & _). lia.
    + destruct (word_unique _ _ _ _ _ _ _ V W E) as (Q & _ & E1). assert (k2 = k) by lia. subst k2.
      rewrite N in N2. injection N2 as <- <-. destruct (app_same _ _ _ _ E1) as [-> E2]; [congruence|].
      destruct (word_unique _ _ _ _ _ _ _ V' W' E2) as (-> & _ & E3). rewrite N' in N2'. injection N2' as <- <-.
      destruct (app_same _ _ _ _ E3) as [-> ->]; [congruence|]. rewrite (copies_unique _ _ _ _ _ K2 K) in C2. apply IH. exact C2.
Qed.
Lemma lengths_unique cl n l b l1 r1 : lengths cl n l b l1 r1 -> forall l2 r2, lengths cl n l b l2 r2 -> l1 = l2 /\ r1 = r2.
Proof.
  induction 1 as [l b L|l s w b l' r L W S C IH|l p w e b l' r L W E C IH|l w e b l' r L W E C IH|l w e b l' r L W E C IH]; intros l2 r2 H.
  - destruct H as [l b L2|l t v c k q L2 V S2 C2|l p v f c k q L2 V F C2|l v f c k q L2 V F C2|l v f c k q L2 V F C2]; auto; try lia.
    rewrite app_length in L. cbn in L. lia.
  - remember (w ++ b) as c eqn:Ec. destruct H as [l c L2|l t v c k q L2 V S2 C2|l p v f c k q L2 V F C2|l v f c k q L2 V F C2|l v f c k q L2 V F C2];
      [lia|destruct (word_unique _ _ _ _ _ _ _ V W Ec) as (Q & _ & E1); try lia..].
    subst t c. apply IH. exact C2.
  - remember (w ++ e ++ b) as c eqn:Ec. remember (l ++ [p]) as lp eqn:Ep.
    destruct H as [l3 c L2|l3 t v c k q L2 V S2 C2|l3 p3 v f c k q L2 V F C2|l3 v f c k q L2 V F C2|l3 v f c k q L2 V F C2];
      [subst l3; rewrite app_length in L2; cbn in L2; lia|destruct (word_unique _ _ _ _ _ _ _ V W Ec) as (Q & _ & E1); try lia..].
    destruct (app_same _ _ _ _ E1) as [-> ->]; [congruence|]. apply app_inj_tail in Ep as [-> ->]. apply IH. exact C2.
  - remember (w ++ e ++ b) as c eqn:Ec.
    destruct H as [l3 c L2|l3 t v c k q L2 V S2 C2|l3 p3 v f c k q L2 V F C2|l3 v f c k q L2 V F C2|l3 v f c k q L2 V F C2];
      [lia|destruct (word_unique _ _ _ _ _ _ _ V W Ec) as (Q & _ & E1); try lia..].
    destruct (app_same _ _ _ _ E1) as [-> ->]; [congruence|]. apply IH. exact C2.
  - remember (w ++ e ++ b) as c eqn:Ec.
    destruct H as [l3 c L2|l3 t v c k q L2 V S2 C2|l3 p3 v f c k q L2 V F C2|l3 v f c k q L2 V F C2|l3 v f c k q L2 V F C2];
      [lia|destruct (word_unique _ _ _ _ _ _ _ V W Ec) as (Q & _ & E1); try lia..].
    destruct (app_same _ _ _ _ E1) as [-> ->]; [congruence|]. apply IH. exact C2.
Qed.
Lemma order_full s : (s < 19)%nat -> exists i, nth_error length_order i = Some s.
Proof.
  intros H. assert (In s length_order) as I; [|apply In_nth_error in I; exact I].
  do 19 (destruct s as [|s]; [cbn; tauto|]). lia.
Qed.
Lemma length_lengths_unique hs a b : length_lengths hs a -> length_lengths hs b -> a = b.
Proof.
  intros [La A] [Lb B]. apply nth_ext_. intros s. destruct (Nat.lt_ge_cases s 19) as [S|S].
  - destruct (order_full s S) as [i I]. rewrite (A i s I), (B i s I). reflexivity.
  - rewrite (proj2 (nth_error_None a s)), (proj2 (nth_error_None b s)) by lia. reflexivity.
Qed.
Lemma concat_same (hs hs' : list (list bool)) b b' : Forall (fun h => length h = 3%nat) hs -> Forall (fun h => length h = 3%nat) hs' ->
  length hs = length hs' -> concat hs ++ b = concat hs' ++ b' -> hs = hs' /\ b = b'.
Proof.
  intros H. revert hs'. induction H as [|h hs Hh H IH]; intros [|h' hs'] H' L E; try discriminate; [auto|].
  inversion H' as [|? ? Hh' H'']; subst. cbn in E. rewrite <- !app_assoc in E. destruct (app_same _ _ _ _ E) as [-> E']; [congruence|].
  injection L as L. destruct (IH _ H'' L E') as [-> ->]. auto.
Qed.

(** ** Blocks *)
Lemma byte_bits_inj a b : byte_ok a -> byte_ok b -> byte_bits a = byte_bits b -> a = b.
Proof.
  unfold byte_ok. intros A B E. apply Z.bits_inj'. intros n N. unfold byte_bits in E. cbn [map] in E.
  injection E as E0 E1 E2 E3 E4 E5 E6 E7. destruct (Z.lt_ge_cases n 8) as [L|L].
  - assert (n = 0 \/ n = 1 \/ n = 2 \/ n = 3 \/ n = 4 \/ n = 5 \/ n = 6 \/ n = 7) as [|[|[|[|[|[|[|]]]]]]] by lia; subst n; assumption.
  - assert (forall x, 0 <= x < 256 -> Z.testbit x n = false) as T; [|rewrite !T by lia; reflexivity].
    intros x X. destruct (Z.eq_dec x 0) as [->|X0]; [apply Z.bits_0|]. apply Z.bits_above_log2; [lia|].
    apply Z.lt_le_trans with 8; [|lia]. apply Z.log2_lt_pow2; [lia|]. change (2 ^ 8) with 256. lia.
Qed.
Lemma bits_length d : length (bits d) = (8 * length d)%nat.
Proof. unfold bits. induction d as [|b d IH]; [reflexivity|]. cbn [map concat]. rewrite app_length, IH. cbn [byte_bits map length]. lia. Qed.
Lemma bits_inj a b : bytes_ok a -> bytes_ok b -> bits a = bits b -> a = b.
Proof.
  intros A. revert b. induction A as [|x a X A IH]; intros [|y b] B E; [reflexivity|discriminate|discriminate|].
  inversion B as [|? ? Y B']; subst. change (byte_bits x ++ bits a = byte_bits y ++ bits b) in E.
  destruct (app_same _ _ _ _ E eq_refl) as [E1 E2]. f_equal; [apply byte_bits_inj; assumption|apply IH; assumption].
Qed.
Lemma aligned_same (a b c d : list bool) : a ++ b = c ++ d -> (length a < 8)%nat -> (length c < 8)%nat ->
  (length b mod 8 = 0)%nat -> (length d mod 8 = 0)%nat -> a = c /\ b = d.
Proof.
  intros E A C B D. apply app_same; [exact E|]. assert (L := f_equal (@length bool) E). rewrite !app_length in L.
  assert (length b = 8 * (length b / 8))%nat by (apply Nat.div_exact; lia).
  assert (length d = 8 * (length d / 8))%nat by (apply Nat.div_exact; lia). lia.
Qed.
Lemma block_unique out b out1 r1 out2 r2 : block out b out1 r1 -> block out b out2 r2 -> out1 = out2 /\ r1 = r2.
Proof.
  intros H H'.
  destruct H as [out pad ln nln data r P A L NL NB DO|out b out' r C|out hl hd hc hs cl ls b b' out' r Lhl Lhd Lhc nl nd Lhs Fhs LL Ocl G Ol Od C].
  - remember ([false; false] ++ pad ++ ln ++ nln ++ bits data ++ r) as c eqn:Ec. destruct H' as [out pad2 ln2 nln2 data2 t P2 A2 L2 NL2 NB2 DO2| |];
      try discriminate. cbn in Ec. injection Ec as Ec.
    destruct (aligned_same _ _ _ _ Ec P2 P A2 A) as [_ E1]. destruct (app_same _ _ _ _ E1) as [-> E2]; [congruence|].
    destruct (app_same _ _ _ _ E2) as [_ E3]; [subst; reflexivity|].
    assert (length data2 = length data) as LD by (unfold len in *; lia).
    destruct (app_same _ _ _ _ E3) as [E4 ->]; [rewrite !bits_length; lia|]. rewrite (bits_inj _ _ DO2 DO E4). auto.
  - remember ([true; false] ++ b) as c eqn:Ec. destruct H' as [|out b2 out2 t C2|]; try discriminate.
    cbn in Ec. injection Ec as ->. exact (contents_unique _ _ _ _ _ _ C _ _ C2).
  - remember ([false; true] ++ hl ++ hd ++ hc ++ concat hs ++ b) as c eqn:Ec.
    destruct H' as [| |out hl2 hd2 hc2 hs2 cl2 ls2 b2 b2' out2 t Lhl2 Lhd2 Lhc2 nl2 nd2 Lhs2 Fhs2 LL2 Ocl2 G2 Ol2 Od2 C2]; try discriminate.
    cbn in Ec. injection Ec as Ec.
    destruct (app_same _ _ _ _ Ec) as [-> E1]; [congruence|]. destruct (app_same _ _ _ _ E1) as [-> E2]; [congruence|].
    destruct (app_same _ _ _ _ E2) as [-> E3]; [congruence|]. destruct (concat_same hs2 hs b2 b Fhs2 Fhs) as [-> ->]; [congruence|exact E3|].
    rewrite (length_lengths_unique _ _ _ LL2 LL) in G2. subst nl nd nl2 nd2.
    destruct (lengths_unique _ _ _ _ _ _ G _ _ G2) as [<- <-]. exact (contents_unique _ _ _ _ _ _ C _ _ C2).
Qed.
Lemma deflated_unique out b out1 r1 : deflated out b out1 r1 -> forall out2 r2, deflated out b out2 r2 -> out1 = out2 /\ r1 = r2.
Proof.
  induction 1 as [out b out' r B|out b o1 b1 out' r B D IH]; intros out2 r2 H; inversion H; subst.
  - eapply block_unique; eassumption.
  - match goal with B' : block out b _ _ |- _ => destruct (block_unique _ _ _ _ _ _ B B') as [<- <-] end. apply IH. assumption.
Qed.
Theorem unzips_unique z d d' : unzips z d -> unzips z d' -> d = d'.
Proof.
  intros (m & x & o & body & crc & isz & pad & E & Lm & Lc & Li & D & _) (m' & x' & o' & body' & crc' & isz' & pad' & E' & Lm' & Lc' & Li' & D' & _).
  rewrite E in E'. cbn [app] in E'. injection E' as E'. destruct (app_same _ _ _ _ E') as [-> E1]; [congruence|]. injection E1 as -> -> E1.
  assert (length body = length body') by (apply (f_equal (@length byte)) in E1; rewrite !app_length in E1; lia).
  destruct (app_same _ _ _ _ E1) as [-> _]; [assumption|]. exact (proj1 (deflated_unique _ _ _ _ D _ _ D')).
Qed.
