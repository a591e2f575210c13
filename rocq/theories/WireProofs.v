(** Reading the protobuf encoding: soundness and completeness with respect to SpecWire. *)
From Verif Require Import ProofBase GoStrings Lib Server Wire SpecWire.

(** ** Variable-length integers *)
Lemma base128_nonneg v b : base128 v b -> 0 <= v.
Proof. induction 1; lia. Qed.
Lemma base128_nonempty v b : base128 v b -> b <> [].
Proof. destruct 1; congruence. Qed.
Lemma base128_bytes v b : base128 v b -> bytes_ok b.
Proof. induction 1; constructor; auto; red; lia. Qed.

Definition lim (i : nat) : Z := match i with O => 0 | S j => 2 * 128 ^ Z.of_nat j end.
Lemma lim_S j : lim (S (S j)) = 128 * lim (S j).
Proof. unfold lim. rewrite Nat2Z.inj_succ, Z.pow_succ_r by lia. lia. Qed.
Lemma lim_1 : lim 1 = 2. Proof. reflexivity. Qed.
Lemma lim_ge j : 2 <= lim (S j).
Proof. induction j; [rewrite lim_1; lia|]. rewrite lim_S. lia. Qed.

Lemma varint_complete v b : base128 v b -> forall i r, (length b <= i)%nat -> v < lim i -> varint i (b ++ r) = Some (v, r).
Proof.
  induction 1 as [y Y|y v b Y B IH]; intros i r L V.
  - destruct i as [|j]; [simpl in L; lia|]. cbn [app varint].
    replace (y <? 128) with true by lia.
    destruct (Nat.eqb j 0) eqn:J; [|reflexivity]. apply Nat.eqb_eq in J as ->. rewrite lim_1 in V.
    replace (y <? 2) with true by lia. reflexivity.
  - destruct i as [|j]; [simpl in L; lia|]. cbn [app varint].
    replace (y <? 128) with false by lia. pose proof (base128_nonneg _ _ B).
    pose proof (base128_nonempty _ _ B). destruct b as [|b0 b]; [congruence|]. simpl in L.
    destruct j as [|k]; [lia|]. rewrite lim_S in V.
    rewrite IH; [reflexivity|simpl; lia|lia].
Qed.
Lemma varint_sound i : forall b v r, bytes_ok b -> varint i b = Some (v, r) ->
  exists t, b = t ++ r /\ base128 v t /\ (length t <= i)%nat /\ v < lim i.
Proof.
  induction i as [|j IH]; intros b v r B H; [destruct b; discriminate|].
  destruct b as [|y b]; [discriminate|]. cbn [varint] in H. inversion B as [|? ? Y B']; subst. red in Y.
  destruct (y <? 128) eqn:E.
  - destruct (Nat.eqb j 0 && negb (y <? 2)) eqn:T; [discriminate|]. injection H as <- <-.
    exists [y]. split; [reflexivity|]. split; [constructor; lia|]. split; [simpl; lia|].
    destruct j as [|k].
    + rewrite lim_1. simpl in T. lia.
    + rewrite lim_S. pose proof (lim_ge k). lia.
  - destruct (varint j b) as [[v' r']|] eqn:V; [|discriminate]. injection H as <- <-.
    destruct (IH _ _ _ B' V) as (t & -> & T & L & M).
    exists (y :: t). split; [reflexivity|]. split; [constructor; auto; lia|].
    split; [simpl; lia|]. pose proof (base128_nonempty _ _ T).
    destruct j as [|k]; [destruct t; simpl in L; [congruence|lia]|].
    rewrite lim_S. lia.
Qed.
Lemma lim_10 : lim 10 = 18446744073709551616. Proof. reflexivity. Qed.
Lemma consume_varint v b r : is_varint v b -> consumeVarint (b ++ r) = Some (v, r).
Proof. intros (B & L & V). apply varint_complete; auto. Qed.
Lemma consumed_varint b v r : bytes_ok b -> consumeVarint b = Some (v, r) -> exists t, b = t ++ r /\ is_varint v t.
Proof.
  intros B H. destruct (varint_sound _ _ _ _ B H) as (t & -> & T & L & V). exists t.
  split; [reflexivity|]. unfold is_varint. rewrite <- lim_10. auto.
Qed.
Lemma is_varint_nonneg v b : is_varint v b -> 0 <= v.
Proof. intros (B & _). eapply base128_nonneg; eauto. Qed.
Lemma is_varint_bytes v b : is_varint v b -> bytes_ok b.
Proof. intros (B & _). eapply base128_bytes; eauto. Qed.
Lemma is_varint_len v b : is_varint v b -> (1 <= length b)%nat.
Proof. intros (B & _). pose proof (base128_nonempty _ _ B). destruct b; simpl; [congruence|lia]. Qed.

(** ** Pieces of known length *)
Lemma consume_n n b r : len b = n -> consumeN n (b ++ r) = Some (b, r).
Proof.
  intros H. unfold consumeN, len in *. rewrite app_length.
  replace (n <=? Z.of_nat (length b + length r)) with true by lia.
  replace (Z.to_nat n) with (length b) by lia.
  rewrite firstn_app, Nat.sub_diag, firstn_all, firstn_O, app_nil_r.
  rewrite skipn_app, Nat.sub_diag, skipn_all. reflexivity.
Qed.
Lemma consumed_n n b p r : 0 <= n -> consumeN n b = Some (p, r) -> b = p ++ r /\ len p = n.
Proof.
  unfold consumeN, len. intros N H. destruct (n <=? _) eqn:L; [|discriminate]. injection H as <- <-.
  rewrite firstn_skipn. split; auto. rewrite firstn_length. lia.
Qed.
Lemma consume_bytes b l r : is_varint (len b) l -> consumeBytes (l ++ b ++ r) = Some (b, r).
Proof. intros V. unfold consumeBytes. rewrite (consume_varint _ _ _ V). apply consume_n; auto. Qed.
Lemma consumed_bytes b p r : bytes_ok b -> consumeBytes b = Some (p, r) ->
  exists l, b = l ++ p ++ r /\ is_varint (len p) l.
Proof.
  unfold consumeBytes. intros B H. destruct (consumeVarint b) as [[m q]|] eqn:V; [|discriminate].
  destruct (consumed_varint _ _ _ B V) as (t & -> & T).
  destruct (consumed_n _ _ _ _ (is_varint_nonneg _ _ T) H) as (-> & <-). exists t. auto.
Qed.
Lemma consume_tag n w t r : 1 <= n <= 2147483647 -> 0 <= w < 8 -> is_varint (8 * n + w) t ->
  consumeTag (t ++ r) = Some (n, w, r).
Proof.
  intros N W V. unfold consumeTag. rewrite (consume_varint _ _ _ V).
  replace ((8 * n + w) / 8) with n by lia. replace ((8 * n + w) mod 8) with w by lia.
  replace ((n >? 2147483647) || (n <? 1)) with false by lia. reflexivity.
Qed.
Lemma consumed_tag b n w r : bytes_ok b -> consumeTag b = Some (n, w, r) ->
  exists t, b = t ++ r /\ is_varint (8 * n + w) t /\ 1 <= n <= 2147483647 /\ 0 <= w < 8.
Proof.
  unfold consumeTag. intros B H. destruct (consumeVarint b) as [[v q]|] eqn:V; [|discriminate].
  destruct (consumed_varint _ _ _ B V) as (t & -> & T).
  destruct (_ || _) eqn:C; [discriminate|]. injection H as <- <- <-. exists t.
  replace (8 * (v / 8) + v mod 8) with v by lia. split; auto. split; auto. lia.
Qed.

Lemma bytes_app a b : bytes_ok (a ++ b) <-> bytes_ok a /\ bytes_ok b.
Proof. apply Forall_app. Qed.
Lemma wtype_range w : 0 <= wtype w < 8.
Proof. destruct w; simpl; lia. Qed.

(** ** Skipping a field *)
Scheme wire_value_mut := Induction for wire_value Sort Prop
  with wire_fields_mut := Induction for wire_fields Sort Prop.

Lemma skip_complete d n w b : wire_value d n w b -> 1 <= n <= 2147483647 ->
  forall fuel r, (2 * length b + 1 <= fuel)%nat -> skipValue fuel d n (wtype w) (b ++ r) = Some r.
Proof.
  revert d n w b.
  apply (wire_value_mut
    (fun d n w b (_ : wire_value d n w b) => 1 <= n <= 2147483647 -> forall fuel r, (2 * length b + 1 <= fuel)%nat ->
       skipValue fuel d n (wtype w) (b ++ r) = Some r)
    (fun d mx fs b (_ : wire_fields d mx fs b) => mx = 2147483647 -> forall n e fuel r,
       1 <= n <= 2147483647 -> is_varint (8 * n + 4) e ->
       (2 * length (b ++ e) <= fuel)%nat -> skipGroup fuel (d + 1) n (b ++ e ++ r) = Some r)).
  - intros d n v b V N [|f] r F; [lia|]. simpl. rewrite (consume_varint _ _ _ V). reflexivity.
  - intros d n b L N [|f] r F; [lia|]. simpl. rewrite consume_n by (unfold len; lia). reflexivity.
  - intros d n b l V N [|f] r F; [lia|]. simpl. rewrite <- app_assoc, consume_bytes by auto. reflexivity.
  - intros d n fs b e D G IH E N [|f] r F; [lia|]. simpl. replace (d <? 0) with false by lia.
    rewrite <- app_assoc. replace d with (d - 1 + 1) by lia. apply IH; auto. lia.
  - intros d n b L N [|f] r F; [lia|]. simpl. rewrite consume_n by (unfold len; lia). reflexivity.
  - intros d mx -> n e [|f] r N E F; [pose proof (is_varint_len _ _ E); simpl in F; lia|].
    simpl. rewrite (consume_tag n 4) by (auto; lia). replace (n =? n) with true by lia. reflexivity.
  - intros d mx n w fs t b q N T V IHv G IHg -> n0 e [|f] r N0 E F;
      [pose proof (is_varint_len _ _ E); rewrite !app_length in F; lia|].
    pose proof (is_varint_len _ _ T) as LT. rewrite !app_length in F.
    cbn [skipGroup]. rewrite <- !app_assoc. rewrite (consume_tag n (wtype w)) by (auto; apply wtype_range).
    replace (wtype w =? 4) with false by (destruct w; reflexivity).
    replace (d + 1 - 1) with d by lia.
    rewrite IHv by (auto; lia). rewrite IHg; auto. rewrite app_length. lia.
Qed.

Lemma skip_sound f :
  (forall d n typ b r, bytes_ok b -> skipValue f d n typ b = Some r ->
     exists w p, b = p ++ r /\ wtype w = typ /\ wire_value d n w p) /\
  (forall d n b r, bytes_ok b -> skipGroup f d n b = Some r ->
     exists fs p e, b = p ++ e ++ r /\ wire_fields (d - 1) 2147483647 fs p /\ is_varint (8 * n + 4) e).
Proof.
  induction f as [|f [IHv IHg]]; [split; discriminate|]. split.
  - intros d n typ b r B H. cbn [skipValue] in H.
    destruct (typ =? 0) eqn:T0; [|destruct (typ =? 1) eqn:T1; [|destruct (typ =? 2) eqn:T2; [|destruct (typ =? 3) eqn:T3;
      [|destruct (typ =? 5) eqn:T5; [|discriminate]]]]].
    + destruct (consumeVarint b) as [[v q]|] eqn:V; [|discriminate]. injection H as <-.
      destruct (consumed_varint _ _ _ B V) as (t & -> & T). exists (WVarint v), t.
      split; auto. split; [simpl; lia|]. constructor; auto.
    + destruct (consumeN 8 b) as [[v q]|] eqn:V; [|discriminate]. injection H as <-.
      apply consumed_n in V as (-> & L); [|lia]. exists (WFix64 v), v.
      split; auto. split; [simpl; lia|]. constructor; auto. unfold len in L. lia.
    + destruct (consumeBytes b) as [[v q]|] eqn:V; [|discriminate]. injection H as <-.
      destruct (consumed_bytes _ _ _ B V) as (l & -> & L). exists (WBytes v), (l ++ v).
      split; [now rewrite app_assoc|]. split; [simpl; lia|]. constructor; auto.
    + destruct (d <? 0) eqn:D; [discriminate|].
      destruct (IHg _ _ _ _ B H) as (fs & p & e & -> & W & E). exists (WGroup fs), (p ++ e).
      split; [now rewrite app_assoc|]. split; [simpl; lia|]. constructor; auto. lia.
    + destruct (consumeN 4 b) as [[v q]|] eqn:V; [|discriminate]. injection H as <-.
      apply consumed_n in V as (-> & L); [|lia]. exists (WFix32 v), v.
      split; auto. split; [simpl; lia|]. constructor; auto. unfold len in L. lia.
  - intros d n b r B H. cbn [skipGroup] in H.
    destruct (consumeTag b) as [[[n2 t2] q]|] eqn:T; [|discriminate].
    destruct (consumed_tag _ _ _ _ B T) as (t & -> & V & N & W). apply bytes_app in B as (Bt & Bq).
    destruct (t2 =? 4) eqn:T4.
    + destruct (n =? n2) eqn:E; [|discriminate]. injection H as <-.
      exists [], [], t. split; [reflexivity|]. split; [constructor|].
      replace (8 * n + 4) with (8 * n2 + t2) by lia. auto.
    + destruct (skipValue f (d - 1) n2 t2 q) as [q2|] eqn:S; [|discriminate].
      destruct (IHv _ _ _ _ _ Bq S) as (w & p & -> & <- & WV). apply bytes_app in Bq as (Bp & Bq).
      destruct (IHg _ _ _ _ Bq H) as (fs & p2 & e & -> & WF & E).
      exists ((n2, w) :: fs), (t ++ p ++ p2), e. split; [now rewrite <- !app_assoc|]. split; auto. econstructor; eauto.
Qed.

Lemma value_skip n w b r : wire_value 10000 n w b -> 1 <= n <= 2147483647 ->
  consumeFieldValue n (wtype w) (b ++ r) = Some r.
Proof. intros W N. apply (skip_complete _ _ _ _ W N). rewrite app_length. lia. Qed.
Lemma skip_value n typ b r : bytes_ok b -> consumeFieldValue n typ b = Some r ->
  exists w p, b = p ++ r /\ wtype w = typ /\ wire_value 10000 n w p.
Proof. intros B H. eapply (proj1 (skip_sound _)); eauto. Qed.

(** ** Whole messages *)

(** The value that a field of kind [k] takes from [w]; None: another type. *)
Definition taken_of (k : kind) (w : wval) : option pval :=
  match k, w with
  | KUint32, WVarint v => Some (VInt (u32 v))
  | KBool, WVarint v => Some (VBool (negb (v =? 0)))
  | KEnum, WVarint v => Some (VInt (i32 v))
  | KFloat, WFix32 b => Some (VFloat (le b))
  | KString, WBytes b => Some (VStr b)
  | _, _ => None
  end.
(** The message after the fields. *)
Fixpoint after (d : desc) (m : msg) (fs : list (Z * wval)) : msg :=
  match fs with
  | [] => m
  | (n, w) :: r => match lookup n d with
                   | Some k => match taken_of k w with Some v => after d ((n, v) :: m) r | None => after d m r end
                   | None => after d m r
                   end
  end.
(** Strings are UTF-8. *)
Definition texts (d : desc) (fs : list (Z * wval)) : Prop :=
  forall n s, In (n, WBytes s) fs -> lookup n d = Some KString -> validUTF8 s = true.

Lemma take_value n k w b r : wire_value 10000 n w b -> (k = KString -> forall s, w = WBytes s -> validUTF8 s = true) ->
  take k (wtype w) (b ++ r) = match taken_of k w with Some v => Took v r | None => Other end.
Proof.
  intros W U. inversion W; subst; destruct k; simpl; auto;
    try (rewrite (consume_varint _ _ _ H); reflexivity).
  - rewrite <- app_assoc, consume_bytes by auto. rewrite (U eq_refl _ eq_refl). reflexivity.
  - rewrite consume_n by (unfold len; lia). reflexivity.
Qed.

Lemma unmarshal_complete d fs b : wire_fields 10000 536870911 fs b -> texts d fs ->
  forall fuel m, (length b <= fuel)%nat -> unmarshal_ fuel d m b = Some (after d m fs).
Proof.
  remember 10000 as dep eqn:D. remember 536870911 as mx eqn:M.
  intros W. revert D M. induction W as [|dep mx n w fs t b r N T V W IH]; intros -> ->; intros U fuel m L.
  - destruct fuel; reflexivity.
  - pose proof (is_varint_len _ _ T) as LT. rewrite !app_length in L.
    destruct fuel as [|f]; [lia|].
    assert (U' : texts d fs) by (intros x s I; apply (U x s); right; auto).
    destruct t as [|t0 t]; [simpl in LT; lia|].
    cbn [unmarshal_ app]. change (t0 :: t ++ b ++ r) with ((t0 :: t) ++ b ++ r).
    rewrite (consume_varint _ _ _ T).
    pose proof (wtype_range w).
    replace ((8 * n + wtype w) / 8) with n by lia. replace ((8 * n + wtype w) mod 8) with (wtype w) by lia.
    replace ((n <? 1) || (n >? 536870911)) with false by lia.
    replace (wtype w =? 4) with false by (destruct w; reflexivity).
    rewrite value_skip by (auto; lia). cbn [after].
    destruct (lookup n d) as [k|] eqn:K.
    + assert (Uk : k = KString -> forall s, w = WBytes s -> validUTF8 s = true).
      { intros -> s ->. apply (U n s); auto. left. reflexivity. }
      rewrite (take_value n k w b r V Uk).
      destruct (taken_of k w); apply IH; auto; lia.
    + apply IH; auto; lia.
Qed.

Lemma unmarshal_sound d : forall fuel m b m', bytes_ok b -> unmarshal_ fuel d m b = Some m' ->
  exists fs, wire_fields 10000 536870911 fs b /\ texts d fs /\ m' = after d m fs.
Proof.
  induction fuel as [|f IH]; intros m b m' B H.
  - destruct b; [|discriminate]. injection H as <-. exists []. split; [constructor|]. split; [intros ? ? []|reflexivity].
  - destruct b as [|b0 b1]; [injection H as <-; exists []; split; [constructor|]; split; [intros ? ? []|reflexivity]|].
    remember (b0 :: b1) as b eqn:Eb. cbn [unmarshal_] in H. rewrite Eb in H. rewrite <- Eb in H. clear Eb b0 b1.
    destruct (consumeVarint b) as [[tag q]|] eqn:V; [|discriminate].
    destruct (consumed_varint _ _ _ B V) as (t & -> & T). apply bytes_app in B as (Bt & B).
    pose proof (is_varint_nonneg _ _ T) as P.
    destruct ((tag / 8 <? 1) || (tag / 8 >? 536870911)) eqn:N; [discriminate|].
    destruct (tag mod 8 =? 4) eqn:T4; [discriminate|].
    assert (N' : 1 <= tag / 8 <= 536870911) by lia.
    remember (tag / 8) as n eqn:En.
    (* whatever is read next is a value, and the rest is a message *)
    assert (K : forall w p r m1, q = p ++ r -> wtype w = tag mod 8 -> wire_value 10000 n w p ->
        (match lookup n d with Some k => match taken_of k w with Some v => (n, v) :: m | None => m end | None => m end) = m1 ->
        (lookup n d = Some KString -> forall s, w = WBytes s -> validUTF8 s = true) ->
        unmarshal_ f d m1 r = Some m' ->
        exists fs, wire_fields 10000 536870911 fs (t ++ q) /\ texts d fs /\ m' = after d m fs).
    { intros w p r m1 -> Wt Wv <- U R. apply bytes_app in B as (Bp & Br).
      destruct (IH _ _ _ Br R) as (fs & F & Ts & ->). exists ((n, w) :: fs).
      split; [econstructor; eauto; replace (8 * n + wtype w) with tag by lia; auto|].
      split.
      - intros x s [I|I] L; [injection I as E1 E2; subst x w; apply (U L); auto|apply (Ts x s); auto].
      - cbn [after]. destruct (lookup n d) as [k|]; [destruct (taken_of k w)|]; reflexivity. }
    assert (KU : match consumeFieldValue n (tag mod 8) q with Some r => unmarshal_ f d m r | None => None end = Some m' ->
        (forall k w, lookup n d = Some k -> wtype w = tag mod 8 -> taken_of k w = None) ->
        exists fs, wire_fields 10000 536870911 fs (t ++ q) /\ texts d fs /\ m' = after d m fs).
    { intros S No. destruct (consumeFieldValue n (tag mod 8) q) as [r|] eqn:C; [|discriminate].
      destruct (skip_value _ _ _ _ B C) as (w & p & -> & Wt & Wv).
      apply (K w p r m); auto.
      - destruct (lookup n d) as [k|] eqn:Lk; [|auto]. rewrite (No k w); auto.
      - intros Lk s ->. specialize (No _ _ Lk Wt). discriminate. }
    destruct (lookup n d) as [k|] eqn:Lk.
    + destruct (take k (tag mod 8) q) as [v r| |] eqn:Tk; [| |discriminate].
      * destruct k; simpl in Tk.
        -- destruct (tag mod 8 =? 0) eqn:W0; [|discriminate].
           destruct (consumeVarint q) as [[x y]|] eqn:C; [|discriminate]. injection Tk as <- <-.
           destruct (consumed_varint _ _ _ B C) as (p & -> & X).
           apply (K (WVarint x) p y ((n, VInt (u32 x)) :: m)); auto; [simpl; lia|constructor; auto|discriminate].
        -- destruct (tag mod 8 =? 0) eqn:W0; [|discriminate].
           destruct (consumeVarint q) as [[x y]|] eqn:C; [|discriminate]. injection Tk as <- <-.
           destruct (consumed_varint _ _ _ B C) as (p & -> & X).
           apply (K (WVarint x) p y ((n, VBool (negb (x =? 0))) :: m)); auto; [simpl; lia|constructor; auto|discriminate].
        -- destruct (tag mod 8 =? 0) eqn:W0; [|discriminate].
           destruct (consumeVarint q) as [[x y]|] eqn:C; [|discriminate]. injection Tk as <- <-.
           destruct (consumed_varint _ _ _ B C) as (p & -> & X).
           apply (K (WVarint x) p y ((n, VInt (i32 x)) :: m)); auto; [simpl; lia|constructor; auto|discriminate].
        -- destruct (tag mod 8 =? 5) eqn:W0; [|discriminate].
           destruct (consumeN 4 q) as [[x y]|] eqn:C; [|discriminate]. injection Tk as <- <-.
           apply consumed_n in C as (-> & L4); [|lia].
           apply (K (WFix32 x) x y ((n, VFloat (le x)) :: m)); auto; [simpl; lia|constructor; unfold len in L4; lia|discriminate].
        -- destruct (tag mod 8 =? 2) eqn:W0; [|discriminate].
           destruct (consumeBytes q) as [[x y]|] eqn:C; [|discriminate].
           destruct (validUTF8 x) eqn:U; [|discriminate]. injection Tk as <- <-.
           destruct (consumed_bytes _ _ _ B C) as (l & -> & X).
           apply (K (WBytes x) (l ++ x) y ((n, VStr x) :: m)); auto; [now rewrite app_assoc|simpl; lia|constructor; auto|].
           intros _ s E. injection E as <-. auto.
      * apply KU; auto. intros k' w E Wt. injection E as <-.
        destruct k; simpl in Tk; repeat match type of Tk with
          | (if ?c then _ else _) = _ => destruct c eqn:? | match ?c with _ => _ end = _ => destruct c as [[? ?]|] eqn:? end;
          try discriminate; destruct w; simpl in *; auto; lia.
    + apply KU; auto. discriminate.
Qed.
