(** Proofs about log lines. *)
From Coq Require Import String.
From Verif Require Import ProofBase GoStrings SpecWire Server Wire Twirp SpecTwirp GoClient SpecGo SpecJson SpecJsonError SpecDuration Utf8Proofs
  JsonScan JsonReadProofs JsonWrite JsonWriteProofs JsonReplyProofs JsonError JsonErrorStrings JsonErrorProofs Duration DurationProofs TwirpProofs
  ErrorText SpecErrorText ErrorTextProofs Log SpecLog.

(** ** The grammar is unambiguous *)
Lemma utf8_34 c r t : scalar c -> c <> 34 -> utf8_of c ++ r <> 34 :: t.
Proof.
  intros S N E. destruct (Z_lt_ge_dec c 128) as [L|L].
  - rewrite ascii_utf8 in E by (red in S; lia). injection E as -> _. congruence.
  - destruct (high_head c S ltac:(lia)) as (x & y & Ex & Hx). rewrite Ex in E. injection E as -> _. lia.
Qed.
Lemma lit_prefix x s : lit x s -> forall x' s' r r', lit x' s' -> x ++ 34 :: r = x' ++ 34 :: r' -> x = x' /\ s = s' /\ r = r'.
Proof.
  induction 1 as [|c a s S N1 N2 N3 L IH|e c a s I L IH|x v a s H Lx L IH|x v a s H Lx S L IH|x v a s H Lx S L IH]; intros x' s' r r' L' E;
    destruct L' as [|c' a' s1 S' M1 M2 M3 L1|e' c' a' s1 I' L1|y v' a' s1 H' Ly L1|y v' a' s1 H' Ly S' L1|y v' a' s1 H' Ly S' L1];
    rewrite <- ?app_assoc in E; cbn [app] in E; rewrite <- ?app_assoc in E.
  all: try (injection E; intros; subst; congruence).
  all: try (match goal with E : 34 :: _ = utf8_of _ ++ _ |- _ => symmetry in E; apply utf8_34 in E; tauto end).
  all: try (match goal with E : utf8_of _ ++ _ = 34 :: _ |- _ => apply utf8_34 in E; tauto end).
  all: try (match goal with E : 92 :: _ = utf8_of _ ++ _ |- _ => symmetry in E; apply utf8_92 in E; tauto end).
  all: try (match goal with E : utf8_of _ ++ _ = 92 :: _ |- _ => apply utf8_92 in E; tauto end).
  all: try (match goal with I : In (_, _) go_escapes |- _ => destruct (escapes_key _ _ I) as (? & ? & ?); congruence end).
  - injection E as ->. auto.
  - destruct (utf8_prefix _ _ _ _ S S' E) as [<- E']. destruct (IH _ _ _ _ L1 E') as (-> & -> & ->). auto.
  - injection E as <- E. rewrite (escapes_fun _ _ _ I I'). destruct (IH _ _ _ _ L1 E) as (-> & -> & ->). auto.
  - injection E as E. destruct (app_inj_len x y _ _ ltac:(congruence) E) as [-> E']. rewrite (hex_digits_fun _ _ H _ H'). destruct (IH _ _ _ _ L1 E') as (-> & -> & ->). auto.
  - injection E as E. destruct (app_inj_len x y _ _ ltac:(congruence) E) as [-> E']. rewrite (hex_digits_fun _ _ H _ H'). destruct (IH _ _ _ _ L1 E') as (-> & -> & ->). auto.
  - injection E as E. destruct (app_inj_len x y _ _ ltac:(congruence) E) as [-> E']. rewrite (hex_digits_fun _ _ H _ H'). destruct (IH _ _ _ _ L1 E') as (-> & -> & ->). auto.
Qed.
Lemma span_prefix {A} (P : A -> Prop) s : Forall P s -> forall s' c r c' r', Forall P s' -> ~ P c -> ~ P c' -> s ++ c :: r = s' ++ c' :: r' -> s = s' /\ c = c' /\ r = r'.
Proof.
  induction 1 as [|x s X F IH]; intros s' c r c' r' F' N N' E; destruct F' as [|y s' Y F']; cbn [app] in E; injection E as E1 E2; subst; auto; try contradiction.
  destruct (IH _ _ _ _ _ F' N N' E2) as (-> & -> & ->). auto.
Qed.
Definition stop (c : byte) : Prop := c = 10 \/ c = 32 \/ c = 61.
Lemma token_prefix t s t' s' c r c' r' : token t s -> token t' s' -> stop c -> stop c' -> t ++ c :: r = t' ++ c' :: r' -> t = t' /\ s = s' /\ c = c' /\ r = r'.
Proof.
  intros T T' C C' E.
  assert (W : forall w, word w -> exists x y, w = x :: y /\ x <> 34).
  { intros [|x y] [N F]; [congruence|]. inversion F; subst. exists x, y. split; auto. tauto. }
  destruct T as [[Wd ->]|(x & -> & L)], T' as [[Wd' ->]|(x' & -> & L')].
  - assert (N : forall z, stop z -> ~ (32 < z /\ z <> 34 /\ z <> 61)) by (unfold stop; lia).
    destruct (span_prefix _ s (proj2 Wd) s' c r c' r' (proj2 Wd') (N _ C) (N _ C') E) as (-> & -> & ->). auto.
  - destruct (W _ Wd) as (a & b & -> & Na). cbn in E. injection E as -> _. congruence.
  - destruct (W _ Wd') as (a & b & -> & Na). cbn in E. injection E as <- _. congruence.
  - cbn [app] in E. injection E as E. rewrite <- !app_assoc in E. cbn [app] in E. destruct (lit_prefix _ _ L _ _ _ _ L' E) as (-> & -> & E'). injection E' as -> ->. auto.
Qed.
Lemma pair_prefix t p t' p' c r c' r' : pair_text t p -> pair_text t' p' -> stop c -> stop c' -> t ++ c :: r = t' ++ c' :: r' -> t = t' /\ p = p' /\ c = c' /\ r = r'.
Proof.
  intros (a & b & -> & A & B) (a' & b' & -> & A' & B') C C' E. rewrite <- !app_assoc in E. cbn [app] in E.
  destruct (token_prefix _ _ _ _ _ _ _ _ A A' ltac:(unfold stop; auto) ltac:(unfold stop; auto) E) as (-> & E1 & _ & E').
  destruct (token_prefix _ _ _ _ _ _ _ _ B B' C C' E') as (-> & E2 & -> & ->). destruct p, p'; cbn in *; subst; auto.
Qed.
Lemma pairs_prefix t l : pairs t l -> forall t' l' r r', pairs t' l' -> t ++ 10 :: r = t' ++ 10 :: r' -> t = t' /\ l = l' /\ r = r'.
Proof.
  induction 1 as [t p P|t p t1 l P H IH]; intros t' l' r r' H' E; destruct H' as [t' p' P'|t' p' t1' l' P' H'];
    rewrite <- ?app_assoc in E; cbn [app] in E;
    match type of E with _ ++ ?c :: _ = _ ++ ?c' :: _ =>
      destruct (pair_prefix _ _ _ _ c _ c' _ P P' ltac:(unfold stop; auto) ltac:(unfold stop; auto) E) as (-> & -> & C & E') end; try discriminate.
  - subst. auto.
  - destruct (IH _ _ _ _ H' E') as (-> & -> & ->). auto.
Qed.
Lemma line_prefix t l t' l' r r' : log_line t l -> log_line t' l' -> t ++ r = t' ++ r' -> t = t' /\ l = l' /\ r = r'.
Proof.
  intros (x & -> & P) (x' & -> & P') E. rewrite <- !app_assoc in E. cbn [app] in E. destruct (pairs_prefix _ _ P _ _ _ _ P' E) as (-> & -> & ->). auto.
Qed.
Lemma line_unique t l l' : log_line t l -> log_line t l' -> l = l'.
Proof. intros A B. destruct (line_prefix _ _ _ _ [] [] A B eq_refl) as (_ & E & _). exact E. Qed.
Lemma line_nonempty t l : log_line t l -> t <> [].
Proof. intros (x & -> & _) E. destruct x; discriminate. Qed.
Lemma file_prefix t ls : log_file t ls -> forall rest ls', log_file (t ++ rest) ls' -> exists ls'', ls' = ls ++ ls'' /\ log_file rest ls''.
Proof.
  induction 1 as [|t l t' ls L F IH]; intros rest ls' F'; [exists ls'; auto|]. rewrite <- app_assoc in F'.
  inversion F' as [E|u k u' ks K F1 E E1]; subst.
  - symmetry in E. apply app_eq_nil in E. destruct (line_nonempty _ _ L (proj1 E)).
  - destruct (line_prefix _ _ _ _ _ _ K L E) as (-> & -> & ->). destruct (IH _ _ F1) as (ls2 & -> & F2). exists ls2. auto.
Qed.
Lemma file_nil ls : log_file [] ls -> ls = [].
Proof. intros F. inversion F as [|t l t' ls' L F' E]; auto. apply app_eq_nil in E. destruct (line_nonempty _ _ L (proj1 E)). Qed.
Lemma file_unique t ls ls' : log_file t ls -> log_file t ls' -> ls = ls'.
Proof.
  intros A B. rewrite <- (app_nil_r t) in B. destruct (file_prefix _ _ A _ _ B) as (x & -> & F). apply file_nil in F. subst. symmetry. apply app_nil_r.
Qed.

(** ** Lines are lines *)
Lemma hex_plain x v : hex_digits x v -> ~ In 10 x.
Proof.
  induction 1 as [|x v d n H IH D]; [intros []|]. rewrite in_app_iff. intros [I|[J|[]]]; [exact (IH I)|]. inversion D; lia.
Qed.
Lemma lit_plain x s : lit x s -> ~ In 10 x.
Proof.
  induction 1 as [|c a s S N1 N2 N3 L IH|e c a s I L IH|x v a s H Lx L IH|x v a s H Lx S L IH|x v a s H Lx S L IH]; cbn [In]; rewrite ?in_app_iff.
  - tauto.
  - intros [J|J]; [|auto]. destruct (Z_lt_ge_dec c 128) as [Lc|Lc].
    + rewrite ascii_utf8 in J by (red in S; lia). destruct J as [J|[]]. congruence.
    + pose proof (high_utf8 c S ltac:(lia)) as F. rewrite Forall_forall in F. specialize (F _ J). lia.
  - intros [J|[J|J]]; [lia| |auto]. subst. unfold go_escapes in I. cbn [In] in I. repeat (destruct I as [I|I]; [discriminate|]). destruct I.
  - apply hex_plain in H. intros [J|[J|[J|J]]]; try lia; tauto.
  - apply hex_plain in H. intros [J|[J|[J|J]]]; try lia; tauto.
  - apply hex_plain in H. intros [J|[J|[J|J]]]; try lia; tauto.
Qed.
Lemma token_plain t s : token t s -> ~ In 10 t.
Proof.
  intros [[[_ W] ->]|(x & -> & L)] I.
  - rewrite Forall_forall in W. specialize (W _ I). lia.
  - cbn [In] in I. rewrite in_app_iff in I. cbn [In] in I. apply lit_plain in L. destruct I as [I|[I|[I|[]]]]; try lia. tauto.
Qed.
Lemma pair_plain t p : pair_text t p -> ~ In 10 t.
Proof.
  intros (a & b & -> & A & B). rewrite !in_app_iff. cbn [In]. apply token_plain in A, B. intros [I|[[I|[]]|I]]; try lia; tauto.
Qed.
Lemma pairs_plain t l : pairs t l -> ~ In 10 t.
Proof.
  induction 1 as [t p P|t p t1 l P H IH]; [eapply pair_plain; eauto|]. rewrite !in_app_iff. cbn [In]. apply pair_plain in P. intros [I|[[I|[]]|I]]; try lia; tauto.
Qed.
Lemma line_one t l : log_line t l -> exists x, t = x ++ [10] /\ ~ In 10 x.
Proof. intros (x & -> & P). exists x. split; auto. eapply pairs_plain; eauto. Qed.

(** ** The handler writes such lines *)
Section Handler.
  Variables isPrint isSpace : Z -> bool.
  Notation put := (appendString isPrint isSpace).
  Lemma unquoted_word n : forall s, (List.length s <= n)%nat -> bytes_ok s -> needsQuoting_ isPrint isSpace n s = false -> Forall (fun c => 32 < c /\ c <> 34 /\ c <> 61) s.
  Proof.
    induction n as [|n IH]; intros s L B; (destruct s as [|b s]; [constructor|]); [cbn in L; lia|]. cbn [needsQuoting_].
    destruct (b <? 128) eqn:Hb.
    - destruct (negb (b =? 92) && _) eqn:Q; [discriminate|]. intros H. constructor; [|apply IH; auto; [cbn in L; lia|inversion B; auto]].
      inversion B as [|? ? B1 B2]; subst. unfold byte_ok in B1. unfold safeSet in Q. lia.
    - destruct (rune_cases _ B ltac:(discriminate)) as [(c & t & C & E & D)|(NC & c & t & E & Hc & D)]; rewrite D.
      + destruct ((c =? runeError) || _ || _); [discriminate|]. rewrite E, skip_utf8. intros H.
        pose proof (f_equal (@List.length Z) E) as LE. rewrite app_length in LE. pose proof (utf8_len c). cbn [List.length] in L, LE.
        rewrite E in B. apply bytes_app in B. destruct B as [Bc Bt]. apply Forall_app. split; [|apply IH; auto; lia].
        assert (Cc : 128 <= c). { destruct (Z_lt_ge_dec c 128) as [Lc|Lc]; [|lia]. rewrite ascii_utf8 in E by (red in C; lia). injection E as -> _. lia. }
        eapply Forall_impl; [|exact (high_utf8 c C Cc)]. cbn beta. intros; lia.
      + discriminate.
  Qed.
  Lemma put_token s : bytes_ok s -> token (put s) s.
  Proof.
    intros B. unfold appendString. destruct (needsQuoting isPrint isSpace s) eqn:Q; [right; apply quote_literal; auto|left].
    split; auto. unfold needsQuoting in Q. destruct s as [|b s]; [discriminate|]. split; [discriminate|]. eapply unquoted_word; eauto.
  Qed.
  Lemma word_token s : word s -> token s s.
  Proof. left. auto. Qed.
  Lemma dig_word c : dig c -> 32 < c /\ c <> 34 /\ c <> 61.
  Proof. unfold dig. lia. Qed.
  Lemma digs_word l : Forall dig l -> Forall (fun c => 32 < c /\ c <> 34 /\ c <> 61) l.
  Proof. apply Forall_impl. exact dig_word. Qed.
  Lemma unit_word u s : time_unit u s -> Forall (fun c => 32 < c /\ c <> 34 /\ c <> 61) u.
  Proof. intros U. destruct U; vm_compute str; repeat constructor; discriminate. Qed.
  Lemma duration_word t d : says_time t d -> word t.
  Proof.
    assert (P : forall t n, time_part t n -> t <> [] /\ Forall (fun c => 32 < c /\ c <> 34 /\ c <> 61) t).
    { intros u n (i & x & f & un & s & -> & N & I & X & U & _). split; [destruct i; [congruence|discriminate]|].
      rewrite !Forall_app. split; [apply digs_word; auto|]. split; [|exact (unit_word _ _ U)].
      destruct X as [[-> ->]|(-> & _ & F)]; [constructor|]. constructor; [lia|apply digs_word; auto]. }
    assert (Q : forall t n, time_parts t n -> t <> [] /\ Forall (fun c => 32 < c /\ c <> 34 /\ c <> 61) t).
    { induction 1 as [u n T|u n u' n' T _ [IH1 IH2]]; [exact (P _ _ T)|]. destruct (P _ _ T) as [A B]. split; [destruct u; [congruence|discriminate]|]. apply Forall_app. auto. }
    intros (neg & t' & n & -> & T & _). destruct (Q _ _ T) as [A B]. destruct neg; cbn [app]; [|split; auto]. split; [discriminate|]. constructor; [lia|auto].
  Qed.
  Lemma padded_digits w n : 0 <= n < 10 ^ Z.of_nat w -> (1 <= w)%nat -> digits w (padded w n) n.
  Proof.
    intros R W. destruct (itoa_int n ltac:(lia)) as [I N].
    assert (D : Forall dig (itoa n)). { destruct I as [-> | (c & r & -> & C & F)]; constructor; auto; unfold dig; lia. }
    assert (L : (List.length (itoa n) <= w)%nat).
    { destruct I as [-> | (c & r & E & C & F)]; [cbn; lia|]. rewrite E in *. destruct (Nat.le_gt_cases (List.length (c :: r)) w) as [|G]; auto. exfalso.
      assert (X : num (c :: r) >= 10 ^ len r).
      { change (c :: r) with ([c] ++ r). rewrite num_app. pose proof (num_bound r F) as Hb. assert (num [c] >= 1) by (unfold num; cbn; lia). nia. }
      assert (10 ^ Z.of_nat w <= 10 ^ len r) by (apply Z.pow_le_mono_r; [lia|unfold len; cbn in G; lia]). lia. }
    unfold padded, digits. cbv zeta. split; [rewrite app_length, repeat_length; lia|]. split.
    - apply Forall_app. split; auto. apply Forall_forall. intros x Hx. apply repeat_spec in Hx. subst. unfold dig. lia.
    - rewrite num_app, num_zeros, N. lia.
  Qed.
  Lemma date_says d : date_ok d -> date_text (timeText d) d.
  Proof.
    intros (Y & Mo & Da & H & Mi & S & Ms & Zo). unfold timeText.
    exists (padded 4 (t_year d)), (padded 2 (t_month d)), (padded 2 (t_day d)), (padded 2 (t_hour d)), (padded 2 (t_min d)), (padded 2 (t_sec d)), (padded 3 (t_ms d)),
      (if t_zone d =? 0 then [90] else (if t_zone d <? 0 then 45 else 43) :: padded 2 (Z.abs (t_zone d) / 60) ++ 58 :: padded 2 (Z.abs (t_zone d) mod 60)).
    split; [reflexivity|]. do 7 (split; [apply padded_digits; [cbn; lia|lia]|]).
    destruct (t_zone d =? 0) eqn:Z0; [left; split; [lia|reflexivity]|right].
    exists (padded 2 (Z.abs (t_zone d) / 60)), (padded 2 (Z.abs (t_zone d) mod 60)), [if t_zone d <? 0 then 45 else 43], (Z.abs (t_zone d) / 60), (Z.abs (t_zone d) mod 60).
    split; [lia|]. split; [reflexivity|]. do 2 (split; [apply padded_digits; [cbn; lia|lia]|]). split; [lia|].
    destruct (t_zone d <? 0) eqn:Sg; [right|left]; (split; [reflexivity|lia]).
  Qed.
  Ltac plain_text := first [apply digs_word; assumption|match goal with |- Forall _ (str ?x) =>
    let l := eval vm_compute in (str x) in change (str x) with l; repeat (constructor; [lia|]); constructor end].
  Lemma date_word t d : date_text t d -> word t.
  Proof.
    intros (y & mo & da & h & mi & s & ms & z & -> & (Y & Yd & _) & (_ & Mo & _) & (_ & Da & _) & (_ & H & _) & (_ & Mi & _) & (_ & S & _) & (_ & Ms & _) & Zo).
    split; [destruct y; [discriminate|discriminate]|].
    rewrite !Forall_app. repeat (split; [plain_text|]).
    destruct Zo as [[_ ->]|(hh & m & sg & x & yy & _ & -> & (_ & Hd & _) & (_ & Md & _) & _ & Sg)]; [plain_text|].
    rewrite !Forall_app. split; [destruct Sg as [[-> _]|[-> _]]; plain_text|]. repeat split; plain_text.
  Qed.
  Lemma put_value v : value_ok v -> exists s, token (valueText isPrint isSpace v) s /\ value_text s v.
  Proof.
    destruct v as [s|d|s]; cbn [value_ok valueText value_text]; intros O; [exists s; split; [apply put_token; auto|auto]| |exists s; split; [apply put_token; auto|auto]].
    exists (durString d). pose proof (duration_says d) as S. split; auto. left. split; auto. eapply duration_word; eauto.
  Qed.
  Lemma line_says d e : date_ok d -> event_ok e -> exists l, log_line (lineText isPrint isSpace d e) l /\ says_event l d e.
  Proof.
    intros D [M A]. pose proof (date_says d D) as T.
    assert (K : forall attrs, Forall (fun kv => bytes_ok (fst kv) /\ value_ok (snd kv)) attrs -> exists l,
      Forall2 (fun x y => fst x = fst y /\ value_text (snd x) (snd y)) l attrs /\
      forall t p, pair_text t p -> pairs (t ++ attrsText isPrint isSpace attrs) (p :: l)).
    { induction 1 as [|[k v] attrs [Bk Ov] F IH].
      - exists []. split; [constructor|]. intros t p P. cbn [attrsText]. rewrite app_nil_r. constructor. exact P.
      - destruct IH as (l & F2 & H). destruct (put_value v Ov) as (s & Ts & Vs). exists ((k, s) :: l). split; [constructor; auto|].
        intros t p P. cbn [attrsText]. apply (ps_more t p (put k ++ 61 :: valueText isPrint isSpace v ++ attrsText isPrint isSpace attrs)); auto.
        replace (put k ++ 61 :: valueText isPrint isSpace v ++ attrsText isPrint isSpace attrs) with ((put k ++ [61] ++ valueText isPrint isSpace v) ++ attrsText isPrint isSpace attrs)
          by (rewrite <- !app_assoc; reflexivity).
        apply H. exists (put k), (valueText isPrint isSpace v). cbn [fst snd]. splits; auto. apply put_token. exact Bk. }
    destruct (K _ A) as (l & F2 & H). set (lv := level_text (ev_level e)).
    assert (Pl : forall s, ascii s -> token (put s) s). { intros s As. apply put_token. eapply Forall_impl; [|exact As]. unfold byte_ok. cbn beta. intros; lia. }
    assert (As : ascii (str "time") /\ ascii (str "level") /\ ascii (str "msg") /\ ascii lv).
    { unfold lv, ascii. splits; try (destruct (ev_level e)); vm_compute str; repeat constructor; discriminate. }
    destruct As as (A1 & A2 & A3 & A4).
    exists ((str "time", timeText d) :: (str "level", lv) :: (str "msg", ev_msg e) :: l). split.
    - exists ((put (str "time") ++ [61] ++ timeText d) ++ [32] ++ (put (str "level") ++ [61] ++ put lv) ++ [32] ++
              ((put (str "msg") ++ [61] ++ put (ev_msg e)) ++ attrsText isPrint isSpace (ev_attrs e))).
      split; [unfold lineText; cbv zeta; fold lv; repeat (rewrite <- app_assoc; cbn [app]); reflexivity|].
      apply ps_more; [exists (put (str "time")), (timeText d); cbn [fst snd]; splits; auto; left; split; auto; eapply date_word; eauto|].
      apply ps_more; [exists (put (str "level")), (put lv); cbn [fst snd]; splits; auto|].
      apply H. exists (put (str "msg")), (put (ev_msg e)). cbn [fst snd]. splits; auto. apply put_token. exact M.
    - exists (timeText d), l. split; [unfold lv, level_text; destruct (ev_level e); reflexivity|]. split; auto.
  Qed.
  Lemma enabled_shown debug e : enabled debug e = true <-> shown debug e.
  Proof.
    unfold enabled, shown. destruct debug, (ev_level e); cbn; split; auto; try discriminate; try (intros [H|H]; congruence). right. discriminate. right. discriminate.
  Qed.
  Lemma log_tells debug l : Forall (fun x => date_ok (fst x) /\ event_ok (snd x)) l ->
    exists ls, log_file (logText isPrint isSpace debug l) ls /\ tells debug l ls.
  Proof.
    induction 1 as [|[d e] l [D E] F (ls & Lf & T)]; [exists []; split; constructor|]. cbn [fst snd] in *. cbn [logText].
    destruct (enabled debug e) eqn:En.
    - destruct (line_says d e D E) as (x & L & S). exists (x :: ls). split; constructor; auto. apply enabled_shown. auto.
    - exists ls. split; auto. apply te_skip; auto. intros Sh. apply enabled_shown in Sh. congruence.
  Qed.
End Handler.

(** ** Different events, different lines *)
Lemma digits_fun w t n t' n' r r' : digits w t n -> digits w t' n' -> t ++ r = t' ++ r' -> n = n' /\ r = r'.
Proof. intros (L & _ & <-) (L' & _ & <-) E. destruct (app_inj_len t t' r r' ltac:(congruence) E) as [-> ->]. auto. Qed.
Lemma zone_fun t z z' : zone_text t z -> zone_text t z' -> z = z'.
Proof.
  intros [[-> ->]|(h & m & s & x & y & N & -> & H & M & Y & S)] [[-> E]|(h' & m' & s' & x' & y' & N' & E & H' & M' & Y' & S')]; auto.
  - exfalso. destruct S' as [[-> _]|[-> _]]; discriminate.
  - exfalso. destruct S as [[-> _]|[-> _]]; discriminate.
  - assert (Ls : List.length s = List.length s') by (destruct S as [[-> _]|[-> _]], S' as [[-> _]|[-> _]]; reflexivity).
    destruct (app_inj_len s s' _ _ Ls E) as [-> E1]. destruct (digits_fun _ _ _ _ _ _ _ H H' E1) as [-> E2]. apply app_inv_head in E2. subst m'.
    destruct (digits_fun _ _ _ _ _ [] [] M M' eq_refl) as [-> _].
    destruct S as [[-> ->]|[-> ->]], S' as [[E3 ->]|[E3 ->]]; try discriminate; reflexivity.
Qed.
Lemma date_fun t d d' : date_text t d -> date_text t d' -> d = d'.
Proof.
  intros (y & mo & da & h & mi & s & ms & z & -> & Y & Mo & Da & H & Mi & S & Ms & Zo) (y' & mo' & da' & h' & mi' & s' & ms' & z' & E & Y' & Mo' & Da' & H' & Mi' & S' & Ms' & Zo').
  destruct (digits_fun _ _ _ _ _ _ _ Y Y' E) as [E1 X]. apply app_inv_head in X.
  destruct (digits_fun _ _ _ _ _ _ _ Mo Mo' X) as [E2 X2]. apply app_inv_head in X2.
  destruct (digits_fun _ _ _ _ _ _ _ Da Da' X2) as [E3 X3]. apply app_inv_head in X3.
  destruct (digits_fun _ _ _ _ _ _ _ H H' X3) as [E4 X4]. apply app_inv_head in X4.
  destruct (digits_fun _ _ _ _ _ _ _ Mi Mi' X4) as [E5 X5]. apply app_inv_head in X5.
  destruct (digits_fun _ _ _ _ _ _ _ S S' X5) as [E6 X6]. apply app_inv_head in X6.
  destruct (digits_fun _ _ _ _ _ _ _ Ms Ms' X6) as [E7 X7]. subst z'. pose proof (zone_fun _ _ _ Zo Zo') as E8.
  destruct d, d'; cbn in *; subst; reflexivity.
Qed.
Lemma event_fun l d d' e e' : says_event l d e -> says_event l d' e' ->
  d = d' /\ ev_level e = ev_level e' /\ ev_msg e = ev_msg e' /\
  Forall2 (fun x y => fst x = fst y /\ exists t, value_text t (snd x) /\ value_text t (snd y)) (ev_attrs e) (ev_attrs e').
Proof.
  intros (t & a & -> & D & F) (t' & a' & E & D' & F'). cbn [app] in E. injection E as E1 E2 E3 E4. subst t' a'.
  split; [exact (date_fun _ _ _ D D')|]. split; [destruct (ev_level e), (ev_level e'); auto; discriminate|]. split; auto.
  revert F'. generalize (ev_attrs e'). induction F as [|[k x] [k1 v1] a l1 [A B] F IH]; intros l2 F'; inversion F' as [|? [k2 v2] ? ? [A' B'] F2]; subst; constructor; auto.
  cbn in *. subst. split; auto. exists x. auto.
Qed.
