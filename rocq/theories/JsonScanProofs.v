(** The scanner of encoding/json accepts exactly the JSON texts. *)
From Coq Require Import String.
From Verif Require Import ProofBase Lib Server SpecLayout SpecWire Twirp SpecTwirp SpecJson JsonScan.

Scheme jtext_mut := Minimality for jtext Sort Prop
  with jelems_mut := Minimality for jelems Sort Prop
  with jmembers_mut := Minimality for jmembers Sort Prop.
Combined Scheme json_ind from jtext_mut, jelems_mut, jmembers_mut.

Definition pre (w : list byte) (o : option (list byte)) : option (list byte) := option_map (app w) o.
Lemma pre_nil o : pre [] o = o.
Proof. destruct o; reflexivity. Qed.
Lemma pre_app a b o : pre a (pre b o) = pre (a ++ b) o.
Proof. destruct o; cbn; auto. rewrite app_assoc. reflexivity. Qed.
Lemma pre_cons c o : option_map (cons c) o = pre [c] o.
Proof. destruct o; reflexivity. Qed.
Lemma pre_some w o x : pre w o = Some x -> exists y, o = Some y /\ x = w ++ y.
Proof. destruct o; cbn; intros H; [injection H as <-; eauto|discriminate]. Qed.
Definition cont (ps : list pstate) (rest : list byte) : option (list byte) :=
  match ps with [] => Some [] | _ => readValue EndValue ps rest end.

Lemma jspace_gap c : jspace c = true <-> (c = 32 \/ c = 9 \/ c = 10 \/ c = 13).
Proof. unfold jspace. rewrite !orb_true_iff, !Z.eqb_eq. lia. Qed.
Lemma gap_cons c w : gap (c :: w) <-> jspace c = true /\ gap w.
Proof. unfold gap. rewrite Forall_cons_iff, jspace_gap. reflexivity. Qed.

Definition skips (st : sstate) (ps : list pstate) : Prop :=
  In st [BeginValue; BeginValueOrEmpty; BeginStringOrEmpty; BeginString] \/ (st = EndValue /\ ps <> []).
Lemma skip_step st ps c : skips st ps -> jspace c = true -> step st ps c = (OSkipSpace, st, ps).
Proof.
  intros [I|[-> N]] J.
  - cbn in I. destruct I as [<-|[<-|[<-|[<-|[]]]]]; cbn; unfold beginValue, beginString; rewrite J; reflexivity.
  - cbn. destruct ps as [|p ps]; [congruence|]. cbn. rewrite J. reflexivity.
Qed.
Lemma skip_gap st ps w b : skips st ps -> gap w -> readValue st ps (w ++ b) = pre w (readValue st ps b).
Proof.
  intros K. induction w as [|c w IH]; intros G; [rewrite pre_nil; reflexivity|].
  apply gap_cons in G. destruct G as [J G]. cbn [app readValue]. rewrite (skip_step st ps c K J), IH by auto.
  rewrite pre_cons, pre_app. reflexivity.
Qed.
Lemma cont_gap ps w b : ps <> [] -> gap w -> cont ps (w ++ b) = pre w (cont ps b).
Proof. intros N G. destruct ps as [|p ps]; [congruence|]. cbn [cont]. apply skip_gap; auto. right. split; auto. Qed.
(** One step. *)
Lemma go st ps c r st' ps' o : step st ps c = (o, st', ps') -> ~ In o [OEnd; OError; OEndObject; OEndArray] ->
  readValue st ps (c :: r) = pre [c] (readValue st' ps' r).
Proof.
  intros E N. cbn [readValue]. rewrite E. cbn in N. destruct o; rewrite <- ?pre_cons; try reflexivity; tauto.
Qed.
Ltac stp := erewrite go; [|reflexivity|cbn; intuition discriminate].
Lemma same_step st st' ps ps' c r : step st ps c = step st' ps' c -> readValue st ps (c :: r) = readValue st' ps' (c :: r).
Proof. intros E. cbn [readValue]. rewrite E. reflexivity. Qed.
Lemma digb c : dig c -> isDigit c = true.
Proof. unfold dig, isDigit. lia. Qed.
Lemma digb_iff c : isDigit c = true <-> dig c.
Proof. unfold dig, isDigit. lia. Qed.

(** Numbers. *)
Definition ender (c : byte) : Prop := jspace c = true \/ c = 44 \/ c = 93 \/ c = 125.
Lemma ender_not c : ender c -> isDigit c = false /\ c <> 46 /\ c <> 101 /\ c <> 69.
Proof. unfold ender, isDigit. rewrite jspace_gap. lia. Qed.
Lemma digits_run st ps ds b : In st [Num1; Dot0; NumE0] -> Forall dig ds -> readValue st ps (ds ++ b) = pre ds (readValue st ps b).
Proof.
  intros I. induction 1 as [|c ds D F IH]; [rewrite pre_nil; reflexivity|]. apply digb in D. cbn [app].
  rewrite (go st ps c _ st ps OContinue); [rewrite IH, pre_app; reflexivity| |cbn; intuition discriminate].
  cbn in I. destruct I as [<-|[<-|[<-|[]]]]; cbn; rewrite D; reflexivity.
Qed.
Lemma num_end st ps c r : In st [Num1; Num0; Dot0; NumE0] -> ender c -> readValue st ps (c :: r) = readValue EndValue ps (c :: r).
Proof.
  intros I E. apply ender_not in E. destruct E as (D & A & B & C). apply same_step.
  assert (c =? 46 = false) by lia. assert (c =? 101 = false) by lia. assert (c =? 69 = false) by lia.
  cbn in I. destruct I as [<-|[<-|[<-|[<-|[]]]]]; cbn; unfold num0; rewrite ?D, ?H, ?H0, ?H1; reflexivity.
Qed.
Lemma exp_run st ps x e c r : In st [Num1; Num0; Dot0] -> exp_part x e -> ender c ->
  readValue st ps (x ++ c :: r) = pre x (readValue EndValue ps (c :: r)).
Proof.
  intros I [[-> _]|(a & s & ds & -> & A & N & F & S)] E.
  - rewrite pre_nil. apply num_end; auto. cbn in *. tauto.
  - cbn [app]. rewrite (go st ps a _ NumE ps OContinue); [|destruct A; subst a; cbn in I; destruct I as [<-|[<-|[<-|[]]]]; reflexivity|cbn; intuition discriminate].
    destruct ds as [|d ds]; [congruence|]. inversion F as [|? ? D F']; subst. apply digb in D.
    assert (K : forall st, In st [NumE; NumESign] -> readValue st ps ((d :: ds) ++ c :: r) = pre (d :: ds) (readValue EndValue ps (c :: r))).
    { intros st' I'. cbn [app]. rewrite (go st' ps d _ NumE0 ps OContinue); [| |cbn; intuition discriminate].
      - rewrite digits_run by (auto; cbn; auto). rewrite num_end by (auto; cbn; auto). rewrite pre_app. reflexivity.
      - cbn in I'. destruct I' as [<-|[<-|[]]]; cbn; unfold eSign; rewrite D; [|reflexivity].
        unfold isDigit in D. replace (d =? 43) with false by lia. replace (d =? 45) with false by lia. reflexivity. }
    assert (s = [] \/ s = [43] \/ s = [45]) as [-> | [-> | ->]] by tauto; cbn [app] in *.
    + change (d :: ds ++ c :: r) with ((d :: ds) ++ c :: r). rewrite K by (cbn; auto). rewrite pre_app. reflexivity.
    + stp. change (d :: ds ++ c :: r) with ((d :: ds) ++ c :: r). rewrite K by (cbn; auto). rewrite !pre_app. reflexivity.
    + stp. change (d :: ds ++ c :: r) with ((d :: ds) ++ c :: r). rewrite K by (cbn; auto). rewrite !pre_app. reflexivity.
Qed.
Lemma frac_run st ps x f b : In st [Num1; Num0] -> frac_part x f ->
  exists st', In st' [Num1; Num0; Dot0] /\ readValue st ps (x ++ b) = pre x (readValue st' ps b).
Proof.
  intros I [[-> _]|(-> & N & F)].
  - exists st. split; [cbn in *; tauto|rewrite pre_nil; reflexivity].
  - exists Dot0. split; [cbn; auto|]. destruct f as [|d f]; [congruence|]. inversion F as [|? ? D F']; subst. apply digb in D.
    cbn [app]. rewrite (go st ps 46 _ Dot ps OContinue); [|cbn in I; destruct I as [<-|[<-|[]]]; reflexivity|cbn; intuition discriminate].
    rewrite (go Dot ps d _ Dot0 ps OContinue); [|cbn; rewrite D; reflexivity|cbn; intuition discriminate].
    rewrite digits_run by (auto; cbn; auto). rewrite !pre_app. reflexivity.
Qed.
Lemma int_run st ps i b : In st [BeginValue; Neg] -> int_part i ->
  exists st', In st' [Num1; Num0] /\ readValue st ps (i ++ b) = pre i (readValue st' ps b).
Proof.
  intros I [->|(c & r & -> & C & F)].
  - exists Num0. split; [cbn; auto|]. cbn [app]. cbn in I. destruct I as [<-|[<-|[]]]; stp; reflexivity.
  - exists Num1. split; [cbn; auto|]. cbn [app].
    assert (K : step st ps c = ((if match st with Neg => true | _ => false end then OContinue else OBeginLiteral), Num1, ps)).
    { cbn in I. assert (isDigit19 c = true) by (unfold isDigit19; lia).
      destruct I as [<-|[<-|[]]]; cbn; unfold beginValue, jspace; repeat match goal with |- context [c =? ?k] => replace (c =? k) with false by lia end;
      rewrite H; reflexivity. }
    rewrite (go _ _ _ _ _ _ _ K) by (cbn in I; destruct I as [<-|[<-|[]]]; cbn; intuition discriminate).
    rewrite digits_run by (auto; cbn; auto). rewrite pre_app. reflexivity.
Qed.
Lemma number_run ps t neg i f e c r : number t neg i f e -> ender c ->
  readValue BeginValue ps (t ++ c :: r) = pre t (readValue EndValue ps (c :: r)).
Proof.
  intros (x & y & -> & I & F & X) E.
  assert (K : forall st, In st [BeginValue; Neg] -> readValue st ps ((i ++ x ++ y) ++ c :: r) = pre (i ++ x ++ y) (readValue EndValue ps (c :: r))).
  { intros st J. rewrite <- !app_assoc. destruct (int_run st ps i (x ++ y ++ c :: r) J I) as (s1 & I1 & ->).
    destruct (frac_run s1 ps x f (y ++ c :: r) I1 F) as (s2 & I2 & ->). rewrite (exp_run s2 ps y e c r I2 X E). rewrite !pre_app, <- !app_assoc. reflexivity. }
  destruct neg; cbn [app].
  - stp. rewrite K by (cbn; auto). rewrite pre_app. reflexivity.
  - apply K. cbn; auto.
Qed.

(** Strings. *)
Lemma hex_isHex c v : hexdig c v -> isHex c = true.
Proof. unfold isHex, isDigit. intros H. inversion H; subst; lia. Qed.
Lemma esc_char e c : In (e, c) escapes -> In e [34; 92; 47; 98; 102; 110; 114; 116].
Proof. unfold escapes. cbn [In]. intros H. repeat (destruct H as [H|H]; [injection H as <- <-; lia|]). destruct H. Qed.
Lemma string_run ps r b : raw_string r -> readValue InString ps (r ++ 34 :: b) = pre (r ++ [34]) (readValue EndValue ps b).
Proof.
  induction 1 as [|c r A B C _ IH|e c r I _ IH|x v r H _ IH].
  - cbn [app]. stp. reflexivity.
  - cbn [app]. rewrite (go InString ps c _ InString ps OContinue); [rewrite IH, pre_app; reflexivity| |cbn; intuition discriminate].
    cbn. replace (c =? 34) with false by lia. replace (c =? 92) with false by lia. replace (c <? 32) with false by lia. reflexivity.
  - cbn [app]. stp. apply esc_char in I.
    rewrite (go InStringEsc ps e _ InString ps OContinue); [rewrite IH, !pre_app; reflexivity| |cbn; intuition discriminate].
    cbn in I. repeat (destruct I as [<-|I]; [reflexivity|]). destruct I.
  - destruct H as (a & b1 & c & d & va & vb & vc & vd & -> & Ha & Hb & Hc & Hd & _). apply hex_isHex in Ha, Hb, Hc, Hd.
    cbn [app]. stp. stp.
    rewrite (go InStringEscU ps a _ InStringEscU1 ps OContinue); [|cbn; unfold hexit; rewrite Ha; reflexivity|cbn; intuition discriminate].
    rewrite (go InStringEscU1 ps b1 _ InStringEscU12 ps OContinue); [|cbn; unfold hexit; rewrite Hb; reflexivity|cbn; intuition discriminate].
    rewrite (go InStringEscU12 ps c _ InStringEscU123 ps OContinue); [|cbn; unfold hexit; rewrite Hc; reflexivity|cbn; intuition discriminate].
    rewrite (go InStringEscU123 ps d _ InString ps OContinue); [|cbn; unfold hexit; rewrite Hd; reflexivity|cbn; intuition discriminate].
    rewrite IH, !pre_app. reflexivity.
Qed.

(** A text begins with a character that is neither white space nor a closing bracket nor a separator. *)
Lemma text_head v t : jtext v t -> exists c r, t = c :: r /\ jspace c = false /\ c <> 93 /\ c <> 125 /\ c <> 44 /\ c <> 58.
Proof.
  destruct 1 as [| | |t neg i f e (x & y & -> & I & _)| | | | |]; try (eexists _, _; split; [reflexivity|]; repeat split; first [reflexivity|lia|discriminate|vm_compute; discriminate]).
  destruct neg; [eexists _, _; split; [reflexivity|]; repeat split; first [reflexivity|lia|discriminate|vm_compute; discriminate]|].
  destruct I as [->|(c & r & -> & C & _)]; eexists _, _; (split; [reflexivity|]); [repeat split; first [reflexivity|lia|discriminate|vm_compute; discriminate]|].
  split; [|lia]. unfold jspace. lia.
Qed.
Definition composite (v : jval) : Prop := match v with JArr _ | JObj _ => True | _ => False end.
Definition followed (v : jval) (rest : list byte) : Prop :=
  match v with JNum _ => exists c r, rest = c :: r /\ ender c | _ => True end.
Definition deep {A} (f : A -> jval) (l : list A) : Z := fold_right (fun v d => Z.max (depth (f v)) d) 0 l.
Lemma gap_ender w c r : gap w -> ender c -> exists c' r', w ++ c :: r = c' :: r' /\ ender c'.
Proof. intros G E. destruct w as [|x w]; [cbn; eauto|]. apply gap_cons in G. destruct G as [J _]. exists x. eexists. split; [reflexivity|left; auto]. Qed.
Lemma or_empty st st' ps w c r b : (st = BeginValueOrEmpty /\ st' = BeginValue /\ c <> 93) \/ (st = BeginStringOrEmpty /\ st' = BeginString /\ c <> 125) ->
  gap w -> jspace c = false -> b = w ++ c :: r -> readValue st ps b = readValue st' ps b.
Proof.
  intros H G J ->.
  assert (K : skips st ps /\ skips st' ps /\ step st ps c = step st' ps c).
  { destruct H as [(-> & -> & N)|(-> & -> & N)]; (split; [left; cbn; auto|]); (split; [left; cbn; auto|]); cbn; rewrite J.
    - replace (c =? 93) with false by lia. reflexivity.
    - replace (c =? 125) with false by lia. reflexivity. }
  destruct K as (K1 & K2 & K3). rewrite !skip_gap by auto. f_equal. apply same_step. exact K3.
Qed.
Lemma elems_head l b : jelems l b -> exists w c r, b = w ++ c :: r /\ gap w /\ jspace c = false /\ c <> 93.
Proof.
  destruct 1 as [v w b w' G T _|v l w b w' b' G T _ _]; apply text_head in T; destruct T as (c & r & -> & J & N & _).
  - exists w, c, (r ++ w'). auto.
  - exists w, c, (r ++ w' ++ 44 :: b'). auto.
Qed.
Lemma members_head l b : jmembers l b -> exists w r, b = w ++ 34 :: r /\ gap w.
Proof. destruct 1; eexists _, _; (split; [reflexivity|auto]). Qed.
Lemma close_obj ps rest : readValue EndValue (PObjectValue :: ps) (125 :: rest) = pre [125] (cont ps rest).
Proof. cbn [readValue step endValue]. cbn. destruct ps; cbn; rewrite ?pre_cons; reflexivity. Qed.
Lemma close_arr ps rest : readValue EndValue (PArrayValue :: ps) (93 :: rest) = pre [93] (cont ps rest).
Proof. cbn [readValue step endValue]. cbn. destruct ps; cbn; rewrite ?pre_cons; reflexivity. Qed.
Lemma empty_obj ps rest : readValue BeginStringOrEmpty (PObjectKey :: ps) (125 :: rest) = pre [125] (cont ps rest).
Proof. rewrite <- close_obj. apply same_step. reflexivity. Qed.
Lemma empty_arr ps rest : readValue BeginValueOrEmpty (PArrayValue :: ps) (93 :: rest) = pre [93] (cont ps rest).
Proof. rewrite <- close_arr. apply same_step. reflexivity. Qed.
Lemma push_ok ps p o st : len (p :: ps) <= 10000 -> push ps p o st = (o, st, p :: ps).
Proof. intros H. unfold push, maxNestingDepth. replace (_ <=? _) with true by lia. reflexivity. Qed.
Lemma len_cons {A} (p : A) ps : len (p :: ps) = len ps + 1.
Proof. unfold len. cbn [List.length]. lia. Qed.
Ltac skipst := first [solve [left; cbn; auto] | solve [right; split; [reflexivity|discriminate]]].

Lemma scan_text :
  (forall v t, jtext v t -> forall ps rest, len ps + depth v <= 10000 -> (ps <> [] \/ composite v) -> followed v rest ->
     readValue BeginValue ps (t ++ rest) = pre t (cont ps rest)) /\
  (forall l b, jelems l b -> forall ps rest, len (PArrayValue :: ps) + deep (fun v => v) l <= 10000 ->
     readValue BeginValue (PArrayValue :: ps) (b ++ 93 :: rest) = pre (b ++ [93]) (cont ps rest)) /\
  (forall l b, jmembers l b -> forall ps rest, len (PObjectKey :: ps) + deep snd l <= 10000 ->
     readValue BeginString (PObjectKey :: ps) (b ++ 125 :: rest) = pre (b ++ [125]) (cont ps rest)).
Proof.
  assert (NE : forall (ps : list pstate) (v : jval), ps <> [] \/ composite v -> ~ composite v -> forall b, cont ps b = readValue EndValue ps b).
  { intros ps v [N|C] M b; [|tauto]. destruct ps; [congruence|reflexivity]. }
  apply json_ind.
  - intros ps rest _ O _. rewrite (NE ps JNull O) by auto. cbn [str app]. change (str "null") with [110; 117; 108; 108]. cbn [app]. repeat stp. rewrite !pre_app. reflexivity.
  - intros ps rest _ O _. rewrite (NE ps _ O) by auto. change (str "true") with [116; 114; 117; 101]. cbn [app]. repeat stp. rewrite !pre_app. reflexivity.
  - intros ps rest _ O _. rewrite (NE ps _ O) by auto. change (str "false") with [102; 97; 108; 115; 101]. cbn [app]. repeat stp. rewrite !pre_app. reflexivity.
  - intros t neg i f e N ps rest _ O (c & r & -> & E). rewrite (NE ps _ O) by auto. apply (number_run ps t neg i f e c r N E).
  - intros r R ps rest _ O _. rewrite (NE ps _ O) by auto. cbn [app]. stp. rewrite <- app_assoc. cbn [app]. rewrite string_run by auto. rewrite pre_app. reflexivity.
  - intros w G ps rest D _ _. cbn [app]. rewrite (go BeginValue ps 91 _ BeginValueOrEmpty (PArrayValue :: ps) OBeginArray).
    + rewrite <- app_assoc. rewrite skip_gap by (auto; skipst). cbn [app]. rewrite empty_arr. rewrite !pre_app. reflexivity.
    + cbn. apply push_ok. rewrite len_cons. cbn [depth fold_right] in D. lia.
    + cbn; intuition discriminate.
  - intros l b E IH ps rest D _ _. cbn [depth] in D. fold (deep (fun v => v) l) in D.
    assert (D0 : 0 <= deep (fun v => v) l) by (clear; unfold deep; induction l; cbn [fold_right]; lia).
    cbn [app]. rewrite (go BeginValue ps 91 _ BeginValueOrEmpty (PArrayValue :: ps) OBeginArray).
    + rewrite <- app_assoc. destruct (elems_head l b E) as (w & c & r & Eb & G & J & N).
      rewrite (or_empty BeginValueOrEmpty BeginValue (PArrayValue :: ps) w c (r ++ [93] ++ rest)); [|left; auto|auto|auto|rewrite Eb, <- app_assoc; reflexivity].
      change ([93] ++ rest) with (93 :: rest). rewrite IH by (rewrite len_cons; lia). rewrite pre_app. reflexivity.
    + cbn. apply push_ok. rewrite len_cons. lia.
    + cbn; intuition discriminate.
  - intros w G ps rest D _ _. cbn [app]. rewrite (go BeginValue ps 123 _ BeginStringOrEmpty (PObjectKey :: ps) OBeginObject).
    + rewrite <- app_assoc. rewrite skip_gap by (auto; skipst). cbn [app]. rewrite empty_obj. rewrite !pre_app. reflexivity.
    + cbn. apply push_ok. rewrite len_cons. cbn [depth fold_right] in D. lia.
    + cbn; intuition discriminate.
  - intros l b E IH ps rest D _ _. cbn [depth] in D. fold (deep (@snd (list byte) jval) l) in D.
    assert (D0 : 0 <= deep (@snd (list byte) jval) l) by (clear; unfold deep; induction l; cbn [fold_right]; lia).
    cbn [app]. rewrite (go BeginValue ps 123 _ BeginStringOrEmpty (PObjectKey :: ps) OBeginObject).
    + rewrite <- app_assoc. destruct (members_head l b E) as (w & r & Eb & G).
      rewrite (or_empty BeginStringOrEmpty BeginString (PObjectKey :: ps) w 34 (r ++ [125] ++ rest)); [|right; repeat split; lia|auto|reflexivity|rewrite Eb, <- app_assoc; reflexivity].
      change ([125] ++ rest) with (125 :: rest). rewrite IH by (rewrite len_cons; lia). rewrite pre_app. reflexivity.
    + cbn. apply push_ok. rewrite len_cons. lia.
    + cbn; intuition discriminate.
  - intros v w b w' G T IH G' ps rest D. cbn [deep fold_right] in D. rewrite <- !app_assoc.
    rewrite skip_gap by (auto; skipst). rewrite IH; [|lia|left; discriminate|].
    + rewrite cont_gap by (auto; discriminate). cbn [cont]. rewrite close_arr. rewrite !pre_app. rewrite <- ?app_assoc. reflexivity.
    + destruct v; cbn; auto. apply gap_ender; auto. right; auto.
  - intros v l w b w' b' G T IH G' E IH' ps rest D. cbn [deep fold_right] in D. fold (deep (fun v => v) l) in D. rewrite <- !app_assoc. cbn [app]. rewrite <- ?app_assoc.
    rewrite skip_gap by (auto; skipst). rewrite IH; [|lia|left; discriminate|].
    + rewrite cont_gap by (auto; discriminate). cbn [cont]. rewrite <- ?app_assoc. cbn [app].
      rewrite (go EndValue (PArrayValue :: ps) 44 _ BeginValue (PArrayValue :: ps) OArrayValue); [|reflexivity|cbn; intuition discriminate].
      rewrite IH' by lia. rewrite !pre_app. f_equal. rewrite <- ?app_assoc. reflexivity.
    + destruct v; cbn; auto. apply gap_ender; auto. right; auto.
  - intros n v w1 w2 w3 b w4 G1 R G2 G3 T IH G4 ps rest D. cbn [deep fold_right snd] in D. rewrite len_cons in D.
    repeat (rewrite <- ?app_assoc; cbn [app]).
    rewrite skip_gap by (auto; skipst). stp. rewrite string_run by auto. rewrite skip_gap by (auto; skipst).
    rewrite (go EndValue (PObjectKey :: ps) 58 _ BeginValue (PObjectValue :: ps) OObjectKey); [|reflexivity|cbn; intuition discriminate].
    rewrite skip_gap by (auto; skipst). rewrite IH; [|rewrite len_cons; lia|left; discriminate|].
    + rewrite cont_gap by (auto; discriminate). cbn [cont]. rewrite close_obj. rewrite !pre_app. f_equal. repeat (rewrite <- ?app_assoc; cbn [app]). reflexivity.
    + destruct v; cbn; auto. apply gap_ender; auto. right; auto.
  - intros n v l w1 w2 w3 b w4 b' G1 R G2 G3 T IH G4 E IH' ps rest D. cbn [deep fold_right snd] in D. fold (deep (@snd (list byte) jval) l) in D. rewrite len_cons in D.
    repeat (rewrite <- ?app_assoc; cbn [app]).
    rewrite skip_gap by (auto; skipst). stp. rewrite string_run by auto. rewrite skip_gap by (auto; skipst).
    rewrite (go EndValue (PObjectKey :: ps) 58 _ BeginValue (PObjectValue :: ps) OObjectKey); [|reflexivity|cbn; intuition discriminate].
    rewrite skip_gap by (auto; skipst). rewrite IH; [|rewrite len_cons; lia|left; discriminate|].
    + rewrite cont_gap by (auto; discriminate). cbn [cont].
      rewrite (go EndValue (PObjectValue :: ps) 44 _ BeginString (PObjectKey :: ps) OObjectValue); [|reflexivity|cbn; intuition discriminate].
      rewrite IH' by (rewrite len_cons; lia). rewrite !pre_app. f_equal. repeat (rewrite <- ?app_assoc; cbn [app]). reflexivity.
    + destruct v; cbn; auto. apply gap_ender; auto. right; auto.
Qed.

(** ** Nothing else is accepted *)
Lemma come st ps c r x st' ps' o : readValue st ps (c :: r) = Some x -> step st ps c = (o, st', ps') ->
  ~ In o [OEnd; OError; OEndObject; OEndArray] -> exists y, readValue st' ps' r = Some y.
Proof. intros H E N. rewrite (go _ _ _ _ _ _ _ E N) in H. apply pre_some in H. destruct H as (y & -> & _). eauto. Qed.
Lemma errs st ps c r x : readValue st ps (c :: r) = Some x -> step st ps c <> serr.
Proof. intros H E. cbn [readValue] in H. rewrite E in H. discriminate. Qed.
Ltac noerr H := exfalso; revert H; apply errs.
Lemma gap_nil : gap [].
Proof. constructor. Qed.
Definition inside (ps : list pstate) : Prop := match ps with PObjectValue :: _ | PArrayValue :: _ => True | _ => False end.
Lemma inside_ne ps : inside ps -> ps <> [].
Proof. intros I ->. exact I. Qed.
Ltac ncome H := eapply come in H; [destruct H as (? & H)|cbn; reflexivity|cbn; intuition discriminate].

Lemma in_string : forall n b ps x, (List.length b <= n)%nat -> readValue InString ps b = Some x ->
  exists r rest y, b = r ++ 34 :: rest /\ raw_string r /\ readValue EndValue ps rest = Some y.
Proof.
  assert (HX : forall c, isHex c = true -> exists v, hexdig c v).
  { intros c H. unfold isHex, isDigit in H.
    destruct ((48 <=? c) && (c <=? 57)) eqn:A; [exists (c - 48); constructor; lia|].
    destruct ((97 <=? c) && (c <=? 102)) eqn:B; [exists (c - 87); apply hex_small; lia|]. exists (c - 55). apply hex_capital. lia. }
  assert (H1 : forall st st' ps b x, (forall c, step st ps c = hexit st' ps c) -> readValue st ps b = Some x ->
    exists c r v y, b = c :: r /\ hexdig c v /\ readValue st' ps r = Some y).
  { intros st st' ps [|c r] x E H.
    - cbn [readValue] in H. rewrite E in H. discriminate.
    - pose proof (errs _ _ _ _ _ H) as N. specialize (E c). unfold hexit in E. destruct (isHex c) eqn:X; [|congruence].
      destruct (HX c X) as (v & V). destruct (come _ _ _ _ _ _ _ _ H E) as (y & Y); [cbn; intuition discriminate|]. exists c, r, v, y. auto. }
  induction n as [|n IH]; intros b ps x L H.
  - destruct b; [discriminate|cbn in L; lia].
  - destruct b as [|c b]; [discriminate|]. cbn [List.length] in L. pose proof (errs _ _ _ _ _ H) as N. cbn [step] in N.
    destruct (c =? 34) eqn:Q.
    + apply Z.eqb_eq in Q. subst c. ncome H. exists [], b. eexists. split; [reflexivity|]. split; [constructor|exact H].
    + destruct (c =? 92) eqn:S.
      * apply Z.eqb_eq in S. subst c. ncome H. destruct b as [|e b]; [discriminate|]. cbn [List.length] in L.
        pose proof (errs _ _ _ _ _ H) as N'. cbn [step] in N'.
        destruct ((e =? 98) || (e =? 102) || (e =? 110) || (e =? 114) || (e =? 116) || (e =? 92) || (e =? 47) || (e =? 34)) eqn:E.
        { eapply come in H; [|cbn [step]; rewrite E; reflexivity|cbn; intuition discriminate]. destruct H as (y & H).
          destruct (IH b ps y) as (r & rest & z & -> & R & Z); [lia|exact H|].
          assert (exists c, In (e, c) escapes) as (c & I).
          { rewrite !orb_true_iff, !Z.eqb_eq in E.
            destruct E as [[[[[[[->| ->]| ->]| ->]| ->]| ->]| ->]| ->]; eexists; unfold escapes; repeat (first [left; reflexivity|right]). }
          exists (92 :: e :: r), rest, z. split; [reflexivity|]. split; [|exact Z]. eapply rs_esc; eauto. }
        destruct (e =? 117) eqn:U; [|congruence]. apply Z.eqb_eq in U. subst e. ncome H.
        destruct (H1 InStringEscU InStringEscU1 ps b _ (fun c => eq_refl) H) as (d1 & b1 & v1 & y1 & -> & X1 & Y1).
        destruct (H1 InStringEscU1 InStringEscU12 ps b1 _ (fun c => eq_refl) Y1) as (d2 & b2 & v2 & y2 & -> & X2 & Y2).
        destruct (H1 InStringEscU12 InStringEscU123 ps b2 _ (fun c => eq_refl) Y2) as (d3 & b3 & v3 & y3 & -> & X3 & Y3).
        destruct (H1 InStringEscU123 InString ps b3 _ (fun c => eq_refl) Y3) as (d4 & b4 & v4 & y4 & -> & X4 & Y4).
        cbn [List.length] in L. destruct (IH b4 ps y4) as (r & rest & z & -> & R & Z); [lia|exact Y4|].
        exists (92 :: 117 :: [d1; d2; d3; d4] ++ r), rest, z. split; [reflexivity|]. split; [|exact Z].
        apply rs_u with (v := 4096 * v1 + 256 * v2 + 16 * v3 + v4); [|exact R]. exists d1, d2, d3, d4, v1, v2, v3, v4. auto 10.
      * destruct (c <? 32) eqn:C; [congruence|].
        eapply come in H; [|cbn [step]; rewrite Q, S, C; reflexivity|cbn; intuition discriminate]. destruct H as (y & H).
        destruct (IH b ps y) as (r & rest & z & -> & R & Z); [lia|exact H|].
        exists (c :: r), rest, z. split; [reflexivity|]. split; [|exact Z]. constructor; auto; lia.
Qed.
Lemma end_cases ps c : inside ps -> endValue ps c <> serr -> ender c.
Proof.
  unfold ender. destruct ps as [|[| |] ps]; cbn; intros I N; try tauto.
  - destruct (jspace c); auto. destruct (c =? 44) eqn:A; [lia|]. destruct (c =? 125) eqn:B; [lia|congruence].
  - destruct (jspace c); auto. destruct (c =? 44) eqn:A; [lia|]. destruct (c =? 93) eqn:B; [lia|congruence].
Qed.
Lemma end_nil ps : inside ps -> readValue EndValue ps [] = None.
Proof. destruct ps as [|[| |] ps]; cbn; tauto. Qed.
(** After a number. *)
Definition after (ps : list pstate) (b : list byte) : Prop := exists c r y, b = c :: r /\ ender c /\ readValue EndValue ps b = Some y.
Lemma num_stop st ps b x : inside ps -> (forall c, step st ps c = endValue ps c \/ exists st', step st ps c = (OContinue, st', ps)) ->
  readValue st ps b = Some x -> after ps b \/ exists c r st' y, b = c :: r /\ step st ps c = (OContinue, st', ps) /\ readValue st' ps r = Some y.
Proof.
  intros I K H. destruct b as [|c r].
  - cbn [readValue] in H. destruct (K 32) as [E|(st' & E)]; rewrite E in H; [|discriminate]. destruct ps as [|[| |] ps]; cbn in *; try tauto; discriminate.
  - destruct (K c) as [E|(st' & E)].
    + left. pose proof (errs _ _ _ _ _ H) as N. rewrite E in N. exists c, r, x. split; auto. split; [eapply end_cases; eauto|].
      rewrite <- H. symmetry. apply same_step. exact E.
    + right. destruct (come _ _ _ _ _ _ _ _ H E) as (y & Y); [cbn; intuition discriminate|]. exists c, r, st', y. auto.
Qed.
Lemma digits_stop st : In st [Num1; Dot0; NumE0] -> forall b ps x, readValue st ps b = Some x ->
  exists ds r y, b = ds ++ r /\ Forall dig ds /\ (forall c r', r = c :: r' -> isDigit c = false) /\ readValue st ps r = Some y.
Proof.
  intros I. induction b as [|c b IH]; intros ps x H.
  - exists [], [], x. split; auto. split; [constructor|]. split; [discriminate|exact H].
  - destruct (isDigit c) eqn:D.
    + assert (E : step st ps c = (OContinue, st, ps)) by (cbn in I; destruct I as [<-|[<-|[<-|[]]]]; cbn; rewrite D; reflexivity).
      destruct (come _ _ _ _ _ _ _ _ H E) as (y & Y); [cbn; intuition discriminate|].
      destruct (IH ps y Y) as (ds & r & z & -> & F & N & Z). exists (c :: ds), r, z. split; auto. split; [constructor; auto; apply digb_iff; auto|]. auto.
    + exists [], (c :: b), x. split; auto. split; [constructor|]. split; [|exact H]. intros c' r' E. injection E as <- <-. exact D.
Qed.
Lemma e0_stop ps b x : inside ps -> readValue NumE0 ps b = Some x -> exists ds r, b = ds ++ r /\ Forall dig ds /\ after ps r.
Proof.
  intros I H. apply digits_stop in H; [|cbn; auto]. destruct H as (ds & r & y & -> & F & N & Y). exists ds, r. split; auto. split; auto.
  apply num_stop in Y; auto.
  - destruct Y as [A|(c & r' & st' & z & -> & E & _)]; auto. cbn in E. rewrite (N c r' eq_refl) in E.
    exfalso. destruct ps as [|[| |] ps]; cbn in *; try tauto; destruct (jspace c); try discriminate; destruct (c =? 44); try discriminate;
      [destruct (c =? 125)|destruct (c =? 93)]; discriminate.
  - intros c. cbn. destruct (isDigit c); eauto.
Qed.
Lemma esign_stop st ps b x : In st [NumESign] -> inside ps -> readValue st ps b = Some x ->
  exists ds r, b = ds ++ r /\ ds <> [] /\ Forall dig ds /\ after ps r.
Proof.
  intros [<-|[]] I H. destruct b as [|c b]; [discriminate|]. pose proof (errs _ _ _ _ _ H) as N. cbn [step] in N. unfold eSign in N.
  destruct (isDigit c) eqn:D; [|congruence]. eapply come in H; [|cbn [step]; unfold eSign; rewrite D; reflexivity|cbn; intuition discriminate].
  destruct H as (y & H). destruct (e0_stop ps b y I H) as (ds & r & -> & F & A). exists (c :: ds), r. split; auto. split; [discriminate|].
  split; auto. constructor; auto. apply digb_iff; auto.
Qed.
Lemma e_stop ps b x : inside ps -> readValue NumE ps b = Some x ->
  exists s ds r, b = s ++ ds ++ r /\ (s = [] \/ s = [43] \/ s = [45]) /\ ds <> [] /\ Forall dig ds /\ after ps r.
Proof.
  intros I H. destruct b as [|c b]; [discriminate|]. destruct ((c =? 43) || (c =? 45)) eqn:S.
  - eapply come in H; [|cbn [step]; rewrite S; reflexivity|cbn; intuition discriminate]. destruct H as (y & H).
    destruct (esign_stop _ ps b y (or_introl eq_refl) I H) as (ds & r & -> & N & F & A). exists [c], ds, r. split; auto. split; [|auto].
    rewrite orb_true_iff, !Z.eqb_eq in S. destruct S; subst; auto.
  - assert (H' : readValue NumESign ps (c :: b) = Some x) by (rewrite <- H; apply same_step; cbn [step]; rewrite S; reflexivity).
    destruct (esign_stop _ ps _ x (or_introl eq_refl) I H') as (ds & r & E & N & F & A). exists [], ds, r. auto.
Qed.
Lemma exp_stop st ps b x : In st [Num0; Dot0] -> inside ps -> (st = Num0 -> forall c r, b = c :: r -> c <> 46) ->
  (st = Dot0 -> forall c r, b = c :: r -> isDigit c = false) -> readValue st ps b = Some x ->
  exists y e r, b = y ++ r /\ exp_part y e /\ after ps r.
Proof.
  intros J I N0 N1 H. destruct b as [|c b].
  - exfalso. cbn [readValue] in H. cbn in J. destruct ps as [|[| |] ps]; try (exact I); destruct J as [<-|[<-|[]]]; discriminate.
  - destruct ((c =? 101) || (c =? 69)) eqn:E.
    + assert (S : step st ps c = (OContinue, NumE, ps)).
      { cbn in J. destruct J as [<-|[<-|[]]]; cbn; unfold num0.
        - specialize (N0 eq_refl c b eq_refl). replace (c =? 46) with false by lia. rewrite E. reflexivity.
        - rewrite (N1 eq_refl c b eq_refl), E. reflexivity. }
      destruct (come _ _ _ _ _ _ _ _ H S) as (y & Y); [cbn; intuition discriminate|].
      destruct (e_stop ps b y I Y) as (s & ds & r & -> & Hs & Nd & F & A).
      exists (c :: s ++ ds), (if match s with [45] => true | _ => false end then - num ds else num ds), r. split; [cbn; rewrite <- app_assoc; reflexivity|]. split; [|exact A].
      right. exists c, s, ds. split; auto. split; [lia|]. split; auto. split; auto. destruct Hs as [-> | [-> | ->]]; auto.
    + exists [], 0, (c :: b). split; auto. split; [left; auto|].
      assert (S : step st ps c = endValue ps c).
      { cbn in J. destruct J as [<-|[<-|[]]]; cbn; unfold num0.
        - specialize (N0 eq_refl c b eq_refl). replace (c =? 46) with false by lia. rewrite E. reflexivity.
        - rewrite (N1 eq_refl c b eq_refl), E. reflexivity. }
      pose proof (errs _ _ _ _ _ H) as N. rewrite S in N. exists c, b, x. split; auto. split; [eapply end_cases; eauto|].
      rewrite <- H. symmetry. apply same_step. exact S.
Qed.
Lemma frac_stop ps b x : inside ps -> readValue Num0 ps b = Some x ->
  exists z f y e r, b = z ++ y ++ r /\ frac_part z f /\ exp_part y e /\ after ps r.
Proof.
  intros I H. destruct b as [|c b].
  - exfalso. destruct ps as [|[| |] ps]; try (exact I); discriminate.
  - destruct (Z.eq_dec c 46) as [->|N].
    + ncome H. destruct b as [|d b]; [discriminate|]. pose proof (errs _ _ _ _ _ H) as N. cbn [step] in N.
      destruct (isDigit d) eqn:D; [|congruence]. eapply come in H; [|cbn [step]; rewrite D; reflexivity|cbn; intuition discriminate].
      destruct H as (y & H). apply digits_stop in H; [|cbn; auto]. destruct H as (ds & r & z & -> & F & N' & Z).
      apply exp_stop in Z; [|cbn; auto|auto|discriminate|intros _; exact N']. destruct Z as (y' & e & r' & -> & X & A).
      exists (46 :: d :: ds), (d :: ds), y', e, r'. split; [cbn; rewrite ?app_assoc; reflexivity|]. split; [|auto]. right. split; auto.
      split; [discriminate|]. constructor; auto. apply digb_iff; auto.
    + apply exp_stop in H; [|cbn; auto|auto|intros _ c' r' E; injection E as <- <-; exact N|discriminate].
      destruct H as (y' & e & r' & E & X & A). exists [], [], y', e, r'. split; auto. split; [left; auto|auto].
Qed.
Lemma num1_stop ps b x : inside ps -> readValue Num1 ps b = Some x ->
  exists ds z f y e r, b = ds ++ z ++ y ++ r /\ Forall dig ds /\ frac_part z f /\ exp_part y e /\ after ps r.
Proof.
  intros I H. apply digits_stop in H; [|cbn; auto]. destruct H as (ds & r & y & -> & F & N & Y).
  assert (Y' : readValue Num0 ps r = Some y).
  { rewrite <- Y. destruct r as [|c r]; [destruct ps as [|[| |] ps]; reflexivity|]. apply same_step. cbn. rewrite (N c r eq_refl). reflexivity. }
  destruct (frac_stop ps r y I Y') as (z & f & y' & e & r' & -> & K). exists ds, z, f, y', e, r'. intuition.
Qed.
(** What is read from the beginning of a number on. *)
Lemma number_stop ps c b x : inside ps -> isDigit c = true \/ c = 45 -> readValue BeginValue ps (c :: b) = Some x ->
  exists t rest, c :: b = t ++ rest /\ jtext (JNum t) t /\ after ps rest.
Proof.
  intros I D H.
  assert (K : forall st d b x, In st [BeginValue; Neg] -> isDigit d = true -> readValue st ps (d :: b) = Some x ->
    exists i z f y e r, d :: b = i ++ z ++ y ++ r /\ int_part i /\ frac_part z f /\ exp_part y e /\ after ps r).
  { clear c b x D H. intros st d b x J D H. destruct (Z.eq_dec d 48) as [->|N].
    - assert (exists y, readValue Num0 ps b = Some y) as (y & Y) by (cbn in J; destruct J as [<-|[<-|[]]]; ncome H; eauto).
      destruct (frac_stop ps b y I Y) as (z & f & y' & e & r & -> & F & X & A). exists [48], z, f, y', e, r. split; auto. split; [left; auto|auto].
    - assert (isDigit19 d = true) by (unfold isDigit, isDigit19 in *; lia).
      assert (exists y, readValue Num1 ps b = Some y) as (y & Y).
      { assert (R : d =? 32 = false /\ d =? 9 = false /\ d =? 13 = false /\ d =? 10 = false /\ d =? 123 = false /\ d =? 91 = false /\ d =? 34 = false /\ d =? 45 = false /\
          d =? 48 = false /\ d =? 116 = false /\ d =? 102 = false /\ d =? 110 = false) by (unfold isDigit in D; lia).
        destruct R as (R1 & R2 & R3 & R4 & R5 & R6 & R7 & R8 & R9 & R10 & R11 & R12).
        cbn in J; destruct J as [<-|[<-|[]]]; (eapply come in H; [exact H| |]).
        - cbn [step]. unfold beginValue, jspace. rewrite R1, R2, R3, R4, R5, R6, R7, R8, R9, R10, R11, R12, H0. reflexivity.
        - cbn; intuition discriminate.
        - cbn [step]. rewrite R9, H0. reflexivity.
        - cbn; intuition discriminate. }
      destruct (num1_stop ps b y I Y) as (ds & z & f & y' & e & r & -> & Fd & F & X & A). exists (d :: ds), z, f, y', e, r. split; auto. split; [|auto].
      right. exists d, ds. split; auto. split; auto. unfold isDigit19 in H0. lia. }
  destruct D as [D| ->].
  - destruct (K BeginValue c b x) as (i & z & f & y & e & r & E & Hi & F & X & A); [cbn; auto|auto|auto|].
    exists (i ++ z ++ y), r. rewrite <- !app_assoc. split; auto. split; auto. apply jt_num with (neg := false) (i := i) (f := f) (e := e). exists z, y. auto.
  - ncome H. destruct b as [|d b]; [discriminate|]. pose proof (errs _ _ _ _ _ H) as N. cbn [step] in N.
    assert (D : isDigit d = true) by (unfold isDigit, isDigit19 in *; destruct (d =? 48) eqn:?; [lia|]; destruct ((49 <=? d) && (d <=? 57)) eqn:?; [lia|congruence]).
    destruct (K Neg d b _ (or_intror (or_introl eq_refl)) D H) as (i & z & f & y & e & r & E & Hi & F & X & A).
    exists (45 :: i ++ z ++ y), r. rewrite E. split; [cbn; rewrite <- !app_assoc; reflexivity|]. split; auto.
    apply jt_num with (neg := true) (i := i) (f := f) (e := e). exists z, y. auto.
Qed.
Lemma skip_in st ps b x : skips st ps -> readValue st ps b = Some x ->
  exists w c r y, b = w ++ c :: r /\ gap w /\ jspace c = false /\ readValue st ps (c :: r) = Some y.
Proof.
  intros K. revert x. induction b as [|c b IH]; intros x H.
  - cbn [readValue] in H. rewrite (skip_step st ps 32 K eq_refl) in H. discriminate.
  - destruct (jspace c) eqn:J.
    + destruct (come _ _ _ _ _ _ _ _ H (skip_step st ps c K J)) as (y & Y); [cbn; intuition discriminate|].
      destruct (IH y Y) as (w & c' & r & z & -> & G & J' & Z). exists (c :: w), c', r, z. split; auto. split; auto. apply gap_cons. auto.
    + exists [], c, b, x. split; auto. split; [constructor|auto].
Qed.
Definition goes (ps : list pstate) (b : list byte) : Prop := exists y, cont ps b = Some y.
Lemma deep_pos {A} (f : A -> jval) l : 0 <= deep f l.
Proof. unfold deep. induction l; cbn [fold_right]; lia. Qed.
Lemma push_in ps p o st r x c : step BeginValue ps c = push ps p o st -> ~ In o [OEnd; OError; OEndObject; OEndArray] ->
  readValue BeginValue ps (c :: r) = Some x -> len (p :: ps) <= 10000 /\ exists y, readValue st (p :: ps) r = Some y.
Proof.
  intros E N H. pose proof (errs _ _ _ _ _ H) as X. rewrite E in X. unfold push, maxNestingDepth in *.
  destruct (len (p :: ps) <=? 10000) eqn:L; [|congruence]. split; [lia|]. eapply come; eauto.
Qed.
Lemma pre_goes t ps rest x : pre t (cont ps rest) = Some x -> goes ps rest.
Proof. intros H. apply pre_some in H. destruct H as (y & H & _). exists y. exact H. Qed.
Lemma arr_close ps r x :
  (forall x, readValue BeginValue (PArrayValue :: ps) r = Some x -> exists l t rest, r = t ++ 93 :: rest /\ jelems l t /\
     len (PArrayValue :: ps) + deep (fun v => v) l <= 10000 /\ goes ps rest) ->
  len (PArrayValue :: ps) <= 10000 -> readValue BeginValueOrEmpty (PArrayValue :: ps) r = Some x ->
  exists v t rest, 91 :: r = t ++ rest /\ jtext v t /\ followed v rest /\ len ps + depth v <= 10000 /\ goes ps rest.
Proof.
  intros E L H. rewrite len_cons in *. destruct (fun K => skip_in _ _ _ _ K H) as (w & c & r' & y & -> & G & J & Y); [skipst|].
  destruct (Z.eq_dec c 93) as [->|N].
  - rewrite empty_arr in Y. apply pre_goes in Y. exists (JArr []), (91 :: w ++ [93]), r'. split; [cbn; rewrite <- app_assoc; reflexivity|].
    split; [constructor; auto|]. split; [exact I|]. split; [cbn [depth fold_right]; lia|auto].
  - rewrite (or_empty BeginValueOrEmpty BeginValue _ w c r' _ (or_introl (conj eq_refl (conj eq_refl N))) G J eq_refl) in H.
    destruct (E x H) as (l & t & rest & Er & T & D & C). exists (JArr l), (91 :: t ++ [93]), rest. rewrite Er. split; [cbn; rewrite <- app_assoc; reflexivity|].
    split; [apply jt_arr; auto|]. split; [exact I|]. split; auto. cbn [depth]. fold (deep (fun v => v) l). lia.
Qed.
Lemma obj_close ps r x :
  (forall x, readValue BeginString (PObjectKey :: ps) r = Some x -> exists l t rest, r = t ++ 125 :: rest /\ jmembers l t /\
     len (PObjectKey :: ps) + deep snd l <= 10000 /\ goes ps rest) ->
  len (PObjectKey :: ps) <= 10000 -> readValue BeginStringOrEmpty (PObjectKey :: ps) r = Some x ->
  exists l t rest, 123 :: r = t ++ rest /\ jtext (JObj l) t /\ len ps + depth (JObj l) <= 10000 /\ goes ps rest.
Proof.
  intros E L H. rewrite len_cons in *. destruct (fun K => skip_in _ _ _ _ K H) as (w & c & r' & y & -> & G & J & Y); [skipst|].
  destruct (Z.eq_dec c 125) as [->|N].
  - rewrite empty_obj in Y. apply pre_goes in Y. exists [], (123 :: w ++ [125]), r'. split; [cbn; rewrite <- app_assoc; reflexivity|].
    split; [constructor; auto|]. split; [cbn [depth fold_right]; lia|auto].
  - rewrite (or_empty BeginStringOrEmpty BeginString _ w c r' _ (or_intror (conj eq_refl (conj eq_refl N))) G J eq_refl) in H.
    destruct (E x H) as (l & t & rest & Er & T & D & C). exists l, (123 :: t ++ [125]), rest. rewrite Er. split; [cbn; rewrite <- app_assoc; reflexivity|].
    split; [apply jt_obj; auto|]. split; auto. cbn [depth]. fold (deep (@snd (list byte) jval) l). lia.
Qed.
Lemma lit_in st ps x st' b y : (forall c, step st ps c = expect x st' ps c) -> readValue st ps b = Some y ->
  exists r z, b = x :: r /\ readValue st' ps r = Some z.
Proof.
  intros E H. destruct b as [|c r].
  - cbn [readValue] in H. rewrite E in H. unfold expect in H. destruct (32 =? x); discriminate.
  - pose proof (errs _ _ _ _ _ H) as N. specialize (E c). rewrite E in N. unfold expect in *. destruct (c =? x) eqn:X; [|congruence].
    apply Z.eqb_eq in X. subst c. destruct (come _ _ _ _ _ _ _ _ H E) as (z & Z); [cbn; intuition discriminate|]. eauto.
Qed.
Lemma inside_cont ps b y : inside ps -> readValue EndValue ps b = Some y -> goes ps b.
Proof. intros I H. exists y. destruct ps as [|p ps]; [destruct I|exact H]. Qed.

Lemma scan_sound : forall n b, (List.length b <= n)%nat ->
  (forall ps x, inside ps -> len ps <= 10000 -> readValue BeginValue ps b = Some x ->
     exists w v t rest, b = w ++ t ++ rest /\ gap w /\ jtext v t /\ followed v rest /\ len ps + depth v <= 10000 /\ goes ps rest) /\
  (forall ps x, len (PArrayValue :: ps) <= 10000 -> readValue BeginValue (PArrayValue :: ps) b = Some x ->
     exists l t rest, b = t ++ 93 :: rest /\ jelems l t /\ len (PArrayValue :: ps) + deep (fun v => v) l <= 10000 /\ goes ps rest) /\
  (forall ps x, len (PObjectKey :: ps) <= 10000 -> readValue BeginString (PObjectKey :: ps) b = Some x ->
     exists l t rest, b = t ++ 125 :: rest /\ jmembers l t /\ len (PObjectKey :: ps) + deep snd l <= 10000 /\ goes ps rest).
Proof.
  induction n as [|n IH]; intros b L.
  { destruct b; [|cbn in L; lia]. split; [|split]; intros; discriminate. }
  assert (V : forall ps x, inside ps -> len ps <= 10000 -> readValue BeginValue ps b = Some x ->
     exists w v t rest, b = w ++ t ++ rest /\ gap w /\ jtext v t /\ followed v rest /\ len ps + depth v <= 10000 /\ goes ps rest).
  { intros ps x I D H. destruct (fun K => skip_in _ _ _ _ K H) as (w & c & r & y & -> & G & J & Y); [skipst|]. exists w.
    assert (Lr : (List.length r <= n)%nat) by (rewrite app_length in L; cbn [List.length] in L; lia).
    enough (K : exists v t rest, c :: r = t ++ rest /\ jtext v t /\ followed v rest /\ len ps + depth v <= 10000 /\ goes ps rest).
    { destruct K as (v & t & rest & E & K). exists v, t, rest. rewrite E. auto. }
    clear H x L. destruct (IH r Lr) as (_ & HE & HM). clear IH Lr.
    destruct (Z.eq_dec c 123) as [->|N1].
    { destruct (push_in ps PObjectKey OBeginObject BeginStringOrEmpty r y 123) as (D' & z & Z); [reflexivity|cbn; intuition discriminate|exact Y|].
      destruct (obj_close ps r z (fun x => HM ps x D') D' Z) as (l & t & rest & E & T & K). exists (JObj l), t, rest. cbn [followed]. tauto. }
    destruct (Z.eq_dec c 91) as [->|N2].
    { destruct (push_in ps PArrayValue OBeginArray BeginValueOrEmpty r y 91) as (D' & z & Z); [reflexivity|cbn; intuition discriminate|exact Y|].
      exact (arr_close ps r z (fun x => HE ps x D') D' Z). }
    destruct (Z.eq_dec c 34) as [->|N3].
    { ncome Y. destruct (in_string _ r ps _ (le_n _) Y) as (q & rest & z & -> & R & Z). exists (JStr q), (34 :: q ++ [34]), rest.
      split; [cbn; rewrite <- app_assoc; reflexivity|]. split; [constructor; auto|]. split; [exact Logic.I|]. split; [cbn [depth]; lia|]. eapply inside_cont; eauto. }
    destruct (isDigit c || (c =? 45)) eqn:N4.
    { destruct (number_stop ps c r y I) as (t & rest & E & T & (c' & r' & z & A1 & A2 & A3)); [rewrite orb_true_iff, Z.eqb_eq in N4; exact N4|exact Y|].
      exists (JNum t), t, rest. split; auto. split; auto. split; [exists c', r'; auto|]. split; [cbn [depth]; lia|]. eapply inside_cont; eauto. }
    destruct (Z.eq_dec c 116) as [->|N5].
    { ncome Y. destruct (lit_in LitT ps 114 LitTr r _ (fun c => eq_refl) Y) as (r1 & z1 & -> & Z1).
      destruct (lit_in LitTr ps 117 LitTru r1 _ (fun c => eq_refl) Z1) as (r2 & z2 & -> & Z2).
      destruct (lit_in LitTru ps 101 EndValue r2 _ (fun c => eq_refl) Z2) as (r3 & z3 & -> & Z3).
      exists (JBool true), [116; 114; 117; 101], r3. split; auto. split; [apply jt_true|]. split; [exact Logic.I|]. split; [cbn [depth]; lia|]. eapply inside_cont; eauto. }
    destruct (Z.eq_dec c 102) as [->|N6].
    { ncome Y. destruct (lit_in LitF ps 97 LitFa r _ (fun c => eq_refl) Y) as (r1 & z1 & -> & Z1).
      destruct (lit_in LitFa ps 108 LitFal r1 _ (fun c => eq_refl) Z1) as (r2 & z2 & -> & Z2).
      destruct (lit_in LitFal ps 115 LitFals r2 _ (fun c => eq_refl) Z2) as (r3 & z3 & -> & Z3).
      destruct (lit_in LitFals ps 101 EndValue r3 _ (fun c => eq_refl) Z3) as (r4 & z4 & -> & Z4).
      exists (JBool false), [102; 97; 108; 115; 101], r4. split; auto. split; [apply jt_false|]. split; [exact Logic.I|]. split; [cbn [depth]; lia|]. eapply inside_cont; eauto. }
    destruct (Z.eq_dec c 110) as [->|N7].
    { ncome Y. destruct (lit_in LitN ps 117 LitNu r _ (fun c => eq_refl) Y) as (r1 & z1 & -> & Z1).
      destruct (lit_in LitNu ps 108 LitNul r1 _ (fun c => eq_refl) Z1) as (r2 & z2 & -> & Z2).
      destruct (lit_in LitNul ps 108 EndValue r2 _ (fun c => eq_refl) Z2) as (r3 & z3 & -> & Z3).
      exists JNull, [110; 117; 108; 108], r3. split; auto. split; [apply jt_null|]. split; [exact Logic.I|]. split; [cbn [depth]; lia|]. eapply inside_cont; eauto. }
    exfalso. apply (errs _ _ _ _ _ Y). cbn [step]. unfold beginValue. rewrite J. apply orb_false_iff in N4. destruct N4 as (N4 & N8). unfold isDigit in N4. unfold isDigit19.
    repeat match goal with |- (if ?t then _ else _) = _ => replace t with false by lia end. reflexivity. }
  split; [exact V|]. split.
  - intros ps x D H. destruct (V (PArrayValue :: ps) x Logic.I D H) as (w & v & t & rest & -> & G & T & _ & Dv & y & Y). cbn [cont] in Y.
    destruct (fun K => skip_in _ _ _ _ K Y) as (w' & c & r & z & -> & G' & J & Z); [skipst|].
    assert (C : c = 44 \/ c = 93).
    { pose proof (errs _ _ _ _ _ Z) as N. cbn in N. rewrite J in N. destruct (c =? 44) eqn:?; [lia|]. destruct (c =? 93) eqn:?; [lia|congruence]. }
    destruct C as [-> | ->].
    + eapply come in Z; [|reflexivity|cbn; intuition discriminate]. destruct Z as (z' & Z).
      destruct (IH r) as (_ & HE & _); [rewrite !app_length in L; cbn [List.length] in L; lia|].
      destruct (HE ps z' D Z) as (l & t' & rest' & -> & T' & D' & C'). exists (v :: l), (w ++ t ++ w' ++ 44 :: t'), rest'.
      split; [rewrite <- !app_assoc; cbn [app]; rewrite <- ?app_assoc; reflexivity|]. split; [constructor; auto|]. split; auto.
      cbn [deep fold_right]. fold (deep (fun v => v) l). lia.
    + rewrite close_arr in Z. apply pre_goes in Z. exists [v], (w ++ t ++ w'), r. split; [rewrite <- !app_assoc; reflexivity|].
      split; [constructor; auto|]. split; auto. cbn [deep fold_right]. lia.
  - intros ps x D H. destruct (fun K => skip_in _ _ _ _ K H) as (w1 & c & r & y & -> & G1 & J & Y); [skipst|].
    assert (c = 34).
    { pose proof (errs _ _ _ _ _ Y) as N. cbn in N. unfold beginString in N. rewrite J in N. destruct (c =? 34) eqn:?; [lia|congruence]. }
    subst c. ncome Y. destruct (in_string _ r _ _ (le_n _) Y) as (nm & r1 & z & -> & R & Z).
    destruct (fun K => skip_in _ _ _ _ K Z) as (w2 & c2 & r2 & y2 & -> & G2 & J2 & Y2); [skipst|].
    assert (c2 = 58).
    { pose proof (errs _ _ _ _ _ Y2) as N. cbn in N. rewrite J2 in N. destruct (c2 =? 58) eqn:?; [lia|congruence]. }
    subst c2. eapply come in Y2; [|reflexivity|cbn; intuition discriminate]. destruct Y2 as (y3 & Y3).
    destruct (IH r2) as (V2 & _ & _); [repeat (rewrite ?app_length in L; cbn [List.length] in L); lia|].
    destruct (V2 (PObjectValue :: ps) y3 Logic.I D Y3) as (w3 & v & t & rest & -> & G3 & T & _ & Dv & y4 & Y4). cbn [cont] in Y4.
    destruct (fun K => skip_in _ _ _ _ K Y4) as (w4 & c & r & z' & -> & G4 & J4 & Z4); [skipst|].
    rewrite len_cons in *.
    assert (C : c = 44 \/ c = 125).
    { pose proof (errs _ _ _ _ _ Z4) as N. cbn in N. rewrite J4 in N. destruct (c =? 44) eqn:?; [lia|]. destruct (c =? 125) eqn:?; [lia|congruence]. }
    destruct C as [-> | ->].
    + eapply come in Z4; [|reflexivity|cbn; intuition discriminate]. destruct Z4 as (z5 & Z5).
      destruct (IH r) as (_ & _ & HM); [repeat (rewrite ?app_length in L; cbn [List.length] in L); lia|].
      destruct (HM ps z5) as (l & t' & rest' & -> & T' & D' & C'); [rewrite len_cons; lia|exact Z5|]. rewrite len_cons in *.
      exists ((nm, v) :: l), (w1 ++ 34 :: nm ++ 34 :: w2 ++ 58 :: w3 ++ t ++ w4 ++ 44 :: t'), rest'.
      split; [repeat (rewrite <- ?app_assoc; cbn [app]); reflexivity|]. split; [constructor; auto|]. split; auto.
      cbn [deep fold_right snd]. fold (deep (@snd (list byte) jval) l). lia.
    + rewrite close_obj in Z4. apply pre_goes in Z4. exists [(nm, v)], (w1 ++ 34 :: nm ++ 34 :: w2 ++ 58 :: w3 ++ t ++ w4), r.
      split; [repeat (rewrite <- ?app_assoc; cbn [app]); reflexivity|]. split; [constructor; auto|]. split; auto. cbn [deep fold_right snd]. lia.
Qed.

(** The two together, for objects. *)
Lemma skipSpace_gap w c r : gap w -> jspace c = false -> skipSpace (w ++ c :: r) = c :: r.
Proof.
  induction w as [|d w IH]; intros G J; cbn [app skipSpace]; [rewrite J; reflexivity|].
  apply gap_cons in G. destruct G as [J' G]. rewrite J'. auto.
Qed.
Lemma decodeRaw_object body l t w rest : body = w ++ t ++ rest -> gap w -> jtext (JObj l) t -> depth (JObj l) <= 10000 -> decodeRaw body = Some t.
Proof.
  intros -> G T D. unfold decodeRaw. rewrite skip_gap by (auto; skipst). rewrite (proj1 scan_text _ _ T); [|exact D|right; exact I|exact I].
  cbn [cont pre option_map]. rewrite app_nil_r. destruct (text_head _ _ T) as (c & r & -> & J & _). f_equal. apply skipSpace_gap; auto.
Qed.
Lemma head_in st ps c q z : readValue st ps (c :: q) = Some z -> fst (fst (step st ps c)) <> OEnd -> exists t, z = c :: t.
Proof.
  cbn [readValue]. destruct (step st ps c) as [[o st'] ps']. cbn [fst]. intros H N.
  destruct o; try congruence; try (destruct (readValue st' ps' q); cbn in H; [injection H as <-; eauto|discriminate]);
    (destruct ps'; [injection H as <-; eauto|]; destruct (readValue st' _ q); cbn in H; [injection H as <-; eauto|discriminate]).
Qed.
Lemma decodeRaw_only body x r : decodeRaw body = Some (123 :: r) -> x = 123 :: r ->
  exists w l rest, body = w ++ x ++ rest /\ gap w /\ jtext (JObj l) x /\ depth (JObj l) <= 10000.
Proof.
  intros H ->. unfold decodeRaw in H. destruct (readValue BeginValue [] body) as [y|] eqn:E; [|discriminate]. cbn in H.
  destruct (fun K => skip_in _ _ _ _ K E) as (w & c & q & z & -> & G & J & Z); [skipst|].
  rewrite skip_gap, Z in E by (auto; skipst). cbn in E. injection E as <-.
  assert (C : c = 123).
  { assert (exists t, z = c :: t) as (t & ->).
    { apply (head_in _ _ _ _ _ Z). cbn [step]. unfold beginValue, push, serr.
      repeat match goal with |- context [if ?t then _ else _] => destruct t end; cbn; discriminate. }
    rewrite skipSpace_gap in H by auto. injection H as -> _. reflexivity. }
  subst c. destruct (push_in [] PObjectKey OBeginObject BeginStringOrEmpty q z 123) as (D' & z' & Z'); [reflexivity|cbn; intuition discriminate|exact Z|].
  destruct (scan_sound _ q (le_n _)) as (_ & _ & HM).
  destruct (obj_close [] q z' (fun x => HM [] x D') D' Z') as (l & t & rest & Et & T & D & _).
  exists w, l, rest. rewrite Et. rewrite Et in Z. rewrite (proj1 scan_text _ _ T) in Z; [|exact D|right; exact I|exact I].
  cbn in Z. rewrite app_nil_r in Z. injection Z as <-. destruct (text_head _ _ T) as (c & r' & -> & J' & _).
  rewrite skipSpace_gap in H by auto. injection H as -> ->. split; auto.
Qed.
