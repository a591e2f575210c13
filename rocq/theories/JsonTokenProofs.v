(** The tokens that protojson reads from JSON texts, and the values it passes over. *)
From Coq Require Import String.
From Verif Require Import ProofBase GoStrings Lib Server SpecLayout SpecWire Wire Twirp SpecTwirp SpecJson
  JsonScan JsonRead JsonScanProofs JsonReadProofs.

Definition stop (rest : list byte) : Prop := exists c r, rest = c :: r /\ ender c.
Lemma stop_breaks rest : stop rest -> breaks rest.
Proof. intros (c & r & -> & E). cbn. unfold ender, dig in *. rewrite jspace_gap in E. lia. Qed.
Lemma stop_gap w c r : gap w -> ender c -> stop (w ++ c :: r).
Proof. intros G E. destruct (gap_ender w c r G E) as (c' & r' & -> & E'). exists c', r'. auto. Qed.
Lemma jtrim_gap w b : gap w -> jtrim (w ++ b) = jtrim b.
Proof. unfold jtrim. induction w as [|c w IH]; intros G; [reflexivity|]. apply gap_cons in G. destruct G as [J G]. cbn. rewrite J. auto. Qed.
Lemma jtrim_twice b : jtrim (jtrim b) = jtrim b.
Proof. unfold jtrim. induction b as [|c b IH]; [reflexivity|]. cbn. destruct (jspace c) eqn:J; [exact IH|]. cbn. rewrite J. reflexivity. Qed.
Lemma jtrim_head c b : jspace c = false -> jtrim (c :: b) = c :: b.
Proof. intros J. unfold jtrim. cbn. rewrite J. reflexivity. Qed.
Lemma jtrim_le b : (List.length (jtrim b) <= List.length b)%nat.
Proof. unfold jtrim. induction b as [|c b IH]; [cbn; lia|]. cbn. destruct (jspace c); cbn; lia. Qed.
Lemma parse_trim b : parseNext (jtrim b) = parseNext b.
Proof. unfold parseNext. rewrite jtrim_twice. reflexivity. Qed.
Lemma read1_trim b l o : read1 (mkDec (jtrim b) l o) = read1 (mkDec b l o).
Proof. unfold read1. cbn [jd_in jd_last jd_open]. rewrite parse_trim. reflexivity. Qed.
Lemma read_trim b l o : read (mkDec (jtrim b) l o) = read (mkDec b l o).
Proof. unfold read. rewrite read1_trim. reflexivity. Qed.
Lemma read_gap w b l o : gap w -> read (mkDec (w ++ b) l o) = read (mkDec b l o).
Proof. intros G. rewrite <- read_trim, jtrim_gap, read_trim by auto. reflexivity. Qed.

(** ** Tokens *)
Definition token_of (v : jval) : option token :=
  match v with
  | JNull => Some KNull
  | JBool b => Some (KTrue b)
  | JNum t => match parseNumber t with Some (p, _) => Some (KNumber p) | None => None end
  | JStr r => option_map KText (jstr r)
  | JArr _ => Some KArrayOpen
  | JObj _ => Some KObjectOpen
  end.
Lemma word_match s rest : breaks rest -> matchWithDelim s (s ++ rest) = Some rest.
Proof.
  intros B. unfold matchWithDelim. rewrite skipn_app, skipn_all, Nat.sub_diag. cbn [app skipn].
  apply breaks_delimited in B. rewrite B. assert (P : hasPrefix s (s ++ rest) = true); [|rewrite P; reflexivity].
  induction s as [|c s IH]; [reflexivity|]. cbn. rewrite Z.eqb_refl. exact IH.
Qed.
Lemma parse_scalar v t rest : jtext v t -> ~ composite v -> breaks rest -> bytes_ok (t ++ rest) ->
  parseNext (t ++ rest) = option_map (fun k => (k, jtrim rest)) (token_of v).
Proof.
  intros T C B Y. unfold parseNext. destruct (text_head v t T) as (c & r & Et & J & _).
  assert (E : jtrim (t ++ rest) = t ++ rest) by (rewrite Et; apply jtrim_head; exact J). rewrite E. clear c r Et J E.
  inversion T as [| | |t0 neg i f e N|r R| | | |]; subst; try (cbn in C; tauto).
  - change (str "null" ++ rest) with (110 :: [117; 108; 108] ++ rest). cbn [Z.eqb Pos.eqb].
    change (110 :: [117; 108; 108] ++ rest) with (str "null" ++ rest). rewrite word_match by auto. reflexivity.
  - change (str "true" ++ rest) with (116 :: [114; 117; 101] ++ rest). cbn [Z.eqb Pos.eqb].
    change (116 :: [114; 117; 101] ++ rest) with (str "true" ++ rest). rewrite word_match by auto. reflexivity.
  - change (str "false" ++ rest) with (102 :: [97; 108; 115; 101] ++ rest). cbn [Z.eqb Pos.eqb].
    change (102 :: [97; 108; 115; 101] ++ rest) with (str "false" ++ rest). rewrite word_match by auto. reflexivity.
  - assert (H : exists c r, t ++ rest = c :: r /\ ((c =? 45) || isDigit c = true)).
    { destruct N as (x & y & -> & I & _). destruct neg; [eexists _, _; split; reflexivity|].
      destruct I as [-> |(c & q & -> & D & _)]; eexists _, _; (split; [reflexivity|]); [reflexivity|]. unfold isDigit. lia. }
    destruct H as (c & r & E & D). cbn [token_of]. destruct (number_parse_all t neg i f e N) as (x & _ & X). pose proof (X [] I) as X'. specialize (X rest B).
    rewrite app_nil_r in X'. rewrite X', E. rewrite E in X.
    assert (c <> 110 /\ c <> 116 /\ c <> 102) by (unfold isDigit in D; lia).
    replace (c =? 110) with false by lia. replace (c =? 116) with false by lia. replace (c =? 102) with false by lia. rewrite D, X. reflexivity.
  - cbn [app Z.eqb Pos.eqb orb isDigit Z.leb Z.compare Pos.compare Pos.compare_cont andb].
    rewrite <- app_assoc. cbn [app]. rewrite parse_jstr; [cbn [token_of]; destruct (jstr r); reflexivity|exact R| |rewrite app_length; cbn; lia].
    change ((34 :: r ++ [34]) ++ rest) with ([34] ++ (r ++ [34]) ++ rest) in Y. rewrite <- app_assoc in Y. apply bytes_app in Y. tauto.
Qed.

(** ** Reading *)
Definition ready (last : option token) (o : list bool) : Prop := isValueNext (mkDec [] last o) = true.
Definition afterv (last : option token) : Prop := afterValue (mkDec [] last []) = true.
Lemma scalar_token v k : ~ composite v -> token_of v = Some k -> afterv (Some k) /\
  match k with KNull | KTrue _ | KNumber _ | KText _ => True | _ => False end.
Proof.
  unfold afterv. destruct v; cbn; intros C H; try tauto; try (injection H as <-; split; auto; fail).
  - destruct (parseNumber t) as [[p q]|]; [injection H as <-; auto|discriminate].
  - destruct (jstr raw); [injection H as <-; auto|discriminate].
Qed.
Lemma read_scalar v t rest w last o : jtext v t -> ~ composite v -> stop rest -> bytes_ok (t ++ rest) -> gap w -> ready last o ->
  read (mkDec (w ++ t ++ rest) last o) = option_map (fun k => (k, mkDec (jtrim rest) (Some k) o)) (token_of v).
Proof.
  intros T C S B G R. rewrite read_gap by auto. unfold read, read1. cbn [jd_in jd_open]. rewrite (parse_scalar v t rest T C (stop_breaks _ S) B).
  change (isValueNext (mkDec (t ++ rest) last o)) with (isValueNext (mkDec [] last o)). rewrite R.
  destruct (token_of v) as [k|] eqn:E; [|reflexivity]. destruct (scalar_token v k C E) as [_ K]. cbn. destruct k; cbn; tauto.
Qed.
Lemma read_open_arr w b last o : gap w -> ready last o -> read (mkDec (w ++ 91 :: b) last o) = Some (KArrayOpen, mkDec (jtrim b) (Some KArrayOpen) (false :: o)).
Proof.
  intros G R. rewrite read_gap by auto. unfold read, read1. cbn [jd_in jd_open]. unfold parseNext. rewrite jtrim_head by reflexivity. cbn -[isValueNext jtrim].
  change (isValueNext (mkDec (91 :: b) last o)) with (isValueNext (mkDec [] last o)). rewrite R. reflexivity.
Qed.
Lemma read_open_obj w b last o : gap w -> ready last o -> read (mkDec (w ++ 123 :: b) last o) = Some (KObjectOpen, mkDec (jtrim b) (Some KObjectOpen) (true :: o)).
Proof.
  intros G R. rewrite read_gap by auto. unfold read, read1. cbn [jd_in jd_open]. unfold parseNext. rewrite jtrim_head by reflexivity. cbn -[isValueNext jtrim].
  change (isValueNext (mkDec (123 :: b) last o)) with (isValueNext (mkDec [] last o)). rewrite R. reflexivity.
Qed.
Lemma read_close_arr w b last o : gap w -> last = Some KArrayOpen \/ afterv last ->
  read (mkDec (w ++ 93 :: b) last (false :: o)) = Some (KArrayClose, mkDec (jtrim b) (Some KArrayClose) o).
Proof.
  intros G R. rewrite read_gap by auto. unfold read, read1. cbn [jd_in jd_open]. unfold parseNext. rewrite jtrim_head by reflexivity. cbn -[isValueNext jtrim].
  destruct R as [-> |R]; [reflexivity|]. unfold afterv in R. cbn in R. destruct last as [[]|]; try discriminate; reflexivity.
Qed.
Lemma read_close_obj w b last o : gap w -> last = Some KObjectOpen \/ afterv last ->
  read (mkDec (w ++ 125 :: b) last (true :: o)) = Some (KObjectClose, mkDec (jtrim b) (Some KObjectClose) o).
Proof.
  intros G R. rewrite read_gap by auto. unfold read, read1. cbn [jd_in jd_open]. unfold parseNext. rewrite jtrim_head by reflexivity. cbn -[isValueNext jtrim].
  destruct R as [-> |R]; [reflexivity|]. unfold afterv in R. cbn in R. destruct last as [[]|]; try discriminate; reflexivity.
Qed.
Lemma read1_not_comma b o s : read1 (mkDec b (Some KComma) o) <> Some (KComma, s).
Proof.
  unfold read1. cbn [jd_in jd_last jd_open]. destruct (parseNext b) as [[k r]|]; [|discriminate].
  destruct k; cbn; destruct o as [|[] o]; cbn; try discriminate;
    (destruct r as [|c r]; [discriminate|]; destruct (c =? 58); discriminate).
Qed.
Lemma read_after_comma b o : read (mkDec b (Some KComma) o) = read1 (mkDec b (Some KComma) o).
Proof.
  unfold read. destruct (read1 (mkDec b (Some KComma) o)) as [[k s]|] eqn:E; [|reflexivity]. destruct k; try reflexivity.
  exfalso. exact (read1_not_comma _ _ _ E).
Qed.
Lemma read_comma w b last x o : gap w -> afterv last -> read (mkDec (w ++ 44 :: b) last (x :: o)) = read (mkDec b (Some KComma) (x :: o)).
Proof.
  intros G R. rewrite read_gap by auto. rewrite read_after_comma. unfold read at 1. unfold read1 at 1. cbn [jd_in jd_open]. unfold parseNext. rewrite jtrim_head by reflexivity. cbn -[isValueNext jtrim afterValue read1].
  change (afterValue (mkDec (44 :: b) last (x :: o))) with (afterValue (mkDec [] last [])). unfold afterv in R. rewrite R. rewrite read1_trim. reflexivity.
Qed.
Lemma read_name w1 n w2 b last o : gap w1 -> raw_string n -> gap w2 -> bytes_ok (n ++ 34 :: w2 ++ 58 :: b) -> last = Some KObjectOpen \/ last = Some KComma ->
  read (mkDec (w1 ++ 34 :: n ++ 34 :: w2 ++ 58 :: b) last (true :: o)) =
  option_map (fun s => (KName s, mkDec (jtrim b) (Some (KName s)) (true :: o))) (jstr n).
Proof.
  intros G1 R G2 B L. rewrite read_gap by auto. unfold read, read1. cbn [jd_in jd_open jd_last]. unfold parseNext. rewrite jtrim_head by reflexivity.
  cbn [Z.eqb Pos.eqb orb isDigit Z.leb Z.compare Pos.compare Pos.compare_cont andb].
  rewrite parse_jstr by (auto; rewrite app_length; cbn; lia). destruct (jstr n) as [s|]; [|reflexivity]. cbn [option_map].
  rewrite jtrim_gap by auto. rewrite jtrim_head by reflexivity.
  destruct L as [-> | ->]; reflexivity.
Qed.

(** ** Values passed over *)
Definition some {A} (o : option A) : bool := match o with Some _ => true | None => false end.
Fixpoint clearb (v : jval) : bool :=
  match v with
  | JStr r => some (jstr r)
  | JArr l => forallb clearb l
  | JObj l => forallb (fun m => some (jstr (fst m)) && clearb (snd m)) l
  | _ => true
  end.
Definition fin (f : nat) (opened : Z) (s : jdec) : option jdec := if opened =? 0 then Some s else skipJSONValue f opened s.
Lemma skip_trim f opened b l o : skipJSONValue f opened (mkDec (jtrim b) l o) = skipJSONValue f opened (mkDec b l o).
Proof. destruct f; [reflexivity|]. cbn [skipJSONValue]. rewrite read_trim. reflexivity. Qed.
Lemma skip_read f opened s s' : read s = read s' -> skipJSONValue f opened s = skipJSONValue f opened s'.
Proof. intros E. destruct f; [reflexivity|]. cbn [skipJSONValue]. rewrite E. reflexivity. Qed.
Definition skips_to (c : bool) (opened : Z) (s : jdec) (f : nat) (opened' : Z) (rest : list byte) (P : option token -> Prop) (o : list bool) : Prop :=
  if c then exists f' last', (List.length rest < f')%nat /\ P last' /\ skipJSONValue f opened s = fin f' opened' (mkDec (jtrim rest) last' o)
  else skipJSONValue f opened s = None.
Lemma skip_close f opened s b o k : (k = KArrayClose \/ k = KObjectClose) -> 1 <= opened ->
  read s = Some (k, mkDec (jtrim b) (Some k) o) -> (List.length b + 1 < f)%nat ->
  skips_to true opened s f (opened - 1) b (fun l => l = Some k) o.
Proof.
  intros K O E L. destruct f as [|f]; [lia|]. cbn [skips_to]. exists f, (Some k). split; [lia|]. split; auto. cbn [skipJSONValue]. rewrite E. unfold fin.
  destruct K as [-> | ->]; reflexivity.
Qed.
Lemma skips_trim c opened b l o f opened' rest P o' : skips_to c opened (mkDec b l o) f opened' rest P o' ->
  skips_to c opened (mkDec (jtrim b) l o) f opened' rest P o'.
Proof. unfold skips_to. rewrite skip_trim. auto. Qed.
Ltac norm_app := repeat (rewrite <- ?app_assoc; cbn [app]).
Lemma passes :
  (forall v t, jtext v t -> forall f opened o last rest w, ready last o -> stop rest -> 0 <= opened -> opened + depth v <= 9999 -> bytes_ok (t ++ rest) -> gap w ->
     (List.length (t ++ rest) < f)%nat -> skips_to (clearb v) opened (mkDec (w ++ t ++ rest) last o) f opened rest afterv o) /\
  (forall l b, jelems l b -> forall f opened o last rest, last = Some KArrayOpen \/ last = Some KComma -> 1 <= opened -> opened + deep (fun v => v) l <= 9999 ->
     bytes_ok (b ++ 93 :: rest) -> (List.length (b ++ 93%Z :: rest) < f)%nat ->
     skips_to (forallb clearb l) opened (mkDec (b ++ 93 :: rest) last (false :: o)) f (opened - 1) rest afterv o) /\
  (forall l b, jmembers l b -> forall f opened o last rest, last = Some KObjectOpen \/ last = Some KComma -> 1 <= opened -> opened + deep snd l <= 9999 ->
     bytes_ok (b ++ 125 :: rest) -> (List.length (b ++ 125%Z :: rest) < f)%nat ->
     skips_to (forallb (fun m => some (jstr (fst m)) && clearb (snd m)) l) opened (mkDec (b ++ 125 :: rest) last (true :: o)) f (opened - 1) rest afterv o).
Proof.
  assert (SC : forall v t, jtext v t -> ~ composite v -> clearb v = some (token_of v) -> forall f opened o last rest w, ready last o -> stop rest -> 0 <= opened -> opened + depth v <= 9999 -> bytes_ok (t ++ rest) -> gap w ->
     (List.length (t ++ rest) < f)%nat -> skips_to (clearb v) opened (mkDec (w ++ t ++ rest) last o) f opened rest afterv o).
  { intros v t T C E f opened o last rest w R S O D B G L. pose proof (read_scalar v t rest w last o T C S B G R) as H. rewrite E. clear E.
    rewrite app_length in L. assert (1 <= List.length t)%nat by (destruct (text_head v t T) as (c & r & -> & _); cbn; lia).
    destruct f as [|f]; [lia|]. destruct (token_of v) as [k|] eqn:K; cbn [some skips_to skipJSONValue]; rewrite H; cbn [option_map]; [|reflexivity].
    destruct (scalar_token v k C K) as [A M]. exists f, (Some k). split; [lia|]. split; auto. unfold fin. destruct k; cbn in M; try tauto; reflexivity. }
  assert (OP : forall f opened s s' k, (k = KArrayOpen \/ k = KObjectOpen) -> read s = Some (k, s') -> opened + 1 <= 9999 -> skipJSONValue (S f) opened s = skipJSONValue f (opened + 1) s').
  { intros f opened s s' k K E D. cbn [skipJSONValue]. rewrite E. change recursionLimit with 10000. replace (10000 - 1 <? opened + 1) with false by lia. destruct K as [-> | ->]; reflexivity. }
  assert (TO : forall c opened s s' f f' opened' rest (P P' : option token -> Prop) o, skipJSONValue f opened s = skipJSONValue f' opened' s' -> (forall l, P' l -> P l) ->
    skips_to c opened' s' f' opened rest P' o -> skips_to c opened s f opened rest P o).
  { intros c opened s s' f f' opened' rest P P' o E I H. unfold skips_to in *. rewrite E. destruct c; [|exact H]. destruct H as (g & l & A & B & C). exists g, l. auto. }
  apply json_ind.
  - apply SC; [constructor|cbn; tauto|reflexivity].
  - apply SC; [constructor|cbn; tauto|reflexivity].
  - apply SC; [constructor|cbn; tauto|reflexivity].
  - intros t neg i f e N. apply SC; [econstructor; eauto|cbn; tauto|]. cbn. destruct (number_parse t neg i f e [] N I) as (x & X & _). rewrite app_nil_r in X. rewrite X. reflexivity.
  - intros r R. apply SC; [constructor; auto|cbn; tauto|]. cbn. destruct (jstr r); reflexivity.
  - intros w' G' f opened o last rest w R S O D B G L. cbn [depth fold_right] in D. cbn [app] in *. rewrite <- app_assoc in *. cbn [app] in *.
    cbn [List.length] in L. destruct f as [|f]; [lia|]. rewrite app_length in L. cbn [List.length] in L.
    eapply TO; [eapply OP; [left; reflexivity|apply read_open_arr; auto|lia]| |]; cycle 1.
    + replace opened with (opened + 1 - 1) at 2 by lia. apply (skip_close _ _ _ rest o KArrayClose); [auto|lia|rewrite read_trim; apply read_close_arr; auto|lia].
    + cbn. intros l ->. reflexivity.
  - intros l b E IH f opened o last rest w R S O D B G L. cbn [depth] in D. fold (deep (fun v => v) l) in D. pose proof (deep_pos (fun v => v) l). cbn [app] in *. rewrite <- app_assoc in *. cbn [app] in *.
    cbn [List.length] in L. destruct f as [|f]; [lia|].
    eapply TO; [eapply OP; [left; reflexivity|apply read_open_arr; auto|lia]| |].
    + intros l' X. exact X.
    + apply skips_trim. pose proof (IH f (opened + 1) o (Some KArrayOpen) rest (or_introl eq_refl) ltac:(lia) ltac:(lia)) as K. replace (opened + 1 - 1) with opened in K by lia. apply K; [|lia]. apply Forall_cons_iff in B. tauto.
  - intros w' G' f opened o last rest w R S O D B G L. cbn [depth fold_right] in D. cbn [app] in *. rewrite <- app_assoc in *. cbn [app] in *.
    cbn [List.length] in L. destruct f as [|f]; [lia|]. rewrite app_length in L. cbn [List.length] in L.
    eapply TO; [eapply OP; [right; reflexivity|apply read_open_obj; auto|lia]| |]; cycle 1.
    + replace opened with (opened + 1 - 1) at 2 by lia. apply (skip_close _ _ _ rest o KObjectClose); [auto|lia|rewrite read_trim; apply read_close_obj; auto|lia].
    + cbn. intros l ->. reflexivity.
  - intros l b E IH f opened o last rest w R S O D B G L. cbn [depth] in D. fold (deep (@snd (list byte) jval) l) in D. pose proof (deep_pos (@snd (list byte) jval) l). cbn [app] in *. rewrite <- app_assoc in *. cbn [app] in *.
    cbn [List.length] in L. destruct f as [|f]; [lia|].
    eapply TO; [eapply OP; [right; reflexivity|apply read_open_obj; auto|lia]| |].
    + intros l' X. exact X.
    + apply skips_trim. pose proof (IH f (opened + 1) o (Some KObjectOpen) rest (or_introl eq_refl) ltac:(lia) ltac:(lia)) as K. replace (opened + 1 - 1) with opened in K by lia. apply K; [|lia]. apply Forall_cons_iff in B. tauto.
  - intros v w b w' G T IH G' f opened o last rest La O D B L. cbn [deep fold_right] in D. cbn [forallb]. rewrite andb_true_r. norm_app. rewrite <- !app_assoc in *.
    assert (R : ready last (false :: o)) by (destruct La as [-> | ->]; reflexivity).
    assert (St : stop (w' ++ 93 :: rest)) by (apply stop_gap; auto; right; auto).
    rewrite (app_length w) in L. apply bytes_app in B. destruct B as [_ B].
    pose proof (IH f opened (false :: o) last (w' ++ 93 :: rest) w R St ltac:(lia) ltac:(lia) B G ltac:(lia)) as K.
    unfold skips_to in K |- *. destruct (clearb v); [|exact K]. destruct K as (f' & l' & L' & A & K). rewrite K. unfold fin at 1. replace (opened =? 0) with false by lia.
    rewrite skip_trim. rewrite app_length in L'. cbn [List.length] in L'.
    destruct (skip_close f' opened (mkDec (w' ++ 93 :: rest) l' (false :: o)) rest o KArrayClose) as (g & l'' & X1 & X2 & X3); [auto|lia|apply read_close_arr; auto|lia|].
    exists g, l''. split; auto. split; [subst l''; reflexivity|exact X3].
  - intros v l w b w' b' G T IH G' E IH' f opened o last rest La O D B L. cbn [deep fold_right] in D. fold (deep (fun v => v) l) in D. cbn [forallb]. norm_app. rewrite <- !app_assoc in *. cbn [app] in *.
    assert (R : ready last (false :: o)) by (destruct La as [-> | ->]; reflexivity).
    assert (St : stop (w' ++ 44 :: b' ++ 93 :: rest)) by (apply stop_gap; auto; right; auto).
    rewrite (app_length w) in L. apply bytes_app in B. destruct B as [_ B].
    pose proof (IH f opened (false :: o) last (w' ++ 44 :: b' ++ 93 :: rest) w R St ltac:(lia) ltac:(lia) B G ltac:(lia)) as K.
    unfold skips_to in K |- *. destruct (clearb v); [|exact K]. destruct K as (f' & l' & L' & A & K). unfold fin in K. replace (opened =? 0) with false in K by lia. rewrite K.
    rewrite skip_trim. rewrite app_length in L'. cbn [List.length] in L'. cbn [andb].
    rewrite (skip_read f' opened _ _ (read_comma w' (b' ++ 93 :: rest) l' false o G' A)).
    apply bytes_app in B. destruct B as [_ B]. apply bytes_app in B. destruct B as [_ B]. apply Forall_cons_iff in B. destruct B as [_ B].
    exact (IH' f' opened o (Some KComma) rest (or_intror eq_refl) O ltac:(lia) B ltac:(lia)).
  - intros n v w1 w2 w3 b w4 G1 R G2 G3 T IH G4 f opened o last rest La O D B L. cbn [deep fold_right snd] in D. cbn [forallb fst snd]. rewrite andb_true_r. norm_app.
    repeat (rewrite <- ?app_assoc in B, L; cbn [app] in B, L).
    apply bytes_app in B. destruct B as [_ B]. apply Forall_cons_iff in B. destruct B as [_ B].
    pose proof (read_name w1 n w2 (w3 ++ b ++ w4 ++ 125 :: rest) last o G1 R G2 B La) as Rn. destruct (jstr n) as [s|].
    2: { cbn [some andb skips_to]. destruct f; [lia|]. cbn [skipJSONValue]. rewrite Rn. reflexivity. }
    cbn [some andb option_map] in *. destruct f as [|f]; [lia|].
    assert (E1 : skipJSONValue (S f) opened (mkDec (w1 ++ 34 :: n ++ 34 :: w2 ++ 58 :: w3 ++ b ++ w4 ++ 125 :: rest) last (true :: o)) =
      skipJSONValue f opened (mkDec (w3 ++ b ++ w4 ++ 125 :: rest) (Some (KName s)) (true :: o))).
    { cbn [skipJSONValue]. rewrite Rn. cbv iota beta. replace (opened =? 0) with false by lia. apply skip_trim. }
    assert (St : stop (w4 ++ 125 :: rest)) by (apply stop_gap; auto; right; auto).
    apply bytes_app in B. destruct B as [_ B]. apply Forall_cons_iff in B. destruct B as [_ B]. apply bytes_app in B. destruct B as [_ B]. apply Forall_cons_iff in B. destruct B as [_ B]. apply bytes_app in B. destruct B as [_ B].
    repeat (rewrite ?app_length in L; cbn [List.length] in L).
    pose proof (IH f opened (true :: o) (Some (KName s)) (w4 ++ 125 :: rest) w3 eq_refl St ltac:(lia) ltac:(lia) B G3 ltac:(rewrite !app_length; cbn [List.length]; lia)) as K.
    unfold skips_to in K |- *. rewrite E1. destruct (clearb v); [|exact K]. destruct K as (f' & l' & L' & A & K). rewrite K. unfold fin at 1. replace (opened =? 0) with false by lia.
    rewrite skip_trim. rewrite app_length in L'. cbn [List.length] in L'.
    destruct (skip_close f' opened (mkDec (w4 ++ 125 :: rest) l' (true :: o)) rest o KObjectClose) as (g & l'' & X1 & X2 & X3); [auto|lia|apply read_close_obj; auto|lia|].
    exists g, l''. split; auto. split; [subst l''; reflexivity|exact X3].
  - intros n v l w1 w2 w3 b w4 b' G1 R G2 G3 T IH G4 E IH' f opened o last rest La O D B L. cbn [deep fold_right snd] in D. fold (deep (@snd (list byte) jval) l) in D. cbn [forallb fst snd]. norm_app.
    repeat (rewrite <- ?app_assoc in B, L; cbn [app] in B, L).
    apply bytes_app in B. destruct B as [_ B]. apply Forall_cons_iff in B. destruct B as [_ B].
    pose proof (read_name w1 n w2 (w3 ++ b ++ w4 ++ 44 :: b' ++ 125 :: rest) last o G1 R G2 B La) as Rn. destruct (jstr n) as [s|].
    2: { cbn [some andb skips_to]. destruct f; [lia|]. cbn [skipJSONValue]. rewrite Rn. reflexivity. }
    cbn [some andb option_map] in *. destruct f as [|f]; [lia|].
    assert (E1 : skipJSONValue (S f) opened (mkDec (w1 ++ 34 :: n ++ 34 :: w2 ++ 58 :: w3 ++ b ++ w4 ++ 44 :: b' ++ 125 :: rest) last (true :: o)) =
      skipJSONValue f opened (mkDec (w3 ++ b ++ w4 ++ 44 :: b' ++ 125 :: rest) (Some (KName s)) (true :: o))).
    { cbn [skipJSONValue]. rewrite Rn. cbv iota beta. replace (opened =? 0) with false by lia. apply skip_trim. }
    assert (St : stop (w4 ++ 44 :: b' ++ 125 :: rest)) by (apply stop_gap; auto; right; auto).
    apply bytes_app in B. destruct B as [_ B]. apply Forall_cons_iff in B. destruct B as [_ B]. apply bytes_app in B. destruct B as [_ B]. apply Forall_cons_iff in B. destruct B as [_ B]. apply bytes_app in B. destruct B as [_ B].
    repeat (rewrite ?app_length in L; cbn [List.length] in L).
    pose proof (IH f opened (true :: o) (Some (KName s)) (w4 ++ 44 :: b' ++ 125 :: rest) w3 eq_refl St ltac:(lia) ltac:(lia) B G3 ltac:(repeat (rewrite ?app_length; cbn [List.length]); lia)) as K.
    unfold skips_to in K |- *. rewrite E1. destruct (clearb v); [|exact K]. destruct K as (f' & l' & L' & A & K). unfold fin in K. replace (opened =? 0) with false in K by lia. rewrite K.
    rewrite skip_trim. rewrite app_length in L'. cbn [List.length] in L'. cbn [andb].
    rewrite (skip_read f' opened _ _ (read_comma w4 (b' ++ 125 :: rest) l' true o G4 A)).
    apply bytes_app in B. destruct B as [_ B]. apply bytes_app in B. destruct B as [_ B]. apply Forall_cons_iff in B. destruct B as [_ B].
    exact (IH' f' opened o (Some KComma) rest (or_intror eq_refl) O ltac:(lia) B ltac:(lia)).
Qed.
