(** Proofs for PropertiesMain.v. *)
From Coq Require Import String.
From Verif Require Import ProofBase GoStrings Proto Conn Proc Lib Server Wire Twirp SpecTwirp TwirpProofs GoClient GoUrl Main SpecMain.

Definition raw (l : list (string * list byte)) : list (list byte * list byte) := map (fun p => (str (fst p), snd p)) l.
Lemma exists_str s l : existsb (fun x => beq s (str x)) l = true <-> exists w, s = str w /\ In w l.
Proof.
  rewrite existsb_exists. split; intros (w & A & B); exists w; [apply beq_eq in B; auto|]. subst s. split; auto. apply beq_refl.
Qed.
Lemma truth_parse b w : truth b w <-> parseBool w = Some b.
Proof.
  unfold parseBool, truth. split.
  - intros (v & -> & I). destruct b; cbn [In] in I; repeat (destruct I as [<-|I]; [reflexivity|]); destruct I.
  - destruct (existsb _ _) eqn:E; [intros H; injection H as <-; apply exists_str; exact E|]. clear E.
    destruct (existsb _ _) eqn:E; [intros H; injection H as <-; apply exists_str; exact E|discriminate].
Qed.
Lemma text_formal n : text_flag n -> formal (str n) = Some false /\ Forall (fun c => c <> 61) (str n) /\
  beq (str n) [] = false /\ (forall r, hasPrefix [45] (str n ++ r) = false /\ hasPrefix [61] (str n ++ r) = false /\ beq (str n ++ r) [] = false).
Proof.
  intros I. assert (K : forallb (fun c => negb (c =? 61)) (str n) = true -> Forall (fun c => c <> 61) (str n)).
  { intros E. apply Forall_forall. intros x X. rewrite forallb_forall in E. specialize (E x X). lia. }
  cbn [text_flag In] in I. destruct I as [<-|[<-|[<-|[]]]]; (split; [reflexivity|]); (split; [apply K; reflexivity|]); split; try reflexivity; auto.
Qed.
Lemma formal_cases n b : formal n = Some b -> (b = true /\ n = str "debug") \/ (b = false /\ exists t, text_flag t /\ n = str t).
Proof.
  unfold formal. destruct (beq n configDebug) eqn:D; [apply beq_eq in D; intros H; injection H as <-; auto|].
  destruct (beq n configMode) eqn:M; [apply beq_eq in M; intros H; injection H as <-; right; split; auto; exists "mode"%string; cbn; auto|].
  destruct (beq n configTarget) eqn:T; [apply beq_eq in T; intros H; injection H as <-; right; split; auto; exists "target"%string; cbn; auto|].
  destruct (beq n configListen) eqn:L; [apply beq_eq in L; intros H; injection H as <-; right; split; auto; exists "listen"%string; cbn; auto|].
  discriminate.
Qed.
Lemma cut_eq c s a b f : cut c s = (a, b, f) -> if f then s = a ++ c :: b else s = a /\ b = [].
Proof.
  revert a b f. induction s as [|x s IH]; intros a b f E; cbn [cut] in E; [injection E as <- <- <-; auto|].
  destruct (x =? c) eqn:X; [injection E as <- <- <-; apply Z.eqb_eq in X; subst; reflexivity|].
  destruct (cut c s) as [[a' b'] f'] eqn:C. injection E as <- <- <-. specialize (IH _ _ _ eq_refl). destruct f'.
  - subst s. reflexivity.
  - destruct IH as [-> ->]. auto.
Qed.
Lemma parse_other a rest : (forall c r, a <> 45 :: c :: r) -> parseArgs (a :: rest) = parseArgs rest.
Proof.
  intros N. destruct a as [|c [|d a]]; [reflexivity| |].
  - cbn [parseArgs]. destruct c as [|p|p]; try reflexivity. repeat (destruct p as [p|p|]; try reflexivity).
  - assert (c <> 45) by (intros ->; apply (N d a); reflexivity).
    cbn [parseArgs]. destruct c as [|p|p]; try reflexivity. repeat (destruct p as [p|p|]; try reflexivity). congruence.
Qed.
Lemma parse_short d r rest : d <> 45 -> parseArgs ((45 :: d :: r) :: rest) = None.
Proof.
  intros N. cbn [parseArgs]. destruct d as [|p|p]; try reflexivity. repeat (destruct p as [p|p|]; try reflexivity). congruence.
Qed.
Definition long_arg (name : list byte) (rest : list (list byte)) : option (list (list byte * list byte)) :=
  if beq name [] then Some []
  else if hasPrefix [45] name || hasPrefix [61] name then None
  else
    let '(n, v, found) := cut 61 name in
    match formal n with
    | None => None
    | Some isBool =>
        if found then
          match flag_value isBool v, parseArgs rest with
          | Some v, Some l => Some ((n, v) :: l)
          | _, _ => None
          end
        else if isBool then
          match parseArgs rest with Some l => Some ((n, str "true") :: l) | None => None end
        else match rest with
             | [] => None
             | v :: rest => match parseArgs rest with Some l => Some ((n, v) :: l) | None => None end
             end
    end.
Lemma parse_long name rest : parseArgs ((45 :: 45 :: name) :: rest) = long_arg name rest.
Proof. reflexivity. Qed.
Lemma parses l args : command_line l args -> parseArgs args = Some (raw l).
Proof.
  induction 1 as [|rest|a l args N C IH|n v l args T C IH|n v l args T C IH|l args C IH|b w l args T C IH].
  - reflexivity.
  - reflexivity.
  - rewrite parse_other; auto.
  - change (str "--" ++ str n ++ 61 :: v) with (45 :: 45 :: str n ++ 61 :: v). rewrite parse_long. unfold long_arg.
    destruct (text_formal n T) as (F & E & _ & P). destruct (P (61 :: v)) as (-> & -> & ->). cbn [orb].
    rewrite cut_found by auto. rewrite F. cbn [flag_value]. rewrite IH. reflexivity.
  - change (str "--" ++ str n) with (45 :: 45 :: str n). rewrite parse_long. unfold long_arg.
    destruct (text_formal n T) as (F & E & B & P). destruct (P []) as (P1 & P2 & _). rewrite app_nil_r in P1, P2. rewrite B, P1, P2. cbn [orb].
    rewrite cut_none by auto. rewrite F, IH. reflexivity.
  - change (str "--debug") with (45 :: 45 :: str "debug"). rewrite parse_long. unfold long_arg.
    change (formal (str "debug")) with (Some true). cbn. rewrite IH. reflexivity.
  - change (str "--debug=" ++ w) with (45 :: 45 :: str "debug" ++ 61 :: w). rewrite parse_long. unfold long_arg.
    change (beq (str "debug" ++ 61 :: w) []) with false. cbv iota.
    change (hasPrefix [45] (str "debug" ++ 61 :: w) || hasPrefix [61] (str "debug" ++ 61 :: w)) with false. cbv iota.
    rewrite cut_found by (apply Forall_forall; intros x X; cbn in X; lia). change (formal (str "debug")) with (Some true). cbv iota.
    apply truth_parse in T. unfold flag_value. rewrite T, IH. reflexivity.
Qed.
Lemma parses_only : forall k args x, (List.length args <= k)%nat -> parseArgs args = Some x -> exists l, command_line l args /\ x = raw l.
Proof.
  induction k as [|k IH]; intros args x L H.
  - destruct args; [|cbn in L; lia]. injection H as <-. exists []. split; [constructor|reflexivity].
  - destruct args as [|s rest]; [injection H as <-; exists []; split; [constructor|reflexivity]|]. cbn [List.length] in L.
    destruct (list_eq_dec Z.eq_dec (firstn 1 s) [45]) as [E1|E1].
    2:{ rewrite parse_other in H by (intros c r ->; apply E1; reflexivity). destruct (IH rest x) as (l & C & ->); [lia|exact H|].
        exists l. split; auto. constructor; auto. intros c r ->. apply E1. reflexivity. }
    destruct s as [|c s]; [discriminate|]. injection E1 as ->. destruct s as [|d s].
    { rewrite parse_other in H by discriminate. destruct (IH rest x) as (l & C & ->); [lia|exact H|]. exists l. split; auto. constructor; auto. discriminate. }
    destruct (Z.eq_dec d 45) as [->|Nd]; [|rewrite parse_short in H by auto; discriminate].
    rewrite parse_long in H. unfold long_arg in H.
    destruct (beq s []) eqn:B; [apply beq_eq in B; subst s; injection H as <-; exists []; split; [apply cl_dashes|reflexivity]|].
    destruct (_ || _); [discriminate|]. destruct (cut 61 s) as [[n v] f] eqn:Cu. apply cut_eq in Cu.
    destruct (formal n) as [isB|] eqn:F; [|discriminate]. apply formal_cases in F. destruct f.
    + subst s. destruct (flag_value isB v) as [v'|] eqn:V; [|discriminate]. destruct (parseArgs rest) as [y|] eqn:P; [|discriminate].
      injection H as <-. destruct (IH rest y) as (l & C & ->); [lia|exact P|].
      destruct F as [(-> & ->)|(-> & t & T & ->)]; unfold flag_value in V.
      * destruct (parseBool v) as [b|] eqn:Pb; [|discriminate]. apply truth_parse in Pb.
        exists (("debug"%string, if b then str "true" else str "false") :: l). split; [|unfold raw; cbn [map fst snd]; congruence].
        apply (cl_debug_is b v l rest Pb C).
      * injection V as <-. exists ((t, v) :: l). split; [apply (cl_equals t v l rest T C)|reflexivity].
    + destruct Cu as [-> ->]. destruct F as [(-> & ->)|(-> & t & T & ->)].
      * destruct (parseArgs rest) as [y|] eqn:P; [|discriminate]. injection H as <-. destruct (IH rest y) as (l & C & ->); [lia|exact P|].
        exists (("debug"%string, str "true") :: l). split; [apply (cl_debug l rest C)|reflexivity].
      * destruct rest as [|v rest]; [discriminate|]. destruct (parseArgs rest) as [y|] eqn:P; [|discriminate]. injection H as <-.
        cbn [List.length] in L. destruct (IH rest y) as (l & C & ->); [lia|exact P|].
        exists ((t, v) :: l). split; [apply (cl_next t v l rest T C)|reflexivity].
Qed.
Lemma names l args : command_line l args -> Forall (fun p => In (fst p) ["debug"; "mode"; "target"; "listen"]%string) l.
Proof. induction 1; auto; constructor; cbn in *; tauto. Qed.
Lemma name_inj a b : In a ["debug"; "mode"; "target"; "listen"]%string -> In b ["debug"; "mode"; "target"; "listen"]%string -> str a = str b -> a = b.
Proof.
  cbn [In]. intros A B E. repeat match goal with H : _ \/ _ |- _ => destruct H as [<-|H] | H : False |- _ => destruct H end; try reflexivity; discriminate.
Qed.
Lemma raw_inj l : forall l', Forall (fun p => In (fst p) ["debug"; "mode"; "target"; "listen"]%string) l ->
  Forall (fun p => In (fst p) ["debug"; "mode"; "target"; "listen"]%string) l' -> raw l = raw l' -> l = l'.
Proof.
  induction l as [|[n v] l IH]; intros [|[n' v'] l'] F F' E; try discriminate; auto.
  unfold raw in E. cbn [map] in E. cbn [fst snd] in E. injection E as E1 E2 E3. inversion F as [|? ? F1 F2]; subst. inversion F' as [|? ? F1' F2']; subst.
  cbn [fst] in F1, F1'. rewrite (name_inj n n' F1 F1' E1). f_equal. apply IH; auto.
Qed.
Lemma one_meaning l l' args : command_line l args -> command_line l' args -> l = l'.
Proof.
  intros C C'. apply raw_inj; [eapply names; eauto|eapply names; eauto|]. apply parses in C, C'. congruence.
Qed.
Lemma last_set_raw n l : In n ["debug"; "mode"; "target"; "listen"]%string -> Forall (fun p => In (fst p) ["debug"; "mode"; "target"; "listen"]%string) l ->
  match last_set (str n) (raw l) with
  | Some v => exists a b, l = a ++ (n, v) :: b /\ forall x, ~ In (n, x) b
  | None => forall x, ~ In (n, x) l
  end.
Proof.
  intros N. induction 1 as [|[m v] l M F IH]; [intros x []|]. cbn [raw map last_set fst snd]. fold (raw l).
  destruct (last_set (str n) (raw l)) as [y|].
  - destruct IH as (a & b & -> & D). exists ((m, v) :: a), b. auto.
  - destruct (beq (str m) (str n)) eqn:E.
    + apply beq_eq in E. apply (name_inj m n M N) in E. subst m. exists [], l. auto.
    + intros x [X|X]; [injection X as -> ->; rewrite beq_refl in E; discriminate|]. apply (IH x X).
Qed.
Lemma find_is l env n var d : In n ["debug"; "mode"; "target"; "listen"]%string -> Forall (fun p => In (fst p) ["debug"; "mode"; "target"; "listen"]%string) l ->
  envKey (str n) = str var -> setting l env n var d (find_setting (raw l) env (str n) d).
Proof.
  intros N F E. pose proof (last_set_raw n l N F) as S. unfold find_setting. destruct (last_set (str n) (raw l)) as [v|].
  - destruct S as (a & b & -> & D). apply (set_flag _ _ _ _ _ a v b); auto.
  - rewrite E. destruct (env (str var)) as [v|] eqn:V; [|apply set_default; auto]. destruct (beq v []) eqn:B.
    + apply beq_eq in B. subst v. apply set_default; auto.
    + apply beq_neq in B. apply set_env; auto.
Qed.
(** C86 *)
Lemma main_does l args env opens : command_line l args -> exists mode target listen,
  setting l env "mode" "COMFO_MODE" (str "serial") mode /\ setting l env "target" "COMFO_TARGET" (str "/dev/ttyUSB0") target /\
  setting l env "listen" "COMFO_LISTEN" (str "[::]:3094") listen /\
  (mode = str "tcp" -> main args env opens = DialTCP target :: if opens (DialTCP target) then [Start; Listen listen] else []) /\
  (mode = str "serial" -> main args env opens = OpenSerial target 9600 :: if opens (OpenSerial target 9600) then [Start; Listen listen] else []) /\
  (mode <> str "tcp" -> mode <> str "serial" -> main args env opens = []).
Proof.
  intros C. pose proof (parses l args C) as P. pose proof (names l args C) as F.
  exists (find_setting (raw l) env configMode defaultMode), (find_setting (raw l) env configTarget defaultTarget), (find_setting (raw l) env configListen defaultListen).
  split; [apply find_is; [cbn; auto|exact F|reflexivity]|]. split; [apply find_is; [cbn; auto|exact F|reflexivity]|].
  split; [apply find_is; [cbn; auto|exact F|reflexivity]|].
  unfold main. rewrite P. unfold ConnectUnit. set (mode := find_setting _ _ configMode _). split; [|split].
  - intros ->. reflexivity.
  - intros ->. reflexivity.
  - intros A B. apply beq_neq in A, B. rewrite A, B. reflexivity.
Qed.
Lemma main_stops args env opens : (forall l, ~ command_line l args) -> main args env opens = [].
Proof.
  intros N. unfold main. destruct (parseArgs args) as [x|] eqn:P; [|reflexivity].
  destruct (parses_only (List.length args) args x (le_n _) P) as (l & C & _). destruct (N l C).
Qed.
Lemma setting_unique l env n var d v v' : setting l env n var d v -> setting l env n var d v' -> v = v'.
Proof.
  assert (K : forall (v v' : list byte) (a a' b b' : list (string * list byte)), a ++ (n, v) :: b = a' ++ (n, v') :: b' -> (forall x, ~ In (n, x) b) -> (forall x, ~ In (n, x) b') -> v = v').
  { intros w w'. induction a as [|p a IH]; intros [|p' a'] b b' E N N'; cbn [app] in E.
    - congruence.
    - injection E as _ E. destruct (N w'). rewrite E. apply in_app_iff. right. left. reflexivity.
    - injection E as _ E. destruct (N' w). rewrite <- E. apply in_app_iff. right. left. reflexivity.
    - injection E as _ E. apply (IH a' b b' E N N'). }
  intros [a u b E N|u N V Z|N V] [a' u' b' E' N'|u' N' V' Z'|N' V'].
  - apply (K u u' a a' b b'); [congruence|exact N|exact N'].
  - destruct (N' u). rewrite E. apply in_app_iff. right. left. reflexivity.
  - destruct (N' u). rewrite E. apply in_app_iff. right. left. reflexivity.
  - destruct (N u'). rewrite E'. apply in_app_iff. right. left. reflexivity.
  - congruence.
  - destruct V'; congruence.
  - destruct (N u'). rewrite E'. apply in_app_iff. right. left. reflexivity.
  - destruct V; congruence.
  - reflexivity.
Qed.
(** Before the API is served the unit has been reached and the caches started; nothing else is opened. *)
Lemma main_order args env opens a x b : main args env opens = a ++ Listen x :: b ->
  exists c, a = [c; Start] /\ b = [] /\ opens c = true /\ ((exists u, c = DialTCP u) \/ exists u, c = OpenSerial u 9600).
Proof.
  unfold main. destruct (parseArgs args) as [set|]; [|destruct a; discriminate].
  unfold ConnectUnit. set (m := find_setting _ _ configMode _). set (u := find_setting _ _ configTarget _).
  assert (K : forall c, c :: (if opens c then [Start; Listen (find_setting set env configListen defaultListen)] else []) = a ++ Listen x :: b ->
    (forall y, c <> Listen y) -> a = [c; Start] /\ b = [] /\ opens c = true).
  { intros c E N. destruct a as [|a1 a]; [injection E as E _; destruct (N x E)|]. injection E as <- E.
    destruct (opens c); [|destruct a; discriminate]. destruct a as [|a2 a]; [discriminate|]. injection E as <- E.
    destruct a as [|a3 a]; [injection E as _ <-; auto|]. injection E as _ E. destruct a; discriminate. }
  destruct (beq m (str "tcp")); [|destruct (beq m (str "serial")); [|destruct a; discriminate]]; intros E;
    (destruct (K _ E) as (-> & -> & O); [discriminate|]); eexists; eauto 10.
Qed.
Lemma one_setting l l' args env n var d v v' : command_line l args -> command_line l' args ->
  setting l env n var d v -> setting l' env n var d v' -> v = v'.
Proof. intros C C'. rewrite (one_meaning l l' args C C'). apply setting_unique. Qed.
Lemma main_started args env opens : In Start (main args env opens) -> exists x, In (Listen x) (main args env opens).
Proof.
  unfold main. destruct (parseArgs args) as [set|]; [|intros []]. unfold ConnectUnit.
  assert (K : forall c, c <> Start -> In Start (c :: if opens c then [Start; Listen (find_setting set env configListen defaultListen)] else []) ->
    exists x, In (Listen x) (c :: if opens c then [Start; Listen (find_setting set env configListen defaultListen)] else [])).
  { intros c N [E|I]; [destruct (N E)|]. destruct (opens c); [|destruct I]. eexists. cbn. eauto. }
  destruct (beq _ _); [apply K; discriminate|]. destruct (beq _ _); [apply K; discriminate|intros []].
Qed.
Lemma bad_line args : parseArgs args = None -> forall l, ~ command_line l args.
Proof. intros P l C. apply parses in C. congruence. Qed.
Lemma main_example : let args := [str "--mode"; str "tcp"; str "--debug=T"; str "x"; str "--target=a:1"; str "--target=b:2"; str "--"; str "--mode=y"] in
  let env v := if beq v (str "COMFO_LISTEN") then Some (str "[::1]:80") else if beq v (str "COMFO_TARGET") then Some (str "c:3") else None in
  command_line [("mode", str "tcp"); ("debug", str "true"); ("target", str "a:1"); ("target", str "b:2")]%string args /\
  main args env (fun _ => true) = [DialTCP (str "b:2"); Start; Listen (str "[::1]:80")] /\
  (forall l, ~ command_line l [str "--mode"]) /\ (forall l, ~ command_line l [str "--debug"; str "-t"]) /\ forall l, ~ command_line l [str "--debug=yes"].
Proof.
  cbv zeta. split; [|split; [reflexivity|split; [|split]; apply bad_line; reflexivity]].
  apply (cl_next "mode" (str "tcp")); [cbn; auto|]. apply (cl_debug_is true (str "T")); [exists "T"%string; cbn; auto|].
  apply cl_other; [discriminate|]. apply (cl_equals "target" (str "a:1")); [cbn; auto|]. apply (cl_equals "target" (str "b:2")); [cbn; auto|].
  apply cl_dashes.
Qed.
