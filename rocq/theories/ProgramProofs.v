(** Proofs for C139 and C140. *)
From Coq Require Import String.
From Verif Require Import GoBase ProofBase Proto Scanner Conn Proc Lib Server Wire Twirp TwirpProofs GoClient Main SpecMain MainProofs
  ErrorText SpecErrorText Log LogServer SpecLog LogMainProofs Program SpecProgram.

Lemma find_same set env env' key d : env (envKey key) = env' (envKey key) -> find_setting set env key d = find_setting set env' key d.
Proof. intros E. unfold find_setting. now rewrite E. Qed.
Lemma only_these env env' : (forall v, In v variables -> env v = env' v) -> forall args,
  (forall opens, main args env opens = main args env' opens) /\ (forall fails refreshed, mainLog args env fails refreshed = mainLog args env' fails refreshed) /\
  debugOn args env = debugOn args env' /\ (forall fails, exitStatus args env fails = exitStatus args env' fails).
Proof.
  intros V args.
  assert (forall set key d, In (envKey key) variables -> find_setting set env key d = find_setting set env' key d) as F by (intros; apply find_same; auto).
  unfold main, mainLog, debugOn, debugSetting, exitStatus.
  splits; intros; (destruct (parseArgs args) as [set|]; [|reflexivity]);
    rewrite ?(F set configMode), ?(F set configTarget), ?(F set configListen), ?(F set configDebug) by (vm_compute; tauto); reflexivity.
Qed.
Lemma ignored args dev env :
  (forall opens, main args (serviceEnv dev env) opens = main args env opens) /\
  (forall fails refreshed, mainLog args (serviceEnv dev env) fails refreshed = mainLog args env fails refreshed) /\
  debugOn args (serviceEnv dev env) = debugOn args env /\ (forall fails, exitStatus args (serviceEnv dev env) fails = exitStatus args env fails).
Proof.
  apply only_these. intros v H. unfold serviceEnv. cbn in H.
  destruct H as [<-|[<-|[<-|[<-|[]]]]]; reflexivity.
Qed.
Lemma service_opens dev env opens : says_nothing env ->
  main serviceArgs (serviceEnv dev env) opens = OpenSerial (str "/dev/ttyUSB0") 9600 :: if opens (OpenSerial (str "/dev/ttyUSB0") 9600) then [Start; Listen (str "[::]:3094")] else [].
Proof.
  intros N. rewrite (proj1 (ignored serviceArgs dev env)). rewrite (proj1 (only_these env (fun _ => None) N serviceArgs)). reflexivity.
Qed.
Lemma service_default env opens : says_nothing env -> exists rest, main serviceArgs (serviceEnv (str "/dev/ttyUSB0") env) opens = OpenSerial (str "/dev/ttyUSB0") 9600 :: rest.
Proof. intros N. rewrite service_opens by auto. eauto. Qed.

Lemma usage args env fails : exitStatus args env fails = Some 2 <-> forall l, ~ command_line l args.
Proof.
  unfold exitStatus. split.
  - destruct (parseArgs args) as [set|] eqn:P; [|intros _; now apply bad_line].
    destruct (ConnectUnit _ _) as [a|]; [|discriminate]. destruct (fails a); [discriminate|]. destruct (fails _); discriminate.
  - intros H. destruct (parseArgs args) as [set|] eqn:P; [|auto]. destruct (parses_only _ _ _ (le_n _) P) as (l & C & _). now apply H in C.
Qed.
Lemma ends_with args env fails n : exitStatus args env fails = Some n -> n = 1 \/ n = 2.
Proof.
  unfold exitStatus. destruct (parseArgs args) as [set|]; [|intros E; injection E as <-; auto].
  destruct (ConnectUnit _ _) as [a|]; [|intros E; injection E as <-; auto]. destruct (fails a); [intros E; injection E as <-; auto|].
  destruct (fails _); [intros E; injection E as <-; auto|discriminate].
Qed.
Lemma settings_of l args env : command_line l args -> exists set mode target listen, parseArgs args = Some set /\
  setting l env "mode" "COMFO_MODE" (str "serial") mode /\ setting l env "target" "COMFO_TARGET" (str "/dev/ttyUSB0") target /\
  setting l env "listen" "COMFO_LISTEN" (str "[::]:3094") listen /\
  find_setting set env configMode defaultMode = mode /\ find_setting set env configTarget defaultTarget = target /\ find_setting set env configListen defaultListen = listen.
Proof.
  intros C. pose proof (parses _ _ C) as P. pose proof (names _ _ C) as N.
  exists (raw l), (find_setting (raw l) env configMode defaultMode), (find_setting (raw l) env configTarget defaultTarget), (find_setting (raw l) env configListen defaultListen).
  splits; auto.
  - apply (find_is l env "mode" "COMFO_MODE" (str "serial")); cbn; auto.
  - apply (find_is l env "target" "COMFO_TARGET" (str "/dev/ttyUSB0")); cbn; auto.
  - apply (find_is l env "listen" "COMFO_LISTEN" (str "[::]:3094")); cbn; auto.
Qed.
Lemma status_is l args env fails : command_line l args -> exists mode target listen,
  setting l env "mode" "COMFO_MODE" (str "serial") mode /\ setting l env "target" "COMFO_TARGET" (str "/dev/ttyUSB0") target /\
  setting l env "listen" "COMFO_LISTEN" (str "[::]:3094") listen /\
  (cannot_work fails mode target listen -> exitStatus args env fails = Some 1) /\
  (~ cannot_work fails mode target listen -> exitStatus args env fails = None).
Proof.
  intros C. destruct (settings_of l args env C) as (set & mode & target & listen & P & A & B & D & Em & Et & El).
  exists mode, target, listen. splits; auto; unfold exitStatus; rewrite P, Em, Et, El; clear Em Et El; unfold cannot_work, ConnectUnit.
  - intros H. destruct (beq mode (str "tcp")) eqn:E1.
    + apply beq_eq in E1. subst mode. destruct (fails (DialTCP target)) eqn:F; [auto|]. destruct (fails (Listen listen)) eqn:G; [auto|].
      exfalso. destruct H as [[H _]|[[_ H]|[[H _]|H]]]; [now apply H|now apply H|vm_compute in H; discriminate H|now apply H].
    + destruct (beq mode (str "serial")) eqn:E2; [|auto]. apply beq_eq in E2. subst mode. destruct (fails (OpenSerial target 9600)) eqn:F; [auto|].
      destruct (fails (Listen listen)) eqn:G; [auto|]. exfalso. destruct H as [[_ H]|[[H _]|[[_ H]|H]]]; [now apply H|vm_compute in H; discriminate H|now apply H|now apply H].
  - intros H. destruct (beq mode (str "tcp")) eqn:E1.
    + apply beq_eq in E1. subst mode. destruct (fails (DialTCP target)) eqn:F; [exfalso; apply H; right; left; split; congruence|].
      destruct (fails (Listen listen)) eqn:G; [exfalso; apply H; right; right; right; congruence|auto].
    + destruct (beq mode (str "serial")) eqn:E2.
      * apply beq_eq in E2. subst mode. destruct (fails (OpenSerial target 9600)) eqn:F; [exfalso; apply H; right; right; left; split; congruence|].
        destruct (fails (Listen listen)) eqn:G; [exfalso; apply H; right; right; right; congruence|auto].
      * exfalso. apply H. left. split; intros K; apply beq_eq in K; congruence.
Qed.
Lemma told_why args env fails es : exitStatus args env fails = Some 1 -> exists before m e, mainLog args env fails es = before ++ [failure m e].
Proof.
  unfold exitStatus, mainLog. destruct (parseArgs args) as [set|]; [|discriminate].
  set (mode := find_setting set env configMode defaultMode). set (target := find_setting set env configTarget defaultTarget).
  set (listen := find_setting set env configListen defaultListen). unfold ConnectUnit, connectLog.
  assert (forall (l : list event) x m e, exists before m' e', x :: l ++ [failure m e] = before ++ [failure m' e']) as K
    by (intros l x m e; exists (x :: l), m, e; auto).
  assert (forall e, fails (Listen listen) = Some e -> forall x l y, exists before m' e', x :: l ++ es ++ y ::
    match fails (Listen listen) with Some e => [mkEvent LError (str "ListenAndServe") [(str "error", VError e)]] | None => [] end = before ++ [failure m' e']) as L.
  { intros e E x l y. rewrite E. exists (x :: l ++ es ++ [y]), "ListenAndServe"%string, e. cbn. rewrite <- !app_assoc. reflexivity. }
  destruct (beq mode (str "tcp")); [|destruct (beq mode (str "serial"))].
  - destruct (fails (DialTCP target)) as [e|] eqn:F; intros H; [apply (K [_] _ "Error connecting to unit"%string)|].
    destruct (fails (Listen listen)) eqn:G in H; [|discriminate]. eapply L; eauto.
  - destruct (fails (OpenSerial target 9600)) as [e|] eqn:F; intros H; [apply (K [_] _ "Error connecting to unit"%string)|].
    destruct (fails (Listen listen)) eqn:G in H; [|discriminate]. eapply L; eauto.
  - intros _. apply (K [] _ "Error connecting to unit"%string).
Qed.
Lemma runs_on args env fails : exitStatus args env fails = None <-> exists x, In (Listen x) (main args env (opening fails)) /\ fails (Listen x) = None.
Proof.
  unfold exitStatus, main. destruct (parseArgs args) as [set|]; [|split; [discriminate|intros (x & [] & _)]].
  destruct (ConnectUnit _ _) as [a|] eqn:C; [|split; [discriminate|intros (x & [] & _)]].
  assert (forall x, a <> Listen x) as NL by (intros x ->; unfold ConnectUnit in C; destruct (beq _ _); [discriminate|]; destruct (beq _ _); discriminate).
  unfold opening. destruct (fails a) eqn:F.
  - split; [discriminate|]. intros (x & [H|[]] & _). now apply NL in H.
  - destruct (fails (Listen _)) eqn:G; split; try discriminate; auto.
    + intros (x & H & K). destruct H as [H|[H|[H|[]]]]; [now apply NL in H|discriminate|]. injection H as <-. congruence.
    + intros _. eexists. split; [right; right; left; reflexivity|auto].
Qed.
Lemma sets_device dev env : with_device dev env (serviceEnv dev env).
Proof.
  intros v. unfold serviceEnv. destruct (beq v (str "COMFO_USB_DEVICE")) eqn:E; split; intros H; auto.
  - apply beq_eq in E. contradiction.
  - subst v. vm_compute in E. discriminate E.
Qed.
