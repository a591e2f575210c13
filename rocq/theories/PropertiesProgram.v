(** C139 and C140: how systemd starts the program, and how it ends. *)
From Coq Require Import String.
From Verif Require Import GoBase Proto Scanner Conn Proc Lib Server Wire Twirp GoClient Main SpecMain ErrorText SpecErrorText Log LogServer SpecLog Program SpecProgram ProgramProofs.

(** C139: started by comfo.service, the program opens the device that COMFO_USB_DEVICE names there.  True of the device in the file
    as it is; *)
Theorem C139_device_partial : forall env opens, says_nothing env ->
  exists rest, main serviceArgs (serviceEnv (str "/dev/ttyUSB0") env) opens = OpenSerial (str "/dev/ttyUSB0") 9600 :: rest.
Proof. exact service_default. Qed.
Print Assumptions C139_device_partial.
(** but the variable is not looked at: with another device in it the program opens the same one. *)
Theorem C139_device_refuted : exists device env, with_device device (fun _ => None) env /\
  forall rest, main serviceArgs env (fun _ => true) <> OpenSerial device 9600 :: rest.
Proof. exists (str "/dev/ttyUSB1"), (serviceEnv (str "/dev/ttyUSB1") (fun _ => None)). split; [apply sets_device|]. vm_compute. intros rest H. discriminate H. Qed.
Print Assumptions C139_device_refuted.
Theorem C139_device : forall device env opens, says_nothing env ->
  main serviceArgs (serviceEnv device env) opens =
  OpenSerial (str "/dev/ttyUSB0") 9600 :: if opens (OpenSerial (str "/dev/ttyUSB0") 9600) then [Start; Listen (str "[::]:3094")] else [].
Proof. exact service_opens. Qed.
Print Assumptions C139_device.
Example C139_device_here : says_nothing (fun v => if beq v (str "PATH") then Some (str "/bin") else None) /\
  main serviceArgs (serviceEnv (str "/dev/ttyUSB1") (fun v => if beq v (str "COMFO_TARGET") then Some (str "/dev/ttyUSB2") else None)) (fun _ => false) =
    [OpenSerial (str "/dev/ttyUSB2") 9600].
Proof. split; [intros v H; cbn in H; destruct H as [<-|[<-|[<-|[<-|[]]]]]; reflexivity|reflexivity]. Qed.
(** The environment meant is the one with the device in that variable. *)
Theorem C139_set : forall device env, with_device device env (serviceEnv device env).
Proof. exact sets_device. Qed.
Print Assumptions C139_set.
(** Only four variables have a meaning. *)
Theorem C139_only : forall env env', (forall v, In v variables -> env v = env' v) -> forall args,
  (forall opens, main args env opens = main args env' opens) /\
  (forall fails refreshed, mainLog args env fails refreshed = mainLog args env' fails refreshed) /\
  debugOn args env = debugOn args env' /\ (forall fails, exitStatus args env fails = exitStatus args env' fails).
Proof. exact only_these. Qed.
Print Assumptions C139_only.
Theorem C139_ignored : forall args device env,
  (forall opens, main args (serviceEnv device env) opens = main args env opens) /\
  (forall fails refreshed, mainLog args (serviceEnv device env) fails refreshed = mainLog args env fails refreshed) /\
  debugOn args (serviceEnv device env) = debugOn args env /\ (forall fails, exitStatus args (serviceEnv device env) fails = exitStatus args env fails).
Proof. exact ignored. Qed.
Print Assumptions C139_ignored.
Example C139_only_here :
  let env v := if beq v (str "COMFO_MODE") then Some (str "tcp") else if beq v (str "COMFO_USB_DEVICE") then Some (str "/dev/ttyUSB1") else None in
  main serviceArgs env (fun _ => true) = [DialTCP (str "/dev/ttyUSB0"); Start; Listen (str "[::]:3094")] /\
  main serviceArgs env (fun _ => true) = main serviceArgs (fun v => if beq v (str "COMFO_MODE") then Some (str "tcp") else None) (fun _ => true).
Proof. vm_compute. auto. Qed.

(** C140: the program ends with status 2 if its command line is bad, *)
Theorem C140_usage : forall args env fails, exitStatus args env fails = Some 2 <-> forall l, ~ command_line l args.
Proof. exact usage. Qed.
Print Assumptions C140_usage.
(** with status 1 if it cannot do its work, and otherwise not at all (while it can listen); *)
Theorem C140_status : forall l args env fails, command_line l args -> exists mode target listen,
  setting l env "mode" "COMFO_MODE" (str "serial") mode /\ setting l env "target" "COMFO_TARGET" (str "/dev/ttyUSB0") target /\
  setting l env "listen" "COMFO_LISTEN" (str "[::]:3094") listen /\
  (cannot_work fails mode target listen -> exitStatus args env fails = Some 1) /\
  (~ cannot_work fails mode target listen -> exitStatus args env fails = None).
Proof. exact status_is. Qed.
Print Assumptions C140_status.
(** never with status 0. *)
Theorem C140_never_zero : forall args env fails n, exitStatus args env fails = Some n -> n = 1 \/ n = 2.
Proof. exact ends_with. Qed.
Print Assumptions C140_never_zero.
(** If it ends with status 1, the last record of its log is an error that says why; *)
Theorem C140_told : forall args env fails es, exitStatus args env fails = Some 1 -> exists before m e, mainLog args env fails es = before ++ [failure m e].
Proof. exact told_why. Qed.
Print Assumptions C140_told.
(** it goes on exactly if it listens. *)
Theorem C140_runs : forall args env fails, exitStatus args env fails = None <-> exists x, In (Listen x) (main args env (opening fails)) /\ fails (Listen x) = None.
Proof. exact runs_on. Qed.
Print Assumptions C140_runs.
Example C140_ex : let fails a := match a with DialTCP _ => Some (str "refused") | _ => None end in
  exitStatus [str "--mode=tcp"] (fun _ => None) fails = Some 1 /\ exitStatus [] (fun _ => None) fails = None /\
  exitStatus [str "--mode=udp"] (fun _ => None) fails = Some 1 /\ exitStatus [str "-v"] (fun _ => None) fails = Some 2 /\
  exitStatus [str "--help"] (fun _ => None) fails = Some 2 /\
  exitStatus [] (fun _ => None) (fun a => match a with Listen _ => Some (str "in use") | _ => None end) = Some 1 /\
  mainLog [str "--mode=udp"] (fun _ => None) fails [] = [mkEvent LDebug (str "Debug logging enabled") []; failure "Error connecting to unit" (str "unsupported unit mode udp")].
Proof. vm_compute. repeat split. Qed.
