(** Properties C86-C87: the start of the program. *)
From Coq Require Import String.
From Verif Require Import GoBase Proto Twirp TwirpProofs Main SpecMain MainProofs.

(** C86: every setting comes from the last flag that sets it, else from its environment variable, else it has its
    default; connection and address are those settings, *)
Theorem C86_settings : forall l args env opens, command_line l args -> exists mode target listen,
  setting l env "mode" "COMFO_MODE" (str "serial") mode /\ setting l env "target" "COMFO_TARGET" (str "/dev/ttyUSB0") target /\
  setting l env "listen" "COMFO_LISTEN" (str "[::]:3094") listen /\
  (mode = str "tcp" -> main args env opens = DialTCP target :: if opens (DialTCP target) then [Start; Listen listen] else []) /\
  (mode = str "serial" -> main args env opens = OpenSerial target 9600 :: if opens (OpenSerial target 9600) then [Start; Listen listen] else []) /\
  (mode <> str "tcp" -> mode <> str "serial" -> main args env opens = []).
Proof. exact main_does. Qed.
Print Assumptions C86_settings.
(** each has only one value; *)
Theorem C86_unique : forall l l' args env n var d v v', command_line l args -> command_line l' args ->
  setting l env n var d v -> setting l' env n var d v' -> v = v'.
Proof. exact one_setting. Qed.
Print Assumptions C86_unique.
(** with a bad command line the program does nothing. *)
Theorem C86_bad : forall args env opens, (forall l, ~ command_line l args) -> main args env opens = [].
Proof. exact main_stops. Qed.
Print Assumptions C86_bad.
Example C86_ex : let args := [str "--mode"; str "tcp"; str "--debug=T"; str "x"; str "--target=a:1"; str "--target=b:2"; str "--"; str "--mode=y"] in
  let env v := if beq v (str "COMFO_LISTEN") then Some (str "[::1]:80") else if beq v (str "COMFO_TARGET") then Some (str "c:3") else None in
  command_line [("mode", str "tcp"); ("debug", str "true"); ("target", str "a:1"); ("target", str "b:2")]%string args /\
  main args env (fun _ => true) = [DialTCP (str "b:2"); Start; Listen (str "[::1]:80")] /\
  (forall l, ~ command_line l [str "--mode"]) /\ (forall l, ~ command_line l [str "--debug"; str "-t"]) /\ forall l, ~ command_line l [str "--debug=yes"].
Proof. exact main_example. Qed.

(** C87: the API is served only after the unit has been reached (over TCP or a serial line of 9600 baud) and the caches
    have been started; then nothing follows. *)
Theorem C87_order : forall args env opens a x b, main args env opens = a ++ Listen x :: b ->
  exists c, a = [c; Start] /\ b = [] /\ opens c = true /\ ((exists u, c = DialTCP u) \/ exists u, c = OpenSerial u 9600).
Proof. exact main_order. Qed.
Print Assumptions C87_order.
(** And the caches are started only if it is. *)
Theorem C87_started : forall args env opens, In Start (main args env opens) -> exists x, In (Listen x) (main args env opens).
Proof. exact main_started. Qed.
Print Assumptions C87_started.
Example C87_ex : main [] (fun _ => None) (fun _ => true) = [OpenSerial (str "/dev/ttyUSB0") 9600; Start; Listen (str "[::]:3094")] /\
  main [] (fun _ => None) (fun _ => false) = [OpenSerial (str "/dev/ttyUSB0") 9600].
Proof. split; reflexivity. Qed.
