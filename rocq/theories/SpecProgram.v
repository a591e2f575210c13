(** Words for the statements about how the program is started and how it ends. *)
From Coq Require Import String.
From Verif Require Import GoBase Twirp Main SpecMain.

(** The variables with a meaning. *)
Definition variables : list (list byte) := [str "COMFO_DEBUG"; str "COMFO_MODE"; str "COMFO_TARGET"; str "COMFO_LISTEN"].
(** Nothing else says how to connect. *)
Definition says_nothing (env : list byte -> option (list byte)) : Prop := forall v, In v variables -> env v = None.
(** The environment [env'] is [env] with the device in the variable of comfo.service. *)
Definition with_device (device : list byte) (env env' : list byte -> option (list byte)) : Prop :=
  forall v, (v = str "COMFO_USB_DEVICE" -> env' v = Some device) /\ (v <> str "COMFO_USB_DEVICE" -> env' v = env v).
(** The program cannot do its work: the mode is none, or connecting or listening fails. *)
Definition cannot_work (fails : act -> option (list byte)) (mode target listen : list byte) : Prop :=
  mode <> str "tcp" /\ mode <> str "serial" \/
  mode = str "tcp" /\ fails (DialTCP target) <> None \/
  mode = str "serial" /\ fails (OpenSerial target 9600) <> None \/
  fails (Listen listen) <> None.
