(** How the program ends, and how systemd starts it: comfo.go:31-73, config.go:22-33, systemd/comfo.service:7-9. *)
From Coq Require Import String.
From Verif Require Import GoBase GoStrings Server Wire Twirp GoClient Main.

(** The exit status; None: it does not end, ListenAndServe has not returned (it never returns without an error).  [fails] is the
    text of the error that an attempt yields.  pflag v1.0.5 ends the program with status 2 at a bad command line, and at --help;
    os.Exit in comfo.go:51, 71.  Not modelled: signals, and panics while requests are served (C57, C138). *)
Definition exitStatus (args : list (list byte)) (env : list byte -> option (list byte)) (fails : act -> option (list byte)) : option Z :=
  match parseArgs args with
  | None => Some 2
  | Some set =>
      match ConnectUnit (find_setting set env configMode defaultMode) (find_setting set env configTarget defaultTarget) with
      | None => Some 1
      | Some c =>
          match fails c with
          | Some _ => Some 1
          | None => match fails (Listen (find_setting set env configListen defaultListen)) with Some _ => Some 1 | None => None end
          end
      end
  end.

(** systemd/comfo.service:8: a variable that the unit file sets, in addition to others. *)
Definition serviceEnv (device : list byte) (others : list byte -> option (list byte)) (v : list byte) : option (list byte) :=
  if beq v (str "COMFO_USB_DEVICE") then Some device else others v.
(** systemd/comfo.service:9: no arguments. *)
Definition serviceArgs : list (list byte) := [].
