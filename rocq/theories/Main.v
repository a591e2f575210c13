(** Model of comfo.go:31-107 (main, ConnectUnit) and config.go, with what they use of pflag v1.0.5 and viper v1.18.2.
    Log output (and with it the setting "debug") is in Log.v.  Not modelled: the banner, what happens after
    ListenAndServe has begun (Server.v, Twirp.v); the exit status is in Program.v. *)
From Coq Require Import String.
From Verif Require Import GoBase GoStrings Proto Scanner Conn Proc Lib Server Wire Twirp GoClient.

(** config.go:8-20 *)
Definition configDebug : list byte := str "debug".
Definition configMode : list byte := str "mode".
Definition configTarget : list byte := str "target".
Definition configListen : list byte := str "listen".
Definition defaultMode : list byte := str "serial".
Definition defaultTarget : list byte := str "/dev/ttyUSB0".
Definition defaultListen : list byte := str "[::]:3094".

(** strconv.ParseBool *)
Definition parseBool (s : list byte) : option bool :=
  if existsb (fun x => beq s (str x)) ["1"; "t"; "T"; "TRUE"; "true"; "True"]%string then Some true
  else if existsb (fun x => beq s (str x)) ["0"; "f"; "F"; "FALSE"; "false"; "False"]%string then Some false
  else None.

(** config.go:24-27: the flags and whether they are boolean. *)
Definition formal (name : list byte) : option bool :=
  if beq name configDebug then Some true
  else if beq name configMode || beq name configTarget || beq name configListen then Some false
  else None.
(** pflag FlagSet.Set and boolValue.Set: [None] is an error.  A boolean is kept as the string "true" or "false". *)
Definition flag_value (isBool : bool) (v : list byte) : option (list byte) :=
  if isBool then match parseBool v with Some b => Some (if b then str "true" else str "false") | None => None end
  else Some v.
(** pflag FlagSet.parseArgs and parseLongArg; there are no shorthands, so that a single dash followed by something
    is an error, as is --help.  The settings made, in order; [None]: the program exits (ExitOnError). *)
Fixpoint parseArgs (args : list (list byte)) : option (list (list byte * list byte)) :=
  match args with
  | [] => Some []
  | s :: rest =>
      match s with
      | 45 :: 45 :: name =>
          if beq name [] then Some []                              (* "--" *)
          else if hasPrefix [45] name || hasPrefix [61] name then None      (* bad flag syntax *)
          else
            let '(n, v, found) := cut 61 name in
            match formal n with
            | None => None                                          (* unknown flag, or --help *)
            | Some isBool =>
                if found then
                  match flag_value isBool v, parseArgs rest with
                  | Some v, Some l => Some ((n, v) :: l)
                  | _, _ => None
                  end
                else if isBool then                                 (* NoOptDefVal *)
                  match parseArgs rest with Some l => Some ((n, str "true") :: l) | None => None end
                else match rest with
                     | [] => None                                   (* flag needs an argument *)
                     | v :: rest => match parseArgs rest with Some l => Some ((n, v) :: l) | None => None end
                     end
            end
      | 45 :: _ :: _ => None                                        (* unknown shorthand *)
      | _ => parseArgs rest                                         (* an argument that is not a flag: ignored *)
      end
  end.

(** The last setting of [key]. *)
Fixpoint last_set (key : list byte) (l : list (list byte * list byte)) : option (list byte) :=
  match l with
  | [] => None
  | (n, v) :: l => match last_set key l with
                   | Some x => Some x
                   | None => if beq n key then Some v else None
                   end
  end.
(** viper: find; a flag that was given, else a variable of the environment that is not empty, else the flag's
    default value.  viper.SetEnvPrefix("comfo"), viper.AutomaticEnv() (comfo.go:36-37): the variable is the prefix and
    the key in upper case. *)
Definition upper1 (c : byte) : byte := if (97 <=? c) && (c <=? 122) then c - 32 else c.
Definition envKey (key : list byte) : list byte := map upper1 (str "comfo" ++ str "_" ++ key).
Definition find_setting (set : list (list byte * list byte)) (env : list byte -> option (list byte)) (key dflt : list byte) : list byte :=
  match last_set key set with
  | Some v => v
  | None => match env (envKey key) with
            | Some v => if beq v [] then dflt else v
            | None => dflt
            end
  end.

(** What the program does to the world. *)
Inductive act :=
| DialTCP (addr : list byte)                 (* net.Dial("tcp", addr) *)
| OpenSerial (dev : list byte) (baud : Z)    (* serial.OpenPort *)
| Start                                      (* comfoserver.StartCaches *)
| Listen (addr : list byte).                 (* ListenAndServe *)
(** comfo.go:76-107 ConnectUnit: [None] is the error for an unknown mode. *)
Definition ConnectUnit (mode unit : list byte) : option act :=
  if beq mode (str "tcp") then Some (DialTCP unit)
  else if beq mode (str "serial") then Some (OpenSerial unit 9600)
  else None.
(** comfo.go:31-73 main (and config.go:22-33 init); [opens] says whether connecting succeeds. *)
Definition main (args : list (list byte)) (env : list byte -> option (list byte)) (opens : act -> bool) : list act :=
  match parseArgs args with
  | None => []
  | Some set =>
      match ConnectUnit (find_setting set env configMode defaultMode) (find_setting set env configTarget defaultTarget) with
      | None => []
      | Some c => c :: if opens c then [Start; Listen (find_setting set env configListen defaultListen)] else []
      end
  end.
