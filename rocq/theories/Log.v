(** Log output: log/slog of Go 1.22 as comfo.go:40-45 sets it up (TextHandler on stdout, no AddSource, no ReplaceAttr, no
    groups), the records of comfo.go:46-101, logger.go:11-25, caches.go:130-297 and timers.go:29, 42.
    Parameters: unicode.IsPrint (which is strconv.IsPrint) and unicode.IsSpace beyond ASCII, the texts of errors of the
    connection.  The time of a record is given as its calendar fields; years have four digits. *)
From Coq Require Import String.
From Verif Require Import GoBase GoStrings Proc Lib Server Wire Twirp GoClient JsonWrite JsonError ErrorText Duration Main.

(** time.Time as far as the layout shows it; [t_zone] is the offset of the zone, in
    minutes (zones are whole minutes). *)
Record date := mkDate { t_year : Z; t_month : Z; t_day : Z; t_hour : Z; t_min : Z; t_sec : Z; t_ms : Z; t_zone : Z }.
Inductive level := LDebug | LInfo | LError.
(** slog.Value: a string, a duration, an error (given by its text). *)
Inductive value := VText (s : list byte) | VDur (d : Z) | VError (text : list byte).
(** What is passed to slog.Debug, slog.Info and slog.Error. *)
Record event := mkEvent { ev_level : level; ev_msg : list byte; ev_attrs : list (list byte * value) }.

(** level.go: Level and String *)
Definition level_num (l : level) : Z := match l with LDebug => -4 | LInfo => 0 | LError => 8 end.
Definition level_text (l : level) : list byte := match l with LDebug => str "DEBUG" | LInfo => str "INFO" | LError => str "ERROR" end.

(** json_handler.go safeSet *)
Definition safeSet (b : byte) : bool := (32 <=? b) && negb (b =? 34) && negb (b =? 92).
(** text_handler.go needsQuoting *)
Fixpoint needsQuoting_ (isPrint isSpace : Z -> bool) (fuel : nat) (s : list byte) : bool :=
  match fuel, s with
  | O, _ | _, [] => false
  | S f, b :: r =>
      if b <? 128 then
        if negb (b =? 92) && ((b =? 32) || (b =? 61) || negb (safeSet b)) then true
        else needsQuoting_ isPrint isSpace f r
      else
        let (c, size) := decodeRune s in
        if (c =? runeError) || isSpace c || negb (isPrint c) then true
        else needsQuoting_ isPrint isSpace f (skipn size s)
  end.
Definition needsQuoting (isPrint isSpace : Z -> bool) (s : list byte) : bool :=
  match s with [] => true | _ => needsQuoting_ isPrint isSpace (List.length s) s end.
(** handler.go appendString *)
Definition appendString (isPrint isSpace : Z -> bool) (s : list byte) : list byte :=
  if needsQuoting isPrint isSpace s then quote isPrint s else s.
(** appendTextValue *)
Definition valueText (isPrint isSpace : Z -> bool) (v : value) : list byte :=
  match v with
  | VText s => appendString isPrint isSpace s
  | VDur d => durString d
  | VError t => appendString isPrint isSpace t
  end.

(** time.appendInt *)
Definition padded (w : nat) (n : Z) : list byte := let t := itoa n in repeat 48 (w - List.length t) ++ t.
(** handler.go appendRFC3339Millis, with time.appendFormatRFC3339 *)
Definition timeText (t : date) : list byte :=
  padded 4 (t_year t) ++ 45 :: padded 2 (t_month t) ++ 45 :: padded 2 (t_day t) ++ 84 ::
  padded 2 (t_hour t) ++ 58 :: padded 2 (t_min t) ++ 58 :: padded 2 (t_sec t) ++ 46 :: padded 3 (t_ms t) ++
  (if t_zone t =? 0 then [90]
   else let z := t_zone t in
        (if z <? 0 then 45 else 43) :: padded 2 (Z.abs z / 60) ++ 58 :: padded 2 (Z.abs z mod 60)).

(** handler.go appendAttr, appendKey *)
Fixpoint attrsText (isPrint isSpace : Z -> bool) (l : list (list byte * value)) : list byte :=
  match l with
  | [] => []
  | (k, v) :: l => 32 :: appendString isPrint isSpace k ++ 61 :: valueText isPrint isSpace v ++ attrsText isPrint isSpace l
  end.
(** handler.go handle *)
Definition lineText (isPrint isSpace : Z -> bool) (t : date) (e : event) : list byte :=
  let s := appendString isPrint isSpace in
  s (str "time") ++ 61 :: timeText t ++ 32 :: s (str "level") ++ 61 :: s (level_text (ev_level e)) ++
  32 :: s (str "msg") ++ 61 :: s (ev_msg e) ++ attrsText isPrint isSpace (ev_attrs e) ++ [10].
(** comfo.go:40-44 and commonHandler.enabled *)
Definition enabled (debug : bool) (e : event) : bool := level_num (if debug then LDebug else LInfo) <=? level_num (ev_level e).
(** What is written for a sequence of calls, each at its time. *)
Fixpoint logText (isPrint isSpace : Z -> bool) (debug : bool) (l : list (date * event)) : list byte :=
  match l with
  | [] => []
  | (t, e) :: l => (if enabled debug e then lineText isPrint isSpace t e else []) ++ logText isPrint isSpace debug l
  end.

(** ** logger.go:11-25 *)
Definition requestEvent (method uri name : list byte) (duration : Z) : event :=
  mkEvent LDebug (str "Request")
    [(str "method", VText method); (str "URI", VText uri); (str "route", VText name); (str "duration", VDur duration)].
(** routes.go:22-48, gorilla/mux and the logger: [uri] is the request line's, of which [h_path h] is the path.  Only
    requests that match the prefix reach the logger. *)
Definition loggedHTTP (ulower : list byte -> list byte) (unjson : desc -> list byte -> option msg)
    (t uri : list byte) (h : hreq) : sproc (hresp * list event) :=
  if negb (beq (cleanPath (h_path h)) (h_path h)) then Ret (mkHresp 301 Text, [])
  else if hasPrefix ComfoPathPrefix (h_path h) then
    Now (fun start =>
      do a <- match dispatch ulower unjson h with
              | Answer a => Ret a
              | Call pb q => do r <- handle q; Ret (respond pb t r)
              end;
      Now (fun finish => Ret (a, [requestEvent (h_method h) uri (str "twirp") (time_sub finish start)])))
  else Ret (mkHresp 404 Text, []).

(** ** comfo.go:46-107 *)
(** ConnectUnit: the records and the error, if any; [fails] is the text of the error that connecting yields. *)
Definition connectLog (mode unit : list byte) (fails : act -> option (list byte)) : list event * option (list byte) :=
  if beq mode (str "tcp") then
    let a := (str "address", VText unit) in
    let first := mkEvent LInfo (str "Connecting to the unit over tcp") [a] in
    match fails (DialTCP unit) with
    | Some e => ([first], Some (str "unable to dial the unit at " ++ unit ++ str ": " ++ e))
    | None => ([first; mkEvent LInfo (str "Connection established!") [a]], None)
    end
  else if beq mode (str "serial") then
    let a := (str "device", VText unit) in
    let first := mkEvent LInfo (str "Opening serial device") [a] in
    match fails (OpenSerial unit 9600) with
    | Some e => ([first], Some (str "unable to open serial device at " ++ unit ++ str ": " ++ e))
    | None => ([first; mkEvent LInfo (str "Opened device") [a]], None)
    end
  else ([], Some (str "unsupported unit mode " ++ mode)).
(** viper.GetBool: false if the text is no boolean. *)
Definition debugSetting (set : list (list byte * list byte)) (env : list byte -> option (list byte)) : bool :=
  match parseBool (find_setting set env configDebug (str "false")) with Some b => b | None => false end.
(** comfo.go:40-43, with the settings of the command line. *)
Definition debugOn (args : list (list byte)) (env : list byte -> option (list byte)) : bool :=
  match parseArgs args with Some set => debugSetting set env | None => false end.
(** main up to ListenAndServe and what it logs when that returns with an error; [refreshed] are the records of
    StartCaches. *)
Definition mainLog (args : list (list byte)) (env : list byte -> option (list byte)) (fails : act -> option (list byte))
    (refreshed : list event) : list event :=
  match parseArgs args with
  | None => []
  | Some set =>
      mkEvent LDebug (str "Debug logging enabled") [] ::
      let (l, e) := connectLog (find_setting set env configMode defaultMode) (find_setting set env configTarget defaultTarget) fails in
      l ++ match e with
           | Some e => [mkEvent LError (str "Error connecting to unit") [(str "error", VError e)]]
           | None =>
               let addr := find_setting set env configListen defaultListen in
               refreshed ++ mkEvent LInfo (str "API listening") [(str "address", VText addr)] ::
               match fails (Listen addr) with
               | Some e => [mkEvent LError (str "ListenAndServe") [(str "error", VError e)]]
               | None => []
               end
           end
  end.
