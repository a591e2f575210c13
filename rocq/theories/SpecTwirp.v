(** Vocabulary for statements about the HTTP front end: media types, addresses of methods, ranges of arguments. *)
From Coq Require Import String.
From Verif Require Import GoBase Lib Proc Server Client SpecWire Twirp.

(** Equal up to the case of ASCII letters; the second is in lower case. *)
Definition same_letter (a b : byte) : Prop := (a = b /\ ~ 65 <= a <= 90) \/ (97 <= b <= 122 /\ a = b - 32).
Definition blank_char (c : byte) : Prop := 9 <= c <= 13 \/ c = 32.
(** The header names media type [ty]: in any case, with white space around it, perhaps followed by parameters. *)
Definition media (ty : string) (header : list byte) : Prop :=
  exists a b c rest, header = a ++ b ++ c ++ rest /\ Forall blank_char a /\ Forall blank_char c /\
    Forall2 same_letter b (str ty) /\ (rest = [] \/ exists r, rest = 59 :: r).
Definition ascii (s : list byte) : Prop := Forall (fun c => 0 <= c < 128) s.

(** The request is a POST to the URL of method [name]. *)
Definition addressed (h : hreq) (name : string) : Prop :=
  h_method h = str "POST" /\ served name /\ h_path h = str ("/twirp/comfo.api.Comfo/" ++ name).

(** A path in its shortest form: elements that are neither empty nor a dot nor two dots, each preceded by a slash,
    perhaps one more slash at the end. *)
Definition plain (e : list byte) : Prop :=
  e <> [] /\ e <> str "." /\ e <> str ".." /\ Forall (fun c => c <> 47) e.
Definition tidy (p : list byte) : Prop :=
  exists es, Forall plain es /\
    ((es <> [] /\ p = concat (map (cons 47) es)) \/ p = concat (map (cons 47) es) ++ [47]).
(** Where all methods are. *)
Definition in_service (p : list byte) : Prop := exists r, p = str "/twirp/comfo.api.Comfo/" ++ r.
(** How a request is refused: to another path, outside the service, by the service. *)
Definition refusal (h : hreq) (a : hresp) : Prop :=
  (~ tidy (h_path h) -> a = mkHresp 301 Text) /\
  (tidy (h_path h) -> r_status a = 404 /\
    (~ in_service (h_path h) -> r_body a = Text) /\
    (in_service (h_path h) -> exists e, r_body a = ErrorJson e /\ code_of e = CBadRoute)).
(** The body of the request cannot be read. *)
Definition malformed (a : hresp) : Prop := r_status a = 400 /\ exists e, r_body a = ErrorJson e /\ code_of e = CMalformed.

(** Arguments within the types of the request messages (uint32, int32). *)
Definition args_ok (q : rpc) : Prop :=
  match q with
  | SetFanSpeedR a _ => u32_ok a
  | SetComfortTempR t => u32_ok t
  | SetFanProfileR m t => u32_ok m /\ u32_ok t
  | FlushCacheR c => -2147483648 <= c < 2147483648
  | _ => True
  end.
(** The type of the reply. *)
Definition reply_to (q : rpc) (r : resp) : Prop :=
  match q, r with
  | GetBootInfo, RespBoot _ | GetBypassRPC, RespBypass _ | GetErrorsRPC, RespErrors _ | GetFansRPC, RespFans _
  | GetFanProfilesRPC, RespProf _ | GetTempsRPC, RespTemps _ | SetComfortTempR _, RespComfort _ _ _
  | SetFanSpeedR _ _, RespSpeed _ _ _ | SetFanProfileR _ _, RespProfile _ _ _ | FlushCacheR _, RespFlush _ => True
  | _, _ => False
  end.
(** ReqTime: a string that fits in a message. *)
Definition time_string (t : list byte) : Prop := bytes_ok t /\ utf8 t /\ len t < 2147483648.
(** The device name in the cache is UTF-8, if that is what is asked for. *)
Definition reads_well (q : rpc) (w : world shared) : Prop :=
  match q with GetBootInfo => utf8 (DeviceName (sh_boot (w_sh w))) | _ => True end.
Definition name_readable {A} (m : method A) (w : world shared) : Prop :=
  match m with Asks q _ => reads_well q w | Raises _ => True end.
(** The method raises at once or makes a request whose arguments fit the message (and does not flush a cache). *)
Definition sendable {A} (m : method A) : Prop :=
  match m with Asks q _ => args_ok q /\ (forall c, q <> FlushCacheR c) | Raises _ => True end.
