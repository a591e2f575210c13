(** Vocabulary for statements about what errors say. *)
From Coq Require Import String Permutation.
From Verif Require Import GoBase Server SpecServer SpecWire Twirp SpecTwirp GoClient SpecGo SpecJson SpecJsonError JsonError.

(** The Go specification, "String literals": [literal t s] if the literal [t] stands for the bytes [s]. *)
Definition go_escapes : list (byte * byte) :=
  [(97, 7); (98, 8); (102, 12); (110, 10); (114, 13); (116, 9); (118, 11); (92, 92); (34, 34)].
(** Hexadecimal digits and their value. *)
Inductive hex_digits : list byte -> Z -> Prop :=
| hx_nil : hex_digits [] 0
| hx_cons x v d n : hex_digits x v -> hexdig d n -> hex_digits (x ++ [d]) (16 * v + n).
Inductive lit : list byte -> list byte -> Prop :=
| lit_nil : lit [] []
| lit_char c r s : scalar c -> c <> 10 -> c <> 34 -> c <> 92 -> lit r s -> lit (utf8_of c ++ r) (utf8_of c ++ s)
| lit_escape e c r s : In (e, c) go_escapes -> lit r s -> lit (92 :: e :: r) (c :: s)
| lit_byte x v r s : hex_digits x v -> List.length x = 2%nat -> lit r s -> lit (92 :: 120 :: x ++ r) (v :: s)
| lit_small_u x v r s : hex_digits x v -> List.length x = 4%nat -> scalar v -> lit r s -> lit (92 :: 117 :: x ++ r) (utf8_of v ++ s)
| lit_big_u x v r s : hex_digits x v -> List.length x = 8%nat -> scalar v -> lit r s -> lit (92 :: 85 :: x ++ r) (utf8_of v ++ s).
Definition literal (t s : list byte) : Prop := exists x, t = 34 :: x ++ [34] /\ lit x s.

(** A decimal number. *)
Definition decimal (t : list byte) (v : Z) : Prop :=
  (0 <= v /\ int_part t /\ num t = v) \/ (v < 0 /\ exists i, t = 45 :: i /\ int_part i /\ num i = - v).

(** What is wrong with a request, by the name of the argument; [mode] is the cached mode. *)
Inductive at_fault (mode : Z) : rpc -> string -> Prop :=
| af_comfort t : 255 < t -> at_fault mode (SetComfortTempR t) "ComfortTemp"
| af_both a : a <> 0 -> at_fault mode (SetFanSpeedR a true) "Abs/Rel"
| af_speed a rel v : speed_target mode a rel = Some v -> ~ 1 <= v <= 4 -> at_fault mode (SetFanSpeedR a rel) "FanSpeed"
| af_mode m t : ~ 1 <= m mod 256 <= 4 -> at_fault mode (SetFanProfileR m t) "Mode"
| af_target m t : 1 <= m mod 256 <= 4 -> ~ 15 <= t mod 256 <= 100 -> at_fault mode (SetFanProfileR m t) "TargetSpeed".
(** The speed that was asked for. *)
Definition asked (mode abs : Z) (rel : bool) : Z := if abs =? 0 then (if rel then mode + 1 else mode - 1) else abs.

(** Texts, as in libcomfo/errors.go and comfoserver/errors.go. *)
Definition known_errors : list (srv_err * string) :=
  [(LibErr ErrPktLen, "unexpected packet length"); (LibErr ErrPayloadSize, "detected payload size larger than packet allows");
   (LibErr ErrVerifyChecksum, "error verifying checksum of the payload"); (LibErr ErrTooShort, "input was too short");
   (LibErr ErrTooLong, "input was too long"); (LibErr ErrTimeout, "operation timed out");
   (LibErr ErrScanInput, "unexpected input while scanning for token"); (LibErr ErrAck, "error writing ACK to connection");
   (LibErr ErrInvalidResponse, "unexpected response type"); (LibErr ErrTooHigh, "value too high");
   (LibErr ErrTooLow, "value is too low"); (LibErr ErrRequestType, "unknown request type");
   (LibErr ErrResponseType, "unknown response type"); (LibErr ErrDecodeNil, "attempting to decode nil Packet");
   (LibErr ErrZeroValue, "unexpected zero value (risk of dividing by zero)"); (LibErr ErrNotExist, "item does not exist");
   (LibErr ErrUnknownMode, "unknown speed mode"); (ErrSetPollFailed, "failure polling result after set operation")]%string.

(** The texts of other errors consist of bytes. *)
Definition texts_ok (io : Z -> list byte) : Prop := forall n, bytes_ok (io n).
(** Only SetFanProfile adds the type of the error. *)
Definition cause_meta (q : rpc) (ty : list byte) : list (list byte * list byte) :=
  match q with SetFanProfileR _ _ => [(str "cause", ty)] | _ => [] end.

(** [e] is the error [g] as it arrives: what is not UTF-8 is replaced, long messages are cut. *)
Definition delivered (g e : gerror) : Prop :=
  ge_code e = ge_code g /\
  (exists m, cut_message (ge_msg g) m /\ mends m (ge_msg e)) /\
  exists d, mends_pairs (ge_meta g) d /\ Permutation d (ge_meta e).

(** Why a request finds no handler, and the message that says so. *)
Inductive route_fault (h : hreq) : list byte -> Prop :=
| rf_method t : h_method h <> str "POST" -> literal t (h_method h) ->
    route_fault h (str "unsupported method " ++ t ++ str " (only POST is allowed)")
| rf_path t : h_method h = str "POST" -> (forall n, ~ addressed h n) ->
    (forall p m, h_path h = p ++ str "/comfo.api.Comfo/" ++ m -> ~ In 47 m -> p = str "/twirp") ->
    literal t (h_path h) -> route_fault h (str "no handler for path " ++ t)
| rf_prefix p m t u : h_method h = str "POST" -> h_path h = p ++ str "/comfo.api.Comfo/" ++ m -> p <> str "/twirp" -> ~ In 47 m ->
    literal t p -> literal u (h_path h) ->
    route_fault h (str "invalid path prefix " ++ t ++ str ", expected ""/twirp"", on path " ++ u)
| rf_type n t : addressed h n -> ~ media "application/protobuf" (h_ctype h) -> ~ media "application/json" (h_ctype h) -> literal t (h_ctype h) ->
    route_fault h (str "unexpected Content-Type: " ++ t).

(** Metadata for a response that does not come from a Twirp server. *)
Definition proxy_meta (status : Z) (location body : list byte) (d : list (list byte * list byte)) : Prop :=
  exists n, decimal n status /\
    Permutation d [(str "http_error_from_intermediary", str "true"); (str "status_code", n);
                   (if (300 <=? status) && (status <? 400) then (str "location", location) else (str "body", body))].
(** The message for it. *)
Definition proxy_text (status : Z) (phrase location m : list byte) : Prop :=
  exists n t u, decimal n status /\ literal t phrase /\ literal u location /\
    m = (if (300 <=? status) && (status <? 400)
         then str "unexpected HTTP status code " ++ n ++ str " " ++ t ++ str " received, Location=" ++ u
         else str "Error from intermediary with HTTP status code " ++ n ++ str " " ++ t).
(** What the client tells of a response with another status than 200; [phrase] is the reason phrase of the status. *)
Inductive told (status : Z) (phrase location body : list byte) : gerror -> Prop :=
| to_error c m d l : ~ 300 <= status < 400 -> json_object body l -> says_error l (str c, m, d) -> In c twirp_codes ->
    told status phrase location body (mkGerror (str c) m d)
| to_odd c m d l : ~ 300 <= status < 400 -> json_object body l -> says_error l (c, m, d) -> c <> [] -> (forall k, In k twirp_codes -> c <> str k) ->
    told status phrase location body (mkGerror (str "internal") (str "invalid type returned from server error response: " ++ c) [(str "body", body)])
| to_proxy c m d : (300 <= status < 400 \/ forall k, ~ error_body body k) -> proxy_code status c ->
    proxy_text status phrase location m -> proxy_meta status location body d -> told status phrase location body (mkGerror (str c) m d).

(** A request without a handler, and the error [g] that is sent for it. *)
Definition explains (h : hreq) (t : terr) (g : gerror) : Prop :=
  ge_code g = code_name (code_of t) /\
  match t with
  | TBadRoute => route_fault h (ge_msg g) /\ ge_meta g = [(str "twirp_invalid_route", h_method h ++ str " " ++ h_path h)]
  | TMalformed =>
      ge_meta g = [] /\
      ((media "application/protobuf" (h_ctype h) /\ ge_msg g = str "the protobuf request could not be decoded") \/
       (media "application/json" (h_ctype h) /\ ge_msg g = str "the json request could not be decoded"))
  | _ => False
  end.
