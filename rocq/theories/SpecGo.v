(** Vocabulary for statements about the Go client: base URLs, path prefixes, responses. *)
From Coq Require Import String.
From Verif Require Import GoBase Lib Proc Server SpecWire Twirp SpecTwirp GoClient.

Definition letter (c : byte) : Prop := 97 <= c <= 122 \/ 65 <= c <= 90.
Definition digit (c : byte) : Prop := 48 <= c <= 57.
(** A name or an IPv4 address: letters, digits, hyphens and dots. *)
Definition hostname (h : list byte) : Prop := h <> [] /\ Forall (fun c => letter c \/ digit c \/ c = 45 \/ c = 46) h.
(** With or without a port. *)
Definition port (p : list byte) : Prop := p = [] \/ exists ds, p = 58 :: ds /\ Forall digit ds.
Definition host_port (h : list byte) : Prop := exists n p, h = n ++ p /\ hostname n /\ port p.
(** "http" or "https", in any case; [s] is the name in lower case. *)
Definition web_scheme (s : string) (b : list byte) : Prop := (s = "http" \/ s = "https")%string /\ Forall2 same_letter b (str s).
(** The base URL [base] names the host [h], to be reached by scheme [s]: "http://h", "//h", or "h" alone if there is
    no port. *)
Inductive base_for (s : string) (h : list byte) : list byte -> Prop :=
| base_full b : web_scheme s b -> host_port h -> base_for s h (b ++ str "://" ++ h)
| base_slashes : s = "http"%string -> host_port h -> base_for s h (str "//" ++ h)
| base_name : s = "http"%string -> hostname h -> base_for s h h.
(** Characters of a path that are not escaped. *)
Definition path_char (c : byte) : Prop :=
  letter c \/ digit c \/ In c [45; 46; 95; 126; 36; 38; 43; 44; 47; 58; 59; 61].
(** A path: nothing, or something that begins with a slash. *)
Definition abs_path (p : list byte) : Prop := Forall path_char p /\ (p = [] \/ exists r, p = 47 :: r).
(** Path prefix [p] consists of the elements [es]: with a slash before each, except perhaps the first, and perhaps
    another one at the end. *)
Definition prefix_of (es : list (list byte)) (p : list byte) : Prop :=
  Forall plain es /\ Forall path_char p /\
  exists tail, (tail = [] \/ tail = [47]) /\
    (p = concat (map (cons 47) es) ++ tail \/ (es <> [] /\ 47 :: p = concat (map (cons 47) es) ++ tail)).

(** What a call should return for a reply of the handler. *)
Definition returned (r : resp) : gres :=
  match r with
  | RespErr (InvalidArgument _) => GErr (str "invalid_argument") None
  | RespErr (Internal _) => GErr (str "internal") None
  | r => GGot r
  end.
(** Refused before any handler was called. *)
Definition refused_with (p : list byte) (g : gres) : Prop :=
  (~ tidy p -> g = GErr (str "internal") (Some 301)) /\ (tidy p -> exists i, g = GErr (str "bad_route") i).

(** The codes of Twirp (twitchtv.github.io/twirp/docs/errors.html). *)
Definition twirp_codes : list string :=
  ["canceled"; "unknown"; "invalid_argument"; "malformed"; "deadline_exceeded"; "not_found"; "bad_route"; "already_exists";
   "permission_denied"; "unauthenticated"; "resource_exhausted"; "failed_precondition"; "aborted"; "out_of_range";
   "unimplemented"; "internal"; "unavailable"; "dataloss"]%string.
(** The code for a response that does not come from a Twirp server. *)
Definition proxy_code (s : Z) (c : string) : Prop :=
  In (s, c) [(400, "internal"); (401, "unauthenticated"); (403, "permission_denied"); (404, "bad_route");
             (429, "resource_exhausted"); (502, "unavailable"); (503, "unavailable"); (504, "unavailable")]%string \/
  (300 <= s < 400 /\ c = "internal"%string) \/
  (~ 300 <= s < 400 /\ ~ In s [400; 401; 403; 404; 429; 502; 503; 504] /\ c = "unknown"%string).
(** The strings of the reply to [q] in the message [fs] are UTF-8. *)
Definition strings_ok (q : rpc) (fs : list (Z * wval)) : Prop :=
  forall n s, In (n, WBytes s) fs ->
    match q, n with
    | GetBootInfo, 4 | SetComfortTempR _, 4 | SetFanSpeedR _ _, 4 | SetFanProfileR _ _, 4 | FlushCacheR _, 2 => utf8 s
    | _, _ => True
    end.
(** How a response is to be understood. *)
Inductive understood (q : rpc) (g : gresp) : gres -> Prop :=
| und_message r fs t : gr_status g = 200 -> encodes fs (gr_body g) -> strings_ok q fs -> reply_to q r -> carries t r fs ->
    understood q g (GGot r)
| und_garbage : gr_status g = 200 -> (forall fs, encodes fs (gr_body g) -> ~ strings_ok q fs) ->
    understood q g (GErr (str "internal") None)
| und_error c : gr_status g <> 200 -> ~ 300 <= gr_status g < 400 -> gr_err g = Some (str c) -> In c twirp_codes ->
    understood q g (GErr (str c) None)
| und_odd c : gr_status g <> 200 -> ~ 300 <= gr_status g < 400 -> gr_err g = Some c -> c <> [] ->
    (forall k, In k twirp_codes -> c <> str k) -> understood q g (GErr (str "internal") None)
| und_proxy c : gr_status g <> 200 -> (300 <= gr_status g < 400 \/ gr_err g = None \/ gr_err g = Some []) ->
    proxy_code (gr_status g) c -> understood q g (GErr (str c) (Some (gr_status g))).
