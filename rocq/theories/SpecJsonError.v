(** What a JSON object says as a Twirp error (twitchtv.github.io/twirp/docs/errors.html; documentation of encoding/json). *)
From Coq Require Import String.
From Coq Require Import Permutation.
From Verif Require Import GoBase Server SpecWire Twirp SpecTwirp GoClient SpecGo SpecJson.

(** No character begins here. *)
Definition no_char (s : list byte) : Prop := forall c t, scalar c -> s <> utf8_of c ++ t.
(** U+FFFD *)
Definition replacement : list byte := utf8_of 65533.
(** [mends s t]: bytes that are not UTF-8 are replaced one by one. *)
Inductive mends : list byte -> list byte -> Prop :=
| md_nil : mends [] []
| md_char c s t : scalar c -> mends s t -> mends (utf8_of c ++ s) (utf8_of c ++ t)
| md_bad c s t : no_char (c :: s) -> mends s t -> mends (c :: s) (replacement ++ t).
(** As [reads_str], where what is no text is replaced: bytes that are not UTF-8, surrogates without their other half. *)
Inductive loose_str : list byte -> list byte -> Prop :=
| ls_nil : loose_str [] []
| ls_char c r s : scalar c -> 32 <= c -> c <> 34 -> c <> 92 -> loose_str r s -> loose_str (utf8_of c ++ r) (utf8_of c ++ s)
| ls_bad c r s : no_char (c :: r) -> loose_str r s -> loose_str (c :: r) (replacement ++ s)
| ls_esc e c r s : In (e, c) escapes -> loose_str r s -> loose_str (92 :: e :: r) (c :: s)
| ls_u x v r s : hex16 x v -> scalar v -> loose_str r s -> loose_str (92 :: 117 :: x ++ r) (utf8_of v ++ s)
| ls_pair x v y u r s : hex16 x v -> hex16 y u -> 55296 <= v < 56320 -> 56320 <= u < 57344 -> loose_str r s ->
    loose_str (92 :: 117 :: x ++ 92 :: 117 :: y ++ r) (utf8_of (65536 + 1024 * (v - 55296) + (u - 56320)) ++ s)
| ls_half x v r s : hex16 x v -> 55296 <= v < 57344 ->
    (forall y u t, r = 92 :: 117 :: y ++ t -> hex16 y u -> ~ (v < 56320 /\ 56320 <= u < 57344)) ->
    loose_str r s -> loose_str (92 :: 117 :: x ++ r) (replacement ++ s).

(** [alike n f]: the same but for the case of letters; U+017F is a small s. *)
Inductive alike : list byte -> list byte -> Prop :=
| al_nil : alike [] []
| al_same c n f : alike n f -> alike (c :: n) (c :: f)
| al_capital c n f : 97 <= c <= 122 -> alike n f -> alike (c - 32 :: n) (c :: f)
| al_long_s n f : alike n f -> alike (utf8_of 383 ++ n) (115 :: f).
Definition called (n : list byte) (f : string) : Prop := exists s, loose_str n s /\ alike s (str f).

(** An error: code, message, metadata. *)
Definition error_info := (list byte * list byte * list (list byte * list byte))%type.
(** The value of a string: null changes nothing. *)
Inductive sets_string (cur : list byte) : jval -> list byte -> Prop :=
| ss_str r s : loose_str r s -> sets_string cur (JStr r) s
| ss_null : sets_string cur JNull cur.
(** A map with one more pair. *)
Definition with_pair (k v : list byte) (m m' : list (list byte * list byte)) : Prop :=
  (exists a w b, m = a ++ (k, w) :: b /\ ~ In k (map fst a) /\ m' = a ++ (k, v) :: b) \/ (~ In k (map fst m) /\ m' = m ++ [(k, v)]).
Inductive sets_pairs : list (list byte * list byte) -> list (list byte * jval) -> list (list byte * list byte) -> Prop :=
| sp_nil m : sets_pairs m [] m
| sp_cons m n k v s l m1 m2 : loose_str n k -> sets_string [] v s -> with_pair k s m m1 -> sets_pairs m1 l m2 ->
    sets_pairs m ((n, v) :: l) m2.
Inductive sets_meta (m : list (list byte * list byte)) : jval -> list (list byte * list byte) -> Prop :=
| sm_obj l m' : sets_pairs m l m' -> sets_meta m (JObj l) m'
| sm_null : sets_meta m JNull [].
(** The members of an error, one after the other. *)
Inductive sets_error : error_info -> list (list byte * jval) -> error_info -> Prop :=
| se_nil e : sets_error e [] e
| se_code c m d n v l c' e : called n "code" -> sets_string c v c' -> sets_error (c', m, d) l e -> sets_error (c, m, d) ((n, v) :: l) e
| se_msg c m d n v l m' e : called n "msg" -> sets_string m v m' -> sets_error (c, m', d) l e -> sets_error (c, m, d) ((n, v) :: l) e
| se_meta c m d n v l d' e : called n "meta" -> sets_meta d v d' -> sets_error (c, m, d') l e -> sets_error (c, m, d) ((n, v) :: l) e.
Definition says_error (l : list (list byte * jval)) (e : error_info) : Prop := sets_error ([], [], []) l e.

(** A body that says an error with the code [c]. *)
Definition error_body (body c : list byte) : Prop :=
  c <> [] /\ exists l m d, json_object body l /\ says_error l (c, m, d).
(** How a response is to be understood (as [understood], with the bodies of errors). *)
Inductive responded (q : rpc) (status : Z) (body : list byte) : gres -> Prop :=
| rp_message r fs t : status = 200 -> encodes fs body -> strings_ok q fs -> reply_to q r -> carries t r fs ->
    responded q status body (GGot r)
| rp_garbage : status = 200 -> (forall fs, encodes fs body -> ~ strings_ok q fs) -> responded q status body (GErr (str "internal") None)
| rp_error c : status <> 200 -> ~ 300 <= status < 400 -> error_body body (str c) -> In c twirp_codes ->
    responded q status body (GErr (str c) None)
| rp_odd c : status <> 200 -> ~ 300 <= status < 400 -> error_body body c -> (forall k, In k twirp_codes -> c <> str k) ->
    responded q status body (GErr (str "internal") None)
| rp_proxy c : status <> 200 -> (300 <= status < 400 \/ forall k, ~ error_body body k) -> proxy_code status c ->
    responded q status body (GErr (str c) (Some status)).

(** Messages are cut after a million bytes. *)
Definition cut_message (m m' : list byte) : Prop :=
  (len m <= 1000000 /\ m' = m) \/ (exists r, m = m' ++ r /\ len m' = 1000000 /\ r <> []).
Definition pair_ok (p : list byte * list byte) : Prop := bytes_ok (fst p) /\ bytes_ok (snd p).
Definition mends_pairs (d d' : list (list byte * list byte)) : Prop :=
  Forall2 (fun p q => mends (fst p) (fst q) /\ mends (snd p) (snd q)) d d'.
(** The JSON of an error as it is documented: "code", "msg", and "meta" if there is any. *)
Definition pair_member (p : list byte * list byte) (m : list byte * jval) : Prop :=
  reads_str (fst m) (fst p) /\ exists r, snd m = JStr r /\ reads_str r (snd p).
Definition error_object (c m : list byte) (d : list (list byte * list byte)) (l : list (list byte * jval)) : Prop :=
  exists n1 r1 n2 r2 rest, l = (n1, JStr r1) :: (n2, JStr r2) :: rest /\
    reads_str n1 (str "code") /\ reads_str r1 c /\ reads_str n2 (str "msg") /\ reads_str r2 m /\
    ((d = [] /\ rest = []) \/
     (d <> [] /\ exists n3 ps d', rest = [(n3, JObj ps)] /\ reads_str n3 (str "meta") /\ Permutation d d' /\ Forall2 pair_member d' ps)).
