(** JSON (RFC 8259) as a relation between values and texts, and what a JSON object says as a request message
    (protobuf.dev/programming-guides/json). *)
From Coq Require Import String.
From Verif Require Import GoBase Lib Server SpecLayout SpecWire Twirp SpecTwirp.

(** Values.  Numbers and strings (between the quotes) as they are written. *)
Inductive jval :=
| JNull | JBool (b : bool) | JNum (t : list byte) | JStr (raw : list byte)
| JArr (l : list jval) | JObj (l : list (list byte * jval)).

(** White space. *)
Definition gap (w : list byte) : Prop := Forall (fun c => c = 32 \/ c = 9 \/ c = 10 \/ c = 13) w.
Definition dig (c : byte) : Prop := 48 <= c <= 57.
Definition num (ds : list byte) : Z := fold_left (fun a d => a * 10 + (d - 48)) ds 0.
(** [number t neg i f e]: [t] is the number (-) [i].[f] times ten to the [e]. *)
Definition int_part (i : list byte) : Prop := i = [48] \/ exists c r, i = c :: r /\ 49 <= c <= 57 /\ Forall dig r.
Definition frac_part (x f : list byte) : Prop := (x = [] /\ f = []) \/ (x = 46 :: f /\ f <> [] /\ Forall dig f).
Definition exp_part (x : list byte) (e : Z) : Prop :=
  (x = [] /\ e = 0) \/
  exists c s ds, x = c :: s ++ ds /\ (c = 101 \/ c = 69) /\ ds <> [] /\ Forall dig ds /\
    (((s = [] \/ s = [43]) /\ e = num ds) \/ (s = [45] /\ e = - num ds)).
Definition number (t : list byte) (neg : bool) (i f : list byte) (e : Z) : Prop :=
  exists x y, t = (if neg then [45] else []) ++ i ++ x ++ y /\ int_part i /\ frac_part x f /\ exp_part y e.

(** The inside of a string. *)
Inductive hexdig : byte -> Z -> Prop :=
| hex_digit c : 48 <= c <= 57 -> hexdig c (c - 48)
| hex_small c : 97 <= c <= 102 -> hexdig c (c - 87)
| hex_capital c : 65 <= c <= 70 -> hexdig c (c - 55).
Definition hex16 (x : list byte) (v : Z) : Prop :=
  exists a b c d va vb vc vd, x = [a; b; c; d] /\ hexdig a va /\ hexdig b vb /\ hexdig c vc /\ hexdig d vd /\
    v = 4096 * va + 256 * vb + 16 * vc + vd.
Definition escapes : list (byte * byte) :=
  [(34, 34); (92, 92); (47, 47); (98, 8); (102, 12); (110, 10); (114, 13); (116, 9)].
Inductive raw_string : list byte -> Prop :=
| rs_nil : raw_string []
| rs_char c r : 32 <= c -> c <> 34 -> c <> 92 -> raw_string r -> raw_string (c :: r)
| rs_esc e c r : In (e, c) escapes -> raw_string r -> raw_string (92 :: e :: r)
| rs_u x v r : hex16 x v -> raw_string r -> raw_string (92 :: 117 :: x ++ r).

(** [jtext v t]: [t] is a text for the value [v]. *)
Inductive jtext : jval -> list byte -> Prop :=
| jt_null : jtext JNull (str "null")
| jt_true : jtext (JBool true) (str "true")
| jt_false : jtext (JBool false) (str "false")
| jt_num t neg i f e : number t neg i f e -> jtext (JNum t) t
| jt_str r : raw_string r -> jtext (JStr r) (34 :: r ++ [34])
| jt_arr0 w : gap w -> jtext (JArr []) (91 :: w ++ [93])
| jt_arr l b : jelems l b -> jtext (JArr l) (91 :: b ++ [93])
| jt_obj0 w : gap w -> jtext (JObj []) (123 :: w ++ [125])
| jt_obj l b : jmembers l b -> jtext (JObj l) (123 :: b ++ [125])
with jelems : list jval -> list byte -> Prop :=
| je_one v w b w' : gap w -> jtext v b -> gap w' -> jelems [v] (w ++ b ++ w')
| je_more v l w b w' b' : gap w -> jtext v b -> gap w' -> jelems l b' -> jelems (v :: l) (w ++ b ++ w' ++ 44 :: b')
with jmembers : list (list byte * jval) -> list byte -> Prop :=
| jm_one n v w1 w2 w3 b w4 : gap w1 -> raw_string n -> gap w2 -> gap w3 -> jtext v b -> gap w4 ->
    jmembers [(n, v)] (w1 ++ 34 :: n ++ 34 :: w2 ++ 58 :: w3 ++ b ++ w4)
| jm_more n v l w1 w2 w3 b w4 b' : gap w1 -> raw_string n -> gap w2 -> gap w3 -> jtext v b -> gap w4 -> jmembers l b' ->
    jmembers ((n, v) :: l) (w1 ++ 34 :: n ++ 34 :: w2 ++ 58 :: w3 ++ b ++ w4 ++ 44 :: b').
(** How deep arrays and objects are nested. *)
Fixpoint depth (v : jval) : Z :=
  match v with
  | JArr l => 1 + fold_right (fun v d => Z.max (depth v) d) 0 l
  | JObj l => 1 + fold_right (fun m d => Z.max (depth (snd m)) d) 0 l
  | _ => 0
  end.

(** [reads_str r s]: the string written [r] is the text [s] (in UTF-8): characters, escaped characters, code points of
    the basic plane, pairs of surrogates. *)
Inductive reads_str : list byte -> list byte -> Prop :=
| rd_nil : reads_str [] []
| rd_char c r s : scalar c -> 32 <= c -> c <> 34 -> c <> 92 -> reads_str r s -> reads_str (utf8_of c ++ r) (utf8_of c ++ s)
| rd_esc e c r s : In (e, c) escapes -> reads_str r s -> reads_str (92 :: e :: r) (c :: s)
| rd_u x v r s : hex16 x v -> scalar v -> reads_str r s -> reads_str (92 :: 117 :: x ++ r) (utf8_of v ++ s)
| rd_pair x v y u r s : hex16 x v -> hex16 y u -> 55296 <= v < 56320 -> 56320 <= u < 57344 -> reads_str r s ->
    reads_str (92 :: 117 :: x ++ 92 :: 117 :: y ++ r) (utf8_of (65536 + 1024 * (v - 55296) + (u - 56320)) ++ s).
(** All strings of a value are texts. *)
Fixpoint clear (v : jval) : Prop :=
  match v with
  | JStr r => exists s, reads_str r s
  | JArr l => fold_right (fun v P => clear v /\ P) True l
  | JObj l => fold_right (fun m P => (exists s, reads_str (fst m) s) /\ clear (snd m) /\ P) True l
  | _ => True
  end.

(** [integer t v]: the number [t] is the integer [v], however it is written: 20, 2e1, 20.0, 200e-1.  (Two limits: an exponent fits
    in 32 bits, and it is at most 20 after an integer part of 0, unless the number is zero.) *)
Definition integer (t : list byte) (v : Z) : Prop :=
  exists neg i f e, number t neg i f e /\
    let m := (if neg then -1 else 1) * num (i ++ f) in
    let x := e - len f in
    (0 <= x -> v = m * 10 ^ x) /\ (x < 0 -> m = v * 10 ^ (- x)) /\
    (v <> 0 -> -2147483648 <= e <= 2147483647 /\ (i = [48] -> e <= 20)).
(** A number of uint32; it may be in a string, at the beginning. *)
Definition breaks (r : list byte) : Prop :=
  match r with [] => True | c :: _ => ~ (dig c \/ 97 <= c <= 122 \/ 65 <= c <= 90 \/ In c [45; 43; 46; 95]) end.
Inductive uint_value : jval -> Z -> Prop :=
| uv_num t v : integer t v -> u32_ok v -> uint_value (JNum t) v
| uv_str r s t rest v : reads_str r s -> trimmed s s -> s = t ++ rest -> breaks rest -> integer t v -> u32_ok v -> uint_value (JStr r) v
| uv_str_e r s t c rest v : reads_str r s -> trimmed s s -> s = t ++ c :: rest -> (c = 101 \/ c = 69) -> rest <> [] -> breaks rest ->
    (exists neg i f, number t neg i f 0) -> ~ In 101 t -> ~ In 69 t -> integer t v -> u32_ok v -> uint_value (JStr r) v.
(** The types of caches: a name or a number; other names are ignored. *)
Definition cache_names : list (string * Z) := [("BootInfo", 0); ("Fans", 1); ("Temps", 2); ("Profiles", 3); ("Bypass", 4); ("All", 10)]%string.
Inductive cache_value : jval -> Z -> Prop :=
| cv_num t v : integer t v -> -2147483648 <= v < 2147483648 -> cache_value (JNum t) v
| cv_name r n v : reads_str r (str n) -> In (n, v) cache_names -> cache_value (JStr r) v.
Definition no_cache (v : jval) : Prop :=
  exists r s, v = JStr r /\ reads_str r s /\ forall n c, In (n, c) cache_names -> s <> str n.

(** Members of an object by name. *)
Definition member (l : list (list byte * jval)) (f : string) (v : jval) : Prop := exists n, In (n, v) l /\ reads_str n (str f).
Definition once (l : list (list byte * jval)) (f : string) : Prop :=
  forall a n v b n' v' c, l = a ++ (n, v) :: b ++ (n', v') :: c -> reads_str n (str f) -> ~ reads_str n' (str f).
(** The value of a field: that of the member with its name; zero without one, or if it is null. *)
Definition field_is {A} (value : jval -> A -> Prop) (zero : A) (l : list (list byte * jval)) (f : string) (x : A) : Prop :=
  once l f /\ ((exists v, member l f v /\ value v x) \/ (x = zero /\ forall v, member l f v -> v = JNull)).
Definition uint_is := field_is uint_value 0.
Definition bool_is := field_is (fun v b => v = JBool b) false.
Definition cache_is (l : list (list byte * jval)) (f : string) (x : Z) : Prop :=
  field_is cache_value 0 l f x \/ (once l f /\ x = 0 /\ exists v, member l f v /\ no_cache v).
(** The object [l] is the argument in the call [q] of method [name], if fields that are numbers and the type of cache
    are as in [uint] and [cache]. *)
Definition json_call (uint cache : list (list byte * jval) -> string -> Z -> Prop) (name : string) (l : list (list byte * jval)) (q : rpc) : Prop :=
  clear (JObj l) /\
  ((In (name, q) [("GetBootInfo", GetBootInfo); ("GetTemps", GetTempsRPC); ("GetBypass", GetBypassRPC); ("GetFans", GetFansRPC);
      ("GetFanProfiles", GetFanProfilesRPC); ("GetErrors", GetErrorsRPC)]%string) \/
   (name = "SetFanSpeed"%string /\ exists a r, q = SetFanSpeedR a r /\ uint l "Abs"%string a /\ bool_is l "Rel" r) \/
   (name = "SetComfortTemp"%string /\ exists t, q = SetComfortTempR t /\ uint l "ComfortTemp"%string t) \/
   (name = "SetFanProfile"%string /\ exists m t, q = SetFanProfileR m t /\ uint l "Mode"%string m /\ uint l "TargetSpeed"%string t) \/
   (name = "FlushCache"%string /\ exists c, q = FlushCacheR c /\ cache l "Cache"%string c)).
Definition json_meaning : string -> list (list byte * jval) -> rpc -> Prop := json_call uint_is cache_is.
(** What a strict reader would take: a number in a string is alone in it, and a name is that of a type. *)
Inductive uint_strict : jval -> Z -> Prop :=
| us_num t v : integer t v -> u32_ok v -> uint_strict (JNum t) v
| us_str r t v : reads_str r t -> integer t v -> u32_ok v -> uint_strict (JStr r) v.
Definition json_strict : string -> list (list byte * jval) -> rpc -> Prop := json_call (field_is uint_strict 0) (field_is cache_value 0).
(** The names of the fields of the argument of a method. *)
Definition field_names (name : string) : list string :=
  if string_dec name "SetFanSpeed" then ["Abs"; "Rel"]%string
  else if string_dec name "SetComfortTemp" then ["ComfortTemp"]%string
  else if string_dec name "SetFanProfile" then ["Mode"; "TargetSpeed"]%string
  else if string_dec name "FlushCache" then ["Cache"]%string
  else [].
(** A member that the method does not know. *)
Definition stranger (name : string) (m : list byte * jval) : Prop :=
  (exists s, reads_str (fst m) s) /\ clear (snd m) /\ forall f, In f (field_names name) -> ~ reads_str (fst m) (str f).
(** The body begins with an object (white space before it and anything after it do not matter). *)
Definition json_object (body : list byte) (l : list (list byte * jval)) : Prop :=
  exists w t rest, body = w ++ t ++ rest /\ gap w /\ jtext (JObj l) t /\ depth (JObj l) <= 10000.
(** The body is one object and white space. *)
Definition json_whole (body : list byte) (l : list (list byte * jval)) : Prop :=
  exists w t w', body = w ++ t ++ w' /\ gap w /\ gap w' /\ jtext (JObj l) t /\ depth (JObj l) <= 10000.
