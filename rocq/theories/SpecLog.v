(** Vocabulary for statements about log output. *)
From Coq Require Import String.
From Verif Require Import GoBase Proto Scanner Conn Proc SpecConn SpecServer SpecTwirp Main SpecWire SpecJson SpecDuration SpecErrorText Lib Server Twirp ErrorText Log.

(** ** Lines of key=value pairs, apart from how they are written *)
(** A word needs no quotes: no blanks, quotes, equals signs or control characters. *)
Definition word (s : list byte) : Prop := s <> [] /\ Forall (fun c => 32 < c /\ c <> 34 /\ c <> 61) s.
(** [t] stands for [s]: itself, or a Go string literal for it. *)
Definition token (t s : list byte) : Prop := (word s /\ t = s) \/ literal t s.
Definition pair_text (t : list byte) (kv : list byte * list byte) : Prop := exists a b, t = a ++ [61] ++ b /\ token a (fst kv) /\ token b (snd kv).
Inductive pairs : list byte -> list (list byte * list byte) -> Prop :=
| ps_one t p : pair_text t p -> pairs t [p]
| ps_more t p t' l : pair_text t p -> pairs t' l -> pairs (t ++ [32] ++ t') (p :: l).
(** One line, and a log of lines. *)
Definition log_line (t : list byte) (l : list (list byte * list byte)) : Prop := exists x, t = x ++ [10] /\ pairs x l.
Inductive log_file : list byte -> list (list (list byte * list byte)) -> Prop :=
| lf_nil : log_file [] []
| lf_line t l t' ls : log_line t l -> log_file t' ls -> log_file (t ++ t') (l :: ls).

(** ** What a line says of an event *)
(** [w] digits of value [n]. *)
Definition digits (w : nat) (t : list byte) (n : Z) : Prop := List.length t = w /\ Forall dig t /\ num t = n.
(** RFC 3339: date, time with milliseconds, zone. *)
Definition zone_text (t : list byte) (z : Z) : Prop :=
  (z = 0 /\ t = str "Z") \/
  (exists h m s x y, z <> 0 /\ t = s ++ h ++ str ":" ++ m /\ digits 2 h x /\ digits 2 m y /\ y < 60 /\
     ((s = str "+" /\ z = 60 * x + y) \/ (s = str "-" /\ z = - (60 * x + y)))).
Definition date_text (t : list byte) (d : date) : Prop :=
  exists y mo da h mi s ms z, t = y ++ str "-" ++ mo ++ str "-" ++ da ++ str "T" ++ h ++ str ":" ++ mi ++ str ":" ++ s ++ str "." ++ ms ++ z /\
    digits 4 y (t_year d) /\ digits 2 mo (t_month d) /\ digits 2 da (t_day d) /\ digits 2 h (t_hour d) /\ digits 2 mi (t_min d) /\
    digits 2 s (t_sec d) /\ digits 3 ms (t_ms d) /\ zone_text z (t_zone d).
(** Dates of years with four digits. *)
Definition date_ok (d : date) : Prop :=
  0 <= t_year d <= 9999 /\ 1 <= t_month d <= 12 /\ 1 <= t_day d <= 31 /\ 0 <= t_hour d <= 23 /\ 0 <= t_min d <= 59 /\ 0 <= t_sec d <= 59 /\
  0 <= t_ms d <= 999 /\ - 1440 < t_zone d < 1440.
(** The text for a value. *)
Definition value_text (t : list byte) (v : value) : Prop :=
  match v with VText s => t = s | VDur d => says_time t d | VError s => t = s end.
Definition says_event (l : list (list byte * list byte)) (d : date) (e : event) : Prop :=
  exists t attrs, l = [(str "time", t); (str "level", match ev_level e with LDebug => str "DEBUG" | LInfo => str "INFO" | LError => str "ERROR" end);
                       (str "msg", ev_msg e)] ++ attrs /\
    date_text t d /\ Forall2 (fun x y => fst x = fst y /\ value_text (snd x) (snd y)) attrs (ev_attrs e).
(** Events made of bytes. *)
Definition value_ok (v : value) : Prop := match v with VText s => bytes_ok s | VDur _ => True | VError s => bytes_ok s end.
Definition event_ok (e : event) : Prop := bytes_ok (ev_msg e) /\ Forall (fun kv => bytes_ok (fst kv) /\ value_ok (snd kv)) (ev_attrs e).
(** A line for each of the events that are shown. *)
Definition shown (debug : bool) (e : event) : Prop := debug = true \/ ev_level e <> LDebug.
Inductive tells (debug : bool) : list (date * event) -> list (list (list byte * list byte)) -> Prop :=
| te_nil : tells debug [] []
| te_line d e l x ls : shown debug e -> says_event x d e -> tells debug l ls -> tells debug ((d, e) :: l) (x :: ls)
| te_skip d e l ls : ~ shown debug e -> tells debug l ls -> tells debug ((d, e) :: l) ls.

(** ** What the server reports *)
(** Why a reply is not accepted. *)
Definition complaint (c : cache) (payload : list byte) : err :=
  match c with
  | CFans => if (List.length payload =? 6)%nat then ErrZeroValue else ErrPktLen
  | _ => ErrPktLen
  end.
(** The report of a refresh that failed. *)
Definition cache_message (c : cache) : string :=
  match c with
  | CBoot => "BootInfoCache.Update() - Updating boot info cache" | CBypass => "BypassCache.Update() - Updating bypass cache"
  | CTemp => "TempCache.Update() - Updating temperature cache" | CFans => "FanCache.Update() - Updating fan cache"
  | CProf => "FanProfilesCache.Update() - Updating fan profiles cache" | CErr => "Errors.Update() - Updating errors cache"
  end.
Definition report (io : Z -> list byte) (c : cache) (e : err) : event :=
  mkEvent LError (str (cache_message c)) [(str "error", VError (err_text io e))].
(** The commands that set the comfort temperature and the fan speed; their errors are the client's. *)
Definition set_command (cmd : Z) (data : list byte) : Prop := (cmd = 211 \/ cmd = 153) /\ List.length data = 1%nat.
(** A piece of the connection's log and the events for it: one for every refresh that failed. *)
Inductive reports (txt : Z -> list byte) : list io -> list event -> Prop :=
| rp_nil : reports txt [] []
| rp_fetched c p l l' es : exchange (request c) [] true p None l -> accepted c (p_data p) = true -> reports txt l' es -> reports txt (l ++ l') es
| rp_rejected c p l l' es : exchange (request c) [] true p None l -> accepted c (p_data p) = false -> reports txt l' es ->
    reports txt (l ++ l') (report txt c (complaint c (p_data p)) :: es)
| rp_failed c p e l l' es : exchange (request c) [] true p (Some e) l -> reports txt l' es -> reports txt (l ++ l') (report txt c e :: es)
| rp_set cmd data p e l l' es : set_command cmd data -> exchange cmd data false p e l -> reports txt l' es -> reports txt (l ++ l') es.

(** Two programs that do the same, up to what they return. *)
Inductive same {S A B} (R : A -> B -> Prop) : proc S A -> proc S B -> Prop :=
| sm_ret a b : R a b -> same R (Ret a) (Ret b)
| sm_crash : same R Crash Crash
| sm_lock l k k' : same R k k' -> same R (Lock l k) (Lock l k')
| sm_unlock l k k' : same R k k' -> same R (Unlock l k) (Unlock l k')
| sm_rlock l k k' : same R k k' -> same R (RLock l k) (RLock l k')
| sm_runlock l k k' : same R k k' -> same R (RUnlock l k) (RUnlock l k')
| sm_write bs k k' : (forall r, same R (k r) (k' r)) -> same R (WriteC bs k) (WriteC bs k')
| sm_read x k k' : (forall p e, same R (k p e) (k' p e)) -> same R (ReadC x k) (ReadC x k')
| sm_get k k' : (forall s, same R (k s) (k' s)) -> same R (Get k) (Get k')
| sm_put f k k' : same R k k' -> same R (Put f k) (Put f k')
| sm_now k k' : (forall t, same R (k t) (k' t)) -> same R (Now k) (Now k')
| sm_sleep d k k' : same R k k' -> same R (Sleep d k) (Sleep d k')
| sm_sendflush c k k' : same R k k' -> same R (SendFlush c k) (SendFlush c k')
| sm_recvsucc k k' : (forall b, same R (k b) (k' b)) -> same R (RecvSucc k) (RecvSucc k')
| sm_sendsucc b k k' : same R k k' -> same R (SendSucc b k) (SendSucc b k').

(** ** What an operation reports *)
(** A result and a result with events; no result and one with events. *)
Definition erases {A} : A -> A * list event -> Prop := fun a x => fst x = a.
Definition silent {A} : unit -> A -> Prop := fun _ _ => True.
(** Operations but SetFanProfile. *)
Definition quiet_rpc (r : rpc) : Prop := match r with SetFanProfileR _ _ | FlushCacheR _ => False | _ => True end.
(** SetFanProfile: what it says to the unit itself, and the refresh after that. *)
Definition own (l : list io) : Prop :=
  l = [] \/ exists p e a b, exchange 205 [] true p e a /\ l = a ++ b /\
    (b = [] \/ exists data q e', List.length data = 8%nat /\ exchange 207 data false q e' b).
(** An update: what it adds to the log, and what it leaves behind. *)
Definition outcome_ok (txt : Z -> list byte) (c : cache) (force : bool) (w w' : world shared) (l : list io) (es : list event) : Prop :=
  (es = [] /\ l = [] /\ force = false /\ w_sh w' = w_sh w) \/
  (exists p, es = [] /\ exchange (request c) [] true p None l /\ accepted c (p_data p) = true /\ w_clk w <= stamp (w_sh w') c <= w_clk w') \/
  (exists e, es = [report txt c e] /\ one_query c l /\ w_sh w' = w_sh w).

(** ** Requests *)
Definition for_api (h : hreq) : Prop := tidy (h_path h) /\ in_service (h_path h).
Definition request_record (h : hreq) (uri : list byte) (d : Z) : event :=
  mkEvent LDebug (str "Request") [(str "method", VText (h_method h)); (str "URI", VText uri); (str "route", VText (str "twirp")); (str "duration", VDur d)].

(** ** The start of the program *)
Definition info (m : string) (attrs : list (list byte * value)) : event := mkEvent LInfo (str m) attrs.
Definition failure (m : string) (e : list byte) : event := mkEvent LError (str m) [(str "error", VError e)].
(** What a log says that the program did. *)
Inductive recounts : list event -> list act -> Prop :=
| rc_nil : recounts [] []
| rc_tcp u l a : recounts l a -> recounts (info "Connecting to the unit over tcp" [(str "address", VText u)] :: l) (DialTCP u :: a)
| rc_serial u l a : recounts l a -> recounts (info "Opening serial device" [(str "device", VText u)] :: l) (OpenSerial u 9600 :: a)
| rc_start l a : recounts l a -> recounts (info "Populating caches" [] :: l) (Start :: a)
| rc_listen u l a : recounts l a -> recounts (info "API listening" [(str "address", VText u)] :: l) (Listen u :: a)
| rc_other e l a : (ev_level e = LInfo -> Forall (fun m => ev_msg e <> str m)
    ["Connecting to the unit over tcp"; "Opening serial device"; "Populating caches"; "API listening"]%string) ->
    recounts l a -> recounts (e :: l) a.
(** The records of StartCaches, with [l] for failed refreshes. *)
Definition caches_started (l : list event) : list event := info "Populating caches" [] :: l ++ [info "Cache worker started" []].
(** Whether connecting and listening succeed. *)
Definition opening (fails : act -> option (list byte)) (a : act) : bool := match fails a with None => true | Some _ => false end.
(** No errors but those of [es]. *)
Definition only_errors (es l : list event) : Prop := Forall (fun e => ev_level e = LError -> In e es) l.
