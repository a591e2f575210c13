(** Vocabulary for statements about how recent answers are, and about what each request does on
    the connection, in interleaved executions. *)
From Verif Require Import GoBase Proto SpecProto SpecFrame SpecConn SpecOps SpecLayout SpecServer Scanner Conn Proc Lib Server Machine SpecMachine.

(** The log of the connection. *)
Definition log_of {A} (m : machine A) : list io := c_log (g_conn (m_g m)).
(** Goroutine [i] does nothing: its request has not arrived. *)
Definition waits (i : nat) (xs : list item) : Prop := Forall (fun x => x <> Run i /\ x <> Flush i) xs.

(** The record brought by the latest successful fetch for cache [k]; the initial one if there was none. *)
Definition current (k : cache) (l : list io) (v : rec) : Prop :=
  match rev (fetched k l) with
  | [] => v = blank k
  | pl :: _ => layout_of k pl v
  end.

(** These pieces occur in the log in this order, none overlapping another. *)
Inductive embedded : list (list io) -> list io -> Prop :=
| em_nil l : embedded [] l
| em_cons x xs a l : embedded xs l -> embedded (x :: xs) (a ++ x ++ l).

(** A query for each of the caches. *)
Definition queried (cs : list cache) (ls : list (list io)) : Prop := Forall2 one_query cs ls.

(** A speed the server may take SetFanSpeed to mean ([a] is Abs). *)
Definition meant (a v : Z) : Prop := 1 <= v <= 4 /\ (a <> 0 -> v = a mod 256).
(** What SetFanProfile accepts. *)
Definition acceptable (m t : Z) : Prop := 1 <= m mod 256 <= 4 /\ 15 <= t mod 256 <= 100.

(** An answer of the right kind for the getter of cache [k]. *)
Definition kind_of (k : cache) (a : resp) : Prop :=
  match k, a with
  | CBoot, RespBoot _ | CBypass, RespBypass _ | CTemp, RespTemps _ | CFans, RespFans _ | CProf, RespProf _ | CErr, RespErrors _ => True
  | _, _ => False
  end.

(** What a request makes the server do on the connection, by its answer: the exchanges one by one.
    The numbers in requests are uint32; the server truncates them to bytes. *)
Inductive does_on_wire : rpc -> resp -> list (list io) -> Prop :=
| dw_get k a : kind_of k a -> does_on_wire (getter_rpc k) a []
| dw_flush t b ls : queried (flushes t) ls -> does_on_wire (FlushCacheR t) (RespFlush b) ls
(* refused *)
| dw_invalid r a : does_on_wire r (RespErr (InvalidArgument a)) []
(* nothing to change *)
| dw_comfort_same t o : t <= 255 -> does_on_wire (SetComfortTempR t) (RespComfort false o t) []
| dw_speed_same a b o t : meant a t -> does_on_wire (SetFanSpeedR a b) (RespSpeed false o t) []
| dw_profile_same m t o : acceptable m t -> does_on_wire (SetFanProfileR m t) (RespProfile false o t) []
(* comfort temperature: set, read back *)
| dw_comfort_high t : t <= 255 -> 107 < t mod 256 -> does_on_wire (SetComfortTempR t) (RespErr (Internal (LibErr ErrTooHigh))) []
| dw_comfort_failed t p e l : t <= 255 -> t mod 256 <= 107 -> exchange 211 [2 * (t mod 256 + 20)] false p (Some e) l ->
    does_on_wire (SetComfortTempR t) (RespErr (Internal (LibErr e))) [l]
| dw_comfort t o p l l2 : t <= 255 -> t mod 256 <= 107 -> exchange 211 [2 * (t mod 256 + 20)] false p None l -> one_query CTemp l2 ->
    does_on_wire (SetComfortTempR t) (RespComfort true o t) [l; l2]
(* fan speed: set, poll the fans, read the profiles *)
| dw_speed_failed a b v p e l : meant a v -> exchange 153 [v] false p (Some e) l ->
    does_on_wire (SetFanSpeedR a b) (RespErr (Internal (LibErr e))) [l]
| dw_speed_poll a b v p l ls : meant a v -> exchange 153 [v] false p None l -> queried (repeat CFans 10) ls ->
    does_on_wire (SetFanSpeedR a b) (RespErr (Internal ErrSetPollFailed)) (l :: ls)
| dw_speed a b o t p l n ls : meant a t -> exchange 153 [t] false p None l -> (1 <= n <= 10)%nat -> queried (repeat CFans n ++ [CProf]) ls ->
    does_on_wire (SetFanSpeedR a b) (RespSpeed true o t) (l :: ls)
(* fan profile: read the profiles, write them back with the change, read them again *)
| dw_profile_unread m t p e e' l : acceptable m t -> exchange 205 [] true p e' l -> (e' = None -> length (p_data p) <> 14%nat) ->
    does_on_wire (SetFanProfileR m t) (RespErr (Internal (LibErr e))) [l]
| dw_profile_failed m t p q e l l2 : acceptable m t -> exchange 205 [] true p None l -> length (p_data p) = 14%nat ->
    exchange 207 (profile_request (p_data p) (m mod 256 - 1) (t mod 256)) false q (Some e) l2 ->
    does_on_wire (SetFanProfileR m t) (RespErr (Internal (LibErr e))) [l; l2]
| dw_profile m t o p q l l2 l3 : acceptable m t -> exchange 205 [] true p None l -> length (p_data p) = 14%nat ->
    exchange 207 (profile_request (p_data p) (m mod 256 - 1) (t mod 256)) false q None l2 -> one_query CProf l3 ->
    does_on_wire (SetFanProfileR m t) (RespProfile true o t) [l; l2; l3].

(** The answer reports a change. *)
Definition modified (a : resp) : Prop :=
  match a with RespComfort true _ _ | RespSpeed true _ _ | RespProfile true _ _ => True | _ => False end.
(** The command that makes the change, and its data. *)
Inductive change : rpc -> resp -> Z -> list Z -> Prop :=
| ch_comfort t o : t <= 255 -> t mod 256 <= 107 -> change (SetComfortTempR t) (RespComfort true o t) 211 [2 * (t mod 256 + 20)]
| ch_speed a b o t : meant a t -> change (SetFanSpeedR a b) (RespSpeed true o t) 153 [t]
| ch_profile m t o pl : acceptable m t -> length pl = 14%nat ->
    change (SetFanProfileR m t) (RespProfile true o t) 207 (profile_request pl (m mod 256 - 1) (t mod 256)).
(** The caches that show it. *)
Definition refreshed (r : rpc) : list cache :=
  match r with
  | SetComfortTempR _ => [CTemp]
  | SetFanSpeedR _ _ => [CFans; CProf]
  | SetFanProfileR _ _ => [CProf]
  | _ => []
  end.
(** No request asks for the profiles without storing them. *)
Definition storing (k : cache) (rs : list rpc) : Prop := k = CProf -> forall m t, ~ In (SetFanProfileR m t) rs.
(** Nobody is writing to cache [k]. *)
Definition at_rest {A} (m : machine A) (k : cache) : Prop :=
  (forall t, In t (m_ts m) -> ~ In (LC k, true) (t_h t)) /\ forall t, m_wk m = Some t -> ~ In (LC k, true) (t_h t).
