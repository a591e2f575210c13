(** Vocabulary for statements about the RPC server. *)
From Verif Require Import GoBase Proto SpecProto SpecFrame SpecConn SpecLayout Conn Proc Lib Server.

(** ** Caches as seen from outside *)

(** The record kept in a cache. *)
Inductive rec :=
| VBoot (v : BootInfo) | VBypass (v : Bypass) | VTemp (v : Temps)
| VFans (v : Fans) | VProf (v : FanProfiles) | VErr (v : Errors).

Definition cached (s : shared) (c : cache) : rec :=
  match c with
  | CBoot => VBoot (sh_boot s) | CBypass => VBypass (sh_bypass s) | CTemp => VTemp (sh_temp s)
  | CFans => VFans (sh_fans s) | CProf => VProf (sh_prof s) | CErr => VErr (sh_err s)
  end.
(** When it was fetched (ns). *)
Definition stamp (s : shared) (c : cache) : Z :=
  match c with
  | CBoot => sh_boot_t s | CBypass => sh_bypass_t s | CTemp => sh_temp_t s
  | CFans => sh_fans_t s | CProf => sh_prof_t s | CErr => sh_err_t s
  end.
(** Command byte of the query that fetches it. *)
Definition request (c : cache) : Z :=
  match c with CBoot => 103 | CBypass => 223 | CTemp => 209 | CFans => 11 | CProf => 205 | CErr => 217 end.
(** Its content before the first fetch. *)
Definition blank (c : cache) : rec :=
  match c with
  | CBoot => VBoot (mkBoot 0 0 0 []) | CBypass => VBypass (mkBypass 0 0 0 false)
  | CTemp => VTemp (mkTemps f0 f0 f0 f0 f0 f0 f0 f0) | CFans => VFans (mkFans 0 0 0 0)
  | CProf => VProf (mkProf 0 0 0 0 false 0 0 0 0 0 0 0) | CErr => VErr (mkErrors false)
  end.
(** Reply payloads the cache accepts. *)
Definition accepted (c : cache) (payload : list Z) : bool :=
  match c with
  | CBoot => length payload =? 13 | CBypass => length payload =? 7 | CTemp => length payload =? 9
  | CFans => (length payload =? 6) && negb (be_at payload 2 2 =? 0)%Z && negb (be_at payload 4 2 =? 0)%Z
  | CProf => length payload =? 14 | CErr => length payload =? 17
  end%nat.
(** The record a reply payload stands for. *)
Definition layout_of (c : cache) (payload : list Z) (v : rec) : Prop :=
  match c, v with
  | CBoot, VBoot b => boot_layout payload b
  | CBypass, VBypass b => bypass_layout payload b
  | CTemp, VTemp t => temps_layout payload t
  | CFans, VFans f => fans_layout payload f
  | CProf, VProf p => profiles_layout payload p
  | CErr, VErr e => errors_layout payload e
  | _, _ => False
  end.
(** The message that carries a record unchanged. *)
Definition message (v : rec) : resp :=
  match v with
  | VBoot b => RespBoot (mkPbBoot (MajorVersion b) (MinorVersion b) (BetaVersion b) (DeviceName b))
  | VBypass b => RespBypass (mkPbBypass (Factor b) (Level b) (Correction b) (SummerMode b))
  | VTemp t => RespTemps (mkPbTemps (Comfort t) (OutsideAir t) (SupplyAir t) (InsideAir t)
                                    (ExhaustAir t) (GeoHeat t) (Reheating t) (KitchenHood t))
  | VFans f => RespFans (mkPbFans (InPercent f) (OutPercent f) (InSpeed f) (OutSpeed f))
  | VProf p => RespProf (mkPbProf (OutAway p) (OutLow p) (OutMid p) (OutHigh p) (InFanActive p)
                                  (InAway p) (InLow p) (InMid p) (InHigh p)
                                  (CurrentOut p) (CurrentIn p) (CurrentMode p))
  | VErr e => RespErrors (mkPbErrors (EFilter e))
  end.
(** The RPC that serves a cache. *)
Definition getter_rpc (c : cache) : rpc :=
  match c with
  | CBoot => GetBootInfo | CBypass => GetBypassRPC | CTemp => GetTempsRPC
  | CFans => GetFansRPC | CProf => GetFanProfilesRPC | CErr => GetErrorsRPC
  end.
(** Fields within the ranges of their Go types (uint8, uint16). *)
Definition typed (v : rec) : Prop :=
  let b x := 0 <= x < 256 in let w x := 0 <= x < 65536 in
  match v with
  | VBoot v => b (MajorVersion v) /\ b (MinorVersion v) /\ b (BetaVersion v)
  | VBypass v => b (Factor v) /\ b (Level v) /\ b (Correction v)
  | VTemp _ => True
  | VFans v => b (InPercent v) /\ b (OutPercent v) /\ w (InSpeed v) /\ w (OutSpeed v)
  | VProf v => b (OutAway v) /\ b (OutLow v) /\ b (OutMid v) /\ b (OutHigh v) /\
               b (InAway v) /\ b (InLow v) /\ b (InMid v) /\ b (InHigh v) /\
               b (CurrentOut v) /\ b (CurrentIn v) /\ b (CurrentMode v)
  | VErr _ => True
  end.

(** ** What the server does on the connection *)

(** No lock is held. *)
Definition idle (w : world shared) : Prop := w_held w = [].
(** What running something added to the log. *)
Definition added (w w' : world shared) (l : list io) : Prop :=
  c_log (w_conn w') = c_log (w_conn w) ++ l.

(** The log of one query for cache [c]. *)
Definition one_query (c : cache) (l : list io) : Prop :=
  exists p e, exchange (request c) [] true p e l.

(** Payloads obtained by successful queries [req], oldest first: request written, reply
    with the right command read, ACK written completely. *)
Definition ok_io (x : io) (b : list Z) : bool :=
  match x with
  | Wr a r => (if list_eq_dec Z.eq_dec a b then true else false) &&
              match w_err r with None => true | Some _ => false end
  | Rd _ _ _ => false
  end.
Fixpoint replies_to (req : Z) (l : list io) : list (list Z) :=
  match l with
  | [] => []
  | x :: rest =>
      match rest with
      | Rd true p None :: Wr a r2 :: _ =>
          if ok_io x (framed req []) && ok_io (Wr a r2) ack_seq && (w_n r2 =? 2) &&
             (p_cmd p =? (req + 1) mod 256)
          then p_data p :: replies_to req rest else replies_to req rest
      | _ => replies_to req rest
      end
  end.
(** Successful fetches for cache [c] in a log. *)
Definition fetched (c : cache) (l : list io) : list (list Z) :=
  filter (accepted c) (replies_to (request c) l).

(** ** Sequences of operations *)

(** What the server can be made to do: an RPC, a timer tick, start-up.  A FlushCache RPC is
    carried out by the cache worker (C36 relates the two). *)
Inductive op := ORpc (r : rpc) | OTick (t : tick) | OStart.
Definition perform (o : op) : sproc unit :=
  match o with
  | ORpc (FlushCacheR c) => do _ <- FlushCaches_body c; Ret tt
  | ORpc r => do _ <- handle r; Ret tt
  | OTick t => on_tick t
  | OStart => StartCaches
  end.
(** Perform operations one after the other; for each, what it added to the log. *)
Fixpoint history (ops : list op) (w : world shared) : list (op * list io) * world shared :=
  match ops with
  | [] => ([], w)
  | o :: r =>
      let w1 := snd (run (perform o) w) in
      let '(h, w2) := history r w1 in
      ((o, skipn (length (c_log (w_conn w))) (c_log (w_conn w1))) :: h, w2)
  end.
(** Fetches for cache [c] during an operation.  The SetFanProfile RPC first queries the
    profiles for its own use; that one does not go to the cache. *)
Definition op_fetches (c : cache) (x : op * list io) : list (list Z) :=
  match x with
  | (ORpc (SetFanProfileR _ _), l) => fetched c (tl l)
  | (_, l) => fetched c l
  end.
(** The cache holds what the last fetch brought. *)
Definition holds_last (c : cache) (s : shared) (payloads : list (list Z)) : Prop :=
  match rev payloads with
  | [] => cached s c = blank c
  | p :: _ => bytes_ok p -> layout_of c p (cached s c)
  end.

(** One query after the other, for the given caches in this order. *)
Inductive queries : list cache -> list io -> Prop :=
| qs_nil : queries [] []
| qs_cons c cs l r : one_query c l -> queries cs r -> queries (c :: cs) (l ++ r).

(** Every query for cache [c] in the log brought data the cache accepts. *)
Definition queries_ok (c : cache) (l : list io) : Prop :=
  forall a x b, l = a ++ x ++ b -> one_query c x -> fetched c x <> [].

(** ** SetFanSpeed *)

(** The speed meant by a request when the cached mode is [o]; none if both Abs and Rel
    are given.  (Abs is truncated to 8 bits: see C28.) *)
Definition speed_target (o abs : Z) (rel : bool) : option Z :=
  if abs =? 0 then Some (if rel then o + 1 else o - 1)
  else if rel then None else Some (abs mod 256).

(** What SetFanSpeed can do: reject without I/O; do nothing because the cache says the unit
    is at that speed already; fail to set; set, poll ten times without success; set, poll
    at most ten times, refresh the profiles. *)
Inductive speed_outcome (o : Z) (tgt : option Z) : world shared -> resp -> world shared -> list io -> Prop :=
| so_both w : tgt = None -> speed_outcome o tgt w (RespErr (InvalidArgument ArgAbsRel)) w []
| so_range w v : tgt = Some v -> ~ (1 <= v <= 4) -> speed_outcome o tgt w (RespErr (InvalidArgument (ArgFanSpeed (v mod 256)))) w []
| so_already w : tgt = Some o -> 1 <= o <= 4 -> speed_outcome o tgt w (RespSpeed false o o) w []
| so_set_failed w v out e cn l : tgt = Some v -> 1 <= v <= 4 -> v <> o -> exchange 153 [v] false out (Some e) l ->
    speed_outcome o tgt w (RespErr (Internal (LibErr e))) (set_conn w cn) l
| so_poll_failed w w' v out l1 l2 : tgt = Some v -> 1 <= v <= 4 -> v <> o -> exchange 153 [v] false out None l1 ->
    queries (repeat CFans 10) l2 ->
    speed_outcome o tgt w (RespErr (Internal ErrSetPollFailed)) w' (l1 ++ l2)
| so_done w w' v k out l1 l2 : tgt = Some v -> 1 <= v <= 4 -> v <> o -> exchange 153 [v] false out None l1 ->
    (1 <= k <= 10)%nat -> queries (repeat CFans k ++ [CProf]) l2 ->
    speed_outcome o tgt w (RespSpeed true o v) w' (l1 ++ l2).

(** ** Polling *)

(** The cached fan percentages are [i] and [o]. *)
Definition fans_at (i o : Z) (w : world shared) : Prop :=
  InPercent (sh_fans (w_sh w)) = i /\ OutPercent (sh_fans (w_sh w)) = o.
Definition half_second : Z := 500000000.
(** The world after [n] + 1 forced fan refreshes half a second apart. *)
Fixpoint nth_poll (w : world shared) (n : nat) : world shared :=
  match n with
  | O => snd (run (Update CFans true) w)
  | S m => snd (run (Update CFans true) (add_clock (nth_poll w m) half_second))
  end.

(** ** What the server may send *)
Inductive permitted : Z -> list Z -> bool -> Prop :=
| may_get c : permitted (request c) [] true
| may_speed v : 1 <= v <= 4 -> permitted 153 [v] false
| may_comfort t : 0 <= t <= 107 -> permitted 211 [2 * (t + 20)] false
| may_profiles a b c d e f g h : permitted 207 [a; b; c; d; e; f; g; h] false.
Inductive session : list io -> Prop :=
| sess_nil : session []
| sess_cons cmd data x p e l r : permitted cmd data x -> exchange cmd data x p e l -> session r -> session (l ++ r).

(** ** Timers *)
Definition period (t : tick) : Z :=
  match t with TickFast => 5 * 1000000000 | TickSlow => 300 * 1000000000 | TickGlacial => 3600 * 1000000000 end.
Definition refreshed_by (t : tick) (c : cache) : Prop :=
  match t with
  | TickFast => c = CTemp \/ c = CFans
  | TickSlow => c = CProf \/ c = CBypass
  | TickGlacial => c = CBoot \/ c = CErr
  end.

(** ** SetFanProfile *)

(** What the SetFanProfile RPC can do for mode [m] (1-4) and target [t] (15-100) when the cache
    says the in percentage of that profile is [o]. *)
Inductive profile_outcome (o m t : Z) : world shared -> resp -> world shared -> list io -> Prop :=
| po_already w : o = t -> profile_outcome o m t w (RespProfile false o t) w []
| po_query_failed w cn q qe e l : o <> t -> exchange 205 [] true q qe l -> (qe = None -> length (p_data q) <> 14%nat) ->
    profile_outcome o m t w (RespErr (Internal (LibErr e))) (set_conn w cn) l
| po_set_failed w cn q out e l1 l2 : o <> t -> exchange 205 [] true q None l1 -> length (p_data q) = 14%nat ->
    exchange 207 (profile_request (p_data q) (m - 1) t) false out (Some e) l2 ->
    profile_outcome o m t w (RespErr (Internal (LibErr e))) (set_conn w cn) (l1 ++ l2)
| po_done w w' q out l1 l2 l3 : o <> t -> exchange 205 [] true q None l1 -> length (p_data q) = 14%nat ->
    exchange 207 (profile_request (p_data q) (m - 1) t) false out None l2 -> one_query CProf l3 ->
    profile_outcome o m t w (RespProfile true o t) w' (l1 ++ l2 ++ l3).

(** The caches a tick looks at, in order. *)
Definition tick_first (t : tick) : cache :=
  match t with TickFast => CTemp | TickSlow => CProf | TickGlacial => CBoot end.
Definition tick_second (t : tick) : cache :=
  match t with TickFast => CFans | TickSlow => CBypass | TickGlacial => CErr end.
(** What FlushCache refreshes (comfo.proto: FlushCacheRequest.CacheType). *)
Definition flushes (c : Z) : list cache :=
  match c with
  | 0 => [CBoot] | 1 => [CFans] | 2 => [CTemp] | 3 => [CProf] | 4 => [CBypass]
  | 10 => [CBoot; CBypass; CTemp; CFans; CProf; CErr]
  | _ => []
  end.

(** In and out percentage of profile [v]: 1 away, 2 low, 3 mid, 4 high. *)
Definition in_percent (p : FanProfiles) (v : Z) : Z :=
  nth (Z.to_nat (v - 1)) [InAway p; InLow p; InMid p; InHigh p] 0.
Definition out_percent (p : FanProfiles) (v : Z) : Z :=
  nth (Z.to_nat (v - 1)) [OutAway p; OutLow p; OutMid p; OutHigh p] 0.
(** The cached fan percentages are those of profile [v] of [p]. *)
Definition at_profile (p : FanProfiles) (v : Z) (w : world shared) : Prop :=
  fans_at (in_percent p v) (out_percent p v) w.
