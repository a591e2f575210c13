(** The unit while the server works on it: what happens to it with every entry in the log of the
    connection. *)
From Verif Require Import GoBase Proto SpecProto SpecFrame SpecConn SpecLayout Conn Proc Lib Server Machine SpecMachine SpecServer SpecUnit SpecFresh.

(** The requests that only ask. *)
Definition asking : list Z := [11; 103; 105; 205; 209; 217; 221; 223].

(** Where the conversation is: nothing outstanding; a request that asks, or one that changes something, has been
    written and not answered; the answer has been read and not acknowledged. *)
Inductive talk := Idle | Awaiting (gr : option Z) | Unacked.

(** One entry, when the requests [rs] are being handled.  A reply that is read answers the request before it and
    shows the unit as it is at that moment; the unit changes only as one of the requests says, and nothing else
    about it changes.  All writes succeed.  (The numbers in requests are uint32; the server truncates them to
    bytes.) *)
Inductive turns (rs : list rpc) (u : vent) : talk -> io -> talk -> vent -> Prop :=
| tn_ask gr : In gr asking -> turns rs u Idle (Wr (framed gr []) (mkWres (len (framed gr [])) None)) (Awaiting (Some gr)) u
| tn_answer gr pl : bytes_ok pl -> (gr = 205 -> describes u pl) -> (gr = 209 -> measures u pl) ->
    turns rs u (Awaiting (Some gr)) (Rd true (mkPacket (gr + 1) pl false) None) Unacked u
| tn_comfort t : In (SetComfortTempR t) rs -> t <= 255 -> t mod 256 <= 107 ->
    let data := [2 * (t mod 256 + 20)] in
    turns rs u Idle (Wr (framed 211 data) (mkWres (len (framed 211 data)) None)) (Awaiting None)
      (mkVent (u_out u) (u_in u) (u_mode u) (2 * (t mod 256 + 20)))
| tn_speed a b v : In (SetFanSpeedR a b) rs -> meant a v ->
    turns rs u Idle (Wr (framed 153 [v]) (mkWres (len (framed 153 [v])) None)) (Awaiting None) (mkVent (u_out u) (u_in u) v (u_comfort u))
| tn_profile m t o1 o2 o3 o4 i1 i2 i3 i4 : In (SetFanProfileR m t) rs -> acceptable m t ->
    let u' := mkVent [o1; o2; o3; o4] [i1; i2; i3; i4] (u_mode u) (u_comfort u) in
    let data := [o1; o2; o3; i1; i2; i3; o4; i4] in
    with_profile (Z.to_nat (m mod 256 - 1)) (t mod 256) u u' ->
    turns rs u Idle (Wr (framed 207 data) (mkWres (len (framed 207 data)) None)) (Awaiting None) u'
| tn_done : turns rs u (Awaiting None) (Rd false zero_packet None) Unacked u
| tn_ack : turns rs u Unacked (Wr [7; 243] (mkWres 2 None)) Idle u.

(** The log [l] takes the unit from [u] to [u'] and the conversation from [k] to [k']. *)
Inductive course (rs : list rpc) (k : talk) (u : vent) : list io -> talk -> vent -> Prop :=
| co_nil : course rs k u [] k u
| co_snoc l k1 u1 x k2 u2 : course rs k u l k1 u1 -> turns rs u1 k1 x k2 u2 -> course rs k u (l ++ [x]) k2 u2.

(** The unit on the line is in state [u]. *)
Definition unit_in (lo : Z) {A} (m : machine A) (u : vent) : Prop := unit_at lo true u (c_dev (g_conn (m_g m))) /\ vent_ok lo u.

(** The unit is as the request wanted it, when its answer reports a change. *)
Inductive achieved (u : vent) : rpc -> resp -> Prop :=
| ac_comfort t o : t <= 255 -> u_comfort u = 2 * (t mod 256 + 20) -> achieved u (SetComfortTempR t) (RespComfort true o t)
| ac_speed a b o t : meant a t -> u_mode u = t -> achieved u (SetFanSpeedR a b) (RespSpeed true o t)
| ac_profile m t o : acceptable m t -> nth (Z.to_nat (m mod 256 - 1)) (u_out u) 0 = t mod 256 ->
    nth (Z.to_nat (m mod 256 - 1)) (u_in u) 0 = t mod 256 -> achieved u (SetFanProfileR m t) (RespProfile true o t).

(** The answer of the getter of a cache shows the unit: its comfort temperature (half degrees cut off), its
    percentages and mode. *)
Inductive shown (u : vent) : cache -> resp -> Prop :=
| sh_temps t : f32_is (pbComfort t) (u_comfort u / 2 - 20) -> shown u CTemp (RespTemps t)
| sh_profiles p : [pbOutAway p; pbOutLow p; pbOutMid p; pbOutHigh p] = u_out u ->
    [pbInAway p; pbInLow p; pbInMid p; pbInHigh p] = u_in u -> pbCurrentMode p = u_mode u -> shown u CProf (RespProf p).
(** The caches that show something of the unit's state. *)
Definition telling (k : cache) : Prop := k = CTemp \/ k = CProf.
