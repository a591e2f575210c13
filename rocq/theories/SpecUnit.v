(** A ventilation unit that follows the protocol, as seen on the wire. *)
From Verif Require Import GoBase Proto SpecProto SpecFrame SpecConn SpecLayout Conn Proc Lib Server SpecServer.

(** What the unit remembers: out and in percentage of each profile (away, low, mid, high),
    the mode it runs in (1 away, 2 low, 3 mid, 4 high), and the comfort temperature in half
    degrees above -20 (82 is 21 degrees). *)
Record vent := mkVent { u_out : list Z; u_in : list Z; u_mode : Z; u_comfort : Z }.

(** A fan profile reply that describes the unit. *)
Definition describes (u : vent) (pl : list Z) : Prop :=
  length pl = 14%nat /\ bytes_ok pl /\
  u_out u = [byte_at pl 0; byte_at pl 1; byte_at pl 2; byte_at pl 10] /\
  u_in u = [byte_at pl 3; byte_at pl 4; byte_at pl 5; byte_at pl 11] /\
  u_mode u = byte_at pl 8.
(** A temperature reply that shows the unit's comfort temperature. *)
Definition measures (u : vent) (pl : list Z) : Prop :=
  length pl = 9%nat /\ bytes_ok pl /\ u_comfort u = byte_at pl 0.

(** Requests the unit knows, what they do to it, and the answer.  [lo] is the smallest
    percentage the unit accepts; the statements say nothing about what happens below. *)
Inductive serves (lo : Z) (u : vent) : Z -> list Z -> vent -> list Z -> Prop :=
| sv_profiles pl : describes u pl -> serves lo u 205 [] u (reply 206 pl)
| sv_set_profiles o1 o2 o3 i1 i2 i3 o4 i4 :
    Forall (fun x => lo <= x /\ byte_ok x) [o1; o2; o3; i1; i2; i3; o4; i4] ->
    serves lo u 207 [o1; o2; o3; i1; i2; i3; o4; i4] (mkVent [o1; o2; o3; o4] [i1; i2; i3; i4] (u_mode u) (u_comfort u)) [7; 243]
| sv_speed v : 0 <= v <= 4 -> serves lo u 153 [v] (mkVent (u_out u) (u_in u) v (u_comfort u)) [7; 243]
| sv_temps pl : measures u pl -> serves lo u 209 [] u (reply 210 pl)
| sv_comfort t : byte_ok t -> serves lo u 211 [t] (mkVent (u_out u) (u_in u) (u_mode u) t) [7; 243]
| sv_other req pl : In req [11; 103; 105; 217; 221; 223] -> bytes_ok pl -> (length pl <= 255)%nat ->
    serves lo u req [] u (reply (req + 1) pl).

(** How the unit takes a request written to the line.  Served: the answer arrives, in any
    non-empty pieces.  Lost (not for reliable units): no answer, whether or not the
    request had its effect. *)
Inductive takes (lo : Z) (reliable : bool) (u : vent) (cmd : Z) (data : list Z) : vent -> list ev -> wres -> Prop :=
| tk_served u' answer chunks : serves lo u cmd data u' answer -> concat chunks = answer ->
    Forall (fun bs => bs <> []) chunks ->
    takes lo reliable u cmd data u' (pieces chunks) (mkWres (len (framed cmd data)) None)
| tk_lost u' answer r : reliable = false -> serves lo u cmd data u' answer ->
    takes lo reliable u cmd data u' [] r
| tk_ignored r : reliable = false -> takes lo reliable u cmd data u [] r.

(** The device is such a unit in state [u].  Nothing is said about what is not a request of
    the protocol. *)
CoInductive unit_at (lo : Z) (reliable : bool) (u : vent) (d : device) : Prop := UnitAt {
  at_request : forall cmd data, (exists u' answer, serves lo u cmd data u' answer) ->
    exists u' d' evs r, react d (framed cmd data) = (d', evs, r) /\
      takes lo reliable u cmd data u' evs r /\ unit_at lo reliable u' d';
  at_ack : exists d' r, react d [7; 243] = (d', [], r) /\
      (reliable = true -> r = mkWres 2 None) /\ unit_at lo reliable u d' }.

(** [u'] is [u] with both percentages of profile [m] (0-3) set to [v]. *)
Definition with_profile (m : nat) (v : Z) (u u' : vent) : Prop :=
  length (u_out u') = 4%nat /\ length (u_in u') = 4%nat /\ u_mode u' = u_mode u /\ u_comfort u' = u_comfort u /\
  forall i, (i < 4)%nat ->
    nth i (u_out u') 0 = (if Nat.eqb i m then v else nth i (u_out u) 0) /\
    nth i (u_in u') 0 = (if Nat.eqb i m then v else nth i (u_in u) 0).

(** A possible state of a unit: four percentages each way, mode 0-4 (0 is automatic). *)
Definition vent_ok (lo : Z) (u : vent) : Prop :=
  length (u_out u) = 4%nat /\ length (u_in u) = 4%nat /\
  Forall (fun x => lo <= x /\ byte_ok x) (u_out u) /\ Forall (fun x => lo <= x /\ byte_ok x) (u_in u) /\
  0 <= u_mode u <= 4 /\ byte_ok (u_comfort u).
(** What the device would answer to a request for the fan profiles is readable (C08). *)
Definition legible (d : device) : Prop :=
  forall d' chunks r pl, react d (framed 205 []) = (d', pieces chunks, r) -> concat chunks = reply 206 pl ->
    readable 206 pl.
(** The record reports the state of the unit. *)
Definition reports (u : vent) (p : FanProfiles) : Prop :=
  [OutAway p; OutLow p; OutMid p; OutHigh p] = u_out u /\
  [InAway p; InLow p; InMid p; InHigh p] = u_in u /\ CurrentMode p = u_mode u.

(** The record shows the unit's comfort temperature, half degrees cut off. *)
Definition shows_comfort (u : vent) (t : Temps) : Prop := f32_is (Comfort t) (u_comfort u / 2 - 20).

(** Every packet the device ever sends is readable (C08). *)
CoInductive clear (d : device) : Prop := Clear {
  clear_now : forall bs d' evs r, react d bs = (d', evs, r) ->
    (forall chunks cmd pl, evs = pieces chunks -> concat chunks = reply cmd pl -> readable cmd pl) /\ clear d' }.

(** A quiet line to a reliable unit in state [u] that only sends readable packets. *)
Definition lined (lo : Z) (c : conn) (u : vent) : Prop :=
  quiet c /\ unit_at lo true u (c_dev c) /\ clear (c_dev c) /\ vent_ok lo u.
(** ... whose state the server's profile cache reports. *)
Definition synced (lo : Z) (w : world shared) (u : vent) : Prop :=
  lined lo (w_conn w) u /\ reports u (sh_prof (w_sh w)).

(** ... whose comfort temperature the server's temperature cache shows. *)
Definition tempered (lo : Z) (w : world shared) (u : vent) : Prop :=
  lined lo (w_conn w) u /\ shows_comfort u (sh_temp (w_sh w)).

(** Operations performed one after the other, none of them a SetFanSpeed that
    reported a failed poll. *)
Inductive undisturbed : world shared -> world shared -> Prop :=
| un_refl w : undisturbed w w
| un_step o w w1 w2 :
    (forall a r, o = ORpc (SetFanSpeedR a r) ->
       fst (run (handle (SetFanSpeedR a r)) w) <> RDone (RespErr (Internal ErrSetPollFailed))) ->
    run (perform o) w = (RDone tt, w1) -> undisturbed w1 w2 -> undisturbed w w2.
