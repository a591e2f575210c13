(** Vocabulary for statements from the Python client to the unit, with any number of requests at a time. *)
From Coq Require Import String.
From Verif Require Import GoBase Proto Conn Proc Lib Server Client Wire Twirp ClientHttp SpecWire SpecTwirp SpecLayout SpecUnit Machine SpecMachine SpecClient.

(** The calls that set something: with a value, or the next speed up or down. *)
Inductive wish := Want (c : call) | Step (up : bool).
Definition method_of (w : wish) : method bool := match w with Want c => called c | Step up => step up end.
(** The unit is as wished. *)
Definition fulfilled (u : vent) (w : wish) : Prop :=
  match w with
  | Want (Speed n) => u_mode u = n
  | Want (Comfort_temp t) => u_comfort u = 2 * (t + 20)
  | Want (Profile p v) => nth (Z.to_nat (p - 1)) (u_out u) 0 = v /\ nth (Z.to_nat (p - 1)) (u_in u) 0 = v
  | Step _ => 1 <= u_mode u <= 4
  end.

(** Request [i] is what a call of the method posts (with the ReqTime that will be in its reply). *)
Definition posted {A} (hs : list (hreq * list byte)) (i : nat) (m : method A) : Prop :=
  exists q k h t, m = Asks q k /\ post q = Some h /\ nth_error hs i = Some (h, t) /\ time_string t.
(** That call has ended with [r]. *)
Definition told {A} (mh : machine hresp) (i : nat) (m : method A) (r : pyres A) : Prop :=
  exists q k a, m = Asks q k /\ answered mh i a /\ r = k (ClientHttp.seen (stub_result q a)).

(** What get_temps and get_fan_profiles return shows the unit. *)
Definition tells_temps (u : vent) (o : pyobj) : Prop :=
  exists f, attr o "Comfort" = Some (PFloat f) /\ f32_is f (u_comfort u / 2 - 20).
Definition tells_profiles (u : vent) (o : pyobj) : Prop :=
  map (attr o) ["OutAway"; "OutLow"; "OutMid"; "OutHigh"]%string = map (fun z => Some (PInt z)) (u_out u) /\
  map (attr o) ["InAway"; "InLow"; "InMid"; "InHigh"]%string = map (fun z => Some (PInt z)) (u_in u) /\
  attr o "CurrentMode" = Some (PInt (u_mode u)).
