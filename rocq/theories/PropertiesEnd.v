(** Property C130: what Python clients are told, among any number of other requests, holds of the unit. *)
From Coq Require Import String.
From Verif Require Import GoBase Proto SpecProto SpecFrame SpecConn SpecLayout SpecUnit Conn Proc Lib Server SpecServer
  Client Wire Twirp ClientHttp SpecWire SpecTwirp Machine SpecMachine HttpMachine SpecHttp SpecFresh SpecTrack
  Samples SamplesServer SamplesUnit SamplesMachine SamplesTrack SamplesHttp SpecClient SpecEnd EndProofs StartClaims SamplesEnd.

(** A call that returns True has had its effect: between its arrival and its answer the unit was as wished; *)
Theorem C130_true : forall ul uj hs c clk lo u xs mh0 ys mh i w, lo <= 15 -> lined lo c u -> c_log c = [] ->
  exec xs (serve_http ul uj hs c clk) = Some mh0 -> waits i xs -> exec ys mh0 = Some mh ->
  posted hs i (method_of w) -> told mh i (method_of w) (PyRet true) ->
  exists ys1 ys2 mh1 u1, ys = ys1 ++ ys2 /\ exec ys1 mh0 = Some mh1 /\ unit_in lo mh1 u1 /\ fulfilled u1 w.
Proof. exact true_means. Qed.
Print Assumptions C130_true.
(** a set method raises only for a speed whose fans were not seen to follow, or a temperature above 107; *)
Theorem C130_raises : forall ul uj hs c clk lo u xs mh0 ys mh i w e, lo <= 15 -> lined lo c u -> c_log c = [] ->
  exec xs (serve_http ul uj hs c clk) = Some mh0 -> waits i xs -> exec ys mh0 = Some mh ->
  posted hs i (method_of w) -> told mh i (method_of w) (PyRaise e) ->
  (((exists n, w = Want (Speed n)) \/ exists up, w = Step up) /\ e = TwirpServer (Internal ErrSetPollFailed)) \/
  (exists t, w = Want (Comfort_temp t) /\ 107 < t /\ e = TwirpServer (Internal (LibErr ErrTooHigh))).
Proof. exact raises_means. Qed.
Print Assumptions C130_raises.
(** after start-up get_temps and get_fan_profiles return an object, and it shows the unit as it was at one moment; *)
Theorem C130_get : forall ul uj hs c clk lo u xs mh0 ys mh i k r, lo <= 15 -> lined lo c u -> c_log c = [] ->
  exec xs (serve_http ul uj hs c clk) = Some mh0 -> m_wk mh0 = None -> waits i xs -> exec ys mh0 = Some mh -> telling k ->
  posted hs i (getter k) -> told mh i (getter k) r ->
  exists s1 s2 n1 u1 o, xs ++ ys = s1 ++ s2 /\ exec s1 (serve_http ul uj hs c clk) = Some n1 /\ unit_in lo n1 u1 /\ r = PyRet o /\
    (k = CTemp -> tells_temps u1 o) /\ (k = CProf -> tells_profiles u1 o).
Proof. exact started_means. Qed.
Print Assumptions C130_get.
(** and after a True a client (the same or another) sees what was set, if nobody asks for something else. *)
Theorem C130_comfort : forall ul uj hs c clk lo u xs mh1 ys mh2 zs mh i j t r, lo <= 15 -> lined lo c u -> c_log c = [] ->
  exec xs (serve_http ul uj hs c clk) = Some mh1 -> waits j xs -> exec ys mh1 = Some mh2 -> waits i (xs ++ ys) -> exec zs mh2 = Some mh ->
  posted hs j (set_comfort_temperature (Some t)) -> told mh2 j (set_comfort_temperature (Some t)) (PyRet true) ->
  (forall t0, In (SetComfortTempR t0) (calls ul uj hs) -> t0 <= 255 -> t0 mod 256 <= 107 -> t0 = t) ->
  posted hs i get_temps -> told mh i get_temps r ->
  exists o f, r = PyRet o /\ attr o "Comfort" = Some (PFloat f) /\ f32_is f t.
Proof. exact comfort_read. Qed.
Print Assumptions C130_comfort.
Theorem C130_profile : forall ul uj hs c clk lo u xs mh1 ys mh2 zs mh i j p v r, lo <= 15 -> lined lo c u -> c_log c = [] ->
  exec xs (serve_http ul uj hs c clk) = Some mh1 -> waits j xs -> exec ys mh1 = Some mh2 -> waits i (xs ++ ys) -> exec zs mh2 = Some mh ->
  posted hs j (configure_fan_profile p v) -> told mh2 j (configure_fan_profile p v) (PyRet true) ->
  (forall p0 t0, In (SetFanProfileR p0 t0) (calls ul uj hs) -> p0 mod 256 = p -> t0 mod 256 = v) ->
  posted hs i get_fan_profiles -> told mh i get_fan_profiles r ->
  exists o, r = PyRet o /\ nth_error (map (attr o) ["OutAway"; "OutLow"; "OutMid"; "OutHigh"]%string) (Z.to_nat (p - 1)) = Some (Some (PInt v)) /\
    nth_error (map (attr o) ["InAway"; "InLow"; "InMid"; "InHigh"]%string) (Z.to_nat (p - 1)) = Some (Some (PInt v)).
Proof. exact profile_read. Qed.
Print Assumptions C130_profile.
Theorem C130_speed : forall ul uj hs c clk lo u xs mh1 ys mh2 zs mh i j n r, lo <= 15 -> lined lo c u -> c_log c = [] ->
  exec xs (serve_http ul uj hs c clk) = Some mh1 -> waits j xs -> exec ys mh1 = Some mh2 -> waits i (xs ++ ys) -> exec zs mh2 = Some mh ->
  posted hs j (set_fan_speed n) -> told mh2 j (set_fan_speed n) (PyRet true) ->
  (forall v0 b0, In (SetFanSpeedR v0 b0) (calls ul uj hs) -> v0 = n) ->
  posted hs i get_fan_profiles -> told mh i get_fan_profiles r ->
  exists o, r = PyRet o /\ attr o "CurrentMode" = Some (PInt n).
Proof. exact speed_read. Qed.
Print Assumptions C130_speed.
Example C130_ex : lined 15 unit_line vent2 /\ c_log unit_line = [] /\ waits 1 end_before /\ waits 4 (end_before ++ end_during) /\
  calls (fun x => x) (fun _ _ => None) end_reqs =
    [SetComfortTempR 22; SetFanProfileR 1 20; SetFanSpeedR 3 false; GetTempsRPC; GetFanProfilesRPC; SetComfortTempR 110; SetFanSpeedR 0 true] /\
  posted end_reqs 1 (method_of (Want (Comfort_temp 22))) /\ posted end_reqs 4 get_temps /\
  match exec end_before end_start with
  | Some m0 => m_wk m0 = None /\
      match exec end_during m0 with
      | Some m1 => outcome_of m1 1 (method_of (Want (Comfort_temp 22))) = Some (PyRet true) /\
          outcome_of m1 2 (method_of (Want (Profile 1 20))) = Some (PyRet true) /\
          outcome_of m1 3 (method_of (Want (Speed 3))) = Some (PyRet true) /\
          match exec end_after m1 with
          | Some m => outcome_of m 6 (method_of (Want (Comfort_temp 110))) = Some (PyRaise (TwirpServer (Internal (LibErr ErrTooHigh)))) /\
              match outcome_of m 4 get_temps, outcome_of m 5 get_fan_profiles with
              | Some (PyRet o), Some (PyRet p) => attr o "Comfort" = Some (PFloat (f32_of_Z 22)) /\ attr p "OutAway" = Some (PInt 20) /\
                  attr p "InAway" = Some (PInt 20) /\ attr p "CurrentMode" = Some (PInt 3)
              | _, _ => False
              end
          | None => False
          end
      | None => False
      end
  | None => False
  end.
Proof.
  split; [exact unit_line_lined|]. split; [reflexivity|]. do 2 (split; [repeat constructor; discriminate|]).
  split; [vm_compute; reflexivity|].
  do 2 (split; [do 4 eexists; do 3 (split; [reflexivity|]); exact ms_string|]).
  vm_compute. auto 20.
Qed.
