(** What becomes of values outside the ranges of C19, C26, C28 and C29: with these theorems nothing is left open there. *)
From Verif Require LayoutProofs.
From Verif Require Import GoBase Proto SpecProto SpecFrame SpecConn SpecOps SpecLayout SpecServer SpecArgs Scanner Conn Proc Lib Server
  Samples SamplesServer ServerLemmas ServerOps ServerTimes ServerClaims Modulo.

(** C19: the quotient modulo 65536, whatever was sent. *)
Theorem C19_modulo : forall l f, Fans_Unmarshal l = Done (f, None) ->
  InSpeed f = (1875000 / be_at l 2 2) mod 65536 /\ OutSpeed f = (1875000 / be_at l 4 2) mod 65536.
Proof. exact rpm_modulo. Qed.
Print Assumptions C19_modulo.
Example C19_modulo_here : Fans_Unmarshal [50; 45; 0; 28; 9; 0] = Done (mkFans 50 45 (66964 - 65536) 813, None).
Proof. reflexivity. Qed.

(** C26: every comfort temperature that a unit can report, also below zero (on amd64). *)
Theorem C26_any : forall w t k,
  idle w -> 0 <= t -> f32_is (Comfort (sh_temp (w_sh w))) k -> -20 <= k <= 107 ->
  exists r w' l, run (handle (SetComfortTempR t)) w = (RDone r, w') /\ idle w' /\ added w w' l /\
  (255 < t -> r = RespErr (InvalidArgument ArgComfortTemp) /\ w' = w) /\
  (t = k mod 256 -> r = RespComfort false (k mod 2 ^ 32) t /\ w' = w) /\
  (108 <= t <= 255 -> t <> k mod 256 -> r = RespErr (Internal (LibErr ErrTooHigh)) /\ l = [] /\ w_sh w' = w_sh w) /\
  (t <= 107 -> t <> k ->
     (exists out e, exchange 211 [2 * (t + 20)] false out (Some e) l /\
        r = RespErr (Internal (LibErr e)) /\ w_sh w' = w_sh w) \/
     (exists out l1 l2, l = l1 ++ l2 /\ exchange 211 [2 * (t + 20)] false out None l1 /\
        one_query CTemp l2 /\ r = RespComfort true (k mod 2 ^ 32) t)).
Proof. exact comfort_any. Qed.
Print Assumptions C26_any.
Example C26_any_here : let w := started (acked ++ answer 210 temps_payload) in
  f32_is (Comfort (sh_temp (w_sh w))) 21 /\ fst (run (handle (SetComfortTempR 251)) w) = RDone (RespErr (Internal (LibErr ErrTooHigh))) /\
  (-5) mod 256 = 251 /\ (-5) mod 2 ^ 32 = 4294967291.
Proof. cbv zeta. split; [apply LayoutProofs.f32_isb_ok|]; vm_compute; auto. Qed.

(** C28: Abs is taken modulo 256.  The two requests are the same program, so the same whatever runs beside them. *)
Theorem C28_modulo : forall n, n mod 256 <> 0 -> handle (SetFanSpeedR n false) = handle (SetFanSpeedR (n mod 256) false).
Proof. exact speed_modulo. Qed.
Print Assumptions C28_modulo.
Example C28_modulo_here : let w := started (acked ++ answer 12 [50; 50; 8; 0; 9; 0] ++ answer 206 (prof_payload 3)) in
  fst (run (handle (SetFanSpeedR 259 false)) w) = RDone (RespSpeed true 2 3).
Proof. vm_compute. reflexivity. Qed.
Theorem C28_zero : forall w n, idle w -> n <> 0 -> n mod 256 = 0 ->
  run (handle (SetFanSpeedR n false)) w = (RDone (RespErr (InvalidArgument (ArgFanSpeed 0))), w).
Proof. exact speed_zero. Qed.
Print Assumptions C28_zero.
Example C28_zero_here : fst (run (handle (SetFanSpeedR 512 false)) (started [])) = RDone (RespErr (InvalidArgument (ArgFanSpeed 0))).
Proof. vm_compute. reflexivity. Qed.

(** C29: both arguments are taken modulo 256, but the reply names the percentage as it was asked for. *)
Theorem C29_modulo : forall m t, handle (SetFanProfileR m t) = handle (SetFanProfileR (m mod 256) t).
Proof. exact profile_modulo. Qed.
Print Assumptions C29_modulo.
Theorem C29_target : forall w m t, idle w -> exists r w', run (handle (SetFanProfileR m (t mod 256))) w = (RDone r, w') /\
  run (handle (SetFanProfileR m t)) w = (RDone (told_target t r), w').
Proof. exact profile_target. Qed.
Print Assumptions C29_target.
Example C29_modulo_here : let w := started (answer 206 (prof_payload 2) ++ acked ++ answer 206 (prof_payload 2)) in
  fst (run (handle (SetFanProfileR 260 336)) w) = RDone (RespProfile true 70 336) /\
  fst (run (handle (SetFanProfileR 4 80)) w) = RDone (RespProfile true 70 80).
Proof. vm_compute. auto. Qed.
