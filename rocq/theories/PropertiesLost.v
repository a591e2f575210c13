(** Properties C120 and C121: nothing arrives from the unit any more. *)
From Verif Require Import GoBase Proto Scanner Conn Proc Lib Server SpecServer Machine SpecMachine SamplesServer SamplesLost SpecLost LostProofs.

(** C120: requests may come, the timers tick, caches be flushed, as long as one likes: the caches remain what they were ... *)
Theorem C120_frozen : forall m ys m', cut_off (g_conn (m_g m)) -> resting m -> exec ys m = Some m' -> g_sh (m_g m') = g_sh (m_g m).
Proof. exact lost_frozen. Qed.
Print Assumptions C120_frozen.
(** ... getters go on showing them, without an error ... *)
Theorem C120_getters : forall m ys m' i c a, cut_off (g_conn (m_g m)) -> resting m -> exec ys m = Some m' -> to_come m i (getter_rpc c) -> answered m' i a ->
  typed (cached (g_sh (m_g m)) c) -> a = message (cached (g_sh (m_g m)) c).
Proof. exact lost_getters. Qed.
Print Assumptions C120_getters.
(** ... no profile is reported as changed ... *)
Theorem C120_profile : forall m ys m' i p s a, cut_off (g_conn (m_g m)) -> resting m -> exec ys m = Some m' -> to_come m i (SetFanProfileR p s) -> answered m' i a -> no_change a.
Proof. exact lost_profile. Qed.
Print Assumptions C120_profile.
(** ... and the server sees nothing. *)
Theorem C120_log : forall m ys m', cut_off (g_conn (m_g m)) -> resting m -> exec ys m = Some m' ->
  exists l, c_log (g_conn (m_g m')) = c_log (g_conn (m_g m)) ++ l /\ Forall nothing_read l.
Proof. exact lost_log. Qed.
Print Assumptions C120_log.
Example C120_ex : exists m m', after_start four closed = Some m /\ cut_off (g_conn (m_g m)) /\ resting m /\ exec one_by_one m = Some m' /\
  to_come m 0 (SetComfortTempR 23) /\ answered m' 0 (RespComfort true 21 23) /\
  to_come m 1 GetTempsRPC /\ answered m' 1 (message (cached (g_sh (m_g m)) CTemp)) /\ f32_trunc (Comfort (sh_temp (g_sh (m_g m)))) = 21 /\
  to_come m 2 (SetFanProfileR 2 60) /\ answered m' 2 (RespErr (Internal (LibErr ErrInvalidResponse))).
Proof. exact closed_told. Qed.

(** C121: when the connection is lost no change is reported: so it is if queries time out, or if writes fail ... *)
Theorem C121_no_change_partial : forall m ys m' i q a, hangs (g_conn (m_g m)) \/ (cut_off (g_conn (m_g m)) /\ refusing (c_dev (g_conn (m_g m)))) ->
  resting m -> exec ys m = Some m' -> to_come m i q -> answered m' i a -> no_change a.
Proof. exact lost_none. Qed.
Print Assumptions C121_no_change_partial.
Example C121_hangs_ex : exists m, after_start four unplugged = Some m /\ hangs (g_conn (m_g m)) /\ resting m.
Proof. exact unplugged_hangs. Qed.
Example C121_refusing_ex : exists m, after_start four reset = Some m /\ cut_off (g_conn (m_g m)) /\ refusing (c_dev (g_conn (m_g m))) /\ resting m.
Proof. exact reset_refuses. Qed.
(** ... but if the unit has closed the connection, the end of the stream is taken for an acknowledgement. *)
Theorem C121_no_change_refuted : exists rs c xs m ys m' i q, exec xs (serve rs c 0) = Some m /\ cut_off (g_conn (m_g m)) /\ resting m /\ exec ys m = Some m' /\
  to_come m i q /\ answered m' i (RespComfort true 21 23).
Proof. exact lost_lies. Qed.
Print Assumptions C121_no_change_refuted.
