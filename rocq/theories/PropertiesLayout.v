(** Properties C17-C19 and C46: encodings. *)
From Verif Require Import GoBase GoStrings Proto Lib SpecLayout LayoutProofs TrimProofs OpLemmas.

Theorem C17_temperature :
  (forall b, 0 <= b <= 255 -> f32_is (temperature_UnmarshalBinary b) (b / 2 - 20)) /\
  (forall t, -20 <= t <= 107 -> f32_is (f32_of_Z t) t /\
     temperature_MarshalBinary (f32_of_Z t) = (2 * (t + 20), None) /\
     temperature_UnmarshalBinary (2 * (t + 20)) = f32_of_Z t) /\
  (forall t, -1024 <= t < -20 \/ 107 < t <= 1024 ->
     f32_is (f32_of_Z t) t /\ exists e, temperature_MarshalBinary (f32_of_Z t) = (0, Some e)).
Proof. exact temperature_codec. Qed.
Print Assumptions C17_temperature.
Example C17_ex : temperature_MarshalBinary (f32_of_Z 21) = (82, None) /\
  temperature_MarshalBinary (f32_of_Z 108) = (0, Some ErrTooHigh) /\
  f32_is (temperature_UnmarshalBinary 83) 21.
Proof. split; [reflexivity|]. split; [reflexivity|]. apply f32_isb_ok. reflexivity. Qed.

(** C18 *)
Theorem C18_temps : forall l, bytes_ok l ->
  (length l <> 9%nat -> Temps_Unmarshal l = Done (zeroTemps, Some ErrPktLen)) /\
  (length l = 9%nat -> exists t, Temps_Unmarshal l = Done (t, None) /\ temps_layout l t).
Proof. exact temps_spec. Qed.
Print Assumptions C18_temps.
Theorem C18_bypass : forall l,
  (length l <> 7%nat -> Bypass_Unmarshal l = Done (zeroBypass, Some ErrPktLen)) /\
  (length l = 7%nat -> exists t, Bypass_Unmarshal l = Done (t, None) /\ bypass_layout l t).
Proof. exact bypass_spec. Qed.
Print Assumptions C18_bypass.
Theorem C18_hours : forall l,
  (length l <> 20%nat -> Hours_Unmarshal l = Done (zeroHours, Some ErrPktLen)) /\
  (length l = 20%nat -> exists t, Hours_Unmarshal l = Done (t, None) /\ hours_layout l t).
Proof. exact hours_spec. Qed.
Print Assumptions C18_hours.
Theorem C18_fans : forall l,
  (length l <> 6%nat -> Fans_Unmarshal l = Done (zeroFans, Some ErrPktLen)) /\
  (length l = 6%nat -> be_at l 2 2 = 0 \/ be_at l 4 2 = 0 -> Fans_Unmarshal l = Done (zeroFans, Some ErrZeroValue)) /\
  (length l = 6%nat -> be_at l 2 2 <> 0 -> be_at l 4 2 <> 0 ->
     exists t, Fans_Unmarshal l = Done (t, None) /\ fans_layout l t).
Proof. exact fans_spec. Qed.
Print Assumptions C18_fans.
Theorem C18_profiles : forall l,
  (length l <> 14%nat -> FanProfiles_Unmarshal l = Done (zeroProf, Some ErrPktLen)) /\
  (length l = 14%nat -> exists t, FanProfiles_Unmarshal l = Done (t, None) /\ profiles_layout l t).
Proof. exact profiles_spec. Qed.
Print Assumptions C18_profiles.
Theorem C18_errors : forall l,
  (length l <> 17%nat -> Errors_Unmarshal l = Done (zeroErrors, Some ErrPktLen)) /\
  (length l = 17%nat -> exists t, Errors_Unmarshal l = Done (t, None) /\ errors_layout l t).
Proof. exact errors_spec. Qed.
Print Assumptions C18_errors.
Theorem C18_boot : forall l,
  (length l <> 13%nat -> BootInfo_Unmarshal l = Done (zeroBoot, Some ErrPktLen)) /\
  (length l = 13%nat -> exists t, BootInfo_Unmarshal l = Done (t, None) /\ boot_layout l t).
Proof. exact boot_spec. Qed.
Print Assumptions C18_boot.
Example C18_ex :
  Hours_Unmarshal [0; 1; 0; 0; 0; 2; 1; 0; 0; 0; 5; 0; 6; 1; 7; 0; 8; 0; 0; 9] =
    Done (mkHours 256 2 65536 9 5 6 263 8, None) /\
  BootInfo_Unmarshal [3; 60; 32; 67; 65; 51; 53; 48; 32; 108; 117; 120; 101] =
    Done (mkBoot 3 60 32 [67; 65; 51; 53; 48; 32; 108; 117; 120; 101], None).
Proof. split; reflexivity. Qed.

(** C19 is false for raw values up to 28: the quotient does not fit 16 bits. *)
Theorem C19_rpm_partial : forall l f, bytes_ok l -> Fans_Unmarshal l = Done (f, None) ->
  (29 <= be_at l 2 2 -> InSpeed f = 1875000 / be_at l 2 2) /\
  (29 <= be_at l 4 2 -> OutSpeed f = 1875000 / be_at l 4 2).
Proof. exact fans_rpm. Qed.
Print Assumptions C19_rpm_partial.
Theorem C19_rpm_refuted : forall raw, 1 <= raw <= 28 -> exists l f,
  bytes_ok l /\ be_at l 2 2 = raw /\ Fans_Unmarshal l = Done (f, None) /\ InSpeed f <> 1875000 / raw.
Proof. exact fans_rpm_refuted. Qed.
Print Assumptions C19_rpm_refuted.
Example C19_ex : Fans_Unmarshal [50; 45; 8; 0; 9; 0] = Done (mkFans 50 45 915 813, None) /\
  29 <= be_at [50; 45; 8; 0; 9; 0] 2 2.
Proof. split; [reflexivity|discriminate]. Qed.

Theorem C46_name_trimmed : forall s, trimmed s (trimSpace s) /\ (forall t, trimmed s t -> t = trimSpace s).
Proof. exact device_name_trimmed. Qed.
Print Assumptions C46_name_trimmed.
Theorem C46_boot_name : forall l b, BootInfo_Unmarshal l = Done (b, None) -> trimmed (skipn 3 l) (DeviceName b).
Proof. exact boot_name. Qed.
Print Assumptions C46_boot_name.
Example C46_ex : trimSpace [32; 9; 67; 65; 32; 51; 194; 160; 226; 128; 131] = [67; 65; 32; 51] /\
  trimSpace [194; 67; 65; 32; 51; 160; 32] = [194; 67; 65; 32; 51; 160].
Proof. split; reflexivity. Qed.
