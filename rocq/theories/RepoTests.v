(** Validation of the model: the tables of the repository's own unit tests
    (libcomfo/proto_test.go, conn_test.go, message_test.go, request_types_test.go,
    response_types_test.go) computed on the model.  These are tests, not proofs of any
    property; they guard against a model that differs from the code.
    Not covered: TestPacketString (Packet.String is not modelled), the mockSetReq cases
    (the model has the three implementations of SetRequest only) and TestWaitTimeout
    (the race is part of the model of ScanTimeout). *)
From Coq Require Import SpecFloat.
From Verif Require Import GoBase GoStrings Proto Scanner Conn Proc Lib Samples.

(** ** conn_test.go:18-99: TestConn *)

(** 66-99, the Write side: [rcv] is what remains of Receives, [lim] the Limit field.  The
    two formatted errors are [ErrIO 1] and [ErrIO 2]. *)
Definition same_bytes (a b : list byte) : bool :=
  if list_eq_dec Z.eq_dec a b then true else false.
CoFixpoint test_dev (rcv : list byte) (lim : Z) : device :=
  Dev (fun p =>
    if (length rcv <? length p)%nat then (test_dev rcv lim, [], mkWres 0 (Some (ErrIO 1)))
    else (test_dev (skipn (length p) rcv) lim, [],
          mkWres (if lim >? 0 then lim else len p)
                 (if same_bytes (firstn (length p) rcv) p then None else Some (ErrIO 2)))).
(** 34-64, the Read side: Emits in one piece, then end of file; or a read that hangs
    longer than the timer. *)
Definition emits (bs : list byte) : list ev := [Data bs None; Data [] (Some SEof)].
Definition emits_hang (bs : list byte) : list ev := [Data bs None; Expire].
Definition test_conn (rcv : list byte) (lim : Z) (evs : list ev) : conn :=
  mkConn (test_dev rcv lim) evs [] [].
Definition on_conn {A} (p : proc unit A) (c : conn) : rres A :=
  fst (run p (mkWorld c tt [] 0 [])).

(** ** proto_test.go *)

(** 7-15 *)
Definition genBytes (n : nat) : list byte := map Z.of_nat (seq 0 n).

(** 17-74: TestFull, both directions. *)
Definition full (b : list byte) (p : packet) : Prop :=
  UnmarshalPacket b = Done (p, None) /\ MarshalPacket p = Done (b, None).
Example t_full_empty : full [0; 229; 0; 146] (mkPacket 229 [] false).
Proof. split; reflexivity. Qed.
Example t_full_escape : full [0; 171; 3; 7; 7; 1; 2; 101] (mkPacket 171 [7; 1; 2] false).
Proof. split; reflexivity. Qed.
Example t_full_escape2 :
  full [0; 171; 4; 7; 7; 7; 7; 1; 2; 109] (mkPacket 171 [7; 7; 1; 2] false).
Proof. split; reflexivity. Qed.

(** 76-133: TestUnmarshalPacket *)
Example t_unm_short : UnmarshalPacket [0; 0; 0] = Done (zero_packet, Some ErrPktLen).
Proof. reflexivity. Qed.
Example t_unm_length : UnmarshalPacket [0; 0; 255; 0] = Done (zero_packet, Some ErrPayloadSize).
Proof. reflexivity. Qed.
Example t_unm_length_esc :
  UnmarshalPacket [0; 0; 2; 7; 7; 0] = Done (zero_packet, Some ErrPayloadSize).
Proof. reflexivity. Qed.
Example t_unm_ok : UnmarshalPacket [0; 0; 1; 7; 7; 181] = Done (mkPacket 0 [7] false, None).
Proof. reflexivity. Qed.
Example t_unm_sum : UnmarshalPacket [0; 0; 0; 0] = Done (zero_packet, Some ErrVerifyChecksum).
Proof. reflexivity. Qed.

(** 135-169: TestMarshalPacket *)
Example t_mar_long : MarshalPacket (mkPacket 0 (genBytes 256) false) = Done ([], Some ErrTooLong).
Proof. vm_compute. reflexivity. Qed.

(** ** conn_test.go *)

(** 139-245: TestReadPacket (expect is true). *)
Definition read_result (evs : list ev) := fst (ReadPacket (test_conn [] 0 evs) true).
Example t_read_escapes :
  read_result (emits [esc; ack; 7; 240; 0; 12; 6; 170; 187; 17; 7; 7; 7; 7; 7; 7; 74;
                      esc; end_; esc; ack])
  = Done (mkPacket 12 [170; 187; 17; 7; 7; 7] false, None).
Proof. vm_compute. reflexivity. Qed.
Example t_read_timeout_ack : read_result [Expire] = Done (zero_packet, Some ErrTimeout).
Proof. vm_compute. reflexivity. Qed.
Example t_read_timeout_start :
  read_result (emits_hang [esc; ack]) = Done (zero_packet, Some ErrTimeout).
Proof. vm_compute. reflexivity. Qed.
Example t_read_timeout_end :
  read_result (emits_hang [esc; ack; esc; start]) = Done (zero_packet, Some ErrTimeout).
Proof. vm_compute. reflexivity. Qed.
Example t_read_garbage :
  read_result (emits [esc; ack; 240; 11; esc; start]) = Done (zero_packet, Some ErrScanInput).
Proof. vm_compute. reflexivity. Qed.
Example t_read_short :
  read_result (emits [esc; ack; esc; start; 240; 11; esc; end_])
  = Done (zero_packet, Some ErrTooShort).
Proof. vm_compute. reflexivity. Qed.
Example t_read_unmarshal :
  read_result (emits [esc; ack; esc; start; 240; 11; 186; 170; esc; end_])
  = Done (zero_packet, Some ErrPayloadSize).
Proof. vm_compute. reflexivity. Qed.

(** 247-286: TestWritePacket *)
Example t_write_long :
  on_conn (WritePacket (mkPacket 0 (repeat 0 256) false)) (test_conn [] 0 [])
  = RDone (false, Some ErrTooLong).
Proof. vm_compute. reflexivity. Qed.

(** 288-332: TestWriteAck *)
Example t_ack_refused :
  on_conn WriteAck (test_conn [] 0 []) = RDone (false, Some (ErrIO 1)).
Proof. vm_compute. reflexivity. Qed.
Example t_ack_short :
  on_conn WriteAck (test_conn [esc; ack] 1 []) = RDone (false, Some ErrAck).
Proof. vm_compute. reflexivity. Qed.

(** 334-386: TestQueryPacket *)
Example t_query_invalid :
  on_conn (QueryPacket (mkPacket getFans [] true))
    (test_conn [esc; start; 0; 11; 0; 184; esc; end_] 0
               (emits [esc; ack; esc; start; 0; 0; 0; 173; esc; end_]))
  = RDone (zero_packet, Some ErrInvalidResponse).
Proof. vm_compute. reflexivity. Qed.

(** ** message_test.go *)

(** 22-71: TestTemperatureMarshalBinary *)
Example t_temp_marshal :
  map (fun z => temperature_MarshalBinary (f32_of_Z z)) [25; 107; -20; -21; 108]
  = [(90, None); (254, None); (0, None); (0, Some ErrTooLow); (0, Some ErrTooHigh)].
Proof. vm_compute. reflexivity. Qed.
(** 73-110: TestTemperatureUnmarshalBinary *)
Example t_temp_unmarshal :
  map temperature_UnmarshalBinary [90; 255; 0] = map f32_of_Z [25; 107; -20].
Proof. vm_compute. reflexivity. Qed.
(** 112-126: TestEncodeGetRequest *)
Example t_encode_get :
  p_cmd (EncodeGetRequest getBootloader) = getBootloader
  /\ p_expect (EncodeGetRequest getBootloader) = true.
Proof. split; reflexivity. Qed.
(** 128-177: TestEncodeSetRequest *)
Example t_encode_set : EncodeSetRequest (SRSpeed 3) = (mkPacket 153 [3] false, None).
Proof. reflexivity. Qed.
(** 179-225: TestDecodeResponse *)
Example t_decode_bypass :
  DecodeResponse (mkPacket 224 [255; 255; 240; 144; 1; 255; 1] false)
  = Done (Some (RBypass (mkBypass 240 144 1 true)), None).
Proof. reflexivity. Qed.
Example t_decode_nil : DecodeResponse zero_packet = Done (None, Some ErrDecodeNil).
Proof. reflexivity. Qed.
Example t_decode_unknown :
  DecodeResponse (mkPacket 255 [] false) = Done (None, Some ErrResponseType).
Proof. reflexivity. Qed.

(** 227-301: TestConnSetRequest *)
Example t_set_comfort :
  on_conn (setQuery (SRComfort (f32_of_Z 42)))
    (test_conn [7; 240; 0; 211; 1; 124; 253; esc; end_; esc; ack] 0 (emits [esc; ack]))
  = RDone None.
Proof. vm_compute. reflexivity. Qed.
Example t_set_speed :
  on_conn (setQuery (SRSpeed 3))
    (test_conn [7; 240; 0; 153; 1; 3; 74; esc; end_; esc; ack] 0 (emits [esc; ack]))
  = RDone None.
Proof. vm_compute. reflexivity. Qed.
Example t_set_garbage :
  on_conn (setQuery (SRComfort (f32_of_Z 42)))
    (test_conn [7; 240; 0; 211; 1; 124; 253; esc; end_; esc; ack] 0
               (emits [240; 11; 161; 2; esc; ack]))
  = RDone (Some ErrScanInput).
Proof. vm_compute. reflexivity. Qed.

(** 303-374: TestConnGetRequest *)
Example t_get_fans :
  on_conn (getQuery getFans)
    (test_conn [7; 240; 0; 11; 0; 184; esc; end_; esc; ack] 0
       (emits [esc; ack; 7; 240; 0; 12; 6; 170; 187; 17; 34; 51; 68; 206; esc; end_; esc; ack]))
  = RDone (Some (RFans (mkFans 170 187 427 142)), None).
Proof. vm_compute. reflexivity. Qed.
Example t_get_write_error :
  on_conn (getQuery getFans) (test_conn [] 0 (emits [])) = RDone (None, Some (ErrIO 1)).
Proof. vm_compute. reflexivity. Qed.

(** 376-393: TestLeftPad32 *)
Example t_leftpad : leftPad32 [1; 2] = Done [0; 0; 1; 2].
Proof. reflexivity. Qed.
Example t_leftpad_panic : leftPad32 [1; 2; 3; 4; 5] = Panic.
Proof. reflexivity. Qed.

(** ** request_types_test.go:9-92: TestSetRequestsMarshalBinary *)
Definition marshals (t : Z) (r : SetRequest) (b : list byte) (e : option err) : Prop :=
  requestType r = t /\ SetRequest_MarshalBinary r = (b, e).
Example t_sr_speed : marshals 153 (SRSpeed 2) [2] None.
Proof. split; vm_compute; reflexivity. Qed.
Example t_sr_speed_high : marshals 153 (SRSpeed 5) [] (Some ErrTooHigh).
Proof. split; vm_compute; reflexivity. Qed.
Example t_sr_comfort : marshals 211 (SRComfort (f32_of_Z 21)) [82] None.
Proof. split; vm_compute; reflexivity. Qed.
Example t_sr_comfort_high : marshals 211 (SRComfort (f32_of_Z 108)) [] (Some ErrTooHigh).
Proof. split; vm_compute; reflexivity. Qed.
Example t_sr_comfort_low : marshals 211 (SRComfort (f32_of_Z (-21))) [] (Some ErrTooLow).
Proof. split; vm_compute; reflexivity. Qed.
Example t_sr_profiles :
  marshals 207 (SRProfiles (mkProf 10 20 30 40 false 10 20 30 40 0 0 0))
           [10; 20; 30; 10; 20; 30; 40; 40] None.
Proof. split; vm_compute; reflexivity. Qed.

(** ** response_types_test.go *)

(** 9-192: TestAllUnmarshalBinary *)
Definition decodes (cmd : Z) (b : list byte) (r : Response) (e : option err) : Prop :=
  match ResponseType cmd with Some f => f b = Done (r, e) | None => False end.
Example t_r_fans : decodes 12 [33; 66; 4; 226; 2; 113] (RFans (mkFans 33 66 1500 3000)) None.
Proof. vm_compute. reflexivity. Qed.
Example t_r_fans_zero : decodes 12 [33; 66; 0; 0; 0; 0] (RFans zeroFans) (Some ErrZeroValue).
Proof. vm_compute. reflexivity. Qed.
Example t_r_fans_len : decodes 12 [] (RFans zeroFans) (Some ErrPktLen).
Proof. vm_compute. reflexivity. Qed.
Example t_r_boot :
  decodes 104 ([1; 2; 3] ++ [97; 98; 99; 100; 101; 102; 103; 104; 105; 106])
          (RBoot (mkBoot 1 2 3 [97; 98; 99; 100; 101; 102; 103; 104; 105; 106])) None.
Proof. vm_compute. reflexivity. Qed.
Example t_r_boot_len : decodes 104 [] (RBoot zeroBoot) (Some ErrPktLen).
Proof. vm_compute. reflexivity. Qed.
Example t_r_errors_len : decodes 218 [] (RErrors zeroErrors) (Some ErrPktLen).
Proof. vm_compute. reflexivity. Qed.
Example t_r_errors_up :
  decodes 218 [0; 0; 0; 0; 0; 0; 0; 0; 1; 0; 0; 0; 0; 0; 0; 0; 0] (RErrors (mkErrors true)) None.
Proof. vm_compute. reflexivity. Qed.
Example t_r_errors_down : decodes 218 (repeat 0 17) (RErrors zeroErrors) None.
Proof. vm_compute. reflexivity. Qed.
Example t_r_firmware :
  decodes 106 ([1; 2; 3] ++ [113; 114; 115; 116; 117; 118; 119; 120; 121; 122])
          (RBoot (mkBoot 1 2 3 [113; 114; 115; 116; 117; 118; 119; 120; 121; 122])) None.
Proof. vm_compute. reflexivity. Qed.
Example t_r_firmware_len : decodes 106 [] (RBoot zeroBoot) (Some ErrPktLen).
Proof. vm_compute. reflexivity. Qed.
Example t_r_profiles :
  decodes 206 [5; 10; 15; 30; 35; 40; 50; 55; 60; 1; 20; 45; 255; 255]
          (RProf (mkProf 5 10 15 20 true 30 35 40 45 50 55 60)) None.
Proof. vm_compute. reflexivity. Qed.
Example t_r_profiles_len : decodes 206 [] (RProf zeroProf) (Some ErrPktLen).
Proof. vm_compute. reflexivity. Qed.
Example t_r_temps :
  decodes 210 [66; 114; 66; 114; 66; 255; 114; 66; 114]
          (RTemps (mkTemps (f32_of_Z 13) (f32_of_Z 37) (f32_of_Z 13) (f32_of_Z 37)
                           (f32_of_Z 13) (f32_of_Z 37) (f32_of_Z 13) (f32_of_Z 37))) None.
Proof. vm_compute. reflexivity. Qed.
Example t_r_temps_len : decodes 210 [] (RTemps zeroTemps) (Some ErrPktLen).
Proof. vm_compute. reflexivity. Qed.
Example t_r_hours :
  decodes 222 [170; 85; 85; 170; 165; 165; 90; 90; 165; 90; 90; 165; 170; 85; 85; 170;
               187; 204; 17; 34]
          (RHours (mkHours 11162965 11183525 5921445 13373730 23130 42410 21845 43707)) None.
Proof. vm_compute. reflexivity. Qed.
Example t_r_hours_len : decodes 222 [] (RHours zeroHours) (Some ErrPktLen).
Proof. vm_compute. reflexivity. Qed.
Example t_r_bypass :
  decodes 224 [255; 255; 240; 144; 1; 255; 1] (RBypass (mkBypass 240 144 1 true)) None.
Proof. vm_compute. reflexivity. Qed.
Example t_r_bypass_len : decodes 224 [] (RBypass zeroBypass) (Some ErrPktLen).
Proof. vm_compute. reflexivity. Qed.

(** 194-263: TestFanProfilesLookup *)
Example t_lookup :
  map (Lookup (mkProf 5 7 9 11 false 4 6 8 10 3 2 1)) [0; 1; 2; 3; 4]
  = [(0, 0, Some ErrNotExist); (4, 5, None); (6, 7, None); (8, 9, None); (10, 11, None)].
Proof. vm_compute. reflexivity. Qed.
