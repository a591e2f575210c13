(** Python clients, among other requests, and a simulated unit. *)
From Coq Require Import String.
From Verif Require Import GoBase Proto Scanner Conn Proc Lib Server Client Wire Twirp ClientHttp SpecProto SpecFrame SpecUnit Machine SpecMachine SpecFresh HttpMachine
  SpecWire SpecTwirp SpecConn Samples SamplesServer SamplesUnit SamplesMachine SamplesTrack SamplesHttp SpecClient SpecEnd.

(** A stray GET and seven Python clients. *)
Definition end_reqs : list (hreq * list byte) :=
  (mkHreq (str "GET") (str "/twirp/comfo.api.Comfo/GetFans") (str "application/protobuf") [], str "1ms") ::
  map (fun q => (sent q, str "1ms"))
    [SetComfortTempR 22; SetFanProfileR 1 20; SetFanSpeedR 3 false; GetTempsRPC; GetFanProfilesRPC; SetComfortTempR 110; SetFanSpeedR 0 true].
Definition end_start : machine hresp := serve_http (fun x => x) (fun _ _ => None) end_reqs unit_line 0.
(** Start-up; then the setters, the first two overlapping; then the others. *)
Definition end_before : list item := unit_before.
Definition end_during : list item :=
  repeat (Run 1) 5 ++ repeat (Run 2) 3 ++ repeat (Run 1) 21 ++ repeat (Run 2) 34 ++ repeat (Run 3) 49.
Definition end_after : list item := repeat (Run 4) 10 ++ repeat (Run 5) 14 ++ repeat (Run 6) 3.
(** How the calls have ended. *)
Definition outcome_of {A} (mh : machine hresp) (i : nat) (m : method A) : option (pyres A) :=
  match nth_error (results mh) i, m with
  | Some (Some a), Asks q k => Some (k (ClientHttp.seen (stub_result q a)))
  | _, _ => None
  end.
Lemma ms_string : time_string (str "1ms").
Proof.
  split; [repeat constructor; discriminate|]. split; [|reflexivity].
  exists [49; 109; 115]. split; [|reflexivity]. repeat constructor; discriminate.
Qed.
