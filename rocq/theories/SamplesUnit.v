(** A simulated unit, for examples and counterexamples. *)
From Verif Require Import GoBase Proto Scanner Conn Proc Lib Server SpecProto SpecFrame SpecConn SpecUnit Samples SamplesServer.

(** The request in a frame. *)
Definition request_of (bs : list Z) : option (Z * list Z) :=
  match bs with
  | 7 :: 240 :: r =>
      match UnmarshalPacket (firstn (length r - 2) r) with
      | Done (p, None) => Some (p_cmd p, p_data p)
      | _ => None
      end
  | _ => None
  end.
Definition profiles_of (u : vent) : list Z :=
  let o i := nth i (u_out u) 0 in let n i := nth i (u_in u) 0 in
  [o 0%nat; o 1%nat; o 2%nat; n 0%nat; n 1%nat; n 2%nat; 35; 35; u_mode u; 1; o 3%nat; n 3%nat; 0; 0].
Definition temps_of (u : vent) : list Z := [u_comfort u; 60; 70; 72; 66; 15; 40; 40; 40].
Definition ack_now : list ev := [Data [7; 243] None].
Definition acceptable (lo : Z) (l : list Z) : bool := forallb (fun x => (lo <=? x) && (0 <=? x) && (x <? 256)) l.
(** One request: new state and what arrives.  [fans] answers fan queries. *)
Definition simulate (lo : Z) (fans : list Z) (u : vent) (bs : list Z) : vent * list ev :=
  match request_of bs with
  | Some (205, []) => (u, [Data (reply 206 (profiles_of u)) None])
  | Some (207, [o1; o2; o3; i1; i2; i3; o4; i4]) =>
      if acceptable lo [o1; o2; o3; i1; i2; i3; o4; i4]
      then (mkVent [o1; o2; o3; o4] [i1; i2; i3; i4] (u_mode u) (u_comfort u), ack_now) else (u, [])
  | Some (153, [v]) => if (0 <=? v) && (v <=? 4) then (mkVent (u_out u) (u_in u) v (u_comfort u), ack_now) else (u, [])
  | Some (211, [t]) => if (0 <=? t) && (t <? 256) then (mkVent (u_out u) (u_in u) (u_mode u) t, ack_now) else (u, [])
  | Some (11, []) => (u, [Data (reply 12 fans) None])
  | Some (103, []) => (u, [Data (reply 104 boot_payload) None])
  | Some (105, []) => (u, [Data (reply 106 boot_payload) None])
  | Some (209, []) => (u, [Data (reply 210 (temps_of u)) None])
  | Some (217, []) => (u, [Data (reply 218 err_payload) None])
  | Some (221, []) => (u, [Data (reply 222 []) None])
  | Some (223, []) => (u, [Data (reply 224 bypass_payload) None])
  | _ => (u, [])
  end.
CoFixpoint simulator (lo : Z) (fans : list Z) (u : vent) : device :=
  Dev (fun bs => let (u', evs) := simulate lo fans u bs in (simulator lo fans u', evs, mkWres (len bs) None)).
(** A unit at speed 2 and 21 degrees whose mid profile differs in and out, and a server that has not started. *)
Definition vent2 : vent := mkVent [15; 35; 40; 70] [15; 35; 50; 70] 2 82.
Definition simulated (fans : list Z) : world shared := server (simulator 15 fans vent2) init_shared.
(** A unit at [k] half degrees above -20; else as [vent2]. *)
Definition vent_warm (k : Z) : vent := mkVent [15; 35; 40; 70] [15; 35; 50; 70] 2 k.
Definition simulated_warm (k : Z) : world shared := server (simulator 15 fans_payload (vent_warm k)) init_shared.
