(** Hooks that panic, to show the theorems about them at work. *)
From Coq Require Import String.
From Verif Require Import GoBase Server Wire Twirp JsonWrite JsonError ErrorText Hooks SpecHooks SamplesHooks HooksPanic.

(** Like sample_hooks; ResponsePrepared panics at contexts marked 15, RequestRouted at those marked 16, Error at those marked 17. *)
Definition panicking_hooks : phooks :=
  mkPhooks (Some (fun c => Some (SOwn 1 :: c, if marked 13 c then Some (ETwirp (mkGerror (str "unauthenticated") (str "who are you") [])) else None)))
           (Some (fun c => if marked 16 c then None else Some (SOwn 2 :: c, if marked 14 c then Some (EPlain (str "not now") (str "*main.busy")) else None)))
           (Some (fun c => if marked 15 c then None else Some (SOwn 3 :: c))) (Some (fun _ => Some tt))
           (Some (fun c _ => if marked 17 c then None else Some (SOwn 4 :: c))).
(** A service that grants every change of the speed, panics at GetFans, and fails with a code of its own otherwise. *)
Definition odd_service (n : nat) (c : ctx) (q : rpc) : sres :=
  match q with
  | SetFanSpeedR a _ => SReturn (Some (RespSpeed true 1 a)) None
  | GetFansRPC => SPanic
  | _ => SReturn None (Some (ETwirp (mkGerror (str "teapot") [] [])))
  end.
Definition odd_server : server := mkSrv (Some sample_hooks) None (str "/api") odd_service sample_enc.
Definition prun (c : ctx) (h : hreq) : list hevent := servePanicking (Some panicking_hooks) odd_server no_print same no_json None c h.
Definition set_speed : hreq := mkHreq (str "POST") (str "/api/comfo.api.Comfo/SetFanSpeed") (str "application/protobuf") [8; 3].
