(** Client hooks that panic, to show the theorems about them at work. *)
From Coq Require Import String.
From Verif Require Import GoBase GoStrings Server Wire Twirp GoClient JsonWrite JsonError ErrorText Failures Hooks ClientHooks SpecClientHooks SamplesClientHooks ClientHooksPanic.

(** ResponseReceived panics at contexts marked 21, Error at those marked 22, RequestPrepared at those marked 23. *)
Definition cmarked (n : Z) (c : ctx) : bool := existsb (fun s => match s with SOwn m => m =? n | _ => false end) c.
Definition jumpy : pchooks :=
  mkPchooks (Some (fun c s => if cmarked 23 c then None else Some (c, s, None))) (Some (fun c => if cmarked 21 c then None else Some tt))
            (Some (fun c _ => if cmarked 22 c then None else Some tt)).
Definition jumpy_twin : chooks := mkCHooks (Some (fun c s => (c, s, None))) (Some (fun _ => tt)) (Some (fun _ _ => tt)).
Definition jumpy_client (i : option (ctx -> any -> icode)) : client := sample_client (Some jumpy_twin) i.
(** An interceptor that recovers once, and asks again. *)
Definition undeterred (c : ctx) (v : any) : icode :=
  INext c v (fun x => match x with
                      | None => INext [] v (fun y => match y with Some (v, e) => IReturn v e | None => IPanic end)
                      | Some (v, e) => IReturn v e
                      end).
Definition jumps (i : option (ctx -> any -> icode)) (n : nat) (mark : Z) : list cglance * sres :=
  let (t, r) := pcCall (Some jumpy) (jumpy_client i) (fun m => late_world (n + m)) [SOwn mark] GetFansRPC in (map cglance_at t, r).
