(** Servers with hooks and interceptors, to show the theorems about them at work. *)
From Coq Require Import String.
From Verif Require Import GoBase Server Wire Twirp JsonWrite JsonError ErrorText Hooks SpecHooks.

(** Each hook adds a mark to the context; the first refuses contexts marked 13, the second those marked 14. *)
Definition marked (k : Z) (c : ctx) : bool := existsb (fun x => match x with SOwn j => j =? k | _ => false end) c.
Definition sample_hooks : hooks :=
  mkHooks (Some (fun c => (SOwn 1 :: c, if marked 13 c then Some (ETwirp (mkGerror (str "unauthenticated") (str "who are you") [])) else None)))
          (Some (fun c => (SOwn 2 :: c, if marked 14 c then Some (EPlain (str "not now") (str "*main.busy")) else None)))
          (Some (fun c => SOwn 3 :: c)) (Some (fun _ => tt)) (Some (fun c _ => SOwn 4 :: c)).
(** Answers GetBootInfo by its name, panics at GetFans, returns nothing at GetErrors, and an error otherwise. *)
Definition sample_service (name : list byte) (n : nat) (c : ctx) (q : rpc) : sres :=
  match q with
  | GetBootInfo => SReturn (Some (RespBoot (mkPbBoot 3 1 0 name))) None
  | GetFansRPC => SPanic
  | GetErrorsRPC => SReturn None None
  | _ => SReturn None (Some (EPlain (str "broken") (str "*errors.errorString")))
  end.
Definition sample_enc (pb : bool) (r : resp) : list byte + list byte :=
  match marshal (resp_fields [] r) with Some bs => inl bs | None => inr (str "string field contains invalid UTF-8") end.
Definition sample_server (name : list byte) (i : option (ctx -> any -> icode)) : server :=
  mkSrv (Some sample_hooks) i (str "/api") (sample_service name) sample_enc.
(** It asks the service twice, whatever the request, and answers with the first reply. *)
Definition twice (c : ctx) (v : any) : icode :=
  INext c v (fun x => INext c v (fun _ => match x with Some (v, e) => IReturn v e | None => IReturn ANil (Some (ETwirp (mkGerror (str "aborted") [] []))) end)).
(** It puts another message in the place of the request. *)
Definition other_message (c : ctx) (v : any) : icode := INext c (ARequest (MFlush 0)) (fun x => match x with Some (v, e) => IReturn v e | None => IPanic end).
Definition to_method (m : string) : hreq := mkHreq (str "POST") (str ("/api/comfo.api.Comfo/" ++ m)) (str "application/protobuf") [].
Definition no_print (_ : Z) : bool := false.
Definition same (s : list byte) : list byte := s.
Definition no_json (_ : desc) (_ : list byte) : option msg := None.
Definition run (s : server) (c : ctx) (h : hreq) : list hevent := serveHooked s no_print same no_json None c h.
(** What is seen, without contexts. *)
Inductive glance := GReceived | GRouted | GPrepared | GError | GSent | GCall (q : rpc) | GWrite (n : Z) | GFlush | GPanic.
Definition glance_at (e : hevent) : glance :=
  match e with
  | HReceived _ => GReceived | HRouted _ => GRouted | HPrepared _ => GPrepared | HError _ _ => GError | HSent _ => GSent
  | HCall _ q => GCall q | HWrite n _ => GWrite n | HFlush => GFlush | HPanic => GPanic
  end.
Definition marks_only : hooks :=
  mkHooks (Some (fun c => (c, None))) None (Some (fun c => c)) (Some (fun _ => tt)) (Some (fun c _ => c)).
