(** A client with hooks that is connected to the server of SamplesHooks.v. *)
From Coq Require Import String.
From Verif Require Import GoBase GoStrings Server Wire Twirp GoClient JsonScan JsonRead JsonWrite JsonError ErrorText Failures Hooks SamplesHooks ClientHooks SamplesClientHooks Across.

Definition listening : chooks := mkCHooks (Some (fun c s => (SOwn 1 :: c, s, None))) (Some (fun _ => tt)) (Some (fun _ _ => tt)).
Definition near_client : client :=
  mkCl (Some listening) None None (str "http://box:8080") (Some (str "/api")) (mkTexts [] [] [] (str "proto: bad")) (fun _ => false) (fun _ => []).
(** The server's contexts are marked with [marks]. *)
Definition near (i : option (ctx -> any -> icode)) (marks : ctx) (_ : nat) : world :=
  mkWorld (connected (sample_server (str "box") i) no_print same no_json marks) None None None None.
(** An interceptor that answers everything with an error of this code, with metadata. *)
Definition stubborn (code : list byte) (_ : ctx) (_ : any) : icode :=
  IReturn ANil (Some (ETwirp (mkGerror code (str "full") [(str "retry", str "later"); (str "after", str "10")]))).
(** The same in JSON. *)
Definition json_client : client :=
  mkCl (Some listening) None (Some false) (str "http://box:8080") (Some (str "/api")) (mkTexts [] [] [] (str "proto: bad")) (fun _ => false) (fun _ => []).
Definition json_near (_ : nat) : world :=
  mkWorld (connected (mkSrv (Some sample_hooks) None (str "/api") (sample_service (str "box"))
      (fun _ r => match resp_json (fun _ => []) true [] r with Some b => inl b | None => inr [] end)) no_print same unjson []) None None None None.
