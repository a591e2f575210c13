(** Clients and servers with path prefixes. *)
From Coq Require Import String.
From Verif Require Import GoBase GoStrings Server Wire Twirp GoClient JsonWrite JsonRead JsonError ErrorText Failures Hooks SpecHooks ClientHooks SamplesHooks.

(** A JSON client, and a server without hooks. *)
Definition client_under (p : string) : client :=
  mkCl None None (Some false) (str "http://box:8080") (Some (str p)) (mkTexts [] [] [] []) (fun _ => false) (fun _ => []).
Definition server_under (p : string) : server := mkSrv None None (str p) (sample_service (str "box")) sample_enc.
Definition under_api : hreq := mkHreq (str "POST") (str "/api/comfo.api.Comfo/GetBootInfo") (str "application/json") (str "{}").
(** Calls of the service, and what is written. *)
Definition taken (s : server) (h : hreq) : list hevent := filter (fun e => is_hcall e || outward e) (serveHooked s no_print same unjson None [] h).
