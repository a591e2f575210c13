(** The path prefix that a server announces. *)
From Coq Require Import String.
From Verif Require Import GoBase GoStrings Twirp GoClient Hooks.

(** rpc/comfo/comfo.twirp.go 3029-3034 comfoServer.PathPrefix. *)
Definition PathPrefix (s : server) : list byte := baseServicePath (sv_prefix s) (str "comfo.api") (str "Comfo").
