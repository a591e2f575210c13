(** C135: path prefixes of clients and servers. *)
From Coq Require Import String.
From Verif Require Import GoBase GoStrings Server Wire Twirp SpecWire SpecTwirp GoClient SpecGo JsonRead JsonWrite JsonError ErrorText Hooks SpecHooks ClientHooks SpecClientHooks
  Prefix SpecPrefix PrefixProofs SamplesHooks SamplesPrefix.

(** A client joins and cleans its prefix, a server compares with its own as it stands. A server reached by a request
    calls the service with it exactly if its prefix is the elements of the client's, each after a slash; any other answers 404. *)
Theorem C135_meet_partial : forall k sc host q es p s, base_for sc host (cl_base k) -> cl_prefix k = Some p -> prefix_of es p -> args_ok q ->
  exists h, asks k q h /\
    (sv_prefix s = written_out es -> forall ip ul fails c c1 c2, sv_icpt s = None ->
       lets_through (sv_hooks s) hk_received (arrival c) c1 -> lets_through (sv_hooks s) hk_routed (SMethod (str (rpc_name q)) :: c1) c2 ->
       filter is_hcall (serveHooked s ip ul unjson fails c h) = [HCall c2 q]) /\
    (sv_prefix s <> written_out es -> forall ip ul fails c c1, lets_through (sv_hooks s) hk_received (arrival c) c1 ->
       exists g, ge_code g = str "bad_route" /\ filter outward (serveHooked s ip ul unjson fails c h) = [HWrite 404 (WError g)]).
Proof. exact prefixes_meet. Qed.
Print Assumptions C135_meet_partial.
Example C135_meet_here : base_for "http" (str "box:8080") (cl_base (client_under "api/")) /\ prefix_of [str "api"] (str "api/") /\
  asks (client_under "api/") GetBootInfo under_api /\
  sv_prefix (server_under "/api") = written_out [str "api"] /\
  map glance_at (taken (server_under "/api") under_api) = [GCall GetBootInfo; GWrite 200] /\
  map glance_at (taken (server_under "/api/") under_api) = [GWrite 404].
Proof.
  split; [exact box_base|]. split; [apply api_prefix; cbn; auto|].
  split; [do 3 eexists; split; vm_compute; reflexivity|]. repeat split; vm_compute; reflexivity.
Qed.

(** A router that goes by what PathPrefix of the server says leads such a client's requests to it, however the two prefixes
    are written ... *)
Theorem C135_announced : forall k sc host q es p s, base_for sc host (cl_base k) -> cl_prefix k = Some p -> prefix_of es p ->
  prefix_of es (sv_prefix s) -> args_ok q ->
  exists h, asks k q h /\ h_path h = PathPrefix s ++ str (rpc_name q).
Proof. exact announced. Qed.
Print Assumptions C135_announced.
Example C135_announced_here : prefix_of [str "api"] (sv_prefix (server_under "api")) /\
  PathPrefix (server_under "api") = str "/api/comfo.api.Comfo/" /\ PathPrefix (server_under "/api/") = str "/api/comfo.api.Comfo/".
Proof. split; [apply api_prefix; cbn; auto|]. split; vm_compute; reflexivity. Qed.

(** ... but the same prefix at both ends is not enough: "api" leads to the server and is refused there. *)
Theorem C135_same_refuted : exists k h s p g, base_for "http" (str "box:8080") (cl_base k) /\ prefix_of [str "api"] p /\
  cl_prefix k = Some p /\ sv_prefix s = p /\ sv_hooks s = None /\ sv_icpt s = None /\ asks k GetBootInfo h /\
  h_path h = PathPrefix s ++ str "GetBootInfo" /\ taken s h = [HWrite 404 (WError g)] /\ ge_code g = str "bad_route".
Proof. exact same_prefix_refuted. Qed.
Print Assumptions C135_same_refuted.
