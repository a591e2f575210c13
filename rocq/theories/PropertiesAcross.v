(** C142: an error from a server with hooks at a Go client with hooks. *)
From Coq Require Import String.
From Verif Require Import GoBase GoStrings SpecWire Server Wire Twirp SpecTwirp GoClient JsonWrite SpecJsonReply JsonError ErrorText Failures Hooks SpecHooks SamplesHooks ClientHooks SpecClientHooks SamplesClientHooks
  Across SpecAcross AcrossProofs SamplesAcross.

(** Whatever wrote it (a hook, an interceptor, the service, the server itself), the call returns the error with its code, its
    message and its metadata, and the client's Error hook is told it last. *)
Theorem C142_error : forall s ip ul uj c0 k ws c q h n g, cl_icpt k = None ->
  w_do (ws 0%nat) = connected s ip ul uj c0 -> w_cx2 (ws 0%nat) = None ->
  In (CSent h) (fst (clientCall k ws c q)) -> In (HWrite n (WError g)) (serveHooked s ip ul uj None c0 h) -> sendable g ->
  exists e, same_error g e /\ snd (clientCall k ws c q) = SReturn None (Some (ETwirp e)) /\ hears k (fst (clientCall k ws c q)) e.
Proof. exact call_across. Qed.
Print Assumptions C142_error.
Example C142_error_here :
  let (t, r) := clientCall near_client (near (Some (stubborn (str "resource_exhausted"))) []) [] GetTempsRPC in
  map cglance_at t = [KPrepared; KSent (str "/api/comfo.api.Comfo/GetTemps"); KError (str "resource_exhausted")] /\
  r = SReturn None (Some (ETwirp (mkGerror (str "resource_exhausted") (str "full") [(str "after", str "10"); (str "retry", str "later")]))).
Proof. vm_compute. split; reflexivity. Qed.

(** In particular what the server's RequestReceived hook says when it refuses, plain errors and wrapped ones included. *)
Theorem C142_refusal : forall s ip ul uj c0 k ws c q h e, cl_icpt k = None ->
  w_do (ws 0%nat) = connected s ip ul uj c0 -> w_cx2 (ws 0%nat) = None ->
  In (CSent h) (fst (clientCall k ws c q)) -> refuses (sv_hooks s) hk_received (arrival c0) e -> sendable (written_as e) ->
  exists g, same_error (written_as e) g /\ snd (clientCall k ws c q) = SReturn None (Some (ETwirp g)) /\ hears k (fst (clientCall k ws c q)) g.
Proof. exact refusal_across. Qed.
Print Assumptions C142_refusal.
Example C142_refusal_here :
  let (t, r) := clientCall near_client (near None [SOwn 13]) [] GetTempsRPC in
  map cglance_at t = [KPrepared; KSent (str "/api/comfo.api.Comfo/GetTemps"); KError (str "unauthenticated")] /\
  r = SReturn None (Some (ETwirp (mkGerror (str "unauthenticated") (str "who are you") []))).
Proof. vm_compute. split; reflexivity. Qed.

Example C142_sendable_here : sendable (mkGerror (str "unauthenticated") (str "who are you") []).
Proof.
  apply (ascii_sendable "unauthenticated" (str "who are you")); [repeat (try (left; reflexivity); right)|vm_compute; repeat constructor; discriminate|vm_compute; discriminate].
Qed.

(** A reply that was encoded as protobuf is returned as it was given, and ResponseReceived is called last. *)
Theorem C142_reply : forall s ip ul uj c0 k ws c q h n pb bs t r, cl_icpt k = None -> cl_json k = None ->
  w_do (ws 0%nat) = connected s ip ul uj c0 -> w_cx2 (ws 0%nat) = None -> w_cx3 (ws 0%nat) = None ->
  In (CSent h) (fst (clientCall k ws c q)) -> In (HWrite n (WReply pb bs)) (serveHooked s ip ul uj None c0 h) ->
  reply_to q r -> in_types r -> readable r -> time_string t -> marshal (resp_fields t r) = Some bs ->
  snd (clientCall k ws c q) = SReturn (Some r) None /\ hears_reply k (fst (clientCall k ws c q)).
Proof. exact reply_back. Qed.
Print Assumptions C142_reply.
Example C142_reply_here :
  let (t, r) := clientCall near_client (near (Some twice) []) [] GetBootInfo in
  map cglance_at t = [KPrepared; KSent (str "/api/comfo.api.Comfo/GetBootInfo"); KReceived] /\
  r = SReturn (Some (RespBoot (mkPbBoot 3 1 0 (str "box")))) None.
Proof. vm_compute. split; reflexivity. Qed.

(** The same with JSON. *)
Theorem C142_json_reply : forall s ip ul uj c0 k ws c q h n pb bs ftoa sp t r, cl_icpt k = None -> cl_json k <> None ->
  w_do (ws 0%nat) = connected s ip ul uj c0 -> w_cx2 (ws 0%nat) = None -> w_cx3 (ws 0%nat) = None -> w_close (ws 0%nat) = None ->
  In (CSent h) (fst (clientCall k ws c q)) -> In (HWrite n (WReply pb bs)) (serveHooked s ip ul uj None c0 h) ->
  reply_to q r -> in_types r -> in_degrees r -> readable r -> time_string t -> resp_json ftoa sp t r = Some bs ->
  snd (clientCall k ws c q) = SReturn (Some r) None /\ hears_reply k (fst (clientCall k ws c q)).
Proof. exact json_reply_back. Qed.
Print Assumptions C142_json_reply.
Example C142_json_reply_here :
  let (t, r) := clientCall json_client json_near [] GetBootInfo in
  map cglance_at t = [KPrepared; KSent (str "/api/comfo.api.Comfo/GetBootInfo"); KReceived] /\
  r = SReturn (Some (RespBoot (mkPbBoot 3 1 0 (str "box")))) None.
Proof. vm_compute. split; reflexivity. Qed.

(** An error without a code is not sendable: it is written with the status 200, and the client takes it for a reply that it
    cannot read. *)
Theorem C142_no_code : exists s ip ul uj c0 k ws c q h g, cl_icpt k = None /\
  w_do (ws 0%nat) = connected s ip ul uj c0 /\ In (CSent h) (fst (clientCall k ws c q)) /\
  In (HWrite 200 (WError g)) (serveHooked s ip ul uj None c0 h) /\ ge_code g = [] /\
  exists e, snd (clientCall k ws c q) = SReturn None (Some (ETwirp e)) /\ ge_code e = str "internal" /\ ge_msg e <> ge_msg g.
Proof.
  exists (sample_server (str "box") (Some (stubborn []))), no_print, same, no_json, [], near_client, (near (Some (stubborn [])) []), [], GetTempsRPC,
    (mkHreq (str "POST") (str "/api/comfo.api.Comfo/GetTemps") (str "application/protobuf") []), (mkGerror [] (str "full") [(str "retry", str "later"); (str "after", str "10")]).
  split; [reflexivity|]. split; [reflexivity|]. split; [vm_compute; auto|]. split; [vm_compute; auto|]. split; [reflexivity|].
  eexists. split; [vm_compute; reflexivity|]. split; [reflexivity|discriminate].
Qed.
Print Assumptions C142_no_code.
