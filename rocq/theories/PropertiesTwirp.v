(** Properties C65-C70: the server over HTTP. *)
From Coq Require Import String.
From Verif Require Import GoBase Proto SpecProto SpecFrame SpecConn SpecLayout Conn Proc Lib Server SpecServer
  Client Wire Twirp ClientHttp SpecWire SpecTwirp TwirpProofs TwirpReply TwirpServer Samples SamplesServer.

(** C65: a POST to the URL of a method with a protobuf body calls that method with the arguments in the body; *)
Theorem C65_called : forall ul uj h name, bytes_ok (h_body h) -> ascii (h_ctype h) -> addressed h name ->
  media "application/protobuf" (h_ctype h) ->
  (forall fs, encodes fs (h_body h) -> exists q, meaning name fs = Some q /\ front ul uj h = Call true q) /\
  ((forall fs, ~ encodes fs (h_body h)) -> exists a, front ul uj h = Answer a /\ malformed a).
Proof. exact front_protobuf. Qed.
Print Assumptions C65_called.
(** nothing else does; *)
Theorem C65_calls_only : forall ul uj h pb q, bytes_ok (h_body h) -> ascii (h_ctype h) -> front ul uj h = Call pb q ->
  exists name, addressed h name /\
    if pb then media "application/protobuf" (h_ctype h) /\ exists fs, encodes fs (h_body h) /\ meaning name fs = Some q
    else media "application/json" (h_ctype h).
Proof. exact front_call. Qed.
Print Assumptions C65_calls_only.
(** the rest is refused, and the server does nothing for a refused request. *)
Theorem C65_refused : forall ul uj h, ascii (h_ctype h) ->
  (forall name, ~ (addressed h name /\ (media "application/protobuf" (h_ctype h) \/ media "application/json" (h_ctype h)))) ->
  exists a, front ul uj h = Answer a /\ refusal h a.
Proof. exact front_refused. Qed.
Print Assumptions C65_refused.
Theorem C65_refused_quietly : forall ul uj t h a w, front ul uj h = Answer a -> run (serveHTTP ul uj t h) w = (RDone a, w).
Proof. exact serve_answer. Qed.
Print Assumptions C65_refused_quietly.
(** With fields in the other order, given twice, in a long form, an unknown group, and an odd header. *)
Example C65_ex : forall ul uj,
  front ul uj (mkHreq (str "POST") (str "/twirp/comfo.api.Comfo/SetFanProfile") (str " Application/ProtoBuf ;charset=x")
    [16; 50; 8; 1; 27; 40; 7; 28; 8; 130; 128; 0]) = Call true (SetFanProfileR 2 50).
Proof. intros. vm_compute. reflexivity. Qed.
Example C65_refused_ex : forall ul uj,
  front ul uj (mkHreq (str "GET") (str "/twirp/comfo.api.Comfo/GetTemps") (str "application/protobuf") []) = Answer (mkHresp 404 (ErrorJson TBadRoute)) /\
  front ul uj (mkHreq (str "POST") (str "/twirp//comfo.api.Comfo/GetTemps") (str "application/protobuf") []) = Answer (mkHresp 301 Text) /\
  front ul uj (mkHreq (str "POST") (str "/twirp/comfo.api.Comfo/SetComfortTemp") (str "application/protobuf") [8; 128]) = Answer (mkHresp 400 (ErrorJson TMalformed)).
Proof. intros. vm_compute. auto. Qed.

(** C66: arguments reach the handlers within the types of the messages. *)
Theorem C66_arguments : forall ul uj h q, bytes_ok (h_body h) -> ascii (h_ctype h) -> front ul uj h = Call true q -> args_ok q.
Proof. exact called_args. Qed.
Print Assumptions C66_arguments.
Example C66_ex : forall ul uj,
  front ul uj (mkHreq (str "POST") (str "/twirp/comfo.api.Comfo/SetComfortTemp") (str "application/protobuf")
    [8; 149; 128; 128; 128; 16]) = Call true (SetComfortTempR 21) /\
  front ul uj (mkHreq (str "POST") (str "/twirp/comfo.api.Comfo/FlushCache") (str "application/protobuf")
    [8; 255; 255; 255; 255; 255; 255; 255; 255; 255; 1]) = Call true (FlushCacheR (-1)).
Proof. intros. vm_compute. auto. Qed.

(** C67: what is sent back. *)
Theorem C67_reply : forall t r, in_types r -> time_string t -> (forall e, r <> RespErr e) -> readable r ->
  exists b fs, respond true t r = mkHresp 200 (Protobuf b) /\ encodes fs b /\ carries t r fs.
Proof. exact reply_sent. Qed.
Print Assumptions C67_reply.
Theorem C67_unreadable : forall pb t r, in_types r -> ~ readable r ->
  exists e, respond pb t r = mkHresp 500 (ErrorJson e) /\ code_of e = CInternal.
Proof. exact reply_not_sent. Qed.
Print Assumptions C67_unreadable.
Theorem C67_errors : forall pb t,
  (forall m, respond pb t (RespErr (InvalidArgument m)) = mkHresp 400 (ErrorJson (TRpc (InvalidArgument m))) /\
    code_of (TRpc (InvalidArgument m)) = CInvalidArgument) /\
  (forall m, respond pb t (RespErr (Internal m)) = mkHresp 500 (ErrorJson (TRpc (Internal m))) /\
    code_of (TRpc (Internal m)) = CInternal).
Proof. exact reply_error. Qed.
Print Assumptions C67_errors.
Example C67_ex : respond true (str "12ms") (RespSpeed true 2 3) =
  mkHresp 200 (Protobuf [8; 1; 16; 2; 24; 3; 34; 4; 49; 50; 109; 115]).
Proof. reflexivity. Qed.

(** C68: the client's request arrives as it was meant, and the reply too. *)
Theorem C68_request : forall q, args_ok q -> exists h, post q = Some h /\ addressed h (rpc_name q) /\
  forall ul uj, front ul uj h = Call true q.
Proof. exact post_called. Qed.
Print Assumptions C68_request.
Theorem C68_reply : forall q t r, reply_to q r -> in_types r -> readable r -> time_string t ->
  stub_result q (respond true t r) = Got r.
Proof. exact reply_read. Qed.
Print Assumptions C68_reply.
Example C68_ex : exists h, post (SetFanProfileR 2 300) = Some h /\ h_body h = [8; 2; 16; 172; 2] /\
  stub_result (SetFanProfileR 2 300) (respond true [] (RespProfile true 35 300)) = Got (RespProfile true 35 300).
Proof. eexists. split; [reflexivity|]. vm_compute. auto. Qed.

(** C69: the getters over HTTP give the record held in the cache, if the device name in it is UTF-8. *)
Theorem C69_getters_partial : forall ops w0 h w c, idle w0 -> w_sh w0 = init_shared -> history ops w0 = (h, w) ->
  (forall c, Forall bytes_ok (flat_map (op_fetches c) h)) ->
  exists hr, post (getter_rpc c) = Some hr /\ forall ul uj t, time_string t ->
    exists a, run (serveHTTP ul uj t hr) w = (RDone a, w) /\
    (readable (message (cached (w_sh w) c)) -> stub_result (getter_rpc c) a = Got (message (cached (w_sh w) c))) /\
    (~ readable (message (cached (w_sh w) c)) -> r_status a = 500).
Proof. exact http_getter. Qed.
Print Assumptions C69_getters_partial.
(** Otherwise not: here the unit's name is in Latin-1. *)
Theorem C69_getters_refuted : exists ops w0 h w hr, idle w0 /\ w_sh w0 = init_shared /\ history ops w0 = (h, w) /\
  (forall c, Forall bytes_ok (flat_map (op_fetches c) h)) /\
  fst (run (handle GetBootInfo) w) = RDone (RespBoot (mkPbBoot 3 60 32 [67; 97; 102; 233; 32; 51; 53; 48])) /\
  post GetBootInfo = Some hr /\
  forall ul uj t, run (serveHTTP ul uj t hr) w = (RDone (mkHresp 500 (ErrorJson TMarshal)), w).
Proof. exact latin1_refuted. Qed.
Print Assumptions C69_getters_refuted.
Example C69_ex : let w := started [] in exists hr, post GetTempsRPC = Some hr /\
  match fst (run (serveHTTP (fun x => x) (fun _ _ => None) [] hr) w) with
  | RDone a => stub_result GetTempsRPC a = Got (message (cached (w_sh w) CTemp))
  | _ => False
  end.
Proof. eexists. split; [reflexivity|]. vm_compute. reflexivity. Qed.

(** C70: a method of the Python client does the same over HTTP as on the server directly. *)
Theorem C70_same : forall (B : Type) ops w0 h w, idle w0 -> w_sh w0 = init_shared -> history ops w0 = (h, w) ->
  (forall c, Forall bytes_ok (flat_map (op_fetches c) h)) ->
  forall ul uj t (m : method B), time_string t -> sendable m -> name_readable m w -> askHTTP ul uj t m w = ask m w.
Proof. exact @reached_same. Qed.
Print Assumptions C70_same.
Theorem C70_methods : (forall s, sendable (set_fan_speed s)) /\ sendable increase_fan_speed /\ sendable decrease_fan_speed /\
  (forall t, sendable (set_comfort_temperature t)) /\ (forall p t, sendable (configure_fan_profile p t)) /\
  sendable get_bootinfo /\ sendable get_bypass /\ sendable get_temps /\ sendable get_fans /\ sendable get_fan_profiles /\
  sendable get_errors /\ sendable ping /\ (forall A l (m : method A), sendable m -> sendable (async l m)).
Proof. exact methods_sendable. Qed.
Print Assumptions C70_methods.
Example C70_ex : let w := started (acked ++ answer 210 temps_payload) in
  fst (askHTTP (fun x => x) (fun _ _ => None) (str "3ms") (set_comfort_temperature (Some 22)) w) = Some (PyRet true).
Proof. vm_compute. reflexivity. Qed.
