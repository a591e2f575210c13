(** Properties C92-C93: JSON replies and the Go JSON client. *)
From Coq Require Import String.
From Verif Require Import GoBase Proto SpecProto SpecFrame SpecConn SpecLayout Conn Proc Lib Server SpecServer
  Client Wire Twirp SpecWire SpecTwirp GoClient SpecGo GoUrl GoProofs SpecJson JsonRead JsonWrite SpecJsonReply JsonGoProofs
  Samples SamplesServer.

(** C92: the JSON for a reply is one object with the fields of the reply and no others, zeros included; *)
Theorem C92_object : forall ftoa sp t r, (forall e, r <> RespErr e) -> in_types r -> in_degrees r -> readable r -> time_string t ->
  exists b l, resp_json ftoa sp t r = Some b /\ bytes_ok b /\ json_whole b l /\ json_reply t r l.
Proof. exact json_said. Qed.
Print Assumptions C92_object.
(** it cannot be written exactly if the protobuf reply cannot be; *)
Theorem C92_fails : forall ftoa sp t r, (forall e, r <> RespErr e) -> in_types r -> in_degrees r -> time_string t ->
  (resp_json ftoa sp t r = None <-> marshal (resp_fields t r) = None).
Proof. exact json_fails. Qed.
Print Assumptions C92_fails.
(** after any history, this is the body of the response to a JSON request. *)
Theorem C92_served : forall ops w0 h w, idle w0 -> w_sh w0 = init_shared -> history ops w0 = (h, w) ->
  (forall c, Forall bytes_ok (flat_map (op_fetches c) h)) ->
  forall ul ftoa sp t hr q, time_string t -> front ul unjson hr = Call false q -> args_ok q -> (forall c, q <> FlushCacheR c) -> reads_well q w ->
  exists r a w', run (handle q) w = (RDone r, w') /\ run (serveHTTP ul unjson t hr) w = (RDone a, w') /\
    ((forall e, r <> RespErr e) -> gr_status (of_json_server ftoa sp t a) = 200 /\
       exists l, json_whole (gr_body (of_json_server ftoa sp t a)) l /\ json_reply t r l).
Proof. exact json_served. Qed.
Print Assumptions C92_served.
Example C92_ex :
  resp_json (fun _ => []) true (str "3ms") (RespComfort true 21 22) =
    Some (str "{""Modified"":true, ""OriginalTemp"":21, ""TargetTemp"":22, ""ReqTime"":""3ms""}") /\
  resp_json (fun _ => []) false (str "3ms") (RespBoot (mkPbBoot 0 1 7 (str "a""b"))) =
    Some (str "{""MajorVersion"":0,""MinorVersion"":1,""BetaVersion"":7,""DeviceName"":""a\""b""}") /\
  resp_json (fun _ => []) false (str "3ms") (RespBoot (mkPbBoot 0 1 7 [255])) = None /\
  (let z := f32_of_bits 0 in resp_json (fun _ => []) false (str "3ms") (RespTemps (mkPbTemps (f32_of_bits 1101529088) (f32_of_bits 3231711232) z z z z z z))) =
    Some (str "{""Comfort"":21,""OutsideAir"":-5,""SupplyAir"":0,""InsideAir"":0,""ExhaustAir"":0,""GeoHeat"":0,""Reheating"":0,""KitchenHood"":0}").
Proof. vm_compute. auto. Qed.

(** C93: a call of the JSON client is a request for that method with these arguments, *)
Theorem C93_request : forall sp s h base q, base_for s h base -> args_ok q ->
  exists hr, go_json_send sp base None q = SentTo (str s) h hr /\ addressed hr (rpc_name q) /\ media "application/json" (h_ctype hr) /\
    (exists l, json_whole (h_body hr) l /\ json_meaning (rpc_name q) l q) /\ forall ul, front ul unjson hr = Call false q.
Proof. exact go_json_sent. Qed.
Print Assumptions C93_request.
(** the reply is returned as it was given, *)
Theorem C93_reply : forall ftoa sp q t r, reply_to q r -> in_types r -> in_degrees r -> readable r -> time_string t ->
  go_json_result q (of_json_server ftoa sp t (respond false t r)) = GGot r.
Proof. exact go_json_reply. Qed.
Print Assumptions C93_reply.
(** errors with their codes; *)
Theorem C93_errors : forall ftoa sp q t e,
  go_json_result q (of_json_server ftoa sp t (respond false t (RespErr e))) = returned (RespErr e).
Proof. exact go_json_errors. Qed.
Print Assumptions C93_errors.
(** after any history, a call does and returns what the handler does and returns, *)
Theorem C93_same : forall ops w0 h w, idle w0 -> w_sh w0 = init_shared -> history ops w0 = (h, w) ->
  (forall c, Forall bytes_ok (flat_map (op_fetches c) h)) ->
  forall ul ftoa sp sp' t s hst base q, base_for s hst base -> time_string t -> args_ok q -> (forall c, q <> FlushCacheR c) -> reads_well q w ->
  exists r w', run (handle q) w = (RDone r, w') /\
    askGoJson ul ftoa sp sp' t base None q w =
      (Some (if w_clk w' - w_clk w <? WriteTimeout then returned r else GErr (str "internal") None), w').
Proof. exact go_json_same. Qed.
Print Assumptions C93_same.
(** and so it does not matter which of the two clients makes it. *)
Theorem C93_both : forall ops w0 h w, idle w0 -> w_sh w0 = init_shared -> history ops w0 = (h, w) ->
  (forall c, Forall bytes_ok (flat_map (op_fetches c) h)) ->
  forall ul uj ftoa sp sp' t s hst base q, base_for s hst base -> time_string t -> args_ok q -> (forall c, q <> FlushCacheR c) -> reads_well q w ->
  askGoJson ul ftoa sp sp' t base None q w = askGo ul uj t base None q w.
Proof. exact go_agree. Qed.
Print Assumptions C93_both.
Example C93_ex : let w := started (acked ++ answer 210 temps_payload) in
  request_json true (SetFanProfileR 2 40) = Some (str "{""Mode"":2, ""TargetSpeed"":40}") /\
  request_json true (SetFanSpeedR 0 true) = Some (str "{""Rel"":true}") /\
  request_json true (FlushCacheR 4) = Some (str "{""Cache"":""Bypass""}") /\
  fst (askGoJson (fun x => x) (fun _ => []) true false (str "3ms") (str "HTTP://comfo.local:3094") None (SetComfortTempR 22) w)
    = Some (GGot (RespComfort true 21 22)) /\
  fst (askGoJson (fun x => x) (fun _ => []) true false (str "3ms") (str "//comfo.local:3094") None (SetComfortTempR 300) w)
    = Some (GErr (str "invalid_argument") None).
Proof. vm_compute. repeat split. Qed.
