(** C136: servers that leave out what is zero in JSON replies, or use the JSON names of fields. *)
From Coq Require Import String SpecFloat.
From Verif Require Import GoBase GoStrings Conn Proc Lib Server SpecLayout SpecServer ServerOps Wire Twirp SpecWire SpecTwirp GoClient SpecGo SpecJson SpecJsonReply JsonRead JsonWrite
  JsonOptions SpecJsonOptions JsonOptionsProofs Samples SamplesServer.

(** The JSON of a reply is an object with the members of the reply, without those that say nothing if they are to be left out;
    the names are the same in either case. *)
Theorem C136_object : forall o ftoa sp t r, (forall e, r <> RespErr e) -> in_types r -> in_degrees r -> readable r -> time_string t ->
  exists b l, resp_json_with o ftoa sp t r = Some b /\ bytes_ok b /\ json_whole b l /\ json_reply_with (jsonSkipDefaults o) t r l.
Proof. exact with_said. Qed.
Print Assumptions C136_object.
Example C136_object_here : let o := mkJopts true true in let z := f32_of_bits 0 in
  resp_json_with o (fun _ => []) true (str "3ms") (RespComfort false 22 22) = Some (str "{""OriginalTemp"":22, ""TargetTemp"":22, ""ReqTime"":""3ms""}") /\
  resp_json_with o (fun _ => []) true (str "3ms") (RespErrors (mkPbErrors false)) = Some (str "{}") /\
  resp_json_with o (fun _ => []) true (str "3ms") (RespTemps (mkPbTemps z (f32_of_bits 3231711232) z z z z z z)) = Some (str "{""OutsideAir"":-5}") /\
  in_types (RespComfort false 22 22) /\ JSONCamelCase "a_big_X_1y_" = "aBigX1y"%string.
Proof. cbv zeta. split; [vm_compute; reflexivity|]. split; [vm_compute; reflexivity|]. split; [vm_compute; reflexivity|]. split; [cbn; unfold u32_ok; lia|vm_compute; reflexivity]. Qed.
(** It cannot be written exactly if the protobuf reply cannot be. *)
Theorem C136_fails : forall o ftoa sp t r, (forall e, r <> RespErr e) -> in_types r -> in_degrees r -> time_string t ->
  (resp_json_with o ftoa sp t r = None <-> marshal (resp_fields t r) = None).
Proof. exact with_fails. Qed.
Print Assumptions C136_fails.
Example C136_fails_here : resp_json_with (mkJopts true false) (fun _ => []) true (str "3ms") (RespBoot (mkPbBoot 0 0 0 [255])) = None /\
  resp_json_with (mkJopts true false) (fun _ => []) true (str "3ms") (RespBoot (mkPbBoot 0 0 0 [])) = Some (str "{}").
Proof. vm_compute. auto. Qed.
(** The JSON client reads from it the reply that the service gave, *)
Theorem C136_reply : forall o ftoa sp q t r, reply_to q r -> in_types r -> in_degrees r -> readable r -> time_string t ->
  go_json_result q (of_json_server_with o ftoa sp t (respond false t r)) = GGot r.
Proof. exact with_reply. Qed.
Print Assumptions C136_reply.
Example C136_reply_here : reply_to GetErrorsRPC (RespErrors (mkPbErrors false)) /\
  go_json_result GetErrorsRPC (of_json_server_with (mkJopts true true) (fun _ => []) true [] (mkHresp 200 (Json (RespErrors (mkPbErrors false))))) = GGot (RespErrors (mkPbErrors false)).
Proof. split; [exact I|vm_compute; reflexivity]. Qed.
(** so that after any history a call returns and does the same whatever the options. *)
Theorem C136_same : forall ops w0 h w, idle w0 -> w_sh w0 = init_shared -> history ops w0 = (h, w) ->
  (forall c, Forall bytes_ok (flat_map (op_fetches c) h)) ->
  forall o ul ftoa sp sp' t s hst base q, base_for s hst base -> time_string t -> args_ok q -> (forall c, q <> FlushCacheR c) -> reads_well q w ->
  askGoJsonWith o ul ftoa sp sp' t base None q w = askGoJson ul ftoa sp sp' t base None q w.
Proof. exact with_same. Qed.
Print Assumptions C136_same.
Example C136_same_here :
  fst (askGoJsonWith (mkJopts true true) (fun x => x) (fun _ => []) true false (str "3ms") (str "http://h") None GetTempsRPC (started (answer 210 temps_payload))) =
  fst (askGoJson (fun x => x) (fun _ => []) true false (str "3ms") (str "http://h") None GetTempsRPC (started (answer 210 temps_payload))).
Proof. vm_compute. reflexivity. Qed.
