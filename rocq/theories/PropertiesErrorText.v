(** Properties C102-C107: what errors say. *)
From Coq Require Import String Permutation.
From Verif Require Import GoBase GoStrings Proc Lib SpecServer SpecWire Server Wire Twirp SpecTwirp GoClient SpecGo SpecJson SpecJsonError JsonError
  Samples SamplesServer ServerLemmas ErrorText SpecErrorText ErrorTextProofs ErrorTextClaims.

(** C102: the Go client is told invalid_argument, with the name of the argument, if and only if that argument is at
    fault; the server then does nothing else. *)
Theorem C102_named : forall isPrint statusText io ioType mtext pb t w q,
  texts_ok io -> texts_ok ioType -> bytes_ok mtext -> idle w ->
  0 <= CurrentMode (sh_prof (w_sh w)) < 256 -> args_ok q -> (forall c, q <> FlushCacheR c) ->
  exists r w', run (handle q) w = (RDone r, w') /\
    let seen := option_map (client_error isPrint statusText) (reply_error io ioType mtext pb t q r) in
    forall n,
      (at_fault (CurrentMode (sh_prof (w_sh w))) q n ->
         w' = w /\ exists m, seen = Some (mkGerror (str "invalid_argument") (str n ++ str " " ++ m) [(str "argument", str n)])) /\
      (forall m d, seen = Some (mkGerror (str "invalid_argument") m ((str "argument", str n) :: d)) ->
         at_fault (CurrentMode (sh_prof (w_sh w))) q n).
Proof. exact fault_named. Qed.
Print Assumptions C102_named.
Example C102_named_ex :
  let w := started [] in
  at_fault (CurrentMode (sh_prof (w_sh w))) (SetFanProfileR 5 50) "Mode" /\
  run (handle (SetFanProfileR 5 50)) w = (RDone (RespErr (InvalidArgument ArgMode)), w) /\
  client_error (fun _ => true) (fun _ => []) (rpc_error (fun _ => []) (fun _ => []) (SetFanProfileR 5 50) (InvalidArgument ArgMode)) =
    mkGerror (str "invalid_argument") (str "Mode (profile) out of range, expected 1-4") [(str "argument", str "Mode")].
Proof. split; [apply af_mode; vm_compute; intros []; congruence|]. vm_compute. auto. Qed.

(** The response to a call is this error, with its status. *)
Theorem C102_sent : forall io ioType mtext pb t q r,
  match reply_error io ioType mtext pb t q r with
  | Some g => exists e, respond pb t r = writeError e /\ ge_code g = code_name (code_of e) /\ fst (error_response g) = r_status (respond pb t r)
  | None => r_status (respond pb t r) = 200
  end.
Proof. exact reply_sent. Qed.
Print Assumptions C102_sent.
Example C102_sent_ex : let bad := [255] in
  reply_error (fun _ => []) (fun _ => []) (str "invalid UTF-8") true bad (FlushCacheR 0) (RespFlush true) =
    Some (mkGerror (str "internal") (str "failed to marshal proto response: invalid UTF-8") [(str "cause", str "*comfo.wrappedError")]) /\
  r_status (respond true bad (RespFlush true)) = 500.
Proof. vm_compute. auto. Qed.

(** C103: for a speed that fits a byte. *)
Theorem C103_value_partial : forall isPrint statusText io ioType mtext pb t w abs rel,
  idle w -> 0 <= CurrentMode (sh_prof (w_sh w)) < 256 -> u32_ok abs ->
  at_fault (CurrentMode (sh_prof (w_sh w))) (SetFanSpeedR abs rel) "FanSpeed" ->
  0 <= asked (CurrentMode (sh_prof (w_sh w))) abs rel <= 255 ->
  exists r n, run (handle (SetFanSpeedR abs rel)) w = (RDone r, w) /\ decimal n (asked (CurrentMode (sh_prof (w_sh w))) abs rel) /\
    option_map (client_error isPrint statusText) (reply_error io ioType mtext pb t (SetFanSpeedR abs rel) r) =
      Some (mkGerror (str "invalid_argument") (str "FanSpeed value '" ++ n ++ str "' out of range") [(str "argument", str "FanSpeed")]).
Proof. exact speed_named. Qed.
Print Assumptions C103_value_partial.
Example C103_value_ex :
  let w := started [] in let q := SetFanSpeedR 17 false in
  at_fault (CurrentMode (sh_prof (w_sh w))) q "FanSpeed" /\ asked (CurrentMode (sh_prof (w_sh w))) 17 false = 17 /\
  client_error (fun _ => true) (fun _ => []) (rpc_error (fun _ => []) (fun _ => []) q (InvalidArgument (ArgFanSpeed 17))) =
    mkGerror (str "invalid_argument") (str "FanSpeed value '17' out of range") [(str "argument", str "FanSpeed")].
Proof. split; [eapply af_speed; [reflexivity|vm_compute; intros []; congruence]|]. vm_compute. auto. Qed.
(** Speed 261 is asked for; the message says '5'. *)
Theorem C103_value_refuted : forall isPrint statusText io ioType mtext pb t, exists w r n,
  idle w /\ CurrentMode (sh_prof (w_sh w)) = 2 /\
  at_fault 2 (SetFanSpeedR 261 false) "FanSpeed" /\ run (handle (SetFanSpeedR 261 false)) w = (RDone r, w) /\
  option_map (client_error isPrint statusText) (reply_error io ioType mtext pb t (SetFanSpeedR 261 false) r) =
    Some (mkGerror (str "invalid_argument") (str "FanSpeed value '" ++ n ++ str "' out of range") [(str "argument", str "FanSpeed")]) /\
  decimal n 5 /\ ~ decimal n (asked 2 261 false).
Proof. exact misquoted_speed. Qed.
Print Assumptions C103_value_refuted.
(** Exactly: what is quoted is the speed asked for modulo 256. *)
Theorem C103_modulo : forall isPrint statusText io ioType mtext pb t w abs rel,
  idle w -> 0 <= CurrentMode (sh_prof (w_sh w)) < 256 -> u32_ok abs ->
  at_fault (CurrentMode (sh_prof (w_sh w))) (SetFanSpeedR abs rel) "FanSpeed" ->
  exists r n, run (handle (SetFanSpeedR abs rel)) w = (RDone r, w) /\ decimal n (asked (CurrentMode (sh_prof (w_sh w))) abs rel mod 256) /\
    option_map (client_error isPrint statusText) (reply_error io ioType mtext pb t (SetFanSpeedR abs rel) r) =
      Some (mkGerror (str "invalid_argument") (str "FanSpeed value '" ++ n ++ str "' out of range") [(str "argument", str "FanSpeed")]).
Proof. exact speed_quoted. Qed.
Print Assumptions C103_modulo.
Example C103_modulo_ex : fst (run (handle (SetFanSpeedR 1000 false)) (started [])) = RDone (RespErr (InvalidArgument (ArgFanSpeed 232))) /\ 1000 mod 256 = 232.
Proof. vm_compute. auto. Qed.
(** With mode 0 in the cache, one step down is '255'. *)
Theorem C103_down_refuted : forall isPrint statusText io ioType mtext pb t, exists w r n,
  idle w /\ CurrentMode (sh_prof (w_sh w)) = 0 /\
  at_fault 0 (SetFanSpeedR 0 false) "FanSpeed" /\ run (handle (SetFanSpeedR 0 false)) w = (RDone r, w) /\
  option_map (client_error isPrint statusText) (reply_error io ioType mtext pb t (SetFanSpeedR 0 false) r) =
    Some (mkGerror (str "invalid_argument") (str "FanSpeed value '" ++ n ++ str "' out of range") [(str "argument", str "FanSpeed")]) /\
  decimal n 255 /\ ~ decimal n (asked 0 0 false).
Proof. exact misquoted_down. Qed.
Print Assumptions C103_down_refuted.

(** C104: the errors of this program arrive with their text; the client can tell them apart. *)
Theorem C104_known : forall isPrint statusText io ioType q e n, In (e, n) known_errors ->
  client_error isPrint statusText (rpc_error io ioType q (Internal e)) =
    mkGerror (str "internal") (str n) (cause_meta q (str "*errors.errorString")).
Proof. exact internal_known. Qed.
Print Assumptions C104_known.
Theorem C104_distinct : forall isPrint statusText io ioType q e e' n n', In (e, n) known_errors -> In (e', n') known_errors ->
  client_error isPrint statusText (rpc_error io ioType q (Internal e)) = client_error isPrint statusText (rpc_error io ioType q (Internal e')) ->
  e = e'.
Proof. exact internal_distinct. Qed.
Print Assumptions C104_distinct.
Example C104_known_ex :
  client_error (fun _ => true) (fun _ => []) (rpc_error (fun _ => []) (fun _ => []) (SetFanProfileR 1 15) (Internal (LibErr ErrTimeout))) =
    mkGerror (str "internal") (str "operation timed out") [(str "cause", str "*errors.errorString")] /\
  client_error (fun _ => true) (fun _ => []) (rpc_error (fun _ => []) (fun _ => []) (SetFanSpeedR 1 false) (Internal ErrSetPollFailed)) =
    mkGerror (str "internal") (str "failure polling result after set operation") [].
Proof. vm_compute. auto. Qed.
(** Any other error is one of the connection's. *)
Theorem C104_all : forall e, (exists n, In (e, n) known_errors) \/ exists k, e = LibErr (ErrIO k).
Proof. exact known_or_io. Qed.
Print Assumptions C104_all.
Theorem C104_io : forall isPrint statusText io ioType q k, texts_ok io -> texts_ok ioType ->
  delivered (mkGerror (str "internal") (io k) (cause_meta q (ioType k)))
    (client_error isPrint statusText (rpc_error io ioType q (Internal (LibErr (ErrIO k))))).
Proof. exact internal_io. Qed.
Print Assumptions C104_io.
Example C104_io_ex :
  client_error (fun _ => true) (fun _ => []) (rpc_error (fun _ => 255 :: str " <EOF>") (fun _ => str "*os.PathError") (SetFanProfileR 1 15) (Internal (LibErr (ErrIO 0)))) =
    mkGerror (str "internal") ([239; 191; 189] ++ str " <EOF>") [(str "cause", str "*os.PathError")].
Proof. vm_compute. reflexivity. Qed.

(** C105: a request that gets a Twirp error without being handed to a handler is told why. *)
Theorem C105_refused : forall isPrint statusText ulower unjson h a t,
  bytes_ok (h_method h) -> bytes_ok (h_path h) -> bytes_ok (h_ctype h) -> ascii (h_ctype h) ->
  front ulower unjson h = Answer a -> r_body a = ErrorJson t ->
  exists g, refusal_error isPrint ulower unjson h = Some g /\ fst (error_response g) = r_status a /\ explains h t g /\
    delivered g (client_error isPrint statusText g) /\
    (len (ge_msg g) <= 1000000 -> ge_msg (client_error isPrint statusText g) = ge_msg g).
Proof. exact refused_told. Qed.
Print Assumptions C105_refused.
Theorem C105_called : forall isPrint ulower unjson h pb q,
  front ulower unjson h = Call pb q -> refusal_error isPrint ulower unjson h = None.
Proof. exact not_refused. Qed.
Print Assumptions C105_called.
Example C105_refused_ex : let lower := fun s => s in let uj := fun _ _ => None in
  let h := mkHreq (str "POST") (str "/twirp/comfo.api.Comfo/No" ++ [10; 255]) (str "application/json") [] in
  front lower uj h = Answer (writeError TBadRoute) /\
  refusal_error (fun _ => true) lower uj h =
    Some (mkGerror (str "bad_route") (str "no handler for path ""/twirp/comfo.api.Comfo/No\n\xff""")
      [(str "twirp_invalid_route", str "POST /twirp/comfo.api.Comfo/No" ++ [10; 255])]) /\
  option_map (client_error (fun _ => true) (fun _ => [])) (refusal_error (fun _ => true) lower uj h) =
    Some (mkGerror (str "bad_route") (str "no handler for path ""/twirp/comfo.api.Comfo/No\n\xff""")
      [(str "twirp_invalid_route", str "POST /twirp/comfo.api.Comfo/No" ++ [10; 239; 191; 189])]).
Proof. vm_compute. auto. Qed.
Example C105_prefix_ex : let lower := fun s => s in let uj := fun _ _ => None in
  let msg h := option_map ge_msg (refusal_error (fun _ => true) lower uj h) in
  msg (mkHreq (str "GET") (str "/twirp/comfo.api.Comfo/GetFans") [] []) = Some (str "unsupported method ""GET"" (only POST is allowed)") /\
  msg (mkHreq (str "POST") (str "/twirp/comfo.api.Comfo/x/comfo.api.Comfo/GetFans") [] []) =
    Some (str "invalid path prefix ""/twirp/comfo.api.Comfo/x"", expected ""/twirp"", on path ""/twirp/comfo.api.Comfo/x/comfo.api.Comfo/GetFans""") /\
  msg (mkHreq (str "POST") (str "/twirp/comfo.api.Comfo/GetFans") (str "text/html") []) = Some (str "unexpected Content-Type: ""text/html""") /\
  msg (mkHreq (str "POST") (str "/twirp/comfo.api.Comfo/GetFans") (str "application/json") []) = Some (str "the json request could not be decoded").
Proof. vm_compute. auto. Qed.

(** C106: what is quoted in messages is a Go string literal for it, so that it can be told what was quoted. *)
Theorem C106_literal : forall isPrint s, bytes_ok s -> literal (quote isPrint s) s.
Proof. exact quote_literal. Qed.
Print Assumptions C106_literal.
Theorem C106_unique : forall t s s', literal t s -> literal t s' -> s = s'.
Proof. exact literal_fun. Qed.
Print Assumptions C106_unique.
(** Quotes, a backslash, NUL, an e with acute accent, a byte that is not UTF-8, U+FFFD, a byte order mark, U+10FFFF. *)
Example C106_ex : quote (fun r => r =? 233) ([34; 92; 0; 195; 169; 255; 239; 191; 189; 239; 187; 191; 244; 143; 191; 191]) =
  [34; 92; 34; 92; 92] ++ str "\x00" ++ [195; 169] ++ str "\xff\ufffd\ufeff\U0010ffff" ++ [34].
Proof. vm_compute. reflexivity. Qed.

(** C107: what the Go client says about a response that is not a success. *)
Theorem C107_told : forall isPrint statusText status location body,
  100 <= status <= 999 -> bytes_ok (statusText status) -> bytes_ok location -> bytes_ok body ->
  told status (statusText status) location body (error_of_response isPrint statusText status location body).
Proof. exact response_told. Qed.
Print Assumptions C107_told.
Theorem C107_code : forall isPrint statusText status location body q, status <> 200 ->
  exists i, go_result q (of_http status body) = GErr (ge_code (error_of_response isPrint statusText status location body)) i.
Proof. exact response_code. Qed.
Print Assumptions C107_code.
Example C107_ex : let st := fun s => if s =? 503 then str "Service Unavailable" else if s =? 302 then str "Found" else [] in
  let e := error_of_response (fun _ => true) st in
  e 503 [] (str "<html>") = mkGerror (str "unavailable") (str "Error from intermediary with HTTP status code 503 ""Service Unavailable""")
    [(str "http_error_from_intermediary", str "true"); (str "status_code", str "503"); (str "body", str "<html>")] /\
  e 302 (str "/login") (str "{""code"":""internal""}") = mkGerror (str "internal") (str "unexpected HTTP status code 302 ""Found"" received, Location=""/login""")
    [(str "http_error_from_intermediary", str "true"); (str "status_code", str "302"); (str "location", str "/login")] /\
  e 500 [] (str "{""code"":""odd""}") = mkGerror (str "internal") (str "invalid type returned from server error response: odd") [(str "body", str "{""code"":""odd""}")] /\
  e 499 [] (str "{""code"":""canceled"",""msg"":""m"",""meta"":{""a"":""b""}}") = mkGerror (str "canceled") (str "m") [(str "a", str "b")].
Proof. vm_compute. auto. Qed.
