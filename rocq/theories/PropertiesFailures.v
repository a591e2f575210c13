(** Properties C108-C111: what goes wrong between client and server. *)
From Coq Require Import String.
From Verif Require Import GoBase GoStrings Server Wire Twirp SpecTwirp GoClient SpecGo SpecServer SpecWire SpecJson JsonScan JsonRead JsonWrite JsonError ErrorText SpecErrorText
  Failures SpecFailures FailuresProofs.

(** C108: a request whose body breaks off is answered as the whole request would be, or refused. *)
Theorem C108_same : forall isPrint ulower cx h h' pb q,
  frontCut isPrint ulower cx h = Passed pb q -> beginning h h' -> front ulower unjson h' = Call pb q.
Proof. exact cut_never_other. Qed.
Print Assumptions C108_same.
Theorem C108_exact : forall isPrint ulower cx h pb q,
  frontCut isPrint ulower cx h = Passed pb q <-> pb = false /\ front ulower unjson h = Call pb q.
Proof. exact cut_passed. Qed.
Print Assumptions C108_exact.
Theorem C108_refused : forall isPrint ulower cx h g, frontCut isPrint ulower cx h = Refused g ->
  ((forall h', beginning h h' -> refusal_error isPrint ulower unjson h' = Some g) /\ ge_code g = str "bad_route") \/ cut_short cx g.
Proof. exact cut_refused. Qed.
Print Assumptions C108_refused.
Theorem C108_elsewhere : forall isPrint ulower cx h a, frontCut isPrint ulower cx h = Elsewhere a ->
  forall h', beginning h h' -> front ulower unjson h' = Answer a.
Proof. exact cut_elsewhere. Qed.
Print Assumptions C108_elsewhere.
Example C108_elsewhere_ex : let get p := frontCut (fun _ => true) (fun s => s) None (mkHreq (str "GET") (str p) [] []) in
  get "/"%string = Elsewhere (mkHresp 404 Text) /\ get "//twirp"%string = Elsewhere (mkHresp 301 Text).
Proof. vm_compute. auto. Qed.
(** Clients are told so. *)
Theorem C108_told : forall isPrint statusText cx g, cut_short cx g -> client_error isPrint statusText g = g.
Proof. exact cut_delivered. Qed.
Print Assumptions C108_told.
Example C108_ex : let req := mkHreq (str "POST") (str "/twirp/comfo.api.Comfo/SetFanSpeed") in let front := frontCut (fun _ => true) (fun s => s) in
  front None (req (str "application/json") (str "{""Abs"":3} ")) = Passed false (SetFanSpeedR 3 false) /\
  front None (req (str "application/json") (str "{""Abs"":3")) = Refused (mkGerror (str "malformed") (str "the json request could not be decoded") []) /\
  front None (req (str "application/protobuf") [8; 3]) = Refused (mkGerror (str "malformed") (str "failed to read request body") []) /\
  front (Some Canceled) (req (str "application/protobuf") [8; 3]) = Refused (mkGerror (str "canceled") (str "failed to read request: context canceled") []) /\
  fst (error_response (mkGerror (str "canceled") (str "failed to read request: context canceled") [])) = 408 /\
  front (Some DeadlineExceeded) (req (str "application/json") [123]) =
    Refused (mkGerror (str "deadline_exceeded") (str "failed to read request: deadline exceeded") []) /\
  front None (req (str "text/plain") []) = Refused (mkGerror (str "bad_route") (str "unexpected Content-Type: ""text/plain""")
    [(str "twirp_invalid_route", str "POST /twirp/comfo.api.Comfo/SetFanSpeed")]).
Proof. vm_compute. repeat split. Qed.

(** C109: a request whose body breaks off has no effect: true of protobuf. *)
Theorem C109_protobuf_partial : forall isPrint ulower cx h, ascii (h_ctype h) -> media "application/protobuf" (h_ctype h) ->
  forall pb q, frontCut isPrint ulower cx h <> Passed pb q.
Proof. exact pb_not_executed. Qed.
Print Assumptions C109_protobuf_partial.
Example C109_protobuf_ex : let h := mkHreq (str "POST") (str "/twirp/comfo.api.Comfo/SetFanSpeed") (str "application/protobuf") [8; 3] in
  front (fun s => s) unjson h = Call true (SetFanSpeedR 3 false) /\
  frontCut (fun _ => true) (fun s => s) None h = Refused (mkGerror (str "malformed") (str "failed to read request body") []).
Proof. vm_compute. auto. Qed.
(** Not of JSON: the server does not read beyond the object. *)
Theorem C109_json_refuted : exists h h', media "application/json" (h_ctype h) /\ beginning h h' /\ h_body h' <> h_body h /\
  forall isPrint ulower cx, frontCut isPrint ulower cx h = Passed false (SetFanSpeedR 3 false).
Proof. exact json_executed. Qed.
Print Assumptions C109_json_refuted.

(** C110: a call with the Go clients returns a reply if and only if the request was sent, a response of status 200 with
    a body that is this reply came back, and nothing went wrong; for the protobuf client it has to be complete. *)
Theorem C110_reply : forall isPrint statusText tx d c1 c2 c3 base prefix q sent r,
  callProtobuf isPrint statusText tx d c1 c2 c3 base prefix q = (sent, Returned r) <->
  c1 = None /\ c2 = None /\ c3 = None /\ exists sc ho h s, sent = Some h /\ go_send base prefix q = SentTo sc ho h /\ d h = inr s /\
    s_status s = 200 /\ s_cut s = None /\ replied q (s_body s) r.
Proof. exact pb_reply. Qed.
Print Assumptions C110_reply.
Theorem C110_json_reply : forall isPrint statusText tx sp d c1 c2 c3 close base prefix q sent r, args_ok q ->
  (callJson isPrint statusText tx sp d c1 c2 c3 close base prefix q = (sent, Returned r) <->
   c1 = None /\ c2 = None /\ c3 = None /\ close = None /\ exists sc ho h s, sent = Some h /\ go_json_send sp base prefix q = SentTo sc ho h /\ d h = inr s /\
     s_status s = 200 /\ replied_json q (s_body s) r).
Proof. exact json_reply. Qed.
Print Assumptions C110_json_reply.
(** Otherwise it returns an error that says what went wrong, or the error that the response is. *)
Theorem C110_error : forall isPrint statusText tx d c1 c2 c3 base prefix q sent g, responses_ok statusText d ->
  callProtobuf isPrint statusText tx d c1 c2 c3 base prefix q = (sent, Failed g) ->
  (exists words cause, trouble true tx d [c1; c2; c3] None (fun b => exists r, replied q b r) sent words cause /\ g = wrapped words cause) \/
  answered statusText d sent g.
Proof. exact pb_error. Qed.
Print Assumptions C110_error.
Theorem C110_json_error : forall isPrint statusText tx sp d c1 c2 c3 close base prefix q sent g, args_ok q -> responses_ok statusText d ->
  callJson isPrint statusText tx sp d c1 c2 c3 close base prefix q = (sent, Failed g) ->
  (exists words cause, trouble false tx d [c1; c2; c3] close (fun b => exists r, replied_json q b r) sent words cause /\ g = wrapped words cause) \/
  answered statusText d sent g.
Proof. exact json_error. Qed.
Print Assumptions C110_json_error.
(** Whatever it returns, what was sent is the request of this call. *)
Theorem C110_sent : forall isPrint statusText tx d c1 c2 c3 base prefix q h r,
  callProtobuf isPrint statusText tx d c1 c2 c3 base prefix q = (Some h, r) -> exists sc ho, go_send base prefix q = SentTo sc ho h.
Proof. exact pb_sent. Qed.
Print Assumptions C110_sent.
Theorem C110_json_sent : forall isPrint statusText tx sp d c1 c2 c3 close base prefix q h r,
  callJson isPrint statusText tx sp d c1 c2 c3 close base prefix q = (Some h, r) -> exists sc ho, go_json_send sp base prefix q = SentTo sc ho h.
Proof. exact json_sent. Qed.
Print Assumptions C110_json_sent.
Example C110_ex : let tx := mkTexts (str "m") (str "b") (str "unsupported protocol scheme") (str "u") in let base := str "http://h" in
  let h := mkHreq (str "POST") (str "/twirp/comfo.api.Comfo/SetFanSpeed") (str "application/protobuf") [8; 3] in
  let q := SetFanSpeedR 3 false in let st := fun s => if s =? 404 then str "Not Found" else [] in
  let call d c1 c2 c3 := callProtobuf (fun _ => true) st tx d c1 c2 c3 base None q in
  let ok := fun _ : hreq => inr (mkResponse 200 [] [8; 1; 16; 2; 24; 3] None) in
  let seen (p c : string) := Failed (mkGerror (str "internal") (str p ++ str ": " ++ str c) [(str "cause", str "*comfo.wrappedError")]) in
  call ok None None None = (Some h, Returned (RespSpeed true 2 3)) /\
  call ok (Some Canceled) None None = (None, seen "aborted because context was done"%string "context canceled"%string) /\
  call ok None None (Some DeadlineExceeded) = (Some h, seen "aborted because context was done"%string "context deadline exceeded"%string) /\
  call (fun _ => inl (str "EOF")) None None None = (Some h, seen "failed to do request"%string "EOF"%string) /\
  call (fun _ => inr (mkResponse 200 [] [8; 2] (Some (str "unexpected EOF")))) None None None = (Some h, seen "failed to read response body"%string "unexpected EOF"%string) /\
  call (fun _ => inr (mkResponse 200 [] [8] None)) None None None = (Some h, seen "failed to unmarshal proto response"%string "u"%string) /\
  call (fun _ => inr (mkResponse 404 [] (str "<html>") (Some (str "unexpected EOF")))) None None None =
    (Some h, seen "failed to read server error response body"%string "unexpected EOF"%string) /\
  call (fun _ => inr (mkResponse 404 [] (str "<html>") None)) None None None =
    (Some h, Failed (mkGerror (str "bad_route") (str "Error from intermediary with HTTP status code 404 ""Not Found""")
      [(str "http_error_from_intermediary", str "true"); (str "status_code", str "404"); (str "body", str "<html>")])) /\
  callProtobuf (fun _ => true) st tx ok None None None (str "h:80") None q = (None, seen "failed to do request"%string "unsupported protocol scheme"%string).
Proof. vm_compute. repeat split. Qed.
Example C110_json_ex : let tx := mkTexts (str "m") (str "b") (str "unsupported protocol scheme") (str "u") in let base := str "http://h" in
  let q := SetFanSpeedR 3 false in
  let call d close := callJson (fun _ => true) (fun _ => []) tx false d None None None close base None q in
  let ok := fun _ : hreq => inr (mkResponse 200 [] (str "{""Modified"":true,""OriginalSpeed"":2,""TargetSpeed"":3}") None) in
  let seen (p c : string) := Failed (mkGerror (str "internal") (str p ++ str ": " ++ str c) [(str "cause", str "*comfo.wrappedError")]) in
  snd (call ok None) = Returned (RespSpeed true 2 3) /\
  snd (call ok (Some (str "x"))) = seen "failed to close response body"%string "x"%string /\
  snd (call (fun _ => inr (mkResponse 200 [] (str "{""Modified"":") (Some (str "unexpected EOF")))) None) = seen "failed to unmarshal json response"%string "u"%string.
Proof. vm_compute. repeat split. Qed.

(** C111: what the Go JSON client makes of a response that breaks off is what it makes of the whole response. *)
Theorem C111_json : forall isPrint statusText tx sp d d' c1 c2 c3 close base prefix q sent r, args_ok q ->
  (forall h s, d h = inr s -> s_status s = 200 -> exists s' rest, d' h = inr s' /\ s_status s' = 200 /\ s_body s' = s_body s ++ rest) ->
  callJson isPrint statusText tx sp d c1 c2 c3 close base prefix q = (sent, Returned r) ->
  callJson isPrint statusText tx sp d' c1 c2 c3 close base prefix q = (sent, Returned r).
Proof. exact json_cut. Qed.
Print Assumptions C111_json.
(** The protobuf client makes nothing of it. *)
Theorem C111_protobuf : forall isPrint statusText tx d c1 c2 c3 base prefix q sent r,
  (forall h s, d h = inr s -> s_cut s <> None) -> callProtobuf isPrint statusText tx d c1 c2 c3 base prefix q <> (sent, Returned r).
Proof. exact pb_cut. Qed.
Print Assumptions C111_protobuf.
Example C111_ex : let tx := mkTexts [] [] [] [] in let q := SetFanSpeedR 3 false in
  let call d := snd (callJson (fun _ => true) (fun _ => []) tx false d None None None None (str "http://h") None q) in
  let body := str "{""Modified"":true,""OriginalSpeed"":2,""TargetSpeed"":3}" in
  call (fun _ => inr (mkResponse 200 [] body (Some (str "unexpected EOF")))) = Returned (RespSpeed true 2 3) /\
  call (fun _ => inr (mkResponse 200 [] (body ++ [10]) None)) = Returned (RespSpeed true 2 3) /\
  (exists g, call (fun _ => inr (mkResponse 200 [] (removelast body) (Some (str "unexpected EOF")))) = Failed g).
Proof. vm_compute. repeat split. eexists. reflexivity. Qed.
