(** Vocabulary for statements about what goes wrong between client and server. *)
From Coq Require Import String.
From Verif Require Import GoBase Server Twirp SpecTwirp GoClient JsonWrite JsonError SpecErrorText Failures.

(** [h] is a request of which more was to come, [h'] the whole request. *)
Definition beginning (h h' : hreq) : Prop :=
  h_method h' = h_method h /\ h_path h' = h_path h /\ h_ctype h' = h_ctype h /\ exists rest, h_body h' = h_body h ++ rest.
(** What is said about a body that breaks off; [cx] tells whether the request was given up. *)
Inductive cut_short (cx : option ctxerr) : gerror -> Prop :=
| cs_canceled : cx = Some Canceled -> cut_short cx (mkGerror (str "canceled") (str "failed to read request: context canceled") [])
| cs_expired : cx = Some DeadlineExceeded -> cut_short cx (mkGerror (str "deadline_exceeded") (str "failed to read request: deadline exceeded") [])
| cs_pb : cx = None -> cut_short cx (mkGerror (str "malformed") (str "failed to read request body") [])
| cs_json : cx = None -> cut_short cx (mkGerror (str "malformed") (str "the json request could not be decoded") []).

(** A successful response with this body is this reply, for the protobuf and the JSON client. *)
Definition replied (q : rpc) (b : list byte) (r : resp) : Prop := go_result q (of_http 200 b) = GGot r.
Definition replied_json (q : rpc) (b : list byte) (r : resp) : Prop := go_json_result q (of_http 200 b) = GGot r.

(** Why a context is done, in the words of package context. *)
Definition reason (c : ctxerr) : list byte :=
  match c with Canceled => str "context canceled" | DeadlineExceeded => str "context deadline exceeded" end.
(** What can happen to a call, given the request that was sent (if any): the words for it and the cause.  [pb]: the
    protobuf client; [d]: what becomes of requests; [cx]: what the context said; [close]: the error of closing the body;
    [good]: the body is that of a reply. *)
Inductive trouble (pb : bool) (tx : texts) (d : client_do) (cx : list (option ctxerr)) (close : option (list byte)) (good : list byte -> Prop) :
    option hreq -> string -> list byte -> Prop :=
| tr_context sent c : In (Some c) cx -> trouble pb tx d cx close good sent "aborted because context was done" (reason c)
| tr_url : trouble pb tx d cx close good None "could not build request" (tx_build tx)
| tr_host : trouble pb tx d cx close good None "failed to do request" (tx_refused tx)
| tr_connection h e : d h = inl e -> trouble pb tx d cx close good (Some h) "failed to do request" e
| tr_error_body h s e : d h = inr s -> s_status s <> 200 -> s_cut s = Some e ->
    trouble pb tx d cx close good (Some h) "failed to read server error response body" e
| tr_body h s e : pb = true -> d h = inr s -> s_status s = 200 -> s_cut s = Some e ->
    trouble pb tx d cx close good (Some h) "failed to read response body" e
| tr_no_reply h s : d h = inr s -> s_status s = 200 -> ~ good (s_body s) ->
    trouble pb tx d cx close good (Some h) (if pb then "failed to unmarshal proto response" else "failed to unmarshal json response") (tx_unmarshal tx)
| tr_close h e : pb = false -> close = Some e -> trouble pb tx d cx close good (Some h) "failed to close response body" e.
(** The error for it. *)
Definition wrapped (p : string) (cause : list byte) : gerror :=
  mkGerror (str "internal") (str p ++ str ": " ++ cause) [(str "cause", str "*comfo.wrappedError")].
(** The error that a response is, if it is none of those. *)
Definition answered (statusText : Z -> list byte) (d : client_do) (sent : option hreq) (g : gerror) : Prop :=
  exists h s, sent = Some h /\ d h = inr s /\ s_status s <> 200 /\ (s_cut s = None \/ 300 <= s_status s < 400) /\
    told (s_status s) (statusText (s_status s)) (s_location s) (s_body s) g.
(** Responses of three-digit statuses, made of bytes. *)
Definition responses_ok (statusText : Z -> list byte) (d : client_do) : Prop :=
  forall h s, d h = inr s -> 100 <= s_status s <= 999 /\ bytes_ok (statusText (s_status s)) /\ bytes_ok (s_location s) /\ bytes_ok (s_body s).
