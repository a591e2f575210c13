(** Property C95: the ReqTime of a reply. *)
From Coq Require Import String.
From Verif Require Import GoBase Lib Server Wire Twirp SpecWire SpecTwirp SpecJson SpecJsonReply SpecDuration JsonWrite Duration DurationProofs.

(** C95: the text says exactly the duration, *)
Theorem C95_says : forall d, says_time (durString d) d.
Proof. exact duration_says. Qed.
Print Assumptions C95_says.
(** and no other; *)
Theorem C95_unique : forall t d d', says_time t d -> says_time t d' -> d = d'.
Proof. exact says_unique. Qed.
Print Assumptions C95_unique.
(** it is text that fits in a message (the hypothesis [time_string] of C82, C92, C93 and others), *)
Theorem C95_string : forall d, -9223372036854775808 <= d < 9223372036854775808 -> time_string (durString d).
Proof. exact duration_string. Qed.
Print Assumptions C95_string.
(** and arrives in a JSON reply. *)
Theorem C95_reply : forall ftoa sp d r, -9223372036854775808 <= d < 9223372036854775808 -> in_types r ->
  match r with RespComfort _ _ _ | RespSpeed _ _ _ | RespProfile _ _ _ | RespFlush _ => True | _ => False end ->
  exists b l t x, resp_json ftoa sp (durString d) r = Some b /\ json_whole b l /\ member l "ReqTime" (JStr x) /\ reads_str x t /\ says_time t d.
Proof. exact reply_says. Qed.
Print Assumptions C95_reply.
Example C95_ex :
  durString 0 = str "0s" /\ durString 999 = str "999ns" /\ durString 12040 = str "12.04" ++ [194; 181; 115] /\
  durString 1000000 = str "1ms" /\ durString 1500000000 = str "1.5s" /\ durString 60000000000 = str "1m0s" /\
  durString 3723000000001 = str "1h2m3.000000001s" /\
  resp_json (fun _ => []) false (durString 1500000) (RespFlush true) = Some (str "{""Success"":true,""ReqTime"":""1.5ms""}").
Proof. vm_compute. repeat split. Qed.
