(** Property C134: base URLs with which a Go client can send nothing, and what it sends at all. *)
From Coq Require Import String.
From Verif Require Import GoBase GoStrings Proto Conn Proc Lib Server Client Wire Twirp SpecWire SpecTwirp GoClient SpecGo JsonRead JsonWrite Samples SamplesServer
  NowhereProofs SpecNowhere SamplesNowhere.

(** The call fails with an internal error; the server hears nothing. *)
Theorem C134_nothing : forall ul uj ftoa sp sp' t base prefix q w, nowhere base ->
  askGo ul uj t base prefix q w = (Some (GErr (str "internal") None), w) /\
  askGoJson ul ftoa sp sp' t base prefix q w = (Some (GErr (str "internal") None), w).
Proof. exact nothing_sent. Qed.
Print Assumptions C134_nothing.
(** Nor does anybody else: no request is made. *)
Theorem C134_unsent : forall base prefix q, nowhere base -> go_send base prefix q = NotSent.
Proof. exact nowhere_pb. Qed.
Print Assumptions C134_unsent.
Theorem C134_unsent_json : forall sp base prefix q, nowhere base -> go_json_send sp base prefix q = NotSent.
Proof. exact nowhere_json. Qed.
Print Assumptions C134_unsent_json.
(** What is sent, with any base URL and prefix: a POST to a host, by http or https, with the content type of the client. *)
Theorem C134_sent : forall base prefix q s h hr, go_send base prefix q = SentTo s h hr ->
  (s = str "http" \/ s = str "https") /\ h <> [] /\ h_method hr = str "POST" /\ h_ctype hr = str "application/protobuf".
Proof. exact sent_only. Qed.
Print Assumptions C134_sent.
Theorem C134_sent_json : forall sp base prefix q s h hr, go_json_send sp base prefix q = SentTo s h hr ->
  (s = str "http" \/ s = str "https") /\ h <> [] /\ h_method hr = str "POST" /\ h_ctype hr = str "application/json".
Proof. exact json_sent_only. Qed.
Print Assumptions C134_sent_json.
Example C134_ex : nowhere (9 :: str "//comfo") /\ nowhere (str ":3094") /\ nowhere (str "svn+ssh://comfo.local") /\ nowhere (str "http://comfo:http") /\
  (exists h, go_send (str "http://comfo:80") None (SetComfortTempR 22) = SentTo (str "http") (str "comfo:80") h) /\
  (exists h, go_json_send true (str "HTTPS://comfo") (Some (str "/x")) GetFansRPC = SentTo (str "https") (str "comfo") h) /\
  fst (askGo (fun x => x) (fun _ _ => None) [] (str "ftp://h") None GetTempsRPC (started [])) = Some (GErr (str "internal") None).
Proof.
  split; [exact tab_nowhere|]. split; [exact colon_nowhere|]. split; [exact ftp_nowhere|]. split; [exact port_nowhere|].
  split; [eexists; vm_compute; reflexivity|]. split; [eexists; vm_compute; reflexivity|]. vm_compute. reflexivity.
Qed.
