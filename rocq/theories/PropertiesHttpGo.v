(** Property C94: Go clients under concurrent HTTP requests, all interleavings. *)
From Coq Require Import String.
From Verif Require Import GoBase Proto SpecProto SpecFrame SpecConn SpecLayout Conn Proc Lib Server SpecServer
  Client Wire Twirp ClientHttp SpecWire SpecTwirp Machine SpecMachine HttpMachine SpecHttp GoClient SpecGo GoProofs SpecJson JsonRead JsonWrite
  SpecJsonReply HttpGoProofs Samples SamplesServer SamplesMachine SamplesHttp.

(** C94: any number of Go clients of both kinds at a time, among other requests: the server does what it would do if they called
    the procedures directly, and they see the replies. *)
Theorem C94_clients : forall ul ftoa sp' hs c clk xs mh, exec xs (serve_http ul unjson hs c clk) = Some mh -> legal mh ->
  exists m, exec (map (renumber ul unjson hs) xs) (serve (calls ul unjson hs) c clk) = Some m /\ m_g mh = m_g m /\
  forall i q h t s hst base, nth_error hs i = Some (h, t) -> base_for s hst base -> args_ok q -> time_string t ->
    (go_send base None q = SentTo (str s) hst h ->
     exists j, is_call ul unjson hs i j /\ nth_error (calls ul unjson hs) j = Some q /\
       forall a, answered mh i a -> exists r, answered m j r /\
         (readable r -> go_result q (of_server a) = returned r) /\ (~ readable r -> go_result q (of_server a) = GErr (str "internal") None)) /\
    forall sp, (go_json_send sp base None q = SentTo (str s) hst h ->
     exists j, is_call ul unjson hs i j /\ nth_error (calls ul unjson hs) j = Some q /\
       forall a, answered mh i a -> exists r, answered m j r /\
         (readable r -> go_json_result q (of_json_server ftoa sp' t a) = returned r) /\
         (~ readable r -> go_json_result q (of_json_server ftoa sp' t a) = GErr (str "internal") None)).
Proof. exact http_go. Qed.
Print Assumptions C94_clients.
(** A JSON client and a protobuf client in the crowd of C73. *)
Example C94_ex :
  let req s := match s with SentTo _ _ h => h | NotSent => mkHreq [] [] [] [] end in
  let base := str "http://comfo.local:3094" in
  let hs := [(mkHreq (str "GET") [] [] [], str "1ms"); (req (go_json_send true base None GetFansRPC), str "2ms");
             (mkHreq (str "POST") [] [] [], str "3ms"); (req (go_send base None (FlushCacheR 1)), str "4ms")] in
  match exec crowd_schedule (serve_http (fun x => x) unjson hs (fresh (script (startup ++ answer 12 [44; 55; 8; 0; 9; 0]))) 0) with
  | Some m => match results m with
      | [_; Some a; _; Some b] =>
          gr_body (of_json_server (fun _ => []) true (str "2ms") a) =
            str "{""InPercent"":44, ""OutPercent"":55, ""InSpeed"":915, ""OutSpeed"":813}" /\
          go_json_result GetFansRPC (of_json_server (fun _ => []) true (str "2ms") a) = GGot (RespFans (mkPbFans 44 55 915 813)) /\
          go_result (FlushCacheR 1) (of_server b) = GGot (RespFlush true)
      | _ => False
      end
  | None => False
  end.
Proof. vm_compute. auto. Qed.
