(** Concrete executions of the server with its HTTP front end. *)
From Coq Require Import String.
From Verif Require Import GoBase Proto SpecProto SpecFrame SpecConn Conn Proc Lib Server Wire Twirp ClientHttp SpecWire SpecTwirp Machine SpecMachine HttpMachine SpecHttp
  Samples SamplesServer SamplesUnit SamplesMachine.

Definition sent (q : rpc) : hreq := match post q with Some h => h | None => mkHreq [] [] [] [] end.
(** A stray GET, a getter, a body that is cut off, and a FlushCache of the fans. *)
Definition crowd : list (hreq * list byte) :=
  [(mkHreq (str "GET") (str "/twirp/comfo.api.Comfo/GetFans") (str "application/protobuf") [], str "1ms");
   (sent GetFansRPC, str "2ms");
   (mkHreq (str "POST") (str "/twirp/comfo.api.Comfo/SetComfortTemp") (str "application/protobuf") [8; 128], str "3ms");
   (sent (FlushCacheR 1), str "4ms")].
Definition crowded : machine hresp :=
  serve_http (fun x => x) (fun _ _ => None) crowd (fresh (script (startup ++ answer 12 [44; 55; 8; 0; 9; 0]))) 0.
Definition crowd_schedule : list item :=
  repeat RunWk 94 ++ [Flush 3] ++ repeat RunWk 14 ++ [Succ 3; RunWk] ++ repeat (Run 1) 6.
