(** Interleaved execution of the server with its HTTP front end. *)
From Verif Require Import GoBase Conn Proc Lib Server Wire Twirp Machine.

(** The server process (comfo.go:57-71; comfoserver/server.go has the handlers): net/http runs a goroutine for every request,
    which routes and decodes it, calls the handler and encodes the reply (rpc/comfo/comfo.twirp.go).
    A request comes with the string that will be the ReqTime of its reply.  As in [serve], requests may
    arrive at any time.  Routing and coding touch nothing that is shared and take no step of their own. *)
Definition serve_http (ulower : list byte -> list byte) (unjson : desc -> list byte -> option msg)
    (hs : list (hreq * list byte)) (c : conn) (clk : Z) : machine hresp :=
  mkMachine (mkMem c init_shared clk) (map (fun x => mkThread (serveHTTP ulower unjson (snd x) (fst x)) []) hs)
            (Some (mkThread StartCaches [])).
