(** The Python client against the server over HTTP: client.py, comfo_twirp.py, the Twirp server, one request at a
    time.  [t] is the ReqTime of the reply.  Exceptions other than a Twirp error with a code of the RPC handlers
    are [Transport]. *)
From Verif Require Import GoBase Proto Scanner Conn Proc Lib Server Client Wire Twirp.

(** What the stub returns or raises, as the rest of the client sees it (client.py:42-53 etc.). *)
Definition seen (s : stubres) : reply :=
  match s with
  | Got r => Reply r
  | Twirp (TRpc e) => Reply (RespErr e)
  | Twirp _ | OtherExc => Lost
  end.
Definition askHTTP {A} (ulower : list byte -> list byte) (unjson : desc -> list byte -> option msg) (t : list byte)
    (m : method A) (w : world shared) : option (pyres A) * world shared :=
  match m with
  | Raises e => (Some (PyRaise e), w)
  | Asks q k =>
      match post q with
      | None => (Some (k Lost), w)
      | Some h =>
          match run (serveHTTP ulower unjson t h) w with
          | (RDone a, w') =>
              (Some (k (if w_clk w' - w_clk w <? WriteTimeout then seen (stub_result q a) else Lost)), w')
          | (_, w') => (None, w')
          end
      end
  end.
