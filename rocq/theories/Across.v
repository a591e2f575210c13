(** A Go client of ClientHooks.v and a server of Hooks.v: what is written (rpc/comfo/comfo.twirp.go:3118-3136 for errors,
    1303-1318 and 1380-1396 for replies) is the response that client.Do returns (3463-3466, 3510-3513).  Not modelled: that the
    connection fails in between (Failures.v has that for any server), and the headers other than Location, which is not set. *)
From Verif Require Import GoBase GoStrings Server Wire Twirp JsonError ErrorText Failures Hooks ClientHooks.

(** The first WriteHeader and the bytes written after it. *)
Fixpoint answer (t : list hevent) : option response :=
  match t with
  | [] => None
  | HWrite n (WError g) :: _ => Some (mkResponse n [] (marshalErrorToJSON g) None)
  | HWrite n (WReply _ bs) :: _ => Some (mkResponse n [] bs None)
  | _ :: t => answer t
  end.
(** client.Do of a client that is connected to the server. *)
Definition connected (s : server) (isPrint : Z -> bool) (ulower : list byte -> list byte) (unjson : desc -> list byte -> option msg) (c : ctx) : client_do :=
  fun h => match answer (serveHooked s isPrint ulower unjson None c h) with
           | Some r => inr r
           | None => inl []
           end.
