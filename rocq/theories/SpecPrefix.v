(** For the statement about path prefixes given to clients and servers. *)
From Verif Require Import GoBase Twirp GoClient Hooks ClientHooks.

(** The elements [es], each with a slash before it. *)
Definition written_out (es : list (list byte)) : list byte := concat (map (cons 47) es).
(** The type of a client's messages. *)
Definition is_pb (k : client) : bool := match cl_json k with None => true | Some _ => false end.
