(** Concrete connections used in examples and counterexamples. *)
From Verif Require Import GoBase Proto Scanner Conn Proc.

(** A device that accepts every Write and causes the listed read-side events, one list
    per Write, then none. *)
CoFixpoint script (l : list (list ev)) : device :=
  Dev (fun bs => (script (tl l), hd [] l, mkWres (len bs) None)).
(** A connection on which nothing has happened yet. *)
Definition fresh (d : device) : conn := mkConn d [] [] [].
Definition world0 (d : device) : world unit := mkWorld (fresh d) tt [] 0 [].
(** A connection on which the given pieces are waiting to be read. *)
Definition waiting (chunks : list (list Z)) : conn :=
  mkConn (script []) (map (fun bs => Data bs None) chunks) [] [].
