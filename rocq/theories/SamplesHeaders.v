(** Headers in a context. *)
From Coq Require Import String.
From Verif Require Import GoBase GoStrings Twirp JsonError Headers.

(** Map 0: an id, and a list of languages with room for more. *)
Definition some_headers : heap :=
  mkHeap (fun a => match a with O => [str "17"] | _ => [str "nl"; str "en"; str "de"] end)
    (fun _ => [(str "X-Request-Id", Some (0, 1)%nat); (str "Accept-Language", Some (1, 2)%nat); (str "Empty", None)]) 2 1.
(** Map 0: a content type, in capitals. *)
Definition capitals : heap := mkHeap (fun _ => [str "text/plain"]) (fun _ => [(str "CONTENT-TYPE", Some (0, 1)%nat)]) 1 1.
Definition pb_type : text := str "application/protobuf".
