(** For statements about request headers. *)
From Coq Require Import String.
From Verif Require Import GoBase GoStrings Twirp JsonError SpecJsonOrder Headers.

(** Map [m] exists and its slices lie in arrays that exist. *)
Definition present (h : heap) (m : nat) : Prop :=
  (m < h_map h)%nat /\ NoDup (map fst (h_maps h m)) /\
  forall k a n, entry k (h_maps h m) = Some (Some (a, n)) -> (a < h_array h)%nat /\ (n <= List.length (h_arrays h a))%nat.
(** The headers that a client puts itself. *)
Definition own_header (contentType k : text) : option text :=
  if beq k (str "Accept") then Some contentType else if beq k (str "Content-Type") then Some contentType
  else if beq k (str "Twirp-Version") then Some (str "v8.1.3") else None.
(** The headers in the context of the call. *)
Definition given (h : heap) (custom : option nat) (k : text) : option (list text) :=
  match custom with None => None | Some c => values h c k end.
Definition custom_ok (h : heap) (custom : option nat) : Prop := match custom with None => True | Some c => present h c end.
(** The values that are sent under a key. *)
Definition sent_under (h : heap) (custom : option nat) (ct k : text) : option (list text) :=
  match own_header ct k with Some v => Some [v] | None => given h custom k end.
(** [v] is the first value under [k'], the first spelling of [k], by its bytes, that has values. *)
Definition foremost (h : heap) (custom : option nat) (ct k k' v : text) : Prop :=
  canonical k' = canonical k /\ (exists r, sent_under h custom ct k' = Some (v :: r)) /\
  forall k2, canonical k2 = canonical k -> earlier k2 k' -> sent_under h custom ct k2 = None \/ sent_under h custom ct k2 = Some [].
