(** The headers of requests of the Go clients: rpc/comfo/comfo.twirp.go:3187-3221, with maps and slices in a heap, so that it
    can be said what shares memory with what; and the way of the headers to the server (net/http, net/textproto of Go 1.22). *)
From Coq Require Import String.
From Verif Require Import GoBase GoStrings Twirp JsonError.

(** ** Memory *)

Notation text := (list byte).
(** A slice of strings: nil, or the first so many elements of an array. (All slices here begin with their array.) *)
Definition slice := option (nat * nat).
(** An http.Header: keys with slices. *)
Definition header := list (text * slice).
Record heap := mkHeap { h_arrays : nat -> list text; h_maps : nat -> header; h_array : nat; h_map : nat }.
Definition upd {A} (f : nat -> A) (i : nat) (x : A) : nat -> A := fun j => if Nat.eqb j i then x else f j.
Fixpoint entry (k : text) (m : header) : option slice :=
  match m with
  | [] => None
  | (k', s) :: r => if beq k k' then Some s else entry k r
  end.
Definition without (k : text) (m : header) : header := filter (fun x => negb (beq k (fst x))) m.
Definition elements (h : heap) (s : slice) : list text := match s with None => [] | Some (a, n) => firstn n (h_arrays h a) end.
(** What key [k] has in map [m]. *)
Definition values (h : heap) (m : nat) (k : text) : option (list text) := option_map (elements h) (entry k (h_maps h m)).
(** A new array, a new map, and an assignment m[k] = s. *)
Definition new_array (h : heap) (l : list text) : heap * nat := (mkHeap (upd (h_arrays h) (h_array h) l) (h_maps h) (S (h_array h)) (h_map h), h_array h).
Definition new_map (h : heap) : heap * nat := (mkHeap (h_arrays h) (upd (h_maps h) (h_map h) []) (h_array h) (S (h_map h)), h_map h).
Definition assign (h : heap) (m : nat) (k : text) (s : slice) : heap :=
  mkHeap (h_arrays h) (upd (h_maps h) m ((k, s) :: without k (h_maps h m))) (h_array h) (h_map h).

(** ** comfo.twirp.go *)

(** 3193-3201 the loop of getCustomHTTPReqHeaders, over the entries that are left. *)
Fixpoint copyEntries (h : heap) (copied : nat) (es : header) : heap :=
  match es with
  | [] => h
  | (k, None) :: r => copyEntries (assign h copied k None) copied r
  | (k, Some (a, n)) :: r =>
      let (h, b) := new_array h (firstn n (h_arrays h a)) in copyEntries (assign h copied k (Some (b, n))) copied r
  end.
(** http.Header.Set with a key in canonical form. *)
Definition set_header (h : heap) (m : nat) (k v : text) : heap :=
  let (h, a) := new_array h [v] in assign h m k (Some (a, 1%nat)).
(** 3206-3221 newRequest, the headers; [custom] is the map in the context. *)
Definition requestHeader (h : heap) (custom : option nat) (contentType : text) : heap * nat :=
  let (h, m) := new_map h in
  let h := match custom with None => h | Some c => copyEntries h m (h_maps h c) end in
  (set_header (set_header (set_header h m (str "Accept") contentType) m (str "Content-Type") contentType) m (str "Twirp-Version") (str "v8.1.3"), m).

(** ** What others may do with a map *)

Inductive change :=
| Set_ (k v : text)            (** m[k] = []string{v} *)
| Add (k v : text)             (** m[k] = append(m[k], v) *)
| Del (k : text)               (** delete(m, k) *)
| Elem (k : text) (i : nat) (v : text)  (** m[k][i] = v *)
| Share (k k' : text)          (** m[k] = m[k'] *)
| Cut (k : text) (n : nat).    (** m[k] = m[k][:n] *)
Fixpoint replace (i : nat) (v : text) (l : list text) : list text :=
  match l, i with
  | [], _ => []
  | _ :: r, O => v :: r
  | x :: r, S i => x :: replace i v r
  end.
Definition write (h : heap) (a i : nat) (v : text) : heap := mkHeap (upd (h_arrays h) a (replace i v (h_arrays h a))) (h_maps h) (h_array h) (h_map h).
(** append: in place if the array has room, else into a new one. An index out of range panics, which changes nothing. *)
Definition modify (m : nat) (h : heap) (c : change) : heap :=
  match c with
  | Set_ k v => set_header h m k v
  | Add k v =>
      match entry k (h_maps h m) with
      | Some (Some (a, n)) =>
          if Nat.ltb n (List.length (h_arrays h a)) then assign (write h a n v) m k (Some (a, S n))
          else let (h', b) := new_array h (firstn n (h_arrays h a) ++ [v]) in assign h' m k (Some (b, S n))
      | _ => set_header h m k v
      end
  | Del k => mkHeap (h_arrays h) (upd (h_maps h) m (without k (h_maps h m))) (h_array h) (h_map h)
  | Elem k i v =>
      match entry k (h_maps h m) with
      | Some (Some (a, n)) => if Nat.ltb i n then write h a i v else h
      | _ => h
      end
  | Share k k' => match entry k' (h_maps h m) with Some s => assign h m k s | None => assign h m k None end
  | Cut k n =>
      match entry k (h_maps h m) with
      | Some (Some (a, l)) => if Nat.leb n (List.length (h_arrays h a)) then assign h m k (Some (a, n)) else h
      | _ => h
      end
  end.

(** ** To the server *)

(** http.Header.Write: a line for each value, by the bytes of the keys (names and values that http.Transport refuses, and the
    replacement of line breaks in values, are left out); http.Request writes Host and Content-Length itself. *)
Definition lines (h : heap) (m : nat) : list (text * text) :=
  flat_map (fun x => map (pair (fst x)) (elements h (snd x)))
    (fold_right (fix ins p l := match l with [] => [p] | q :: r => if before (fst p) (fst q) then p :: l else q :: ins p r end) [] (h_maps h m)).
(** textproto.CanonicalMIMEHeaderKey, for names of letters, digits and the like. *)
Fixpoint canonical_ (upper : bool) (k : text) : text :=
  match k with
  | [] => []
  | c :: r => (if upper && ((97 <=? c) && (c <=? 122)) then c - 32 else if negb upper && ((65 <=? c) && (c <=? 90)) then c + 32 else c) :: canonical_ (c =? 45) r
  end.
Definition canonical (k : text) : text := canonical_ true k.
(** Header.Get at the server: the first line with this name. *)
Definition received (k : text) (ls : list (text * text)) : option text :=
  option_map snd (find (fun l => beq (canonical (fst l)) (canonical k)) ls).
