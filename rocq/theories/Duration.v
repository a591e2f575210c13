(** time.Duration.String of Go 1.22 (package time, format and its helpers): the ReqTime of replies is fmt.Sprint(time.Since(start)),
    comfoserver/server.go:105, 158, 229, 244.  The buffer is filled from its end; here texts are put together in reading
    order. *)
From Coq Require Import String.
From Verif Require Import GoBase Twirp JsonWrite.

(** fmtFrac: the lowest [i] digits of [v], without trailing zeros, after a point; what remains of [v]. *)
Fixpoint fmtFrac (i : nat) (v : Z) (print : bool) (buf : list byte) : list byte * Z :=
  match i with
  | O => (if print then 46 :: buf else buf, v)
  | S i =>
      let digit := v mod 10 in
      let print := print || negb (digit =? 0) in
      fmtFrac i (v / 10) print (if print then (48 + digit) :: buf else buf)
  end.
(** format; fmtInt is [itoa]. *)
Definition durString (d : Z) : list byte :=
  let u := Z.abs d in
  (if d <? 0 then [45] else []) ++
  if u <? 1000000000 then
    if u =? 0 then str "0s"
    else
      let (prec, unit_) := if u <? 1000 then (0%nat, str "ns") else if u <? 1000000 then (3%nat, [194; 181; 115]) else (6%nat, str "ms") in
      let (f, v) := fmtFrac prec u false [] in itoa v ++ f ++ unit_
  else
    let (f, v) := fmtFrac 9 u false [] in
    let m := v / 60 in
    (if 0 <? m then
       let h := m / 60 in
       (if 0 <? h then itoa h ++ str "h" else []) ++ itoa (m mod 60) ++ str "m"
     else []) ++ itoa (v mod 60) ++ f ++ str "s".
