(** The JSON of errors: rpc/comfo/comfo.twirp.go:3224-3295 with encoding/json of Go 1.22 for the struct twerrJSON. *)
From Coq Require Import String.
From Verif Require Import GoBase GoStrings Wire Twirp GoClient JsonScan JsonRead JsonWrite.

(** A twirp.Error: code, message, metadata (a map: pairs with different keys, here in any order). *)
Record gerror := mkGerror { ge_code : list byte; ge_msg : list byte; ge_meta : list (list byte * list byte) }.

(** ** Writing (encode.go) *)

(** htmlSafeSet *)
Definition htmlSafe (c : byte) : bool := (32 <=? c) && negb ((c =? 34) || (c =? 92) || (c =? 60) || (c =? 62) || (c =? 38)).
(** appendString with escapeHTML, between the quotes.  Runs of characters that need no escape are taken one by one. *)
Fixpoint goEscape (fuel : nat) (s : list byte) : list byte :=
  match fuel, s with
  | O, _ | _, [] => []
  | S f, b :: s' =>
      if b <? 128 then
        (if htmlSafe b then [b]
         else 92 :: (if (b =? 92) || (b =? 34) then [b]
                     else if b =? 8 then [98]
                     else if b =? 12 then [102]
                     else if b =? 10 then [110]
                     else if b =? 13 then [114]
                     else if b =? 9 then [116]
                     else [117; 48; 48; hexlow (b / 16); hexlow (b mod 16)])) ++ goEscape f s'
      else
        let (r, w) := decodeRune s in
        (if (r =? runeError) && Nat.eqb w 1 then [92; 117; 102; 102; 102; 100]
         else if (r =? 8232) || (r =? 8233) then str "\u202" ++ [hexlow (r mod 16)]
         else firstn w s) ++ goEscape f (skipn w s)
  end.
Definition goString (s : list byte) : list byte := 34 :: goEscape (S (List.length s)) s ++ [34].
(** mapEncoder.encode writes the pairs in the order of their keys. *)
Fixpoint before (a b : list byte) : bool :=
  match a, b with
  | [], _ => true
  | _ :: _, [] => false
  | x :: a, y :: b => (x <? y) || ((x =? y) && before a b)
  end.
Fixpoint insertPair (p : list byte * list byte) (l : list (list byte * list byte)) : list (list byte * list byte) :=
  match l with
  | [] => [p]
  | q :: r => if before (fst p) (fst q) then p :: l else q :: insertPair p r
  end.
Definition sortPairs (l : list (list byte * list byte)) : list (list byte * list byte) := fold_right insertPair [] l.
Fixpoint goPairs (l : list (list byte * list byte)) : list byte :=
  match l with
  | [] => []
  | [(k, v)] => goString k ++ 58 :: goString v
  | (k, v) :: r => goString k ++ 58 :: goString v ++ 44 :: goPairs r
  end.
(** 3232-3251 marshalErrorToJSON.  Marshalling strings does not fail. *)
Definition marshalErrorToJSON (e : gerror) : list byte :=
  let msg := if 1000000 <? len (ge_msg e) then firstn (Z.to_nat 1000000) (ge_msg e) else ge_msg e in
  str "{""code"":" ++ goString (ge_code e) ++ str ",""msg"":" ++ goString msg ++
  (match ge_meta e with
   | [] => []
   | _ => str ",""meta"":{" ++ goPairs (sortPairs (ge_meta e)) ++ [125]
   end) ++ [125].

(** ** Reading (decode.go) *)

(** rescanLiteral for a string, after the opening quote: what is between the quotes, and the rest. *)
Fixpoint rawString (s : list byte) : option (list byte * list byte) :=
  match s with
  | [] => None
  | c :: r =>
      if c =? 34 then Some ([], r)
      else if c =? 92 then
        match r with
        | [] => None
        | e :: r' => option_map (fun x => (c :: e :: fst x, snd x)) (rawString r')
        end
      else option_map (fun x => (c :: fst x, snd x)) (rawString r)
  end.
(** getu4 *)
Definition getu4 (s : list byte) : option Z :=
  match s with
  | b :: u :: x1 :: x2 :: x3 :: x4 :: _ => if (b =? 92) && (u =? 117) then hex4 x1 x2 x3 x4 else None
  | _ => None
  end.
(** unquoteBytes, on what is between the quotes.  (The quote ' may also be escaped there, but the scanner has refused
    that.) *)
Fixpoint unquote (fuel : nat) (s : list byte) : option (list byte) :=
  match fuel with
  | O => None
  | S f =>
      let emit t s := option_map (app t) (unquote f s) in
      match s with
      | [] => Some []
      | c :: r =>
          if c =? 92 then
            match r with
            | [] => None
            | e :: r' =>
                if (e =? 34) || (e =? 92) || (e =? 47) || (e =? 39) then emit [e] r'
                else if e =? 98 then emit [8] r'
                else if e =? 102 then emit [12] r'
                else if e =? 110 then emit [10] r'
                else if e =? 114 then emit [13] r'
                else if e =? 116 then emit [9] r'
                else if e =? 117 then
                  match getu4 s with
                  | None => None
                  | Some rr =>
                      let s' := skipn 6 s in
                      if in_rng 55296 57343 rr then
                        let dec := match getu4 s' with Some rr1 => utf16Decode rr rr1 | None => runeError end in
                        if negb (dec =? runeError) then emit (encodeRune dec) (skipn 6 s')
                        else emit (encodeRune runeError) s'
                      else emit (encodeRune rr) s'
                  end
                else None
            end
          else if (c =? 34) || (c <? 32) then None
          else if c <? 128 then emit [c] r
          else let (rr, w) := decodeRune s in emit (encodeRune rr) (skipn w s)
      end
  end.
Definition unquoted (s : list byte) : option (list byte) := unquote (S (List.length s)) s.
(** foldName: letters as capitals; U+017F is a form of S and U+212A of K.  No other character beyond ASCII is a form of an
    ASCII letter; they are left as they are. *)
Fixpoint foldName (fuel : nat) (s : list byte) : list byte :=
  match fuel, s with
  | O, _ | _, [] => []
  | S f, c :: r =>
      if c <? 128 then (if in_rng 97 122 c then c - 32 else c) :: foldName f r
      else let (rr, w) := decodeRune s in
           (if rr =? 383 then [83] else if rr =? 8490 then [75] else firstn w s) ++ foldName f (skipn w s)
  end.
(** The field of twerrJSON with this name: exactly, or else the first that differs by case. *)
Inductive efield := FCode | FMsg | FMeta.
Definition fieldNamed (n : list byte) : option efield :=
  if beq n (str "code") then Some FCode
  else if beq n (str "msg") then Some FMsg
  else if beq n (str "meta") then Some FMeta
  else let m := foldName (List.length n) n in
       if beq m (str "CODE") then Some FCode
       else if beq m (str "MSG") then Some FMsg
       else if beq m (str "META") then Some FMeta
       else None.
(** A value for a string.  null leaves it as it is ([cur]).  Other values are an UnmarshalTypeError.  Decode goes on
    after such an error and returns it in the end; here the first one ends the reading. *)
Definition stringValue (cur : list byte) (s : list byte) : option (list byte * list byte) :=
  match s with
  | c :: r =>
      if c =? 34 then
        match rawString r with
        | Some (raw, r') => option_map (fun t => (t, r')) (unquoted raw)
        | None => None
        end
      else if c =? 110 then Some (cur, skipn 4 s)
      else None
  | [] => None
  end.
(** A member: its name, and what follows the colon. *)
Definition memberName (s : list byte) : option (list byte * list byte) :=
  match s with
  | q :: r =>
      if q =? 34 then
        match rawString r with
        | Some (raw, r') =>
            match unquoted raw, skipSpace r' with
            | Some n, c :: r2 => if c =? 58 then Some (n, skipSpace r2) else None
            | _, _ => None
            end
        | None => None
        end
      else None
  | [] => None
  end.
Fixpoint putPair (k v : list byte) (m : list (list byte * list byte)) : list (list byte * list byte) :=
  match m with
  | [] => [(k, v)]
  | (k', v') :: r => if beq k k' then (k, v) :: r else (k', v') :: putPair k v r
  end.
(** object for map[string]string, after the brace; null is the empty string. *)
Fixpoint metaMembers (fuel : nat) (m : list (list byte * list byte)) (s : list byte) : option (list (list byte * list byte) * list byte) :=
  match fuel with
  | O => None
  | S f =>
      match skipSpace s with
      | c :: r =>
          if c =? 125 then Some (m, r)
          else match memberName (c :: r) with
               | None => None
               | Some (k, r1) =>
                   match stringValue [] r1 with
                   | None => None
                   | Some (v, r2) =>
                       match skipSpace r2 with
                       | c2 :: r3 => if c2 =? 44 then metaMembers f (putPair k v m) r3
                                     else if c2 =? 125 then Some (putPair k v m, r3) else None
                       | [] => None
                       end
                   end
               end
      | [] => None
      end
  end.
Definition metaValue (m : list (list byte * list byte)) (s : list byte) : option (list (list byte * list byte) * list byte) :=
  match s with
  | c :: r => if c =? 123 then metaMembers (S (List.length r)) m r
              else if c =? 110 then Some ([], skipn 4 s)
              else None
  | [] => None
  end.
(** object for the struct, after the brace; unknown names are errors (DisallowUnknownFields). *)
Fixpoint errorMembers (fuel : nat) (e : gerror) (s : list byte) : option gerror :=
  match fuel with
  | O => None
  | S f =>
      match skipSpace s with
      | c :: r =>
          if c =? 125 then Some e
          else match memberName (c :: r) with
               | None => None
               | Some (n, r1) =>
                   let x := match fieldNamed n with
                            | None => None
                            | Some FCode => option_map (fun x => (mkGerror (fst x) (ge_msg e) (ge_meta e), snd x)) (stringValue (ge_code e) r1)
                            | Some FMsg => option_map (fun x => (mkGerror (ge_code e) (fst x) (ge_meta e), snd x)) (stringValue (ge_msg e) r1)
                            | Some FMeta => option_map (fun x => (mkGerror (ge_code e) (ge_msg e) (fst x), snd x)) (metaValue (ge_meta e) r1)
                            end in
                   match x with
                   | None => None
                   | Some (e', r2) =>
                       match skipSpace r2 with
                       | c2 :: r3 => if c2 =? 44 then errorMembers f e' r3 else if c2 =? 125 then Some e' else None
                       | [] => None
                       end
                   end
               end
      | [] => None
      end
  end.
(** 3276-3279 dec.Decode: the first value of the body; null changes nothing, and other values are errors. *)
Definition decodeError (body : list byte) : option gerror :=
  match decodeRaw body with
  | Some (c :: r) => if c =? 123 then errorMembers (S (List.length r)) (mkGerror [] [] []) r
                     else if c =? 110 then Some (mkGerror [] [] [])
                     else None
  | _ => None
  end.
(** A response with its body, for [errorFromResponse]. *)
Definition of_http (status : Z) (body : list byte) : gresp := mkGresp status body (option_map ge_code (decodeError body)).
