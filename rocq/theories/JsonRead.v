(** google.golang.org/protobuf v1.34.1, internal/encoding/json (decode.go, decode_number.go, decode_string.go,
    decode_token.go) and encoding/protojson/decode.go, for the messages of rpc/comfo/comfo.proto (singular scalar fields)
    and the options used by Twirp (DiscardUnknown).  Not part of the repository; transcribed from that release.
    No extensions are registered, so that a name in brackets is an unknown field. *)
From Coq Require Import String Floats.SpecFloat.
From Verif Require Import GoBase GoStrings Proto Scanner Conn Proc Lib Server Wire Twirp JsonScan.

(** ** Tokens *)

(** isNotDelim *)
Definition isNotDelim (c : byte) : bool :=
  (c =? 45) || (c =? 43) || (c =? 46) || (c =? 95) || ((97 <=? c) && (c <=? 122)) || ((65 <=? c) && (c <=? 90)) || isDigit c.
(** The next byte is a delimiter, or there is none. *)
Definition delimited (b : list byte) : bool := match b with [] => true | c :: _ => negb (isNotDelim c) end.
(** decode.go consume: white space is removed after every token. *)
Definition jtrim (b : list byte) : list byte := skipSpace b.
(** matchWithDelim: the rest after the word. *)
Definition matchWithDelim (s b : list byte) : option (list byte) :=
  if hasPrefix s b && delimited (skipn (List.length s) b) then Some (skipn (List.length s) b) else None.

(** The longest prefix of digits and the rest. *)
Fixpoint spanDigits (b : list byte) : list byte * list byte :=
  match b with
  | c :: r => if isDigit c then let (d, t) := spanDigits r in (c :: d, t) else ([], b)
  | [] => ([], [])
  end.
(** decode_number.go: numberParts; [np_exp] is what follows an "e", with its sign. *)
Record numberParts := mkParts { np_neg : bool; np_int : list byte; np_frac : list byte; np_exp : option (list byte) }.
Fixpoint trimRight0 (b : list byte) : list byte :=
  match b with
  | [] => []
  | c :: r => match trimRight0 r with [] => if c =? 48 then [] else [c] | t => c :: t end
  end.
(** parseNumber and parseNumberParts, which make the same steps: the parts (frac not yet trimmed) and the rest of the
    input. *)
Definition numberExp (s : list byte) : option (option (list byte) * list byte) :=
  match s with
  | c :: x :: s' =>
      if (c =? 101) || (c =? 69) then
        if (x =? 43) || (x =? 45) then
          match s' with
          | [] => None
          | _ => let (d, t) := spanDigits s' in Some (Some (x :: d), t)
          end
        else let (d, t) := spanDigits (x :: s') in Some (Some d, t)
      else Some (None, s)
  | _ => Some (None, s)
  end.
Definition numberFrac (s : list byte) : list byte * list byte :=
  match s with
  | c :: x :: s' => if (c =? 46) && isDigit x then let (d, t) := spanDigits s' in (x :: d, t) else ([], s)
  | _ => ([], s)
  end.
Definition numberInt (s : list byte) : option (list byte * list byte) :=
  match s with
  | c :: r => if c =? 48 then Some ([], r)
              else if isDigit19 c then let (d, t) := spanDigits r in Some (c :: d, t)
              else None
  | [] => None
  end.
Definition parseNumberParts (b : list byte) : option (numberParts * list byte) :=
  let (neg, s) := match b with c :: r => if c =? 45 then (true, r) else (false, b) | [] => (false, b) end in
  match numberInt s with
  | None => None
  | Some (i, s) =>
      let (f, s) := numberFrac s in
      match numberExp s with
      | None => None
      | Some (e, s) => Some (mkParts neg i f e, s)
      end
  end.
Definition parseNumber (b : list byte) : option (numberParts * list byte) :=
  match parseNumberParts b with
  | Some (p, r) => if delimited r then Some (p, r) else None
  | None => None
  end.

(** strconv.ParseUint(s, 16, 16) on four bytes. *)
Definition hexval (c : byte) : option Z :=
  if isDigit c then Some (c - 48)
  else if (97 <=? c) && (c <=? 102) then Some (c - 87)
  else if (65 <=? c) && (c <=? 70) then Some (c - 55)
  else None.
Definition hex4 (a b c d : byte) : option Z :=
  match hexval a, hexval b, hexval c, hexval d with
  | Some a, Some b, Some c, Some d => Some (((a * 16 + b) * 16 + c) * 16 + d)
  | _, _, _, _ => None
  end.
(** string(r): UTF-8; a surrogate becomes U+FFFD (not reached). *)
Definition encodeRune (r : Z) : list byte :=
  let r := if in_rng 55296 57343 r || (1114111 <? r) then runeError else r in
  if r <? 128 then [r]
  else if r <? 2048 then [192 + r / 64; 128 + r mod 64]
  else if r <? 65536 then [224 + r / 4096; 128 + r / 64 mod 64; 128 + r mod 64]
  else [240 + r / 262144; 128 + r / 4096 mod 64; 128 + r / 64 mod 64; 128 + r mod 64].
(** utf16.DecodeRune *)
Definition utf16Decode (r1 r2 : Z) : Z :=
  if in_rng 55296 56319 r1 && in_rng 56320 57343 r2 then (r1 - 55296) * 1024 + (r2 - 56320) + 65536 else runeError.
(** decode_string.go parseString after the opening quote: the text and the rest.  Runs of plain ASCII characters are
    taken one by one. *)
Fixpoint parseString (fuel : nat) (b : list byte) : option (list byte * list byte) :=
  match fuel with
  | O => None
  | S f =>
      let emit out r := match parseString f r with Some (s, t) => Some (out ++ s, t) | None => None end in
      match b with
      | [] => None
      | _ =>
          let (r, w) := decodeRune b in
          if (r =? runeError) && Nat.eqb w 1 then None
          else if r <? 32 then None
          else if r =? 34 then Some ([], skipn 1 b)
          else if r =? 92 then
            match b with
            | _ :: e :: s =>
                if (e =? 34) || (e =? 92) || (e =? 47) then emit [e] s
                else if e =? 98 then emit [8] s
                else if e =? 102 then emit [12] s
                else if e =? 110 then emit [10] s
                else if e =? 114 then emit [13] s
                else if e =? 116 then emit [9] s
                else if e =? 117 then
                  match s with
                  | x1 :: x2 :: x3 :: x4 :: s =>
                      match hex4 x1 x2 x3 x4 with
                      | None => None
                      | Some v =>
                          if in_rng 55296 57343 v then
                            match s with
                            | y0 :: y1 :: y2 :: y3 :: y4 :: y5 :: s =>
                                match hex4 y2 y3 y4 y5 with
                                | None => None
                                | Some v2 =>
                                    let r := utf16Decode v v2 in
                                    if negb (y0 =? 92) || negb (y1 =? 117) || (r =? runeError) then None
                                    else emit (encodeRune r) s
                                end
                            | _ => None
                            end
                          else emit (encodeRune v) s
                      end
                  | _ => None
                  end
                else None
            | _ => None
            end
          else emit (firstn w b) (skipn w b)
      end
  end.

Inductive token :=
| KEOF | KNull | KTrue (b : bool) | KNumber (p : numberParts) | KText (s : list byte) | KName (s : list byte)
| KObjectOpen | KObjectClose | KArrayOpen | KArrayClose | KComma.
(** parseNext; the input has been trimmed. *)
Definition parseNext (b : list byte) : option (token * list byte) :=
  let b := jtrim b in
  let got t r := Some (t, jtrim r) in
  match b with
  | [] => Some (KEOF, [])
  | c :: r =>
      if c =? 110 then match matchWithDelim (str "null") b with Some r => got KNull r | None => None end
      else if c =? 116 then match matchWithDelim (str "true") b with Some r => got (KTrue true) r | None => None end
      else if c =? 102 then match matchWithDelim (str "false") b with Some r => got (KTrue false) r | None => None end
      else if (c =? 45) || isDigit c then match parseNumber b with Some (p, r) => got (KNumber p) r | None => None end
      else if c =? 34 then match parseString (S (List.length r)) r with Some (s, r) => got (KText s) r | None => None end
      else if c =? 123 then got KObjectOpen r
      else if c =? 125 then got KObjectClose r
      else if c =? 91 then got KArrayOpen r
      else if c =? 93 then got KArrayClose r
      else if c =? 44 then got KComma r
      else None
  end.

(** Decoder: the rest of the input, the last token, the open objects (true) and arrays (false). *)
Record jdec := mkDec { jd_in : list byte; jd_last : option token; jd_open : list bool }.
Definition isValueNext (s : jdec) : bool :=
  match jd_open s with
  | [] => match jd_last s with None => true | _ => false end
  | true :: _ => match jd_last s with Some (KName _) => true | _ => false end
  | false :: _ => match jd_last s with Some KArrayOpen | Some KComma => true | _ => false end
  end.
(** scalar, ObjectClose or ArrayClose *)
Definition afterValue (s : jdec) : bool :=
  match jd_last s with
  | Some (KNull | KTrue _ | KNumber _ | KText _ | KObjectClose | KArrayClose) => true
  | _ => false
  end.
(** Read, without the repetition after a comma: the token and the new state. *)
Definition read1 (s : jdec) : option (token * jdec) :=
  match parseNext (jd_in s) with
  | None => None
  | Some (t, r) =>
      match t with
      | KEOF => match jd_open s with [] => Some (t, mkDec r (Some t) []) | _ => None end
      | KNull | KTrue _ | KNumber _ => if isValueNext s then Some (t, mkDec r (Some t) (jd_open s)) else None
      | KText x =>
          if isValueNext s then Some (t, mkDec r (Some t) (jd_open s))
          else match jd_last s, r with
               | Some (KObjectOpen | KComma), c :: r => if c =? 58 then Some (KName x, mkDec (jtrim r) (Some (KName x)) (jd_open s)) else None
               | _, _ => None
               end
      | KObjectOpen => if isValueNext s then Some (t, mkDec r (Some t) (true :: jd_open s)) else None
      | KArrayOpen => if isValueNext s then Some (t, mkDec r (Some t) (false :: jd_open s)) else None
      | KObjectClose =>
          match jd_open s, jd_last s with
          | _, Some (KName _ | KComma) => None
          | true :: o, _ => Some (t, mkDec r (Some t) o)
          | _, _ => None
          end
      | KArrayClose =>
          match jd_open s, jd_last s with
          | _, Some KComma => None
          | false :: o, _ => Some (t, mkDec r (Some t) o)
          | _, _ => None
          end
      | KComma => match jd_open s with
                  | [] => None
                  | _ => if afterValue s then Some (t, mkDec r (Some t) (jd_open s)) else None
                  end
      | KName _ => None
      end
  end.
(** decode.go:57-150 Read: after a comma the next token is read; a second comma is an error ([afterValue]). *)
Definition read (s : jdec) : option (token * jdec) :=
  match read1 s with
  | Some (KComma, s') => read1 s'
  | x => x
  end.

(** ** Scalars: protojson/decode.go:284-475 and decode_token.go *)

Fixpoint decimal (acc : Z) (ds : list byte) : Z :=
  match ds with [] => acc | d :: r => decimal (acc * 10 + (d - 48)) r end.
(** An exponent: a sign and digits; [None] if there are no digits. *)
Definition expValue (e : list byte) : option Z :=
  let (neg, ds) := match e with c :: r => if c =? 45 then (true, r) else if c =? 43 then (false, r) else (false, e) | [] => (false, e) end in
  match ds with
  | [] => None
  | _ => Some (if neg then - decimal 0 ds else decimal 0 ds)
  end.
(** strconv.ParseInt(s, 10, 32); parseNumberParts refuses a sign without digits, and takes an "e" with nothing after it for
    no exponent. *)
Definition parseExp (e : option (list byte)) : option Z :=
  match e with
  | None | Some [] => Some 0
  | Some e => match expValue e with
              | Some v => if (-2147483648 <=? v) && (v <=? 2147483647) then Some v else None
              | None => None
              end
  end.
Definition loneSign (e : option (list byte)) : bool :=
  match e with Some [c] => negb (isDigit c) | _ => false end.
(** getIntStr and normalizeToIntString: a sign and digits. *)
Definition normalize (p : numberParts) : option (bool * list byte) :=
  let frac := trimRight0 (np_frac p) in
  let n := len (np_int p) in
  if loneSign (np_exp p) then None else
  match np_int p, frac with
  | [], [] => Some (false, [48])
  | _, _ =>
      match parseExp (np_exp p) with
      | None => None
      | Some exp =>
          if 0 <=? exp then
            if exp <? len frac then None
            else if 20 <? n + exp then None
            else Some (np_neg p, np_int p ++ frac ++ repeat 48 (Z.to_nat (exp - len frac)))
          else if 0 <? len frac then None
          else if n + exp <? 0 then None
          else if forallb (fun c => c =? 48) (skipn (Z.to_nat (n + exp)) (np_int p)) then Some (np_neg p, firstn (Z.to_nat (n + exp)) (np_int p))
          else None
      end
  end.
(** Token.Uint(32): strconv.ParseUint takes no sign; Token.Int(32). *)
Definition tokUint (p : numberParts) : option Z :=
  match normalize p with
  | None | Some (true, _) | Some (_, []) => None
  | Some (false, ds) => let v := decimal 0 ds in if v <=? 4294967295 then Some v else None
  end.
Definition tokInt (p : numberParts) : option Z :=
  match normalize p with
  | Some (_, []) => None
  | Some (neg, ds) => let v := if neg then - decimal 0 ds else decimal 0 ds in
                      if (-2147483648 <=? v) && (v <=? 2147483647) then Some v else None
  | None => None
  end.
(** strconv.ParseFloat(s, 32): the binary32 number nearest to the decimal one, an error if that is infinite. *)
Definition parseFloat (p : numberParts) : option f32 :=
  let e := match np_exp p with None => Some 0 | Some x => expValue x end in
  match e with
  | None => None
  | Some e =>
      let m := decimal 0 (np_int p ++ np_frac p) in
      let e := e - len (np_frac p) in
      let f := match m with
               | Zpos x => if 0 <=? e then binary_normalize f32_prec f32_emax (m * 10 ^ e) 0 false
                           else SFdiv f32_prec f32_emax (S754_finite false x 0) (S754_finite false (Z.to_pos (10 ^ - e)) 0)
               | _ => S754_zero false
               end in
      match f with
      | S754_infinity _ | S754_nan => None
      | f => Some (if np_neg p then SFopp f else f)
      end
  end.
(** A number inside a string: no white space around it; the first token of the string is read, the rest is not looked at. *)
Definition numberInString (s : list byte) : option numberParts :=
  if negb (Nat.eqb (List.length (trimSpace s)) (List.length s)) then None
  else match read (mkDec s None []) with
       | Some (KNumber p, _) => Some p
       | _ => None
       end.
(** comfo.pb.go:26-49: the names of FlushCacheRequest.CacheType. *)
Definition cacheTypes : list (list byte * Z) :=
  [(str "BootInfo", 0); (str "Fans", 1); (str "Temps", 2); (str "Profiles", 3); (str "Bypass", 4); (str "All", 10)].
Fixpoint assoc {A} (n : list byte) (l : list (list byte * A)) : option A :=
  match l with
  | [] => None
  | (m, a) :: r => if beq n m then Some a else assoc n r
  end.
(** unmarshalScalar: [Some None] leaves the field unset (unknown name of an enum value, DiscardUnknown). *)
Definition unmarshalScalar (k : kind) (t : token) : option (option pval) :=
  match k, t with
  | KBool, KTrue b => Some (Some (VBool b))
  | KUint32, KNumber p => option_map (fun v => Some (VInt v)) (tokUint p)
  | KUint32, KText s => match numberInString s with Some p => option_map (fun v => Some (VInt v)) (tokUint p) | None => None end
  | KFloat, KNumber p => option_map (fun f => Some (VFloat (f32_bits f))) (parseFloat p)
  | KFloat, KText s =>
      if beq s (str "NaN") then Some (Some (VFloat (f32_bits S754_nan)))
      else if beq s (str "Infinity") then Some (Some (VFloat (f32_bits (S754_infinity false))))
      else if beq s (str "-Infinity") then Some (Some (VFloat (f32_bits (S754_infinity true))))
      else match numberInString s with Some p => option_map (fun f => Some (VFloat (f32_bits f))) (parseFloat p) | None => None end
  | KString, KText s => Some (Some (VStr s))
  | KEnum, KText s => Some (option_map VInt (assoc s cacheTypes))
  | KEnum, KNumber p => option_map (fun v => Some (VInt v)) (tokInt p)
  | _, _ => None
  end.

(** ** Messages *)

(** Field numbers, names (the JSON name and the proto name are the same for all fields) and kinds. *)
Definition jdesc := list (Z * list byte * kind).
Fixpoint findField (n : list byte) (d : jdesc) : option (Z * kind) :=
  match d with
  | [] => None
  | (num, m, k) :: r => if beq n m then Some (num, k) else findField n r
  end.
(** skipJSONValue; RecursionLimit is 10000, less one for the message. *)
Fixpoint skipJSONValue (fuel : nat) (opened : Z) (s : jdec) : option jdec :=
  match fuel with
  | O => None
  | S f =>
      match read s with
      | None => None
      | Some (t, s) =>
          match t with
          | KObjectClose | KArrayClose => if opened - 1 =? 0 then Some s else skipJSONValue f (opened - 1) s
          | KObjectOpen | KArrayOpen => if recursionLimit - 1 <? opened + 1 then None else skipJSONValue f (opened + 1) s
          | KEOF => None
          | _ => if opened =? 0 then Some s else skipJSONValue f opened s
          end
      end
  end.
(** unmarshalMessage, from the first field on.  Peek and the Read after it give the same token. *)
Fixpoint unmarshalFields (fuel : nat) (d : jdesc) (seen : list Z) (m : msg) (s : jdec) : option (msg * jdec) :=
  match fuel with
  | O => None
  | S f =>
      match read s with
      | Some (KObjectClose, s) => Some (m, s)
      | Some (KName n, s) =>
          match findField n d with
          | None => match skipJSONValue (S (List.length (jd_in s))) 0 s with
                    | Some s => unmarshalFields f d seen m s
                    | None => None
                    end
          | Some (num, k) =>
              if existsb (Z.eqb num) seen then None
              else match read s with
                   | None => None
                   | Some (KNull, s) => unmarshalFields f d (num :: seen) m s
                   | Some (t, s) => match unmarshalScalar k t with
                                    | None => None
                                    | Some None => unmarshalFields f d (num :: seen) m s
                                    | Some (Some v) => unmarshalFields f d (num :: seen) ((num, v) :: m) s
                                    end
                   end
          end
      | _ => None
      end
  end.
(** protojson.UnmarshalOptions.Unmarshal *)
Definition unmarshalJSON (d : jdesc) (b : list byte) : option msg :=
  match read (mkDec b None []) with
  | Some (KObjectOpen, s) =>
      match unmarshalFields (S (List.length b)) d [] [] s with
      | Some (m, s) => match read s with Some (KEOF, _) => Some m | _ => None end
      | None => None
      end
  | _ => None
  end.

(** The names of the fields of the request messages (comfo.proto:38-40, 75-78, 90-93, 124-136). *)
Definition request_names (d : desc) : list string :=
  match d with
  | [(_, KEnum)] => ["Cache"]
  | [(_, KUint32)] => ["ComfortTemp"]
  | [(_, KUint32); (_, KUint32)] => ["Mode"; "TargetSpeed"]
  | [(_, KUint32); (_, KBool)] => ["Abs"; "Rel"]
  | _ => []
  end%string.
Definition named (d : desc) (names : list string) : jdesc :=
  map (fun x => (fst (fst x), str (snd x), snd (fst x))) (combine d names).
(** comfo.twirp.go:1267-1278 and copies: decoding a JSON request. *)
Definition unjson (d : desc) (b : list byte) : option msg :=
  match decodeRaw b with
  | Some raw => unmarshalJSON (named d (request_names d)) raw
  | None => None
  end.
