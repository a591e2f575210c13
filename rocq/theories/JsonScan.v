(** encoding/json of Go 1.22 (scanner.go, stream.go): Decoder.Decode into a json.RawMessage, as the Twirp server and
    client use it (comfo.twirp.go:1267-1272 and copies, 3524-3527).  Not part of the repository; transcribed from that
    release.  The bytes of the first JSON value are taken, what follows is ignored. *)
From Verif Require Import GoBase.

(** scanner.go: parseState, the step functions, the opcodes. *)
Inductive pstate := PObjectKey | PObjectValue | PArrayValue.
Inductive sstate :=
| BeginValue | BeginValueOrEmpty | BeginStringOrEmpty | BeginString | EndValue | EndTop
| InString | InStringEsc | InStringEscU | InStringEscU1 | InStringEscU12 | InStringEscU123
| Neg | Num1 | Num0 | Dot | Dot0 | NumE | NumESign | NumE0
| LitT | LitTr | LitTru | LitF | LitFa | LitFal | LitFals | LitN | LitNu | LitNul.
Inductive op :=
| OContinue | OBeginLiteral | OBeginObject | OObjectKey | OObjectValue | OEndObject | OBeginArray | OArrayValue
| OEndArray | OSkipSpace | OEnd | OError.
Definition maxNestingDepth : Z := 10000.
(** isSpace *)
Definition jspace (c : byte) : bool := (c =? 32) || (c =? 9) || (c =? 13) || (c =? 10).
Definition isDigit (c : byte) : bool := (48 <=? c) && (c <=? 57).
Definition isDigit19 (c : byte) : bool := (49 <=? c) && (c <=? 57).
Definition isHex (c : byte) : bool := isDigit c || ((97 <=? c) && (c <=? 102)) || ((65 <=? c) && (c <=? 70)).

Definition sres : Type := op * sstate * list pstate.
Definition serr : sres := (OError, EndTop, []).
(** pushParseState *)
Definition push (ps : list pstate) (p : pstate) (o : op) (st : sstate) : sres :=
  if len (p :: ps) <=? maxNestingDepth then (o, st, p :: ps) else serr.
(** popParseState *)
Definition pop (o : op) (ps : list pstate) : sres :=
  (o, match ps with [] => EndTop | _ => EndValue end, ps).
Definition endValue (ps : list pstate) (c : byte) : sres :=
  match ps with
  | [] => (OEnd, EndTop, [])                    (* stateEndTop *)
  | p :: r =>
      if jspace c then (OSkipSpace, EndValue, ps)
      else match p with
           | PObjectKey => if c =? 58 then (OObjectKey, BeginValue, PObjectValue :: r) else serr
           | PObjectValue => if c =? 44 then (OObjectValue, BeginString, PObjectKey :: r)
                             else if c =? 125 then pop OEndObject r else serr
           | PArrayValue => if c =? 44 then (OArrayValue, BeginValue, ps)
                            else if c =? 93 then pop OEndArray r else serr
           end
  end.
Definition beginValue (ps : list pstate) (c : byte) : sres :=
  if jspace c then (OSkipSpace, BeginValue, ps)
  else if c =? 123 then push ps PObjectKey OBeginObject BeginStringOrEmpty
  else if c =? 91 then push ps PArrayValue OBeginArray BeginValueOrEmpty
  else if c =? 34 then (OBeginLiteral, InString, ps)
  else if c =? 45 then (OBeginLiteral, Neg, ps)
  else if c =? 48 then (OBeginLiteral, Num0, ps)
  else if c =? 116 then (OBeginLiteral, LitT, ps)
  else if c =? 102 then (OBeginLiteral, LitF, ps)
  else if c =? 110 then (OBeginLiteral, LitN, ps)
  else if isDigit19 c then (OBeginLiteral, Num1, ps)
  else serr.
Definition beginString (ps : list pstate) (c : byte) : sres :=
  if jspace c then (OSkipSpace, BeginString, ps)
  else if c =? 34 then (OBeginLiteral, InString, ps)
  else serr.
Definition num0 (ps : list pstate) (c : byte) : sres :=
  if c =? 46 then (OContinue, Dot, ps)
  else if (c =? 101) || (c =? 69) then (OContinue, NumE, ps)
  else endValue ps c.
Definition eSign (ps : list pstate) (c : byte) : sres :=
  if isDigit c then (OContinue, NumE0, ps) else serr.
Definition expect (x : byte) (st : sstate) (ps : list pstate) (c : byte) : sres :=
  if c =? x then (OContinue, st, ps) else serr.
Definition hexit (st : sstate) (ps : list pstate) (c : byte) : sres :=
  if isHex c then (OContinue, st, ps) else serr.
Definition step (st : sstate) (ps : list pstate) (c : byte) : sres :=
  match st with
  | BeginValue => beginValue ps c
  | BeginValueOrEmpty => if jspace c then (OSkipSpace, BeginValueOrEmpty, ps)
                         else if c =? 93 then endValue ps c else beginValue ps c
  | BeginStringOrEmpty => if jspace c then (OSkipSpace, BeginStringOrEmpty, ps)
                          else if c =? 125 then endValue (PObjectValue :: tl ps) c else beginString ps c
  | BeginString => beginString ps c
  | EndValue => endValue ps c
  | EndTop => (OEnd, EndTop, ps)
  | InString => if c =? 34 then (OContinue, EndValue, ps)
                else if c =? 92 then (OContinue, InStringEsc, ps)
                else if c <? 32 then serr
                else (OContinue, InString, ps)
  | InStringEsc => if (c =? 98) || (c =? 102) || (c =? 110) || (c =? 114) || (c =? 116) || (c =? 92) || (c =? 47) || (c =? 34)
                   then (OContinue, InString, ps)
                   else if c =? 117 then (OContinue, InStringEscU, ps)
                   else serr
  | InStringEscU => hexit InStringEscU1 ps c
  | InStringEscU1 => hexit InStringEscU12 ps c
  | InStringEscU12 => hexit InStringEscU123 ps c
  | InStringEscU123 => hexit InString ps c
  | Neg => if c =? 48 then (OContinue, Num0, ps) else if isDigit19 c then (OContinue, Num1, ps) else serr
  | Num1 => if isDigit c then (OContinue, Num1, ps) else num0 ps c
  | Num0 => num0 ps c
  | Dot => if isDigit c then (OContinue, Dot0, ps) else serr
  | Dot0 => if isDigit c then (OContinue, Dot0, ps)
            else if (c =? 101) || (c =? 69) then (OContinue, NumE, ps)
            else endValue ps c
  | NumE => if (c =? 43) || (c =? 45) then (OContinue, NumESign, ps) else eSign ps c
  | NumESign => eSign ps c
  | NumE0 => if isDigit c then (OContinue, NumE0, ps) else endValue ps c
  | LitT => expect 114 LitTr ps c
  | LitTr => expect 117 LitTru ps c
  | LitTru => expect 101 EndValue ps c
  | LitF => expect 97 LitFa ps c
  | LitFa => expect 108 LitFal ps c
  | LitFal => expect 115 LitFals ps c
  | LitFals => expect 101 EndValue ps c
  | LitN => expect 117 LitNu ps c
  | LitNu => expect 108 LitNul ps c
  | LitNul => expect 108 EndValue ps c
  end.

(** stream.go readValue: the bytes up to the end of the first value, [None] on a syntax error or if the input ends
    before that. *)
Fixpoint readValue (st : sstate) (ps : list pstate) (b : list byte) : option (list byte) :=
  match b with
  | [] => match step st ps 32 with (OEnd, _, _) => Some [] | _ => None end
  | c :: r =>
      match step st ps c with
      | (OEnd, _, _) => Some []
      | (OError, _, _) => None
      | (OEndObject, st', ps') | (OEndArray, st', ps') =>
          match ps' with
          | [] => Some [c]
          | _ => option_map (cons c) (readValue st' ps' r)
          end
      | (_, st', ps') => option_map (cons c) (readValue st' ps' r)
      end
  end.
(** White space before a value is skipped. *)
Fixpoint skipSpace (b : list byte) : list byte :=
  match b with
  | c :: r => if jspace c then skipSpace r else b
  | [] => []
  end.
(** Decode: decode.go scans the same bytes again, and hands them to RawMessage without the white space before. *)
Definition decodeRaw (b : list byte) : option (list byte) := option_map skipSpace (readValue BeginValue [] b).
