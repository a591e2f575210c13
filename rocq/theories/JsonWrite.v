(** google.golang.org/protobuf v1.34.1, internal/encoding/json/encode.go and encoding/protojson/encode.go, for the messages of
    rpc/comfo/comfo.proto; then the JSON replies of the server and the JSON client, rpc/comfo/comfo.twirp.go:576-1088 and
    3485-3538.  The library is not part of the repository; transcribed from that release. *)
From Coq Require Import String Floats.SpecFloat.
From Verif Require Import GoBase GoStrings Proto Scanner Conn Proc Lib Server Client Wire Twirp GoClient JsonScan JsonRead.

(** ** encode.go *)

(** strconv.AppendUint(out, n, 10) *)
Fixpoint itoa_ (fuel : nat) (n : Z) : list byte :=
  match fuel with
  | O => []
  | S f => if n <? 10 then [48 + n] else itoa_ f (n / 10) ++ [48 + n mod 10]
  end.
Definition itoa (n : Z) : list byte := itoa_ (S (Z.to_nat (Z.log2 n))) n.
(** One digit of strconv.AppendUint(out, n, 16). *)
Definition hexlow (n : Z) : byte := if n <? 10 then 48 + n else 87 + n.
(** appendString, between the quotes; [None] is errors.InvalidUTF8.  Runs of characters that need no escape are taken one
    by one.  Fewer than 32: the "\u" is followed by four digits. *)
Fixpoint escape (fuel : nat) (s : list byte) : option (list byte) :=
  match fuel with
  | O => None
  | S f =>
      match s with
      | [] => Some []
      | _ =>
          let (r, w) := decodeRune s in
          if (r =? runeError) && Nat.eqb w 1 then None
          else match escape f (skipn w s) with
               | None => None
               | Some t =>
                   Some ((if (r <? 32) || (r =? 34) || (r =? 92) then
                            92 :: (if (r =? 34) || (r =? 92) then [r]
                                   else if r =? 8 then [98]
                                   else if r =? 12 then [102]
                                   else if r =? 10 then [110]
                                   else if r =? 13 then [114]
                                   else if r =? 9 then [116]
                                   else [117; 48; 48; hexlow (r / 16); hexlow (r mod 16)])
                          else firstn w s) ++ t)
               end
      end
  end.
Definition appendString (s : list byte) : option (list byte) :=
  match escape (S (List.length s)) s with Some t => Some (34 :: t ++ [34]) | None => None end.
(** appendFloat(out, n, 32): the shortest decimal that is nearest to this float (strconv.AppendFloat with precision -1).  For a
    whole number below 2^24 these are its digits; [ftoa] stands for what is written for other numbers. *)
Definition whole (m e : Z) : option Z :=
  if 0 <=? e then Some (m * 2 ^ e) else if m mod 2 ^ (- e) =? 0 then Some (m / 2 ^ (- e)) else None.
Definition appendFloat (ftoa : f32 -> list byte) (f : f32) : list byte :=
  match f with
  | S754_nan => 34 :: str "NaN" ++ [34]
  | S754_infinity s => 34 :: (if s then [45] else []) ++ str "Infinity" ++ [34]
  | S754_zero s => (if s then [45] else []) ++ [48]
  | S754_finite s m e =>
      match whole (Zpos m) e with
      | Some v => if v <? 16777216 then (if s then [45] else []) ++ itoa v else ftoa f
      | None => ftoa f
      end
  end.

(** ** protojson *)

(** marshalSingular.  Enums by name (cacheTypes), or by number if there is none. *)
Fixpoint nameOf (z : Z) (l : list (list byte * Z)) : option (list byte) :=
  match l with
  | [] => None
  | (n, v) :: r => if v =? z then Some n else nameOf z r
  end.
Definition signed (z : Z) : list byte := if z <? 0 then 45 :: itoa (- z) else itoa z.
Definition marshalSingular (ftoa : f32 -> list byte) (k : kind) (v : pval) : option (list byte) :=
  match v with
  | VBool b => Some (str (if b then "true" else "false")%string)
  | VInt z => match k with
              | KEnum => match nameOf z cacheTypes with Some n => appendString n | None => Some (signed z) end
              | _ => Some (itoa z)
              end
  | VFloat x => Some (appendFloat ftoa (f32_of_bits x))
  | VStr s => appendString s
  end.
(** protoreflect Has, for fields without presence. *)
Definition populated (v : pval) : bool :=
  match v with
  | VInt z | VFloat z => negb (z =? 0)
  | VBool b => b
  | VStr s => negb (beq s [])
  end.
(** marshalMessage: names and values in the order of the declaration; a comma before each but the first, followed by a space if
    [sp] (detrand.Bool: a fixed choice of the binary). *)
Definition jfield := (string * kind * pval)%type.
Fixpoint marshalFields (ftoa : f32 -> list byte) (sp : bool) (fs : list jfield) : option (list byte) :=
  match fs with
  | [] => Some []
  | (n, k, v) :: r =>
      match appendString (str n), marshalSingular ftoa k v, marshalFields ftoa sp r with
      | Some n, Some t, Some b =>
          Some (n ++ 58 :: t ++ match r with [] => [] | _ => 44 :: (if sp then [32] else []) end ++ b)
      | _, _, _ => None
      end
  end.
(** MarshalOptions.Marshal; [all] is EmitUnpopulated. *)
Definition marshalJSON (ftoa : f32 -> list byte) (sp all : bool) (fs : list jfield) : option (list byte) :=
  match marshalFields ftoa sp (filter (fun f => all || populated (snd f)) fs) with
  | Some b => Some (123 :: b ++ [125])
  | None => None
  end.

(** ** comfo.twirp.go *)

(** The names of the fields of the messages (comfo.proto:24-36, 42-73, 80-85, 95-100, 113-122, 138-141). *)
Definition boot_names : list string := ["MajorVersion"; "MinorVersion"; "BetaVersion"; "DeviceName"]%string.
Definition bypass_names : list string := ["Factor"; "Level"; "Correction"; "SummerMode"]%string.
Definition errors_names : list string := ["Filter"]%string.
Definition fans_names : list string := ["InPercent"; "OutPercent"; "InSpeed"; "OutSpeed"]%string.
Definition profiles_names : list string :=
  ["OutAway"; "OutLow"; "OutMid"; "OutHigh"; "InFanActive"; "InAway"; "InLow"; "InMid"; "InHigh"; "CurrentOut"; "CurrentIn";
   "CurrentMode"]%string.
Definition temps_names : list string :=
  ["Comfort"; "OutsideAir"; "SupplyAir"; "InsideAir"; "ExhaustAir"; "GeoHeat"; "Reheating"; "KitchenHood"]%string.
Definition comfort_names : list string := ["Modified"; "OriginalTemp"; "TargetTemp"; "ReqTime"]%string.
Definition speed_names : list string := ["Modified"; "OriginalSpeed"; "TargetSpeed"; "ReqTime"]%string.
Definition flush_names : list string := ["Success"; "ReqTime"]%string.
Definition resp_names (r : resp) : list string :=
  match r with
  | RespBoot _ => boot_names | RespBypass _ => bypass_names | RespErrors _ => errors_names | RespFans _ => fans_names
  | RespProf _ => profiles_names | RespTemps _ => temps_names | RespComfort _ _ _ => comfort_names
  | RespSpeed _ _ _ | RespProfile _ _ _ => speed_names | RespFlush _ => flush_names | RespErr _ => []
  end.
Definition reply_names (q : rpc) : list string :=
  match q with
  | GetBootInfo => boot_names | GetBypassRPC => bypass_names | GetErrorsRPC => errors_names | GetFansRPC => fans_names
  | GetFanProfilesRPC => profiles_names | GetTempsRPC => temps_names | SetComfortTempR _ => comfort_names
  | SetFanSpeedR _ _ | SetFanProfileR _ _ => speed_names | FlushCacheR _ => flush_names
  end.
(** 1302-1303 and copies: UseProtoNames and EmitUnpopulated are on (main.go sets no options).  There is no enum in a
    reply. *)
Definition resp_json (ftoa : f32 -> list byte) (sp : bool) (t : list byte) (r : resp) : option (list byte) :=
  marshalJSON ftoa sp true (map (fun x => (fst x, KUint32, snd (snd x))) (combine (resp_names r) (resp_fields t r))).

(** 3487-3497 doJSONRequest: UseProtoNames only. *)
Definition request_json (sp : bool) (q : rpc) : option (list byte) :=
  let fs := match q with
            | SetFanSpeedR a r => [("Abs", KUint32, VInt a); ("Rel", KBool, VBool r)]
            | SetComfortTempR t => [("ComfortTemp", KUint32, VInt t)]
            | SetFanProfileR m t => [("Mode", KUint32, VInt m); ("TargetSpeed", KUint32, VInt t)]
            | FlushCacheR c => [("Cache", KEnum, VInt c)]
            | _ => []
            end%string in
  marshalJSON (fun _ => []) sp false fs.
(** 582-627 NewComfoJSONClient makes the same URLs as NewComfoProtobufClient, used by the same methods. *)
Definition go_json_send (sp : bool) (base : list byte) (prefix : option (list byte)) (q : rpc) : sending :=
  match request_json sp q with
  | None => NotSent
  | Some b => newRequest (method_url base prefix q) (str "application/json") b
  end.
(** 3518-3535 *)
Definition go_json_result (q : rpc) (g : gresp) : gres :=
  if negb (gr_status g =? 200) then errorFromResponse g
  else match decodeRaw (gr_body g) with
       | None => GErr (str "internal") None
       | Some raw => match unmarshalJSON (named (reply_desc q) (reply_names q)) raw with
                     | Some m => GGot (read_resp q m)
                     | None => GErr (str "internal") None
                     end
       end.
(** The response of the server with its JSON. *)
Definition of_json_server (ftoa : f32 -> list byte) (sp : bool) (t : list byte) (h : hresp) : gresp :=
  match r_body h with
  | Json r => match resp_json ftoa sp t r with
              | Some b => mkGresp (r_status h) b None
              | None => of_server (writeError TMarshal)
              end
  | _ => of_server h
  end.
(** A call of the JSON client against the server, as [askGo]; the two binaries have their own [sp]. *)
Definition askGoJson (ulower : list byte -> list byte) (ftoa : f32 -> list byte) (sp sp' : bool) (t : list byte)
    (base : list byte) (prefix : option (list byte)) (q : rpc) (w : world shared) : option gres * world shared :=
  match go_json_send sp base prefix q with
  | NotSent => (Some (GErr (str "internal") None), w)
  | SentTo _ _ h =>
      match run (serveHTTP ulower unjson t h) w with
      | (RDone a, w') =>
          (Some (if w_clk w' - w_clk w <? WriteTimeout then go_json_result q (of_json_server ftoa sp' t a)
                 else GErr (str "internal") None), w')
      | (_, w') => (None, w')
      end
  end.
