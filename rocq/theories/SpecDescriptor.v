(** The messages and methods of rpc/comfo/comfo.proto, and what it is for bytes to describe such a file
    (google/protobuf/descriptor.proto: FileDescriptorProto and the messages in it). *)
From Coq Require Import String.
From Verif Require Import GoBase Lib Wire Twirp SpecWire.

Inductive ptype := PUint32 | PBool | PFloat | PString | PEnum (name : string).
(** A message: its fields (number, name, type) and the enums defined in it (names with their numbers). *)
Record pmessage := mkMessage { m_name : string; m_fields : list (Z * string * ptype); m_enums : list (string * list (string * Z)) }.
(** A service: its methods with the messages they take and return. *)
Record pservice := mkService { s_name : string; s_methods : list (string * string * string) }.
Record pfile := mkFile { f_package : string; f_messages : list pmessage; f_services : list pservice }.

(** rpc/comfo/comfo.proto *)
Definition comfo_proto : pfile :=
  let u n name := (n, name, PUint32) in let b n name := (n, name, PBool) in let s n name := (n, name, PString) in
  let f n name := (n, name, PFloat) in let message name fs := mkMessage name fs [] in
  let modified name orig target := message name [b 1 "Modified"; u 2 orig; u 3 target; s 4 "ReqTime"]%string in
  (mkFile "comfo.api"
    [message "Noop" [];
     message "Bypass" [u 1 "Factor"; u 2 "Level"; u 3 "Correction"; b 4 "SummerMode"];
     message "BootInfo" [u 1 "MajorVersion"; u 2 "MinorVersion"; u 3 "BetaVersion"; s 4 "DeviceName"];
     message "ComfortTarget" [u 1 "ComfortTemp"];
     modified "ComfortModified" "OriginalTemp" "TargetTemp";
     message "Errors" [b 1 "Filter"];
     message "Fans" [u 1 "InPercent"; u 2 "OutPercent"; u 3 "InSpeed"; u 4 "OutSpeed"];
     message "FanProfiles"
       [u 1 "OutAway"; u 2 "OutLow"; u 3 "OutMid"; u 4 "OutHigh"; b 5 "InFanActive"; u 6 "InAway"; u 7 "InLow"; u 8 "InMid";
        u 9 "InHigh"; u 10 "CurrentOut"; u 11 "CurrentIn"; u 12 "CurrentMode"];
     message "FanProfileTarget" [u 1 "Mode"; u 2 "TargetSpeed"];
     modified "FanProfileModified" "OriginalSpeed" "TargetSpeed";
     message "FanSpeedTarget" [u 1 "Abs"; b 2 "Rel"];
     modified "FanSpeedModified" "OriginalSpeed" "TargetSpeed";
     message "Hours" [u 1 "FanAway"; u 2 "FanLow"; u 3 "FanMid"; u 4 "FanHigh"; u 5 "FrostProtect"; u 6 "Reheating";
       u 7 "BypassOpen"; u 8 "Filter"];
     message "Temps" [f 1 "Comfort"; f 2 "OutsideAir"; f 3 "SupplyAir"; f 4 "InsideAir"; f 5 "ExhaustAir"; f 6 "GeoHeat";
       f 7 "Reheating"; f 8 "KitchenHood"];
     mkMessage "FlushCacheRequest" [(1, "Cache", PEnum "CacheType")]
       [("CacheType", [("BootInfo", 0); ("Fans", 1); ("Temps", 2); ("Profiles", 3); ("Bypass", 4); ("All", 10)])];
     message "FlushCacheResponse" [b 1 "Success"; s 2 "ReqTime"]]
    [mkService "Comfo"
       [("GetBootInfo", "Noop", "BootInfo"); ("GetTemps", "Noop", "Temps"); ("GetBypass", "Noop", "Bypass");
        ("GetFans", "Noop", "Fans"); ("GetFanProfiles", "Noop", "FanProfiles"); ("GetErrors", "Noop", "Errors");
        ("SetFanSpeed", "FanSpeedTarget", "FanSpeedModified"); ("SetComfortTemp", "ComfortTarget", "ComfortModified");
        ("SetFanProfile", "FanProfileTarget", "FanProfileModified");
        ("FlushCache", "FlushCacheRequest", "FlushCacheResponse")]])%string.

(** ** Descriptors *)

(** The name is given, once. *)
Definition named (n : Z) (fs : list (Z * wval)) (s : string) : Prop := strings n fs = [str s].
Definition numbered (n : Z) (fs : list (Z * wval)) (v : Z) : Prop := varints n fs = [v].
(** There are no fields but these. *)
Definition only (ns : list Z) (fs : list (Z * wval)) : Prop := Forall (fun f => In (fst f) ns) fs.
(** FieldDescriptorProto.Type *)
Definition type_number (t : ptype) : Z :=
  match t with PFloat => 2 | PBool => 8 | PString => 9 | PUint32 => 13 | PEnum _ => 14 end.
(** A singular field (label 1) of message [m], known by the same name in JSON. *)
Definition describes_field (pkg m : string) (b : list byte) (f : Z * string * ptype) : Prop :=
  let '(n, name, t) := f in
  exists fs, encodes fs b /\ only [1; 3; 4; 5; 6; 10] fs /\ named 1 fs name /\ numbered 3 fs n /\ numbered 4 fs 1 /\
    numbered 5 fs (type_number t) /\
    match t with PEnum e => named 6 fs ("." ++ pkg ++ "." ++ m ++ "." ++ e)%string | _ => strings 6 fs = [] end /\
    (strings 10 fs = [] \/ named 10 fs name).
Definition describes_value (b : list byte) (v : string * Z) : Prop :=
  exists fs, encodes fs b /\ only [1; 2] fs /\ named 1 fs (fst v) /\ numbered 2 fs (snd v).
Definition describes_enum (b : list byte) (e : string * list (string * Z)) : Prop :=
  exists fs, encodes fs b /\ only [1; 2] fs /\ named 1 fs (fst e) /\ Forall2 describes_value (strings 2 fs) (snd e).
Definition describes_message (pkg : string) (b : list byte) (m : pmessage) : Prop :=
  exists fs, encodes fs b /\ only [1; 2; 4] fs /\ named 1 fs (m_name m) /\
    Forall2 (describes_field pkg (m_name m)) (strings 2 fs) (m_fields m) /\
    Forall2 describes_enum (strings 4 fs) (m_enums m).
(** Neither the requests nor the replies are streams (numbers 5 and 6). *)
Definition describes_method (pkg : string) (b : list byte) (m : string * string * string) : Prop :=
  let '(name, i, o) := m in
  exists fs, encodes fs b /\ only [1; 2; 3] fs /\ named 1 fs name /\ named 2 fs ("." ++ pkg ++ "." ++ i)%string /\
    named 3 fs ("." ++ pkg ++ "." ++ o)%string.
Definition describes_service (pkg : string) (b : list byte) (s : pservice) : Prop :=
  exists fs, encodes fs b /\ only [1; 2] fs /\ named 1 fs (s_name s) /\
    Forall2 (describes_method pkg) (strings 2 fs) (s_methods s).
(** A file of proto3 that imports nothing: name, package, messages, services, options. *)
Definition describes (b : list byte) (f : pfile) : Prop :=
  exists fs, encodes fs b /\ only [1; 2; 4; 6; 8; 12] fs /\ named 2 fs (f_package f) /\ named 12 fs "proto3" /\
    Forall2 (describes_message (f_package f)) (strings 4 fs) (f_messages f) /\
    Forall2 (describes_service (f_package f)) (strings 6 fs) (f_services f).

(** ** What the file says of a method *)
Definition methods (f : pfile) : list (string * string * string) := concat (map s_methods (f_services f)).
(** The message of that name is this. *)
Definition message_of (f : pfile) (name : string) (m : pmessage) : Prop := In m (f_messages f) /\ m_name m = name.
(** [f] has method [name], from [i] to [o]. *)
Definition method_of (f : pfile) (name : string) (i o : pmessage) : Prop :=
  exists a b, In (name, a, b) (methods f) /\ message_of f a i /\ message_of f b o.

(** ** Generated code *)

(** How a field of a type is stored: as the kind of the reader and writer of messages. *)
Definition kind_of (t : ptype) : kind :=
  match t with PUint32 => KUint32 | PBool => KBool | PFloat => KFloat | PString => KString | PEnum _ => KEnum end.
Definition field_names (m : pmessage) : list string := map (fun f => snd (fst f)) (m_fields m).
Definition field_kinds (m : pmessage) : desc := map (fun f => (fst (fst f), kind_of (snd f))) (m_fields m).
(** A Go field (name, type, wire format, number, names in protobuf and JSON) of the struct for [m]. *)
Definition go_field (m : pmessage) (f : Z * string * ptype) (g : string * string * string * Z * string * string) : Prop :=
  let '(n, name, t) := f in
  let '(gname, gtype, wire, gn, pname, jname) := g in
  gname = name /\ pname = name /\ jname = name /\ gn = n /\
  match t with
  | PUint32 => gtype = "uint32" /\ wire = "varint"
  | PBool => gtype = "bool" /\ wire = "varint"
  | PFloat => gtype = "float32" /\ wire = "fixed32"
  | PString => gtype = "string" /\ wire = "bytes"
  | PEnum e => gtype = (m_name m ++ "_" ++ e)%string /\ wire = "varint"
  end%string.
Definition go_struct (m : pmessage) (s : string * list (string * string * string * Z * string * string)) : Prop :=
  fst s = m_name m /\ Forall2 (go_field m) (m_fields m) (snd s).
(** One implementation in either encoding of every method, and no other. *)
Definition both_encodings (l : list (string * string * string * string)) : Prop :=
  NoDup l /\ forall name enc i o, In (name, enc, i, o) l <->
    In (name, i, o) (methods comfo_proto) /\ (enc = "JSON" \/ enc = "Protobuf")%string.
(** The types: enums, then messages in their order (1390-1408).  The dependencies: the types of the one enum field, of
    the methods' arguments and of their results, as indices into the types; then the starts of those lists (1409-1436). *)
Definition dependencies (types : list string) (deps : list Z) : Prop :=
  types = (["FlushCacheRequest_CacheType"%string] ++ map m_name (f_messages comfo_proto))%list /\
  exists ins outs, deps = [0] ++ ins ++ outs ++ [1 + len ins; 1; 1; 1; 0] /\
    Forall2 (fun m k => 0 <= k /\ nth_error types (Z.to_nat k) = Some (snd (fst m))) (methods comfo_proto) ins /\
    Forall2 (fun m k => 0 <= k /\ nth_error types (Z.to_nat k) = Some (snd m)) (methods comfo_proto) outs.
