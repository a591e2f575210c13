(** Servers built with the options for JSON replies, rpc/comfo/comfo.twirp.go:1096-1097, 1106-1110, 1302 and copies. *)
From Coq Require Import String Ascii.
From Verif Require Import GoBase GoStrings Proto Scanner Conn Proc Lib Server Client Wire Twirp GoClient JsonScan JsonRead JsonWrite.

(** 1096-1097 *)
Record json_options := mkJopts { jsonSkipDefaults : bool; jsonCamelCase : bool }.
(** google.golang.org/protobuf v1.34.1, internal/strs/strings.go JSONCamelCase: the JSON name of a field (the name that protoc puts
    into the descriptor is made in the same way). *)
Fixpoint camel_ (under : bool) (s : string) : string :=
  match s with
  | EmptyString => EmptyString
  | String c r =>
      let n := nat_of_ascii c in
      if Nat.eqb n 95 then camel_ true r
      else String (if under && (Nat.leb 97 n && Nat.leb n 122) then ascii_of_nat (n - 32) else c) (camel_ false r)
  end.
Definition JSONCamelCase (s : string) : string := camel_ false s.
(** 1302-1303 and copies. *)
Definition resp_json_with (o : json_options) (ftoa : f32 -> list byte) (sp : bool) (t : list byte) (r : resp) : option (list byte) :=
  marshalJSON ftoa sp (negb (jsonSkipDefaults o))
    (map (fun x => (if jsonCamelCase o then JSONCamelCase (fst x) else fst x, KUint32, snd (snd x))) (combine (resp_names r) (resp_fields t r))).
(** As [of_json_server] and [askGoJson], for such a server. *)
Definition of_json_server_with (o : json_options) (ftoa : f32 -> list byte) (sp : bool) (t : list byte) (h : hresp) : gresp :=
  match r_body h with
  | Json r => match resp_json_with o ftoa sp t r with
              | Some b => mkGresp (r_status h) b None
              | None => of_server (writeError TMarshal)
              end
  | _ => of_server h
  end.
Definition askGoJsonWith (o : json_options) (ulower : list byte -> list byte) (ftoa : f32 -> list byte) (sp sp' : bool) (t : list byte)
    (base : list byte) (prefix : option (list byte)) (q : rpc) (w : world shared) : option gres * world shared :=
  match go_json_send sp base prefix q with
  | NotSent => (Some (GErr (str "internal") None), w)
  | SentTo _ _ h =>
      match run (serveHTTP ulower unjson t h) w with
      | (RDone a, w') =>
          (Some (if w_clk w' - w_clk w <? WriteTimeout then go_json_result q (of_json_server_with o ftoa sp' t a)
                 else GErr (str "internal") None), w')
      | (_, w') => (None, w')
      end
  end.
