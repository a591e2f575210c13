(** Properties C98-C100: messages are unambiguous; descriptors and generated code agree with comfo.proto. *)
From Coq Require Import String.
From Verif Require Import GoBase Server SpecWire Wire Twirp SpecTwirp JsonRead JsonWrite SpecDescriptor Descriptor WireUnique
  DescriptorProofs DescriptorClaims.

(** C98: bytes are the encoding of at most one list of fields; *)
Theorem C98_unambiguous : forall fs fs' b, encodes fs b -> encodes fs' b -> fs = fs'.
Proof. exact encodes_unique. Qed.
Print Assumptions C98_unambiguous.
Example C98_unambiguous_ex : encodes [(1, WVarint 2); (3, WBytes [8; 1])] [8; 2; 26; 2; 8; 1] /\
  forall fs, encodes fs [8; 2; 26; 2; 8; 1] -> fs = [(1, WVarint 2); (3, WBytes [8; 1])].
Proof.
  assert (E : encodes [(1, WVarint 2); (3, WBytes [8; 1])] [8; 2; 26; 2; 8; 1]) by (apply fields_of_sound; reflexivity).
  split; [exact E|]. intros fs F. exact (encodes_unique _ _ _ F E).
Qed.
(** of two messages sent one after the other in a body, the fields are read as one message. *)
Theorem C98_appended : forall ul uj h name fs fs' b b', bytes_ok (h_body h) -> ascii (h_ctype h) -> addressed h name ->
  media "application/protobuf" (h_ctype h) -> h_body h = b ++ b' -> encodes fs b -> encodes fs' b' ->
  exists q, meaning name (fs ++ fs') = Some q /\ front ul uj h = Call true q.
Proof. exact appended. Qed.
Print Assumptions C98_appended.
Example C98_appended_ex : forall ul uj,
  encodes [(1, WVarint 2)] [8; 2] /\ encodes [(2, WVarint 50); (1, WVarint 3)] [16; 50; 8; 3] /\
  front ul uj (mkHreq (str "POST") (str "/twirp/comfo.api.Comfo/SetFanProfile") (str "application/protobuf")
    ([8; 2] ++ [16; 50; 8; 3])) = Call true (SetFanProfileR 3 50).
Proof. intros. repeat split; try (apply fields_of_sound; reflexivity). Qed.

(** C99: the descriptors in the Go and the Python code both describe rpc/comfo/comfo.proto, *)
Theorem C99_go : describes go_rawDesc comfo_proto.
Proof. exact go_describes. Qed.
Print Assumptions C99_go.
Theorem C99_python : describes py_serialized comfo_proto.
Proof. exact py_describes. Qed.
Print Assumptions C99_python.
(** and a descriptor describes one file only. *)
Theorem C99_unique : forall b f f', describes b f -> describes b f' -> f = f'.
Proof. exact describes_unique. Qed.
Print Assumptions C99_unique.
(** A small one: package p, message M with one field; and one that describes nothing. *)
Example C99_ex : describes small (mkFile "p" [mkMessage "M" [(7, "x", PBool)] []] [])%string /\
  (forall f, describes small f -> f = mkFile "p" [mkMessage "M" [(7, "x", PBool)] []] [])%string /\
  forall f, ~ describes [18; 1; 112] f.
Proof.
  assert (D : describes small (mkFile "p" [mkMessage "M" [(7, "x", PBool)] []] [])%string) by (apply check_sound; vm_compute; reflexivity).
  split; [exact D|]. split; [intros f F; exact (describes_unique _ _ _ F D)|].
  intros f (fs & E & _ & _ & S & _). assert (X : fs = [(2, WBytes [112])]) by (apply (encodes_unique _ _ _ E), fields_of_sound; reflexivity).
  subst fs. discriminate S.
Qed.

(** C100: the server routes every method of the file, reads its argument and writes its reply with the fields of the file; *)
Theorem C100_routes : forall q i o, method_of comfo_proto (rpc_name q) i o ->
  (exists r, find_route (str (rpc_name q)) rt_routes = Some r /\ rt_desc r = field_kinds i) /\
  reply_desc q = field_kinds o /\ reply_names q = field_names o.
Proof. exact model_method. Qed.
Print Assumptions C100_routes.
Theorem C100_methods : (forall q, exists i o, method_of comfo_proto (rpc_name q) i o) /\
  forall name i o, method_of comfo_proto name i o -> exists q, rpc_name q = name.
Proof. exact (conj method_named method_modelled). Qed.
Print Assumptions C100_methods.
Example C100_ex : exists i o, method_of comfo_proto "FlushCache" i o /\ field_kinds i = [(1, KEnum)] /\
  field_names o = ["Success"; "ReqTime"]%string.
Proof.
  eexists _, _. split; [apply (smethod_is _ "FlushCache" "FlushCacheRequest" "FlushCacheResponse"); reflexivity|]. split; reflexivity.
Qed.
(** the names of the caches are those of the file; *)
Theorem C100_caches : forall m vs, message_of comfo_proto "FlushCacheRequest" m -> In ("CacheType"%string, vs) (m_enums m) ->
  cacheTypes = map (fun v => (str (fst v), snd v)) vs /\ go_cache_names = vs /\ go_cache_values = vs.
Proof. exact cache_types. Qed.
Print Assumptions C100_caches.
Example C100_caches_ex : exists m vs, message_of comfo_proto "FlushCacheRequest" m /\ In ("CacheType"%string, vs) (m_enums m) /\
  In ("All"%string, 10) vs.
Proof. eexists _, _. split; [apply smessage_is; reflexivity|]. split; [left; reflexivity|]. cbn. auto 10. Qed.
(** so are the structs, types, handlers and clients in Go, and the methods in Python. *)
Theorem C100_go : Forall2 go_struct (f_messages comfo_proto) go_structs /\ dependencies go_types go_deps /\
  go_interface = methods comfo_proto /\ both_encodings go_served /\ both_encodings go_called.
Proof. exact (conj go_structs_ok (conj go_dependencies (conj go_interface_ok (conj go_served_ok go_called_ok)))). Qed.
Print Assumptions C100_go.
Theorem C100_python : forall f u r, In (f, u, r) py_stub <->
  exists i o, In (f, i, o) (methods comfo_proto) /\ u = f /\ r = (f_package comfo_proto ++ "." ++ o)%string.
Proof. exact stub_ok. Qed.
Print Assumptions C100_python.
Example C100_python_ex : In ("SetFanSpeed", "SetFanSpeed", "comfo.api.FanSpeedModified")%string py_stub.
Proof. cbn. auto 12. Qed.
Theorem C100_python_server : forall k s n f i o, In (k, s, n, f, i, o) py_endpoints <->
  exists a b, In (k, a, b) (methods comfo_proto) /\ s = "Comfo"%string /\ n = k /\ f = k /\ i = (f_package comfo_proto ++ "." ++ a)%string /\ o = (f_package comfo_proto ++ "." ++ b)%string.
Proof. exact endpoints_ok. Qed.
Print Assumptions C100_python_server.
Example C100_python_server_ex : In ("SetFanSpeed", "Comfo", "SetFanSpeed", "SetFanSpeed", "comfo.api.FanSpeedTarget", "comfo.api.FanSpeedModified")%string py_endpoints.
Proof. cbn. auto 12. Qed.
