(** The descriptors and the generated code, checked against comfo.proto. *)
From Coq Require Import String.
From Verif Require Import ProofBase Lib Server Wire Twirp JsonRead JsonWrite SpecWire SpecTwirp SpecDescriptor Descriptor WireUnique DescriptorProofs.

Lemma go_describes : describes go_rawDesc comfo_proto.
Proof. apply check_sound. vm_compute. reflexivity. Qed.
Lemma py_describes : describes py_serialized comfo_proto.
Proof. apply check_sound. vm_compute. reflexivity. Qed.

Definition smessage (f : pfile) (name : string) : option pmessage := find (fun m => if string_dec (m_name m) name then true else false) (f_messages f).
Lemma smessage_is f name m : smessage f name = Some m -> message_of f name m.
Proof. unfold smessage. intros H. apply find_some in H. destruct H as [I E]. destruct (string_dec (m_name m) name); [split; auto|discriminate]. Qed.
Definition smethod (f : pfile) (name : string) : option (string * string * string) := find (fun m => if string_dec (fst (fst m)) name then true else false) (methods f).
Lemma smethod_is f name a b i o : smethod f name = Some (name, a, b) -> smessage f a = Some i -> smessage f b = Some o -> method_of f name i o.
Proof. unfold smethod. intros H I O. apply find_some in H. destruct H as [X _]. exists a, b. auto using smessage_is. Qed.
Lemma route_in name l r : find_route name l = Some r -> In r l /\ rt_name r = name.
Proof.
  induction l as [|x l IH]; cbn [find_route]; [discriminate|]. destruct (beq name (rt_name x)) eqn:E.
  - intros H. injection H as <-. apply TwirpProofs.beq_eq in E. split; [left|]; auto.
  - intros H. destruct (IH H). split; [right|]; auto.
Qed.
Lemma method_fun name i o i' o' : method_of comfo_proto name i o -> method_of comfo_proto name i' o' -> i = i' /\ o = o'.
Proof.
  assert (U : forall n m m', message_of comfo_proto n m -> message_of comfo_proto n m' -> m = m').
  { intros n m m' [I N] [I' N']. rewrite <- N' in N. clear N' n. revert N. cbn [comfo_proto f_messages In] in I, I'.
    repeat (destruct I as [<-|I]; [repeat (destruct I' as [<-|I']; [first [reflexivity|discriminate]|]); contradiction|]). contradiction. }
  intros (a & b & I & A & B) (a' & b' & I' & A' & B').
  assert (E : a = a' /\ b = b').
  { clear - I I'. unfold methods in *. cbn [comfo_proto f_services map s_methods concat app In] in I, I'.
    repeat (destruct I as [E|I]; [injection E as <- <- <-; repeat (destruct I' as [E|I']; [first [discriminate|injection E as <- <-; split; reflexivity]|]); contradiction|]). contradiction. }
  destruct E as [-> ->]. eauto.
Qed.
Lemma method_named q : exists i o, method_of comfo_proto (rpc_name q) i o.
Proof.
  assert (H : exists a b i o, smethod comfo_proto (rpc_name q) = Some (rpc_name q, a, b) /\ smessage comfo_proto a = Some i /\ smessage comfo_proto b = Some o).
  { destruct q; eexists _, _, _, _; repeat split; try reflexivity. }
  destruct H as (a & b & i & o & M & A & B). exists i, o. exact (smethod_is _ _ _ _ _ _ M A B).
Qed.
Lemma model_method q i o : method_of comfo_proto (rpc_name q) i o ->
  (exists r, find_route (str (rpc_name q)) rt_routes = Some r /\ rt_desc r = field_kinds i) /\ reply_desc q = field_kinds o /\ reply_names q = field_names o.
Proof.
  assert (H : exists a b i o, smethod comfo_proto (rpc_name q) = Some (rpc_name q, a, b) /\ smessage comfo_proto a = Some i /\
    smessage comfo_proto b = Some o /\ (exists r, find_route (str (rpc_name q)) rt_routes = Some r /\ rt_desc r = field_kinds i) /\ reply_desc q = field_kinds o /\ reply_names q = field_names o).
  { destruct q; eexists _, _, _, _; (split; [reflexivity|]); (split; [reflexivity|]); (split; [reflexivity|]); (split; [eexists|]); split; reflexivity. }
  destruct H as (a & b & i' & o' & M & A & B & H). intros X. destruct (method_fun _ _ _ _ _ X (smethod_is _ _ _ _ _ _ M A B)) as [-> ->]. exact H.
Qed.
Lemma method_modelled name i o : method_of comfo_proto name i o -> exists q, rpc_name q = name.
Proof.
  intros (a & b & I & _). unfold methods in I. cbn [comfo_proto f_services map s_methods concat app In] in I.
  repeat (destruct I as [E|I]; [injection E as <- _ _; first [exists GetBootInfo; reflexivity|exists GetTempsRPC; reflexivity|exists GetBypassRPC; reflexivity|exists GetFansRPC; reflexivity|
    exists GetFanProfilesRPC; reflexivity|exists GetErrorsRPC; reflexivity|exists (SetFanSpeedR 0 false); reflexivity|exists (SetComfortTempR 0); reflexivity|
    exists (SetFanProfileR 0 0); reflexivity|exists (FlushCacheR 0); reflexivity]|]). contradiction.
Qed.
Lemma cache_types m vs : message_of comfo_proto "FlushCacheRequest" m -> In ("CacheType"%string, vs) (m_enums m) ->
  cacheTypes = map (fun v => (str (fst v), snd v)) vs /\ go_cache_names = vs /\ go_cache_values = vs.
Proof.
  intros [I N] E. cbn [comfo_proto f_messages In] in I. repeat (destruct I as [<-|I]; [try discriminate N|]); [|contradiction].
  cbn in E. destruct E as [E|[]]. injection E as <-. repeat split; reflexivity.
Qed.
Lemma go_structs_ok : Forall2 go_struct (f_messages comfo_proto) go_structs.
Proof. unfold go_structs. cbn [comfo_proto f_messages]. repeat (constructor; [split; [reflexivity|cbn [snd m_fields]; repeat (constructor; [repeat split|]); constructor]|]). constructor. Qed.
Definition row4_dec (a b : string * string * string * string) : {a = b} + {a <> b}.
Proof. repeat decide equality. Defined.
Definition row3_dec (a b : string * string * string) : {a = b} + {a <> b}.
Proof. repeat decide equality. Defined.
Definition has4 (l : list (string * string * string * string)) (x : string * string * string * string) : bool := if in_dec row4_dec x l then true else false.
Definition expected : list (string * string * string * string) :=
  flat_map (fun m => let '(n, i, o) := m in [(n, "JSON", i, o); (n, "Protobuf", i, o)])%string (methods comfo_proto).
Definition nodup4 (l : list (string * string * string * string)) : bool := Nat.eqb (length (nodup row4_dec l)) (length l).
Lemma nodup4_sound l : nodup4 l = true -> NoDup l.
Proof.
  unfold nodup4. intros E. apply Nat.eqb_eq in E. apply (@NoDup_incl_NoDup _ (nodup row4_dec l) l); [apply NoDup_nodup|rewrite E; auto|].
  intros x I. eapply nodup_In. exact I.
Qed.
Lemma both_sound l : nodup4 l = true -> forallb (has4 expected) l = true -> forallb (has4 l) expected = true -> both_encodings l.
Proof.
  intros N A B. split; [apply nodup4_sound; auto|]. intros name enc i o.
  assert (H : In (name, enc, i, o) l <-> In (name, enc, i, o) expected).
  { rewrite forallb_forall in A, B. split; intros I; [specialize (A _ I)|specialize (B _ I)]; unfold has4 in *; destruct (in_dec row4_dec _ _); auto; discriminate. }
  rewrite H. unfold expected. rewrite in_flat_map. split.
  - intros ([[n a] b] & I & X). cbn [In] in X. destruct X as [X|[X|[]]]; injection X as <- <- <- <-; auto.
  - intros [I E]. exists (name, i, o). split; auto. cbn [In]. destruct E as [-> | ->]; auto.
Qed.
Lemma go_served_ok : both_encodings go_served.
Proof. apply both_sound; vm_compute; reflexivity. Qed.
Lemma go_called_ok : both_encodings go_called.
Proof. apply both_sound; vm_compute; reflexivity. Qed.
Lemma go_interface_ok : go_interface = methods comfo_proto.
Proof. reflexivity. Qed.
Lemma go_dependencies : dependencies go_types go_deps.
Proof.
  split; [reflexivity|]. exists (firstn 10 (skipn 1 go_deps)), (firstn 10 (skipn 11 go_deps)). split; [reflexivity|].
  unfold methods. cbn [comfo_proto f_services map s_methods concat app go_deps firstn skipn].
  split; repeat (constructor; [split; [lia|reflexivity]|]); constructor.
Qed.
Lemma py_stub_ok : py_stub = map (fun m => (fst (fst m), fst (fst m), (f_package comfo_proto ++ "." ++ snd m)%string)) (methods comfo_proto).
Proof. reflexivity. Qed.
Lemma stub_ok f u r : In (f, u, r) py_stub <-> exists i o, In (f, i, o) (methods comfo_proto) /\ u = f /\ r = (f_package comfo_proto ++ "." ++ o)%string.
Proof.
  rewrite py_stub_ok, in_map_iff. split.
  - intros ([[n i] o] & E & I). cbn in E. injection E as <- <- <-. exists i, o. auto.
  - intros (i & o & I & -> & ->). exists (f, i, o). auto.
Qed.
Lemma py_endpoints_ok : py_endpoints =
  map (fun m => (fst (fst m), "Comfo", fst (fst m), fst (fst m), (f_package comfo_proto ++ "." ++ snd (fst m)), (f_package comfo_proto ++ "." ++ snd m))%string)
    (methods comfo_proto).
Proof. reflexivity. Qed.
Lemma endpoints_ok k s n f i o : In (k, s, n, f, i, o) py_endpoints <-> exists a b, In (k, a, b) (methods comfo_proto) /\ s = "Comfo"%string /\ n = k /\ f = k /\ i = (f_package comfo_proto ++ "." ++ a)%string /\ o = (f_package comfo_proto ++ "." ++ b)%string.
Proof.
  rewrite py_endpoints_ok, in_map_iff. split.
  - intros ([[x a] b] & E & I). cbn [fst snd] in E. injection E as <- <- <- <- <- <-. exists a, b. repeat split; auto.
  - intros (a & b & I & -> & -> & -> & -> & ->). exists (k, a, b). auto.
Qed.
Lemma appended ul uj h name fs fs' b b' : bytes_ok (h_body h) -> SpecTwirp.ascii (h_ctype h) -> addressed h name -> media "application/protobuf" (h_ctype h) ->
  h_body h = b ++ b' -> encodes fs b -> encodes fs' b' -> exists q, meaning name (fs ++ fs') = Some q /\ front ul uj h = Call true q.
Proof. intros B A D M E F F'. destruct (TwirpProofs.front_protobuf ul uj h name B A D M) as [H _]. apply H. rewrite E. apply encodes_app; auto. Qed.
(** Package p, message M with one field. *)
Definition small : list byte :=
  [18; 1; 112; 34; 17; 10; 1; 77; 18; 12; 10; 1; 120; 24; 7; 32; 1; 40; 8; 82; 1; 120; 98; 6; 112; 114; 111; 116; 111; 51].
