(** Proofs about the replies sent over HTTP and the round trip of a request. *)
From Coq Require Import String Floats.SpecFloat.
From Verif Require Import ProofBase GoStrings Proto Conn Proc Lib Server SpecLayout Wire Twirp SpecWire SpecTwirp
  WireProofs Utf8Proofs WireOut TwirpProofs.

Lemma wire_bytes_in fs n s : In (n, WBytes s) (wire_of fs) -> In (n, VStr s) fs.
Proof.
  unfold wire_of. rewrite in_concat. intros (l & I & J). apply in_map_iff in I as ([m v] & <- & I). cbn [fst snd] in J.
  destruct v as [z|x|z|u]; cbn [wire_of1] in J.
  - destruct (z =? 0); [destruct J|]. destruct J as [J|[]]. discriminate.
  - destruct x; [|destruct J]. destruct J as [J|[]]. discriminate.
  - destruct (z =? 0); [destruct J|]. destruct J as [J|[]]. discriminate.
  - destruct u; [destruct J|]. destruct J as [J|[]]. injection J as <- <-. exact I.
Qed.
(** A message that can be written: small field numbers, short valid strings. *)
Definition writable (fs : msg) : Prop :=
  Forall (fun f => 1 <= fst f <= 536870911) fs /\ (forall n s, In (n, VStr s) fs -> len s < 2147483648 /\ validUTF8 s = true).
Lemma marshal_writable fs : writable fs -> exists b, marshal fs = Some b /\ encodes (wire_of fs) b.
Proof.
  intros [N S]. destruct (proj2 (marshal_some fs)) as (b & M); [intros n s I; apply (S n s I)|].
  exists b. split; auto. apply marshal_wire; auto. rewrite Forall_forall in *. intros [n v] I. split; [apply (N _ I)|].
  destruct v as [z|x|z|s]; simpl; auto. destruct (S n s I) as [L _]. lia.
Qed.
Lemma read_back d fs b : writable fs -> encodes (wire_of fs) b -> unmarshal d b = Some (after d [] (wire_of fs)).
Proof.
  intros [_ S] W. apply unmarshal_complete; auto. intros n s I _. apply wire_bytes_in in I. apply (S n s I).
Qed.

Lemma fields_distinct t r : NoDup (map fst (resp_fields t r)) /\ Forall (fun f => 1 <= fst f <= 536870911) (resp_fields t r).
Proof.
  split; [|destruct r; cbn [resp_fields]; repeat constructor; simpl; lia].
  destruct r; cbn [resp_fields map fst]; repeat constructor; simpl; lia.
Qed.
Lemma reply_writable t r : in_types r -> readable r -> time_string t -> writable (resp_fields t r).
Proof.
  intros T R (Tb & Tu & Tl). split; [apply fields_distinct|]. apply valid_utf8 in Tu; auto.
  intros n s I. destruct r; cbn [resp_fields] in I; simpl in I;
    repeat (destruct I as [I|I]; [try discriminate; injection I as <- <-; auto|]); try contradiction.
  simpl in T, R. destruct T as (_ & _ & _ & B & L). split; auto. apply valid_utf8; auto.
Qed.

Ltac field := cbn [resp_fields In]; tauto.
Lemma reply_carries t r : in_types r -> (forall e, r <> RespErr e) -> carries t r (wire_of (resp_fields t r)).
Proof.
  intros T N. destruct (fields_distinct t r) as [D _].
  assert (U : forall n z, In (n, VInt z) (resp_fields t r) -> u32_ok z -> uint_field n (wire_of (resp_fields t r)) = z) by (intros; apply out_uint; auto).
  assert (B : forall n z, In (n, VBool z) (resp_fields t r) -> bool_field n (wire_of (resp_fields t r)) = z) by (intros; apply out_bool; auto).
  assert (S : forall n z, In (n, VStr z) (resp_fields t r) -> string_field n (wire_of (resp_fields t r)) = z) by (intros; apply out_str; auto).
  assert (F : forall n z, In (n, VFloat (f32_bits z)) (resp_fields t r) -> binary32 z -> float_field n (wire_of (resp_fields t r)) = z).
  { intros n z I K. unfold float_field. rewrite (out_word _ _ _ D I). apply float_bits. exact K. }
  clear D. destruct r; unfold carries; cbv zeta; cbn [in_types] in T;
    repeat match goal with H : Forall _ (_ :: _) |- _ => inversion H; clear H; subst end;
    repeat match goal with H : _ /\ _ |- _ => destruct H end;
    repeat match goal with |- _ /\ _ => split end;
    try (apply U; [field|assumption]); try (apply B; field); try (apply S; field); try (apply F; [field|assumption]).
  destruct (N e eq_refl).
Qed.
(** C67 *)
Lemma reply_sent t r : in_types r -> time_string t -> (forall e, r <> RespErr e) -> readable r ->
  exists b fs, respond true t r = mkHresp 200 (Protobuf b) /\ encodes fs b /\ carries t r fs.
Proof.
  intros T Ti N R. destruct (marshal_writable (resp_fields t r) (reply_writable t r T R Ti)) as (b & M & W).
  exists b, (wire_of (resp_fields t r)). split; [|split; [exact W|apply reply_carries; auto]].
  unfold respond. rewrite M. destruct r; try reflexivity. destruct (N e eq_refl).
Qed.
Lemma reply_unreadable pb t r : in_types r -> ~ readable r -> respond pb t r = mkHresp 500 (ErrorJson TMarshal).
Proof.
  intros T R. destruct r as [m| | | | | | | | | |]; try (exfalso; apply R; exact I).
  destruct T as (_ & _ & _ & B & _). unfold respond. destruct (marshal (resp_fields t (RespBoot m))) as [b|] eqn:M; [|reflexivity].
  exfalso. apply R. simpl. apply valid_utf8; auto. eapply (proj1 (marshal_some _)); [exists b; exact M|].
  cbn [resp_fields]. simpl. eauto.
Qed.
Lemma reply_not_sent pb t r : in_types r -> ~ readable r ->
  exists e, respond pb t r = mkHresp 500 (ErrorJson e) /\ code_of e = CInternal.
Proof. intros T R. exists TMarshal. split; [apply reply_unreadable; auto|reflexivity]. Qed.
Lemma reply_error pb t :
  (forall m, respond pb t (RespErr (InvalidArgument m)) = mkHresp 400 (ErrorJson (TRpc (InvalidArgument m))) /\
    code_of (TRpc (InvalidArgument m)) = CInvalidArgument) /\
  (forall m, respond pb t (RespErr (Internal m)) = mkHresp 500 (ErrorJson (TRpc (Internal m))) /\
    code_of (TRpc (Internal m)) = CInternal).
Proof. repeat split; reflexivity. Qed.

(** ** Round trip *)
Lemma request_writable q : writable (rpc_fields q).
Proof.
  split; [destruct q; cbn [rpc_fields]; repeat constructor; simpl; lia|].
  intros n s I. destruct q; cbn [rpc_fields] in I; simpl in I; repeat (destruct I as [I|I]; [discriminate|]); contradiction.
Qed.
Lemma request_meaning q : args_ok q -> served (rpc_name q) /\ meaning (rpc_name q) (wire_of (rpc_fields q)) = Some q.
Proof.
  intros A.
  assert (D : NoDup (map fst (rpc_fields q))) by (destruct q; cbn; repeat constructor; simpl; lia).
  assert (U : forall n z, In (n, VInt z) (rpc_fields q) -> u32_ok z -> uint_field n (wire_of (rpc_fields q)) = z) by (intros; apply out_uint; auto).
  assert (B : forall n z, In (n, VBool z) (rpc_fields q) -> bool_field n (wire_of (rpc_fields q)) = z) by (intros; apply out_bool; auto).
  assert (En : forall n z, In (n, VInt z) (rpc_fields q) -> -2147483648 <= z < 2147483648 -> enum_field n (wire_of (rpc_fields q)) = z) by (intros; apply out_enum; auto).
  split; [destruct q; discriminate|]. clear D.
  destruct q; try reflexivity; cbn [args_ok] in A; cbn [rpc_name].
  - change (Some (SetComfortTempR (uint_field 1 (wire_of (rpc_fields (SetComfortTempR t))))) = Some (SetComfortTempR t)).
    rewrite (U 1 t) by (auto; simpl; auto). reflexivity.
  - change (Some (SetFanSpeedR (uint_field 1 (wire_of (rpc_fields (SetFanSpeedR abs rel)))) (bool_field 2 (wire_of (rpc_fields (SetFanSpeedR abs rel))))) = Some (SetFanSpeedR abs rel)).
    rewrite (U 1 abs), (B 2 rel) by (auto; simpl; auto). reflexivity.
  - destruct A as [A1 A2].
    change (Some (SetFanProfileR (uint_field 1 (wire_of (rpc_fields (SetFanProfileR mode tgt)))) (uint_field 2 (wire_of (rpc_fields (SetFanProfileR mode tgt))))) = Some (SetFanProfileR mode tgt)).
    rewrite (U 1 mode), (U 2 tgt) by (auto; simpl; auto). reflexivity.
  - change (Some (FlushCacheR (enum_field 1 (wire_of (rpc_fields (FlushCacheR c))))) = Some (FlushCacheR c)).
    rewrite (En 1 c) by (auto; simpl; auto). reflexivity.
Qed.

Lemma str_ascii s : forallb (fun c => (0 <=? c) && (c <? 128)) (str s) = true -> ascii (str s).
Proof. intros H. apply Forall_forall. intros x I. rewrite forallb_forall in H. specialize (H x I). lia. Qed.
Lemma media_self ty : forallb (fun c => negb ((65 <=? c) && (c <=? 90))) (str ty) = true -> media ty (str ty).
Proof.
  intros H. exists [], (str ty), [], []. split; [rewrite !app_nil_r; reflexivity|]. split; [constructor|]. split; [constructor|].
  split; [|auto]. induction (str ty) as [|c l IH]; [constructor|]. cbn [forallb] in H. apply andb_true_iff in H as [H1 H2].
  constructor; auto. left. lia.
Qed.
Lemma post_addressed q h : args_ok q -> post q = Some h ->
  addressed h (rpc_name q) /\ media "application/protobuf" (h_ctype h) /\ ascii (h_ctype h) /\
  encodes (wire_of (rpc_fields q)) (h_body h).
Proof.
  intros A. unfold post. destruct (marshal_writable (rpc_fields q) (request_writable q)) as (b & M & W). rewrite M.
  intros H. injection H as <-. cbn [h_ctype h_body].
  split; [split; [reflexivity|split; [apply request_meaning; auto|reflexivity]]|].
  split; [apply media_self; reflexivity|]. split; [apply str_ascii; reflexivity|]. exact W.
Qed.
(** C68 *)
Lemma post_called q : args_ok q -> exists h, post q = Some h /\ addressed h (rpc_name q) /\
  forall ul uj, front ul uj h = Call true q.
Proof.
  intros A. destruct (marshal_writable (rpc_fields q) (request_writable q)) as (b & M & W).
  assert (P : exists h, post q = Some h /\ h_body h = b) by (unfold post; rewrite M; eexists; split; reflexivity).
  destruct P as (h & P & E). exists h. split; auto. destruct (post_addressed q h A P) as (Ad & Me & As & En). split; auto.
  intros ul uj. destruct (request_meaning q A) as [Sv Mq]. destruct (route_of (rpc_name q) Sv) as (r & F & Mr & NS).
  rewrite (front_addressed ul uj h _ r Ad F). pose proof (content_type ul _ As) as C.
  destruct (contentType ul (h_ctype h)) as [[|]|]; [|destruct C as [_ C]; destruct (C Me)|destruct C as [C _]; destruct (C Me)].
  rewrite (read_back _ _ _ (request_writable q) En). specialize (Mr (wire_of (rpc_fields q))). congruence.
Qed.

Lemma reply_read q t r : reply_to q r -> in_types r -> readable r -> time_string t ->
  stub_result q (respond true t r) = Got r.
Proof.
  intros Rt T R Ti. destruct (marshal_writable (resp_fields t r) (reply_writable t r T R Ti)) as (b & M & W).
  assert (E : respond true t r = mkHresp 200 (Protobuf b)).
  { unfold respond. rewrite M. destruct r; try reflexivity. destruct q; contradiction. }
  rewrite E. unfold stub_result. cbn [r_status r_body]. rewrite (read_back (reply_desc q) _ _ (reply_writable t r T R Ti) W).
  change (200 =? 200) with true. cbv iota. f_equal. clear E M W b.
  destruct (fields_distinct t r) as [D _].
  assert (U : forall n z, lookup n (reply_desc q) = Some KUint32 -> In (n, VInt z) (resp_fields t r) -> u32_ok z ->
    getInt n (after (reply_desc q) [] (wire_of (resp_fields t r))) = z) by (intros; rewrite get_uint by auto; apply out_uint; auto).
  assert (B : forall n z, lookup n (reply_desc q) = Some KBool -> In (n, VBool z) (resp_fields t r) ->
    getBool n (after (reply_desc q) [] (wire_of (resp_fields t r))) = z) by (intros; rewrite get_bool by auto; apply out_bool; auto).
  assert (S : forall n z, lookup n (reply_desc q) = Some KString -> In (n, VStr z) (resp_fields t r) ->
    getStr n (after (reply_desc q) [] (wire_of (resp_fields t r))) = z) by (intros; rewrite get_str by auto; apply out_str; auto).
  assert (F : forall n z, lookup n (reply_desc q) = Some KFloat -> In (n, VFloat (f32_bits z)) (resp_fields t r) -> binary32 z ->
    f32_of_bits (getFloat n (after (reply_desc q) [] (wire_of (resp_fields t r)))) = z).
  { intros n z L I K. rewrite get_float by auto. rewrite (out_word _ _ _ D I).
    rewrite read_float by (auto using put32_bytes; reflexivity). apply float_bits. exact K. }
  clear D. set (m := after _ _ _) in *. clearbody m.
  destruct q, r; try contradiction; cbn [in_types] in T; unfold read_resp; cbv zeta;
    repeat match goal with m : pbBootInfo |- _ => destruct m | m : pbBypass |- _ => destruct m | m : pbTemps |- _ => destruct m
      | m : pbFans |- _ => destruct m | m : pbProfiles |- _ => destruct m | m : pbErrors |- _ => destruct m end;
    cbn in T; repeat match goal with H : Forall _ (_ :: _) |- _ => inversion H; clear H; subst end;
    repeat match goal with H : _ /\ _ |- _ => destruct H end;
    repeat match goal with
      | |- context [getInt ?n m] => erewrite (U n) by (first [reflexivity|cbn; eauto 20|eassumption])
      | |- context [getBool ?n m] => erewrite (B n) by (first [reflexivity|cbn; eauto 20|eassumption])
      | |- context [getStr ?n m] => erewrite (S n) by (first [reflexivity|cbn; eauto 20|eassumption])
      | |- context [getFloat ?n m] => erewrite (F n) by (first [reflexivity|cbn; eauto 20|eassumption])
      end; try reflexivity.
Qed.
