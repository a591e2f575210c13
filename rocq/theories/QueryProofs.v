(** Sequential execution of libcomfo: every function as a function of the connection. *)
From Coq Require Import SpecFloat.
From Verif Require Import ProofBase Proto SpecProto SpecFrame SpecConn ProtoProofs Scanner Conn
  FrameProofs ReplyProofs ReadProofs Proc Lib.

Lemma run_bind {S A B} (p : proc S A) (f : A -> proc S B) : forall w,
  run (bind p f) w =
  match run p w with
  | (RDone a, w') => run (f a) w'
  | (RPanic, w') => (RPanic, w')
  | (RBlocked, w') => (RBlocked, w')
  end.
Proof.
  induction p; intros w; simpl; auto.
  - destruct (can_lock _ _); auto.
  - destruct (release _ _ _); auto.
  - destruct (can_rlock _ _); auto.
  - destruct (release _ _ _); auto.
  - destruct (do_write w bs); auto.
  - destruct (do_read w expect) as [[[q e]|] w']; auto.
Qed.

(** ** locks *)
Lemma cache_eqb_spec a b : reflect (a = b) (cache_eqb a b).
Proof. destruct a, b; constructor; congruence. Qed.
Lemma lock_eqb_spec a b : reflect (a = b) (lock_eqb a b).
Proof.
  destruct a, b; simpl; try (constructor; congruence).
  destruct (cache_eqb_spec c c0); constructor; congruence.
Qed.
Lemma lock_eqb_refl a : lock_eqb a a = true.
Proof. destruct (lock_eqb_spec a a); auto. Qed.
Lemma lock_eqb_neq a b : a <> b -> lock_eqb a b = false.
Proof. destruct (lock_eqb_spec a b); congruence. Qed.

Lemma release_head h l x : release ((l, x) :: h) l x = Some h.
Proof. simpl. rewrite lock_eqb_refl. destruct x; reflexivity. Qed.

Lemma can_lock_cons h l l' x : l <> l' -> can_lock ((l', x) :: h) l = can_lock h l.
Proof. intros H. unfold can_lock, holds. simpl. rewrite lock_eqb_neq by congruence. reflexivity. Qed.
Lemma can_rlock_cons h l l' x : l <> l' -> can_rlock ((l', x) :: h) l = can_rlock h l.
Proof. intros H. unfold can_rlock, holds. simpl. rewrite lock_eqb_neq by congruence. reflexivity. Qed.

Lemma world_eta {S} (w : world S) : mkWorld (w_conn w) (w_sh w) (w_held w) (w_clk w) (w_adv w) = w.
Proof. destruct w; reflexivity. Qed.

(** A critical section whose body leaves the set of held locks as it was. *)
Lemma run_with_lock {S A} l (body : proc S A) w r w' :
  can_lock (w_held w) l = true ->
  run body (set_held w ((l, true) :: w_held w)) = (RDone r, w') ->
  w_held w' = (l, true) :: w_held w ->
  run (with_lock l body) w = (RDone r, set_held w' (w_held w)).
Proof.
  intros C R H. unfold with_lock. simpl. rewrite C, run_bind, R. simpl.
  rewrite H, release_head. reflexivity.
Qed.

(** ** one query as a function of the connection *)
Definition frame (p : packet) : list Z := [7; 240] ++ wire (p_cmd p) (p_data p) ++ [7; 15].

Definition ack_err (r : wres) : option err :=
  match w_err r with
  | Some e => Some e
  | None => if w_n r =? 2 then None else Some ErrAck
  end.

Definition query (p : packet) (c : conn) : (packet * option err) * conn :=
  if Z.of_nat (length (p_data p)) >? 255 then ((zero_packet, Some ErrTooLong), c)
  else
    let (r, c1) := conn_write c (frame p) in
    match w_err r with
    | Some e => ((zero_packet, Some e), c1)
    | None =>
        match ReadPacket c1 (p_expect p) with
        | (Panic, c2) => ((zero_packet, None), c2)   (* impossible *)
        | (Done (out, e), c2) =>
            let c3 := log_io c2 (Rd (p_expect p) out e) in
            match e with
            | Some e => ((out, Some e), c3)
            | None => if p_expect p && negb (p_cmd out =? u8 (p_cmd p + 1))
                      then ((out, Some ErrInvalidResponse), c3)
                      else let (r2, c4) := conn_write c3 [7; 243] in ((out, ack_err r2), c4)
            end
        end
    end.

Lemma run_query {S} p (w : world S) : can_lock (w_held w) LPm = true ->
  run (QueryPacket p) w = (RDone (fst (query p (w_conn w))), set_conn w (snd (query p (w_conn w)))).
Proof.
  intros C. 
  assert (B : exists w', run (do (_, e) <- WritePacket p;
    match e with
    | Some e => Ret (zero_packet, Some e)
    | None => ReadC (p_expect p) (fun out e =>
          match e with
          | Some e => Ret (out, Some e)
          | None =>
              if p_expect p && negb (p_cmd out =? u8 (p_cmd p + 1))
              then Ret (out, Some ErrInvalidResponse)
              else do (_, e) <- WriteAck; Ret (out, e)
          end)
    end) (set_held w ((LPm, true) :: w_held w)) = (RDone (fst (query p (w_conn w))), w') /\
    w' = set_conn (set_held w ((LPm, true) :: w_held w)) (snd (query p (w_conn w)))).
  { eexists; split; [|reflexivity].
    unfold WritePacket, query. rewrite run_bind, run_bind. rewrite marshal_wire.
    destruct (_ >? 255) eqn:L.
    { simpl. destruct w; reflexivity. }
    cbn [lift run]. 
    change (pktStart ++ wire (p_cmd p) (p_data p) ++ pktEnd) with (frame p).
    unfold do_write. cbn [set_held w_conn].
    destruct (conn_write (w_conn w) (frame p)) as [r c1] eqn:W1.
    destruct (w_err r) as [e|]; [simpl; destruct w; reflexivity|].
    cbn [run]. unfold do_read. cbn [set_conn w_conn].
    destruct (ReadPacket c1 (p_expect p)) as [o c2] eqn:R.
    pose proof (read_packet_inv _ _ _ _ R) as (_ & out & e & _ & _ & -> & _).
    destruct e as [e|]; [simpl; destruct w; reflexivity|].
    destruct (_ && _); [simpl; destruct w; reflexivity|].
    unfold WriteAck. cbn [bind run]. unfold do_write. cbn [set_conn w_conn].
    change pktAck with [7; 243].
    destruct (conn_write (log_io c2 (Rd (p_expect p) out None)) [7; 243]) as [r2 c4] eqn:W2.
    unfold ack_err. change (len [7; 243]) with 2.
    destruct (w_err r2); [simpl; destruct w; reflexivity|].
    destruct (w_n r2 =? 2); simpl; destruct w; reflexivity. }
  destruct B as (w' & B & Hw).
  unfold QueryPacket. erewrite run_with_lock; [| auto | exact B | subst w'; reflexivity].
  subst w'. destruct w; reflexivity.
Qed.

(** ** set and get operations *)
Definition setq (r : SetRequest) (c : conn) : option err * conn :=
  match EncodeSetRequest r with
  | (_, Some e) => (Some e, c)
  | (sr, None) => let '((_, e), c') := query sr c in (e, c')
  end.

Lemma run_setQuery {S} r (w : world S) : can_lock (w_held w) LPm = true ->
  run (setQuery r) w = (RDone (fst (setq r (w_conn w))), set_conn w (snd (setq r (w_conn w)))).
Proof.
  intros C. unfold setQuery, setq. destruct (EncodeSetRequest r) as [sr [e|]].
  - destruct w; reflexivity.
  - rewrite run_bind, run_query by auto. destruct (query sr (w_conn w)) as [[p e] c']. reflexivity.
Qed.

(** The decoders never panic. *)
Definition total_dec {T} (dec : list Z -> outcome (T * option err)) : Prop :=
  forall l, exists v e, dec l = Done (v, e).

Lemma idx_ok l i : (i < length l)%nat -> exists b, idx l i = Done b /\ nth_error l i = Some b.
Proof.
  intros H. unfold idx. destruct (nth_error l i) eqn:E; eauto. apply nth_error_None in E. lia.
Qed.

Ltac explode l :=
  repeat (destruct l as [|? l]; try (simpl; discriminate); try (eexists; eexists; reflexivity)).

Lemma boot_total : total_dec BootInfo_Unmarshal.
Proof.
  intros l. unfold BootInfo_Unmarshal. destruct (_ =? _)%nat eqn:E; cbn [negb]; eauto.
  apply Nat.eqb_eq in E. do 13 (destruct l as [|? l]; [discriminate|]). destruct l; [|discriminate].
  eexists; eexists; reflexivity.
Qed.
Lemma temps_total : total_dec Temps_Unmarshal.
Proof.
  intros l. unfold Temps_Unmarshal. destruct (_ =? _)%nat eqn:E; cbn [negb]; eauto.
  apply Nat.eqb_eq in E. do 9 (destruct l as [|? l]; [discriminate|]). destruct l; [|discriminate].
  eexists; eexists; reflexivity.
Qed.
Lemma bypass_total : total_dec Bypass_Unmarshal.
Proof.
  intros l. unfold Bypass_Unmarshal. destruct (_ =? _)%nat eqn:E; cbn [negb]; eauto.
  apply Nat.eqb_eq in E. do 7 (destruct l as [|? l]; [discriminate|]). destruct l; [|discriminate].
  eexists; eexists; reflexivity.
Qed.
Lemma hours_total : total_dec Hours_Unmarshal.
Proof.
  intros l. unfold Hours_Unmarshal. destruct (_ =? _)%nat eqn:E; cbn [negb]; eauto.
  apply Nat.eqb_eq in E. do 20 (destruct l as [|? l]; [discriminate|]). destruct l; [|discriminate].
  eexists; eexists; reflexivity.
Qed.
Lemma fans_total : total_dec Fans_Unmarshal.
Proof.
  intros l. unfold Fans_Unmarshal. destruct (_ =? _)%nat eqn:E; cbn [negb]; eauto.
  apply Nat.eqb_eq in E. do 6 (destruct l as [|? l]; [discriminate|]). destruct l; [|discriminate].
  cbn. destruct (_ || _) eqn:O; eauto. apply orb_false_iff in O as [O1 O2].
  unfold go_div. rewrite O1, O2. cbn. eauto.
Qed.
Lemma prof_total : total_dec FanProfiles_Unmarshal.
Proof.
  intros l. unfold FanProfiles_Unmarshal. destruct (_ =? _)%nat eqn:E; cbn [negb]; eauto.
  apply Nat.eqb_eq in E. do 14 (destruct l as [|? l]; [discriminate|]). destruct l; [|discriminate].
  eexists; eexists; reflexivity.
Qed.
Lemma errors_total : total_dec Errors_Unmarshal.
Proof.
  intros l. unfold Errors_Unmarshal. destruct (_ =? _)%nat eqn:E; cbn [negb]; eauto.
  apply Nat.eqb_eq in E. do 17 (destruct l as [|? l]; [discriminate|]). destruct l; [|discriminate].
  eexists; eexists; reflexivity.
Qed.

Definition getq {T} (gr : Z) (zero : T) (dec : list Z -> outcome (T * option err)) (c : conn)
  : (T * option err) * conn :=
  let '((out, e), c') := query (mkPacket gr [] true) c in
  match e with
  | Some e => ((zero, Some e), c')
  | None => match dec (p_data out) with
            | Done (v, None) => ((v, None), c')
            | Done (_, Some e) => ((zero, Some e), c')
            | Panic => ((zero, None), c')
            end
  end.

(** A data query that succeeds returns the command it asked for. *)
Lemma query_cmd p c out c' : query p c = ((out, None), c') -> p_expect p = true ->
  p_cmd out = u8 (p_cmd p + 1).
Proof.
  unfold query. intros H X. destruct (_ >? 255); [discriminate|].
  destruct (conn_write c (frame p)) as [r c1]. destruct (w_err r); [discriminate|].
  destruct (ReadPacket c1 (p_expect p)) as [o c2] eqn:R.
  pose proof (read_packet_inv _ _ _ _ R) as (_ & out' & e & _ & _ & -> & _).
  cbv zeta in H. destruct e; [discriminate|]. rewrite X in H. cbn [andb] in H.
  destruct (p_cmd out' =? u8 (p_cmd p + 1)) eqn:E; cbn [negb] in H; [|discriminate].
  destruct (conn_write _ [7; 243]). injection H as <- _ _. lia.
Qed.

Lemma run_getter {S T} gr (zero : T) assert (inj : T -> Response) dec (w : world S) :
  can_lock (w_held w) LPm = true ->
  total_dec dec ->
  (u8 (gr + 1) =? 0) = false ->
  ResponseType (u8 (gr + 1)) = Some (fun l => omap inj (dec l)) ->
  (forall v, assert (inj v) = Some v) ->
  run (getter gr zero assert) w =
    (RDone (fst (getq gr zero dec (w_conn w))), set_conn w (snd (getq gr zero dec (w_conn w)))).
Proof.
  intros C Td N0 RT As. unfold getter, getQuery, getq, EncodeGetRequest.
  rewrite run_bind, run_bind, run_query by auto.
  destruct (query (mkPacket gr [] true) (w_conn w)) as [[out e] c'] eqn:Q.
  destruct e as [e|]; [reflexivity|]. cbn [fst snd].
  apply query_cmd in Q; auto. cbn [p_cmd] in Q.
  unfold DecodeResponse. rewrite Q, N0, RT.
  destruct (Td (p_data out)) as (v & e & ->). cbn [omap obind lift run].
  destruct e; [reflexivity|]. rewrite As. reflexivity.
Qed.

Lemma run_GetTemperatures {S} (w : world S) : can_lock (w_held w) LPm = true ->
  run GetTemperatures w = (RDone (fst (getq 209 zeroTemps Temps_Unmarshal (w_conn w))),
                           set_conn w (snd (getq 209 zeroTemps Temps_Unmarshal (w_conn w)))).
Proof. intros. eapply run_getter with (inj := RTemps); auto using temps_total. Qed.
Lemma run_GetBypass {S} (w : world S) : can_lock (w_held w) LPm = true ->
  run GetBypass w = (RDone (fst (getq 223 zeroBypass Bypass_Unmarshal (w_conn w))),
                     set_conn w (snd (getq 223 zeroBypass Bypass_Unmarshal (w_conn w)))).
Proof. intros. eapply run_getter with (inj := RBypass); auto using bypass_total. Qed.
Lemma run_GetFans {S} (w : world S) : can_lock (w_held w) LPm = true ->
  run GetFans w = (RDone (fst (getq 11 zeroFans Fans_Unmarshal (w_conn w))),
                   set_conn w (snd (getq 11 zeroFans Fans_Unmarshal (w_conn w)))).
Proof. intros. eapply run_getter with (inj := RFans); auto using fans_total. Qed.
Lemma run_GetHours {S} (w : world S) : can_lock (w_held w) LPm = true ->
  run GetHours w = (RDone (fst (getq 221 zeroHours Hours_Unmarshal (w_conn w))),
                    set_conn w (snd (getq 221 zeroHours Hours_Unmarshal (w_conn w)))).
Proof. intros. eapply run_getter with (inj := RHours); auto using hours_total. Qed.
Lemma run_GetBootloader {S} (w : world S) : can_lock (w_held w) LPm = true ->
  run GetBootloader w = (RDone (fst (getq 103 zeroBoot BootInfo_Unmarshal (w_conn w))),
                         set_conn w (snd (getq 103 zeroBoot BootInfo_Unmarshal (w_conn w)))).
Proof. intros. eapply run_getter with (inj := RBoot); auto using boot_total. Qed.
Lemma run_GetFirmware {S} (w : world S) : can_lock (w_held w) LPm = true ->
  run GetFirmware w = (RDone (fst (getq 105 zeroBoot BootInfo_Unmarshal (w_conn w))),
                       set_conn w (snd (getq 105 zeroBoot BootInfo_Unmarshal (w_conn w)))).
Proof. intros. eapply run_getter with (inj := RBoot); auto using boot_total. Qed.
Lemma run_GetFanProfiles {S} (w : world S) : can_lock (w_held w) LPm = true ->
  run GetFanProfiles w = (RDone (fst (getq 205 zeroProf FanProfiles_Unmarshal (w_conn w))),
                          set_conn w (snd (getq 205 zeroProf FanProfiles_Unmarshal (w_conn w)))).
Proof. intros. eapply run_getter with (inj := RProf); auto using prof_total. Qed.
Lemma run_GetErrors {S} (w : world S) : can_lock (w_held w) LPm = true ->
  run GetErrors w = (RDone (fst (getq 217 zeroErrors Errors_Unmarshal (w_conn w))),
                     set_conn w (snd (getq 217 zeroErrors Errors_Unmarshal (w_conn w)))).
Proof. intros. eapply run_getter with (inj := RErrors); auto using errors_total. Qed.

(** SetFanProfile *)
Definition fprofile (mode speed : Z) (c : conn) : option err * conn :=
  if mode >? 3 then (Some ErrUnknownMode, c)
  else if speed >? 100 then (Some ErrTooHigh, c)
  else
    let '((cfp, e), c1) := getq 205 zeroProf FanProfiles_Unmarshal c in
    match e with
    | Some e => (Some e, c1)
    | None => setq (SRProfiles (change_profile mode speed cfp)) c1
    end.

Lemma run_SetFanProfile {S} mode speed (w : world S) :
  can_lock (w_held w) LPm = true -> can_lock (w_held w) LAm = true ->
  run (SetFanProfile mode speed) w =
    (RDone (fst (fprofile mode speed (w_conn w))), set_conn w (snd (fprofile mode speed (w_conn w)))).
Proof.
  intros C CA. unfold SetFanProfile, fprofile.
  destruct (mode >? 3); [destruct w; reflexivity|]. destruct (speed >? 100); [destruct w; reflexivity|].
  assert (C' : can_lock (w_held (set_held w ((LAm, true) :: w_held w))) LPm = true)
    by (simpl; rewrite can_lock_cons by discriminate; auto).
  destruct (getq 205 zeroProf FanProfiles_Unmarshal (w_conn w)) as [[cfp e] c1] eqn:G.
  erewrite run_with_lock; [ | auto | | ].
  2:{ rewrite run_bind, run_GetFanProfiles by auto. cbn [w_conn set_held]. rewrite G. cbn [fst snd].
      instantiate (1 := set_conn (set_held w ((LAm, true) :: w_held w))
        (snd (match e with Some e => (Some e, c1) | None => setq (SRProfiles (change_profile mode speed cfp)) c1 end))).
      instantiate (1 := fst (match e with Some e => (Some e, c1) | None => setq (SRProfiles (change_profile mode speed cfp)) c1 end)).
      destruct e as [e|]; [reflexivity|].
      rewrite run_setQuery by (simpl; rewrite can_lock_cons by discriminate; auto).
      cbn [w_conn set_conn set_held w_sh w_held w_clk w_adv]. reflexivity. }
  2:{ reflexivity. }
  destruct w; reflexivity.
Qed.
