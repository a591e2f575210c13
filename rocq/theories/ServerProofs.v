(** Sequential execution of the server: cache refreshes. *)
From Coq Require Import SpecFloat.
From Verif Require Import ProofBase GoStrings Proto SpecProto SpecFrame SpecConn SpecOps SpecLayout SpecServer ProtoProofs
  Scanner Conn FrameProofs ReplyProofs ReadProofs Proc Lib QueryProofs FrameLemmas LayoutProofs TrimProofs OpLemmas Server.

(** ** refreshing a cache *)
Definition store (v : rec) (now : Z) (s : shared) : shared :=
  match v with
  | VBoot x => on_boot_t now (on_boot (fun _ => x) s)
  | VBypass x => on_bypass_t now (on_bypass (fun _ => x) s)
  | VTemp x => on_temp_t now (on_temp (fun _ => x) s)
  | VFans x => on_fans_t now (on_fans (fun _ => x) s)
  | VProf x => on_prof_t now (on_prof (fun _ => x) s)
  | VErr x => on_err_t now (on_err (fun _ => x) s)
  end.
Definition getrec {T} (inj : T -> rec) (x : (T * option err) * conn) : option rec * conn :=
  (match snd (fst x) with None => Some (inj (fst (fst x))) | Some _ => None end, snd x).
Definition fetch (c : cache) (cn : conn) : option rec * conn :=
  match c with
  | CBoot => getrec VBoot (getq 103 zeroBoot BootInfo_Unmarshal cn)
  | CBypass => getrec VBypass (getq 223 zeroBypass Bypass_Unmarshal cn)
  | CTemp => getrec VTemp (getq 209 zeroTemps Temps_Unmarshal cn)
  | CFans => getrec VFans (getq 11 zeroFans Fans_Unmarshal cn)
  | CProf => getrec VProf (getq 205 zeroProf FanProfiles_Unmarshal cn)
  | CErr => getrec VErr (getq 217 zeroErrors Errors_Unmarshal cn)
  end.
Definition upd (c : cache) (force : bool) (w : world shared) : world shared :=
  let w1 := tick_clock w in
  if negb force && negb (isStale (stamp (w_sh w) c) (w_clk w1)) then w1
  else let (o, cn) := fetch c (w_conn w) in
       set_conn (match o with Some v => set_sh w1 (store v (w_clk w1) (w_sh w)) | None => w1 end) cn.

(** Struct assignment. *)
Lemma run_assign_boot {A} v (k : sproc A) w : run (assign_boot v k) w = run k (set_sh w (on_boot (fun _ => v) (w_sh w))).
Proof. destruct v, w as [? [] ? ? ?]. reflexivity. Qed.
Lemma run_assign_bypass {A} v (k : sproc A) w : run (assign_bypass v k) w = run k (set_sh w (on_bypass (fun _ => v) (w_sh w))).
Proof. destruct v, w as [? [] ? ? ?]. reflexivity. Qed.
Lemma run_assign_temp {A} v (k : sproc A) w : run (assign_temp v k) w = run k (set_sh w (on_temp (fun _ => v) (w_sh w))).
Proof. destruct v, w as [? [] ? ? ?]. reflexivity. Qed.
Lemma run_assign_fans {A} v (k : sproc A) w : run (assign_fans v k) w = run k (set_sh w (on_fans (fun _ => v) (w_sh w))).
Proof. destruct v, w as [? [] ? ? ?]. reflexivity. Qed.
Lemma run_assign_prof {A} v (k : sproc A) w : run (assign_prof v k) w = run k (set_sh w (on_prof (fun _ => v) (w_sh w))).
Proof. destruct v, w as [? [] ? ? ?]. reflexivity. Qed.
Lemma run_assign_err {A} v (k : sproc A) w : run (assign_err v k) w = run k (set_sh w (on_err (fun _ => v) (w_sh w))).
Proof. destruct v, w as [? [] ? ? ?]. reflexivity. Qed.

Lemma set_held_id {S} (w : world S) h : set_held (set_held w h) (w_held w) = w.
Proof. destruct w; reflexivity. Qed.

(** The common shape of the six Update methods. *)
Definition update_shape {T} (c : cache) (t : shared -> Z) (get : sproc (T * option err))
    (put : T -> Z -> sproc unit) (force : bool) : sproc unit :=
  with_lock (LC c) (Now (fun now => Get (fun s =>
    if negb force && negb (isStale (t s) now) then Ret tt
    else do (v, e) <- get;
         match e with None => put v now | Some _ => Ret tt end))).

Lemma run_shape {T} c (inj : T -> rec) gr zero dec (get : sproc (T * option err)) put force w :
  (forall w, can_lock (w_held w) LPm = true -> run get w =
     (RDone (fst (getq gr zero dec (w_conn w))), set_conn w (snd (getq gr zero dec (w_conn w))))) ->
  (forall v now w, run (put v now) w = (RDone tt, set_sh w (store (inj v) now (w_sh w)))) ->
  (forall cn, fetch c cn = getrec inj (getq gr zero dec cn)) ->
  can_lock (w_held w) (LC c) = true -> can_lock (w_held w) LPm = true ->
  run (update_shape c (fun s => stamp s c) get put force) w = (RDone tt, upd c force w).
Proof.
  intros G P F L1 L2. unfold update_shape, upd.
  erewrite run_with_lock; [ | auto | | ].
  2:{ cbn [run]. cbn [tick_clock w_clk w_sh set_held w_conn w_held w_adv].
      instantiate (1 := set_held (upd c force w) ((LC c, true) :: w_held w)).
      unfold upd. cbn [tick_clock w_clk w_sh set_held w_conn w_held w_adv].
      destruct (negb force && _); [reflexivity|].
      rewrite run_bind, G by (cbn; rewrite can_lock_cons by discriminate; auto).
      rewrite F. unfold getrec. change (w_conn (tick_clock (set_held w ((LC c, true) :: w_held w)))) with (w_conn w).
      destruct (getq gr zero dec (w_conn w)) as [[v e] cn]. cbn [fst snd].
      destruct e as [e|]; [reflexivity|]. rewrite P. reflexivity. }
  2:{ reflexivity. }
  f_equal. unfold upd, tick_clock. destruct (negb force && _); [destruct w; reflexivity|].
  destruct (fetch c (w_conn w)) as [[v|] cn]; destruct w; reflexivity.
Qed.

Lemma run_update c force w : can_lock (w_held w) (LC c) = true -> can_lock (w_held w) LPm = true ->
  run (Update c force) w = (RDone tt, upd c force w).
Proof.
  intros L1 L2. destruct c.
  - eapply (run_shape CBoot VBoot 103 zeroBoot BootInfo_Unmarshal GetBootloader
      (fun v now => assign_boot v (Put (on_boot_t now) (Ret tt)))); auto using run_GetBootloader.
    intros. rewrite run_assign_boot. reflexivity.
  - eapply (run_shape CBypass VBypass 223 zeroBypass Bypass_Unmarshal GetBypass
      (fun v now => assign_bypass v (Put (on_bypass_t now) (Ret tt)))); auto using run_GetBypass.
    intros. rewrite run_assign_bypass. reflexivity.
  - eapply (run_shape CTemp VTemp 209 zeroTemps Temps_Unmarshal GetTemperatures
      (fun v now => assign_temp v (Put (on_temp_t now) (Ret tt)))); auto using run_GetTemperatures.
    intros. rewrite run_assign_temp. reflexivity.
  - eapply (run_shape CFans VFans 11 zeroFans Fans_Unmarshal GetFans
      (fun v now => assign_fans v (Put (on_fans_t now) (Ret tt)))); auto using run_GetFans.
    intros. rewrite run_assign_fans. reflexivity.
  - eapply (run_shape CProf VProf 205 zeroProf FanProfiles_Unmarshal GetFanProfiles
      (fun v now => assign_prof v (Put (on_prof_t now) (Ret tt)))); auto using run_GetFanProfiles.
    intros. rewrite run_assign_prof. reflexivity.
  - eapply (run_shape CErr VErr 217 zeroErrors Errors_Unmarshal GetErrors
      (fun v now => assign_err v (Put (on_err_t now) (Ret tt)))); auto using run_GetErrors.
    intros. rewrite run_assign_err. reflexivity.
Qed.

(** ** reading the log *)
Definition starts (l : list io) : Prop :=
  match l with [] => True | Wr a _ :: _ => a <> ack_seq | Rd _ _ _ :: _ => False end.
Lemma framed_not_ack cmd data : framed cmd data <> ack_seq.
Proof. unfold framed, ack_seq. discriminate. Qed.
Lemma exchange_starts cmd data x p e l : exchange cmd data x p e l -> starts l.
Proof. intros []; simpl; auto using framed_not_ack. Qed.
Lemma ok_io_neq a r b : a <> b -> ok_io (Wr a r) b = false.
Proof. intros H. unfold ok_io. destruct (list_eq_dec _ _ _); [contradiction|reflexivity]. Qed.
Lemma ok_io_ack a r : a <> ack_seq -> ok_io (Wr a r) ack_seq = false.
Proof. intros H. apply ok_io_neq. auto. Qed.

Lemma replies_to_app req a b : starts b -> replies_to req (a ++ b) = replies_to req a ++ replies_to req b.
Proof.
  intros S. induction a as [|x a IH]; [reflexivity|]. cbn [app].
  assert (H : forall z, replies_to req (x :: z) = match z with
      | Rd true p None :: Wr a r2 :: _ =>
          if ok_io x (framed req []) && ok_io (Wr a r2) ack_seq && (w_n r2 =? 2) &&
             (p_cmd p =? (req + 1) mod 256)
          then p_data p :: replies_to req z else replies_to req z
      | _ => replies_to req z
      end) by reflexivity.
  rewrite !H. clear H.
  destruct a as [|y a].
  - cbn [app] in *. destruct b as [|z b]; [reflexivity|]. destruct z; [reflexivity|contradiction].
  - cbn [app] in *. destruct y as [ya yr|[] yp [ye|]]; try exact IH.
    destruct a as [|z a].
    + cbn [app] in *. destruct b as [|z b]; [exact IH|]. destruct z as [za zr|]; [|contradiction].
      rewrite (ok_io_ack za zr S). rewrite andb_false_r. exact IH.
    + cbn [app] in *. destruct z as [za zr|]; [|exact IH].
      destruct (_ && _); [rewrite IH; reflexivity|exact IH].
Qed.

Lemma fetched_app c a b : starts b -> fetched c (a ++ b) = fetched c a ++ fetched c b.
Proof. intros S. unfold fetched. rewrite replies_to_app by auto. apply filter_app. Qed.

Lemma starts_app a b : starts a -> starts b -> starts (a ++ b).
Proof. destruct a as [|[]]; simpl; auto. Qed.

Lemma framed_inj c1 d1 c2 d2 : (length d1 <= 255)%nat -> (length d2 <= 255)%nat ->
  framed c1 d1 = framed c2 d2 -> c1 = c2.
Proof. intros _ _ H. unfold framed, wire in H. injection H. auto. Qed.

(** Replies found in the log of one exchange. *)
Lemma exchange_replies cmd data x p e l req : exchange cmd data x p e l ->
  replies_to req l = if (req =? cmd) && match data with [] => x | _ => false end then
                       match e with None => [p_data p] | Some _ => [] end
                     else [].
Proof.
  intros E. destruct E as [L|r e L W|r e L W|r p L W X N|r p r2 e L W M A1 A2 A3];
    cbn [replies_to]; try (destruct (_ && _); reflexivity).
  { destruct x, (_ && _); reflexivity. }
  { destruct x, (_ && _); reflexivity. }
  destruct x.
  2:{ destruct data; rewrite andb_false_r; reflexivity. }
  destruct (req =? cmd) eqn:Q.
  2:{ rewrite ok_io_neq; [reflexivity|]. intros H. apply framed_inj in H; auto; simpl; lia. }
  apply Z.eqb_eq in Q. subst req. cbn [andb]. destruct data as [|b data].
  - rewrite (M eq_refl). rewrite Z.eqb_refl. cbn [ok_io]. rewrite W.
    destruct (list_eq_dec Z.eq_dec (framed cmd []) _); [|contradiction].
    destruct (list_eq_dec Z.eq_dec ack_seq _); [|contradiction]. rewrite andb_true_r. cbn [andb].
    destruct (w_err r2) eqn:E2.
    + cbn [andb]. rewrite A3 by congruence. reflexivity.
    + cbn [andb]. destruct (w_n r2 =? 2) eqn:N.
      * apply Z.eqb_eq in N. rewrite A1 by auto. reflexivity.
      * apply Z.eqb_neq in N. rewrite A2 by auto. reflexivity.
  - rewrite ok_io_neq; [reflexivity|]. intros H.
    unfold framed, wire in H. injection H as H _. cbn [length] in H. lia.
Qed.

(** ** what a fetch does *)
Lemma accepted_spec c p : accepted c p = true <->
  match c with
  | CBoot => length p = 13%nat | CBypass => length p = 7%nat | CTemp => length p = 9%nat
  | CFans => length p = 6%nat /\ be_at p 2 2 <> 0 /\ be_at p 4 2 <> 0
  | CProf => length p = 14%nat | CErr => length p = 17%nat
  end.
Proof.
  destruct c; cbn [accepted]; rewrite ?Nat.eqb_eq; try tauto.
  rewrite !andb_true_iff, !negb_true_iff, Nat.eqb_eq, !Z.eqb_neq. tauto.
Qed.

Lemma getrec_spec {T} c (inj : T -> rec) gr (zero : T) dec cn :
  total_dec dec -> gr = request c ->
  (forall p v, dec p = Done (v, None) -> accepted c p = true /\ (bytes_ok p -> layout_of c p (inj v))) ->
  (forall p v e, dec p = Done (v, Some e) -> accepted c p = false) ->
  exists p e l, c_log (snd (getrec inj (getq gr zero dec cn))) = c_log cn ++ l /\
    exchange (request c) [] true p e l /\
    match fst (getrec inj (getq gr zero dec cn)) with
    | Some v => e = None /\ fetched c l = [p_data p] /\ (bytes_ok (p_data p) -> layout_of c (p_data p) v)
    | None => fetched c l = []
    end.
Proof.
  intros Td -> Ok Bad. unfold getrec, getq.
  destruct (query_exchange (mkPacket (request c) [] true) cn) as (l & Lg & X).
  destruct (query _ cn) as [[q qe] cn'] eqn:Q. cbn [fst snd p_cmd p_data p_expect] in *.
  pose proof (exchange_replies _ _ _ _ _ _ (request c) X) as R. rewrite Z.eqb_refl in R. cbn [andb] in R.
  exists q, qe, l. destruct qe as [e|].
  { cbn [fst snd]. splits; auto. unfold fetched. rewrite R. reflexivity. }
  destruct (Td (p_data q)) as (v & e & D). rewrite D. destruct e as [e|]; cbn [fst snd].
  - splits; auto. unfold fetched. rewrite R. cbn [filter]. rewrite (Bad _ _ _ D). reflexivity.
  - destruct (Ok _ _ D) as [A Dc]. splits; auto.
    unfold fetched. rewrite R. cbn [filter]. rewrite A. reflexivity.
Qed.

Lemma fetch_spec c cn : exists p e l, c_log (snd (fetch c cn)) = c_log cn ++ l /\
  exchange (request c) [] true p e l /\
  match fst (fetch c cn) with
  | Some v => e = None /\ fetched c l = [p_data p] /\ (bytes_ok (p_data p) -> layout_of c (p_data p) v)
  | None => fetched c l = []
  end.
Proof.
  destruct c; cbn [fetch]; apply getrec_spec; auto using boot_total, bypass_total, temps_total, fans_total,
    prof_total, errors_total.
  - intros p v D. apply boot_decodes in D as [L D]. split; auto. apply accepted_spec. auto.
  - intros p v e D. destruct (accepted CBoot p) eqn:A; auto. apply accepted_spec in A.
    destruct (boot_spec p) as [_ S]. destruct (S A) as (t & E & _). congruence.
  - intros p v D. apply bypass_decodes in D as [L D]. split; auto. apply accepted_spec. auto.
  - intros p v e D. destruct (accepted CBypass p) eqn:A; auto. apply accepted_spec in A.
    destruct (bypass_spec p) as [_ S]. destruct (S A) as (t & E & _). congruence.
  - intros p v D. apply temps_decodes in D as [L D]. split; auto. apply accepted_spec. auto.
  - intros p v e D. destruct (accepted CTemp p) eqn:A; auto. apply accepted_spec in A.
    do 9 (destruct p as [|? p]; [discriminate|]). destruct p; [|discriminate]. discriminate.
  - intros p v D. apply fans_decodes in D as (L & N1 & N2 & D). split; auto. apply accepted_spec. auto.
  - intros p v e D. destruct (accepted CFans p) eqn:A; auto. apply accepted_spec in A as (A & N1 & N2).
    destruct (fans_spec p) as (_ & _ & S). destruct (S A N1 N2) as (t & E & _). congruence.
  - intros p v D. apply prof_decodes in D as [L D]. split; auto. apply accepted_spec. auto.
  - intros p v e D. destruct (accepted CProf p) eqn:A; auto. apply accepted_spec in A.
    destruct (profiles_spec p) as [_ S]. destruct (S A) as (t & E & _). congruence.
  - intros p v D. apply errors_decodes in D as [L D]. split; auto. apply accepted_spec. auto.
  - intros p v e D. destruct (accepted CErr p) eqn:A; auto. apply accepted_spec in A.
    destruct (errors_spec p) as [_ S]. destruct (S A) as (t & E & _). congruence.
Qed.

Lemma fetch_kind c cn v : fst (fetch c cn) = Some v ->
  match c, v with
  | CBoot, VBoot _ | CBypass, VBypass _ | CTemp, VTemp _ | CFans, VFans _ | CProf, VProf _ | CErr, VErr _ => True
  | _, _ => False
  end.
Proof.
  destruct c; cbn [fetch]; unfold getrec; cbn [fst];
    match goal with |- context [getq ?a ?b ?d ?e] => destruct (getq a b d e) as [[? [?|]] ?] end;
    cbn [fst snd]; intros H; injection H as <- || discriminate; exact I.
Qed.

Lemma store_cached v now s c : 
  cached (store v now s) c =
  match c, v with
  | CBoot, VBoot _ | CBypass, VBypass _ | CTemp, VTemp _ | CFans, VFans _ | CProf, VProf _ | CErr, VErr _ => v
  | _, _ => cached s c
  end.
Proof. destruct c, v; reflexivity. Qed.
Lemma store_stamp v now s c : 
  stamp (store v now s) c =
  match c, v with
  | CBoot, VBoot _ | CBypass, VBypass _ | CTemp, VTemp _ | CFans, VFans _ | CProf, VProf _ | CErr, VErr _ => now
  | _, _ => stamp s c
  end.
Proof. destruct c, v; reflexivity. Qed.

(** ** operations as functions on worlds *)
Definition does {A} (p : sproc A) (locks : list lockid) (f : world shared -> A * world shared) : Prop :=
  forall w, (forall l, In l locks -> can_lock (w_held w) l = true) ->
    run p w = (RDone (fst (f w)), snd (f w)) /\
    forall h, f (set_held w h) = (fst (f w), set_held (snd (f w)) h).

Lemma does_held {A} (p : sproc A) locks f w : does p locks f ->
  (forall l, In l locks -> can_lock (w_held w) l = true) -> w_held (snd (f w)) = w_held w.
Proof.
  intros D L. destruct (D w L) as [_ H]. specialize (H (w_held w)).
  replace (set_held w (w_held w)) with w in H by (destruct w; reflexivity).
  rewrite H at 1. reflexivity.
Qed.

Lemma does_ret {A} (a : A) : does (Ret a) [] (fun w => (a, w)).
Proof. intros w _. split; reflexivity. Qed.

Lemma does_bind {A B} (p : sproc A) (q : A -> sproc B) l1 l2 f g :
  does p l1 f -> (forall a, does (q a) l2 (g a)) ->
  does (bind p q) (l1 ++ l2) (fun w => g (fst (f w)) (snd (f w))).
Proof.
  intros P Q w L. destruct (P w) as [R H]; [intros; apply L, in_or_app; auto|].
  assert (Hh : w_held (snd (f w)) = w_held w).
  { eapply does_held; eauto. intros; apply L, in_or_app; auto. }
  destruct (Q (fst (f w)) (snd (f w))) as [R2 H2].
  { intros l I. rewrite Hh. apply L, in_or_app; auto. }
  split.
  - rewrite run_bind, R. exact R2.
  - intros h. rewrite H. cbn [fst snd]. apply H2.
Qed.

Lemma does_get {A} (k : shared -> sproc A) l g : (forall s, does (k s) l (g s)) ->
  does (Get k) l (fun w => g (w_sh w) w).
Proof. intros K w L. destruct (K (w_sh w) w L) as [R H]. split; [exact R|]. intros h. apply H. Qed.

Lemma does_lock {A} (p : sproc A) l locks f : ~ In l locks -> does p locks f ->
  does (with_lock l p) (l :: locks) f.
Proof.
  intros N P w L. 
  assert (L' : forall x, In x locks -> can_lock (w_held (set_held w ((l, true) :: w_held w))) x = true).
  { intros x I. cbn [set_held w_held]. rewrite can_lock_cons by (intros ->; contradiction). apply L. right. auto. }
  destruct (P w ltac:(intros; apply L; right; auto)) as [_ H].
  split; [|exact H].
  destruct (P _ L') as [R _]. rewrite (H ((l, true) :: w_held w)) in R. cbn [fst snd] in R.
  erewrite run_with_lock; [ | apply L; left; auto | exact R | reflexivity ].
  pose proof (does_held p locks f w P ltac:(intros; apply L; right; auto)) as Hh.
  f_equal. rewrite <- Hh. apply set_held_id.
Qed.

Lemma does_weaken {A} (p : sproc A) l1 l2 f : (forall x, In x l1 -> In x l2) -> does p l1 f -> does p l2 f.
Proof. intros I P w L. apply P. auto. Qed.

Lemma does_ext {A} (p : sproc A) l f g : (forall w, f w = g w) -> does p l f -> does p l g.
Proof. intros E P w L. destruct (P w L) as [R H]. rewrite <- !E. split; auto. intros h. rewrite <- E. auto. Qed.

Lemma does_update c force : does (Update c force) [LC c; LPm] (fun w => (tt, upd c force w)).
Proof.
  intros w L. split; [apply run_update; apply L; simpl; auto|].
  intros h. cbn [fst snd]. f_equal. unfold upd. cbn [set_held tick_clock w_clk w_sh w_conn w_adv].
  destruct (negb force && _); [destruct w; reflexivity|].
  destruct (fetch c (w_conn w)) as [[v|] cn]; destruct w; reflexivity.
Qed.

Lemma does_setq r : does (setQuery r) [LPm] (fun w => (fst (setq r (w_conn w)), set_conn w (snd (setq r (w_conn w))))).
Proof. intros w L. split; [apply run_setQuery, L; simpl; auto|]. reflexivity. Qed.

Lemma does_fprofile m v : does (SetFanProfile m v) [LPm; LAm]
  (fun w => (fst (fprofile m v (w_conn w)), set_conn w (snd (fprofile m v (w_conn w))))).
Proof. intros w L. split; [apply run_SetFanProfile; apply L; simpl; auto|]. reflexivity. Qed.

(** ** the operations *)
Definition f_comfort (t : Z) (w : world shared) : resp * world shared :=
  let o := Comfort (sh_temp (w_sh w)) in
  if t >? 255 then (RespErr (InvalidArgument ArgComfortTemp), w)
  else if negb (f32_to_u8 o =? u8 t) then
    let (e, cn) := setq (SRComfort (f32_of_Z (u8 t))) (w_conn w) in
    match e with
    | Some e => (RespErr (Internal (LibErr e)), set_conn w cn)
    | None => (RespComfort true (f32_to_u32 o) t, upd CTemp true (set_conn w cn))
    end
  else (RespComfort false (f32_to_u32 o) t, w).

Lemma does_comfort t : does (SetComfortTemp t) [LTemp; LPm; LC CTemp] (f_comfort t).
Proof.
  unfold SetComfortTemp. eapply does_ext; [|apply does_get with (g := fun s w =>
    if t >? 255 then (RespErr (InvalidArgument ArgComfortTemp), w)
    else if negb (f32_to_u8 (Comfort (sh_temp s)) =? u8 t) then
      match setq (SRComfort (f32_of_Z (u8 t))) (w_conn w) with
      | (Some e, cn) => (RespErr (Internal (LibErr e)), set_conn w cn)
      | (None, cn) => (RespComfort true (f32_to_u32 (Comfort (sh_temp s))) t, upd CTemp true (set_conn w cn))
      end
    else (RespComfort false (f32_to_u32 (Comfort (sh_temp s))) t, w))].
  { reflexivity. }
  intros s. cbv zeta. destruct (t >? 255).
  { eapply does_weaken; [|apply does_ret]. intros ? []. }
  destruct (negb _).
  2:{ eapply does_weaken; [|apply does_ret]. intros ? []. }
  apply does_lock; [intros [H|[H|[]]]; discriminate|].
  eapply does_weaken with (l1 := [LPm] ++ ([LC CTemp; LPm] ++ [])).
  { simpl. intuition. }
  eapply does_ext; [|eapply does_bind; [apply does_setq|]].
  2:{ intros a. instantiate (1 := fun a w => match a with
        | Some e => (RespErr (Internal (LibErr e)), w)
        | None => (RespComfort true (f32_to_u32 (Comfort (sh_temp s))) t, upd CTemp true w) end).
      destruct a as [e|]; [eapply does_weaken; [|apply does_ret]; intros ? []|].
      eapply does_ext; [|eapply does_bind; [apply does_update|]].
      2:{ intros u. apply does_ret. }
      reflexivity. }
  intros w. cbn [fst snd]. destruct (setq _ _) as [[e|] cn]; reflexivity.
Qed.

Fixpoint f_poll (n : nat) (i o : Z) (w : world shared) : option srv_err * world shared :=
  match n with
  | O => (Some ErrSetPollFailed, w)
  | S m => let w1 := upd CFans true w in
           if (InPercent (sh_fans (w_sh w1)) =? i) && (OutPercent (sh_fans (w_sh w1)) =? o) then (None, w1)
           else f_poll m i o (add_clock w1 500000000)
  end.

Lemma does_sleep {A} d (p : sproc A) l f : does p l f -> does (Sleep d p) l (fun w => f (add_clock w d)).
Proof.
  intros P w L. destruct (P (add_clock w d) L) as [R H]. split; [exact R|].
  intros h. change (add_clock (set_held w h) d) with (set_held (add_clock w d) h). apply H.
Qed.

Lemma does_poll n i o : does (poll_loop n i o) [LC CFans; LPm] (f_poll n i o).
Proof.
  induction n as [|m IH]; cbn [poll_loop f_poll].
  { eapply does_weaken; [|apply does_ret]. intros ? []. }
  set (sl := does_sleep (second / 2) _ _ _ IH).
  eapply does_weaken with (l1 := [LC CFans; LPm] ++ [LC CFans; LPm]); [simpl; intuition|].
  eapply does_ext; [|eapply does_bind; [apply does_update|]].
  2:{ intros u. apply does_get with (g := fun s w => if InPercent (sh_fans s) =? i then
          (if OutPercent (sh_fans (w_sh w)) =? o then (None, w) else f_poll m i o (add_clock w 500000000))
          else f_poll m i o (add_clock w 500000000)).
      intros s. destruct (_ =? i); [|exact sl].
      apply does_get with (g := fun s w => if OutPercent (sh_fans s) =? o then (None, w) else f_poll m i o (add_clock w 500000000)).
      intros s2. destruct (_ =? o); [|exact sl].
      eapply does_weaken; [|apply does_ret]. intros ? []. }
  intros w. cbn [fst snd]. destruct (_ =? i); [|reflexivity]. destruct (_ =? o); reflexivity.
Qed.

Lemma release_head_f h l : release ((l, false) :: h) l false = Some h.
Proof. apply release_head. Qed.
Lemma can_lock_rlock h l : can_lock h l = true -> can_rlock h l = true.
Proof. unfold can_lock, can_rlock. intros H. apply andb_true_iff in H as [H _]. exact H. Qed.

Definition f_updpoll (n : nat) (v : Z) (w : world shared) : option srv_err * world shared :=
  let '(i, o, _) := Lookup (sh_prof (w_sh w)) v in f_poll n i o w.
Lemma does_updpoll n v : 1 <= v <= 4 -> does (UpdatePoll n v) [LC CProf; LC CFans; LPm] (f_updpoll n v).
Proof.
  intros V w L. unfold UpdatePoll, f_updpoll. cbn [run].
  rewrite can_lock_rlock by (apply L; simpl; auto). cbn [set_held w_sh].
  assert (E : exists i o, Lookup (sh_prof (w_sh w)) v = (i, o, None)).
  { assert (v = 1 \/ v = 2 \/ v = 3 \/ v = 4) as [-> |[-> |[-> | ->]]] by lia; eexists; eexists; reflexivity. }
  destruct E as (i & o & ->). cbn [run w_held set_held]. rewrite release_head.
  destruct (does_poll n i o w) as [R H]; [intros; apply L; simpl in *; intuition|].
  split; [|exact H]. rewrite <- R. f_equal. destruct w; reflexivity.
Qed.

Definition f_speed (abs : Z) (rel : bool) (w : world shared) : resp * world shared :=
  let o := CurrentMode (sh_prof (w_sh w)) in
  match modifySpeed o abs rel with
  | (_, Some e) => (RespErr e, w)
  | (v, None) =>
      if negb (u8 v =? o) then
        let (e, cn) := setq (SRSpeed (u8 v)) (w_conn w) in
        match e with
        | Some e => (RespErr (Internal (LibErr e)), set_conn w cn)
        | None =>
            let (e, w2) := f_updpoll 10 (u8 v) (set_conn w cn) in
            match e with
            | Some e => (RespErr (Internal e), w2)
            | None => (RespSpeed true (u32 o) (u32 v), upd CProf true w2)
            end
        end
      else (RespSpeed false (u32 o) (u32 v), w)
  end.

Lemma modify_range base abs rel v : modifySpeed base abs rel = (v, None) -> 1 <= v <= 4.
Proof.
  unfold modifySpeed. destruct (_ && rel); [discriminate|].
  destruct ((_ <? 1) || (_ >? 4)) eqn:E; [discriminate|]. intros H. injection H as <-. lia.
Qed.

Ltac nolocks := eapply does_weaken; [|apply does_ret]; intros ? [].
Lemma does_speed abs rel : does (SetFanSpeed abs rel) [LFan; LPm; LC CProf; LC CFans] (f_speed abs rel).
Proof.
  unfold SetFanSpeed. apply does_lock; [intros [H|[H|[H|[]]]]; discriminate|].
  apply does_get with (g := fun s w =>
    let o := CurrentMode (sh_prof s) in
    match modifySpeed o abs rel with
    | (_, Some e) => (RespErr e, w)
    | (v, None) =>
      if negb (u8 v =? o) then
        let (e, cn) := setq (SRSpeed (u8 v)) (w_conn w) in
        match e with
        | Some e => (RespErr (Internal (LibErr e)), set_conn w cn)
        | None =>
            let (e, w2) := f_updpoll 10 (u8 v) (set_conn w cn) in
            match e with
            | Some e => (RespErr (Internal e), w2)
            | None => (RespSpeed true (u32 o) (u32 v), upd CProf true w2)
            end
        end
      else (RespSpeed false (u32 o) (u32 v), w)
    end).
  intros s. cbv zeta. destruct (modifySpeed _ _ _) as [v [e|]] eqn:M; [nolocks|].
  apply modify_range in M. assert (U : u8 v = v) by (unfold u8; apply Z.mod_small; lia). rewrite U.
  destruct (negb _); [|nolocks].
  eapply does_weaken with (l1 := [LPm] ++ ([LC CProf; LC CFans; LPm] ++ ([LC CProf; LPm] ++ [])));
    [simpl; intuition|].
  eapply does_ext; [|eapply does_bind; [apply does_setq|]].
  2:{ intros a. instantiate (1 := fun a w => match a with
        | Some e => (RespErr (Internal (LibErr e)), w)
        | None => let (e, w2) := f_updpoll 10 v w in
            match e with
            | Some e => (RespErr (Internal e), w2)
            | None => (RespSpeed true (u32 (CurrentMode (sh_prof s))) (u32 v), upd CProf true w2)
            end end).
      destruct a as [e|]; [nolocks|].
      eapply does_ext; [|eapply does_bind; [apply does_updpoll; lia|]].
      2:{ intros b. instantiate (1 := fun b w => match b with
          | Some e => (RespErr (Internal e), w)
          | None => (RespSpeed true (u32 (CurrentMode (sh_prof s))) (u32 v), upd CProf true w) end).
          destruct b as [e|]; [nolocks|].
          eapply does_ext; [|eapply does_bind; [apply does_update|]].
          2:{ intros u. apply does_ret. }
          reflexivity. }
      intros w. cbv beta. destruct (f_updpoll 10 v w) as [[e|] w2]; reflexivity. }
  intros w. cbn [fst snd]. destruct (setq _ _) as [[e|] cn]; reflexivity.
Qed.

Definition profile_in (p : FanProfiles) (mode : Z) : option Z :=
  if mode =? 0 then Some (InAway p)
  else if mode =? 1 then Some (InLow p)
  else if mode =? 2 then Some (InMid p)
  else if mode =? 3 then Some (InHigh p)
  else None.
Definition f_profile (m t : Z) (w : world shared) : resp * world shared :=
  if (u8 m <? 1) || (u8 m >? 4) then (RespErr (InvalidArgument ArgMode), w)
  else if (u8 t <? 15) || (u8 t >? 100) then (RespErr (InvalidArgument ArgTargetSpeed), w)
  else match profile_in (sh_prof (w_sh w)) (u8 m - 1) with
       | None => (RespErr (InvalidArgument ArgMode), w)   (* impossible *)
       | Some o =>
           if negb (o =? u8 t) then
             let (e, cn) := fprofile (u8 m - 1) (u8 t) (w_conn w) in
             match e with
             | Some e => (RespErr (Internal (LibErr e)), set_conn w cn)
             | None => (RespProfile true (u32 o) t, upd CProf true (set_conn w cn))
             end
           else (RespProfile false (u32 o) t, w)
       end.

Lemma does_profile m t : does (SetFanProfileRPC m t) [LFan; LPm; LAm; LC CProf] (f_profile m t).
Proof.
  unfold SetFanProfileRPC, f_profile. cbv zeta. destruct ((u8 m <? 1) || (u8 m >? 4)) eqn:M; [nolocks|].
  destruct ((u8 t <? 15) || (u8 t >? 100)) eqn:T; [nolocks|].
  assert (U : u8 (u8 m - 1) = u8 m - 1) by (unfold u8 at 1; apply Z.mod_small; lia). rewrite U.
  apply does_lock; [intros [H|[H|[H|[]]]]; discriminate|].
  apply does_get with (g := fun s w => match profile_in (sh_prof s) (u8 m - 1) with
       | None => (RespErr (InvalidArgument ArgMode), w)
       | Some o =>
           if negb (o =? u8 t) then
             let (e, cn) := fprofile (u8 m - 1) (u8 t) (w_conn w) in
             match e with
             | Some e => (RespErr (Internal (LibErr e)), set_conn w cn)
             | None => (RespProfile true (u32 o) t, upd CProf true (set_conn w cn))
             end
           else (RespProfile false (u32 o) t, w)
       end).
  intros s. fold (profile_in (sh_prof s) (u8 m - 1)).
  destruct (profile_in _ _) as [o|] eqn:P.
  2:{ exfalso. unfold profile_in in P. repeat (destruct (_ =? _) eqn:? in P; [discriminate|]). lia. }
  destruct (negb _); [|nolocks].
  eapply does_weaken with (l1 := [LPm; LAm] ++ ([LC CProf; LPm] ++ [])); [simpl; intuition|].
  eapply does_ext; [|eapply does_bind; [apply does_fprofile|]].
  2:{ intros a. instantiate (1 := fun a w => match a with
        | Some e => (RespErr (Internal (LibErr e)), w)
        | None => (RespProfile true (u32 o) t, upd CProf true w) end).
      destruct a as [e|]; [nolocks|].
      eapply does_ext; [|eapply does_bind; [apply does_update|]].
      2:{ intros u. apply does_ret. }
      reflexivity. }
  intros w. cbn [fst snd]. destruct (fprofile _ _ _) as [[e|] cn]; reflexivity.
Qed.
