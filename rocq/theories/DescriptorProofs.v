(** A reader of descriptors, sound for [describes]; what is described is unique. *)
From Coq Require Import String Ascii.
From Verif Require Import ProofBase Lib Wire Twirp TwirpProofs SpecWire WireProofs WireUnique SpecDescriptor.

(** ** Reading fields *)
Fixpoint fields_ (fuel : nat) (b : list byte) : option (list (Z * wval)) :=
  match fuel, b with
  | _, [] => Some []
  | O, _ => None
  | S k, _ =>
      match consumeTag b with
      | Some (n, t, r) =>
          if n <=? 536870911 then
            if t =? 0 then match consumeVarint r with
                           | Some (v, r') => option_map (cons (n, WVarint v)) (fields_ k r')
                           | None => None
                           end
            else if t =? 2 then match consumeBytes r with
                                | Some (s, r') => option_map (cons (n, WBytes s)) (fields_ k r')
                                | None => None
                                end
            else None
          else None
      | None => None
      end
  end.
Definition fields_of (b : list byte) : option (list (Z * wval)) :=
  if forallb (fun x => (0 <=? x) && (x <? 256)) b then fields_ (length b) b else None.
Lemma fields_sound k : forall b fs, bytes_ok b -> fields_ k b = Some fs -> encodes fs b.
Proof.
  induction k as [|k IH]; intros b fs B H.
  - destruct b; cbn in H; [injection H as <-; constructor|discriminate].
  - destruct b as [|x b]; [injection H as <-; constructor|]. cbn [fields_] in H. set (c := x :: b) in *. clearbody c.
    destruct (consumeTag c) as [[[n t] r]|] eqn:T; [|discriminate].
    destruct (consumed_tag _ _ _ _ B T) as (h & -> & V & N & W). apply Forall_app in B. destruct B as [_ B].
    destruct (n <=? 536870911) eqn:M; [|discriminate].
    destruct (t =? 0) eqn:T0.
    { destruct (consumeVarint r) as [[v r']|] eqn:E; [|discriminate]. destruct (consumed_varint _ _ _ B E) as (u & -> & U).
      apply Forall_app in B. destruct B as [_ B]. destruct (fields_ k r') as [gs|] eqn:F; [|discriminate]. injection H as <-.
      replace t with 0 in V by lia. constructor; auto; try lia. constructor; auto. apply IH; auto. }
    destruct (t =? 2) eqn:T2; [|discriminate].
    destruct (consumeBytes r) as [[s r']|] eqn:E; [|discriminate]. destruct (consumed_bytes _ _ _ B E) as (l & -> & U).
    apply Forall_app in B. destruct B as [_ B]. apply Forall_app in B. destruct B as [_ B].
    destruct (fields_ k r') as [gs|] eqn:F; [|discriminate]. injection H as <-.
    replace t with 2 in V by lia. rewrite (app_assoc l). constructor; auto; try lia. constructor; auto. apply IH; auto.
Qed.
Lemma fields_of_sound b fs : fields_of b = Some fs -> encodes fs b.
Proof.
  unfold fields_of. destruct (forallb _ b) eqn:B; [|discriminate]. apply fields_sound. apply Forall_forall. intros x I.
  rewrite forallb_forall in B. specialize (B _ I). cbv beta in B. unfold byte_ok. lia.
Qed.

(** ** Checking *)
Definition once (l : list (list byte)) (s : string) : bool := match l with [x] => beq x (str s) | _ => false end.
Definition one (l : list Z) (v : Z) : bool := match l with [x] => x =? v | _ => false end.
Definition onlyb (ns : list Z) (fs : list (Z * wval)) : bool := forallb (fun f => existsb (Z.eqb (fst f)) ns) fs.
Fixpoint all2 {A B} (f : A -> B -> bool) (l : list A) (m : list B) : bool :=
  match l, m with [], [] => true | x :: l', y :: m' => f x y && all2 f l' m' | _, _ => false end.
Definition on (b : list byte) (c : list (Z * wval) -> bool) : bool := match fields_of b with Some fs => c fs | None => false end.
Definition check_field (pkg m : string) (b : list byte) (f : Z * string * ptype) : bool :=
  let '(n, name, t) := f in
  on b (fun fs => onlyb [1; 3; 4; 5; 6; 10] fs && once (strings 1 fs) name && one (varints 3 fs) n && one (varints 4 fs) 1 &&
    one (varints 5 fs) (type_number t) &&
    match t with PEnum e => once (strings 6 fs) ("." ++ pkg ++ "." ++ m ++ "." ++ e)%string | _ => match strings 6 fs with [] => true | _ => false end end &&
    (match strings 10 fs with [] => true | _ => false end || once (strings 10 fs) name)).
Definition check_value (b : list byte) (v : string * Z) : bool :=
  on b (fun fs => onlyb [1; 2] fs && once (strings 1 fs) (fst v) && one (varints 2 fs) (snd v)).
Definition check_enum (b : list byte) (e : string * list (string * Z)) : bool :=
  on b (fun fs => onlyb [1; 2] fs && once (strings 1 fs) (fst e) && all2 check_value (strings 2 fs) (snd e)).
Definition check_message (pkg : string) (b : list byte) (m : pmessage) : bool :=
  on b (fun fs => onlyb [1; 2; 4] fs && once (strings 1 fs) (m_name m) && all2 (check_field pkg (m_name m)) (strings 2 fs) (m_fields m) &&
    all2 check_enum (strings 4 fs) (m_enums m)).
Definition check_method (pkg : string) (b : list byte) (m : string * string * string) : bool :=
  let '(name, i, o) := m in
  on b (fun fs => onlyb [1; 2; 3] fs && once (strings 1 fs) name && once (strings 2 fs) ("." ++ pkg ++ "." ++ i)%string &&
    once (strings 3 fs) ("." ++ pkg ++ "." ++ o)%string).
Definition check_service (pkg : string) (b : list byte) (s : pservice) : bool :=
  on b (fun fs => onlyb [1; 2] fs && once (strings 1 fs) (s_name s) && all2 (check_method pkg) (strings 2 fs) (s_methods s)).
Definition check (b : list byte) (f : pfile) : bool :=
  on b (fun fs => onlyb [1; 2; 4; 6; 8; 12] fs && once (strings 2 fs) (f_package f) && once (strings 12 fs) "proto3" &&
    all2 (check_message (f_package f)) (strings 4 fs) (f_messages f) && all2 (check_service (f_package f)) (strings 6 fs) (f_services f)).

Lemma once_sound n fs s : once (strings n fs) s = true -> named n fs s.
Proof. unfold once, named. destruct (strings n fs) as [|x [|y l]]; try discriminate. intros E. apply beq_eq in E. congruence. Qed.
Lemma one_sound n fs v : one (varints n fs) v = true -> numbered n fs v.
Proof. unfold one, numbered. destruct (varints n fs) as [|x [|y l]]; try discriminate. intros E. f_equal. lia. Qed.
Lemma only_sound ns fs : onlyb ns fs = true -> only ns fs.
Proof.
  unfold onlyb, only. rewrite forallb_forall, Forall_forall. intros H f I. specialize (H f I). apply existsb_exists in H.
  destruct H as (x & X & E). apply Z.eqb_eq in E. congruence.
Qed.
Lemma none_sound {A} (l : list A) : match l with [] => true | _ => false end = true -> l = [].
Proof. destruct l; [auto|discriminate]. Qed.
Lemma all2_sound {A B} (f : A -> B -> bool) (P : A -> B -> Prop) (H : forall a b, f a b = true -> P a b) l : forall m, all2 f l m = true -> Forall2 P l m.
Proof. induction l as [|x l IH]; intros [|y m] E; try discriminate; [constructor|]. cbn in E. apply andb_true_iff in E. destruct E. constructor; auto. Qed.
Lemma on_sound b c : on b c = true -> exists fs, encodes fs b /\ c fs = true.
Proof. unfold on. destruct (fields_of b) as [fs|] eqn:F; [|discriminate]. eauto using fields_of_sound. Qed.
Ltac split_checks H := repeat (apply andb_true_iff in H; let K := fresh "K" in destruct H as [H K]).
Ltac opened H := apply on_sound in H; let fs := fresh "fs" in let E := fresh "E" in destruct H as (fs & E & H); split_checks H; exists fs; repeat split;
  auto using once_sound, one_sound, only_sound, none_sound.
Lemma field_sound pkg m b f : check_field pkg m b f = true -> describes_field pkg m b f.
Proof.
  destruct f as [[n name] t]. unfold check_field, describes_field. intros H. opened H.
  - destruct t; auto using once_sound, none_sound.
  - apply orb_true_iff in K. destruct K; auto using once_sound, none_sound.
Qed.
Lemma value_sound b v : check_value b v = true -> describes_value b v.
Proof. unfold check_value, describes_value. intros H. opened H. Qed.
Lemma enum_sound b e : check_enum b e = true -> describes_enum b e.
Proof. unfold check_enum, describes_enum. intros H. opened H. eapply all2_sound; eauto using value_sound. Qed.
Lemma message_sound pkg b m : check_message pkg b m = true -> describes_message pkg b m.
Proof. unfold check_message, describes_message. intros H. opened H; eapply all2_sound; eauto using field_sound, enum_sound. Qed.
Lemma method_sound pkg b m : check_method pkg b m = true -> describes_method pkg b m.
Proof. destruct m as [[name i] o]. unfold check_method, describes_method. intros H. opened H. Qed.
Lemma service_sound pkg b s : check_service pkg b s = true -> describes_service pkg b s.
Proof. unfold check_service, describes_service. intros H. opened H. eapply all2_sound; eauto using method_sound. Qed.
Lemma check_sound b f : check b f = true -> describes b f.
Proof. unfold check, describes. intros H. opened H; eapply all2_sound; eauto using message_sound, service_sound. Qed.

(** ** Uniqueness *)
Lemma str_inj s : forall t, str s = str t -> s = t.
Proof.
  induction s as [|a s IH]; intros [|b t] E; try discriminate; [auto|]. unfold str in E. cbn in E. injection E as A E.
  apply Nat2Z.inj in A. f_equal; [|auto]. rewrite <- (ascii_nat_embedding a), <- (ascii_nat_embedding b). congruence.
Qed.
Lemma named_unique n fs s t : named n fs s -> named n fs t -> s = t.
Proof. unfold named. intros A B. apply str_inj. congruence. Qed.
Lemma numbered_unique n fs s t : numbered n fs s -> numbered n fs t -> s = t.
Proof. unfold numbered. intros A B. congruence. Qed.
Lemma forall2_unique {A B} (P : A -> B -> Prop) (H : forall a b b', P a b -> P a b' -> b = b') l : forall m m', Forall2 P l m -> Forall2 P l m' -> m = m'.
Proof. induction l as [|x l IH]; intros m m' F F'; inversion F; inversion F'; subst; [auto|]. f_equal; eauto. Qed.
Lemma append_inj p : forall s t, (p ++ s = p ++ t)%string -> s = t.
Proof. induction p as [|a p IH]; intros s t E; cbn in E; [auto|]. injection E as E. auto. Qed.
Lemma prefixed_unique n fs p s t : named n fs ("." ++ p ++ "." ++ s)%string -> named n fs ("." ++ p ++ "." ++ t)%string -> s = t.
Proof. intros A B. pose proof (named_unique _ _ _ _ A B) as E. apply append_inj in E. apply append_inj in E. apply append_inj in E. auto. Qed.
Lemma type_unique pkg m fs t t' : numbered 5 fs (type_number t) -> numbered 5 fs (type_number t') ->
  match t with PEnum e => named 6 fs ("." ++ pkg ++ "." ++ m ++ "." ++ e)%string | _ => strings 6 fs = [] end ->
  match t' with PEnum e => named 6 fs ("." ++ pkg ++ "." ++ m ++ "." ++ e)%string | _ => strings 6 fs = [] end -> t = t'.
Proof.
  intros A B. pose proof (numbered_unique _ _ _ _ A B) as E. destruct t, t'; try discriminate; auto. intros C D. f_equal.
  pose proof (prefixed_unique _ _ _ _ _ C D) as X. apply append_inj in X. apply append_inj in X. auto.
Qed.
Lemma field_unique pkg m b f f' : describes_field pkg m b f -> describes_field pkg m b f' -> f = f'.
Proof.
  destruct f as [[n name] t], f' as [[n' name'] t']. intros (fs & E & _ & A & B & _ & C & D & _) (gs & E' & _ & A' & B' & _ & C' & D' & _).
  rewrite <- (encodes_unique _ _ _ E E') in *. repeat f_equal; eauto using named_unique, numbered_unique, type_unique.
Qed.
Lemma value_unique b v v' : describes_value b v -> describes_value b v' -> v = v'.
Proof.
  destruct v, v'. intros (fs & E & _ & A & B) (gs & E' & _ & A' & B'). rewrite <- (encodes_unique _ _ _ E E') in *.
  f_equal; eauto using named_unique, numbered_unique.
Qed.
Lemma enum_unique b v v' : describes_enum b v -> describes_enum b v' -> v = v'.
Proof.
  destruct v, v'. intros (fs & E & _ & A & B) (gs & E' & _ & A' & B'). rewrite <- (encodes_unique _ _ _ E E') in *.
  f_equal; eauto using named_unique, forall2_unique, value_unique.
Qed.
Lemma message_unique pkg b m m' : describes_message pkg b m -> describes_message pkg b m' -> m = m'.
Proof.
  destruct m as [n f e], m' as [n' f' e']. intros (fs & E & _ & A & B & C) (gs & E' & _ & A' & B' & C'). rewrite <- (encodes_unique _ _ _ E E') in *.
  cbn in *. assert (n = n') as -> by eauto using named_unique. f_equal; eauto using forall2_unique, field_unique, enum_unique.
Qed.
Lemma method_unique pkg b m m' : describes_method pkg b m -> describes_method pkg b m' -> m = m'.
Proof.
  destruct m as [[n i] o], m' as [[n' i'] o']. intros (fs & E & _ & A & B & C) (gs & E' & _ & A' & B' & C'). rewrite <- (encodes_unique _ _ _ E E') in *.
  repeat f_equal; eauto using named_unique, prefixed_unique.
Qed.
Lemma service_unique pkg b m m' : describes_service pkg b m -> describes_service pkg b m' -> m = m'.
Proof.
  destruct m, m'. intros (fs & E & _ & A & B) (gs & E' & _ & A' & B'). rewrite <- (encodes_unique _ _ _ E E') in *.
  f_equal; eauto using named_unique, forall2_unique, method_unique.
Qed.
Lemma describes_unique b f f' : describes b f -> describes b f' -> f = f'.
Proof.
  destruct f as [p m s], f' as [p' m' s']. intros (fs & E & _ & A & _ & B & C) (gs & E' & _ & A' & _ & B' & C').
  rewrite <- (encodes_unique _ _ _ E E') in *. cbn in *. assert (p = p') as -> by eauto using named_unique.
  f_equal; eauto using forall2_unique, message_unique, service_unique.
Qed.
