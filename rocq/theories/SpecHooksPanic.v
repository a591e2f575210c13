(** Words for the statements about hooks that panic. *)
From Coq Require Import String.
From Verif Require Import GoBase Server Wire Twirp JsonWrite JsonError ErrorText Hooks SpecHooks HooksPanic.

(** The two do the same wherever the first does not panic. *)
Definition tame {A B : Type} (R : A -> B -> Prop) (f : option A) (g : option B) : Prop :=
  match f, g with None, None => True | Some f, Some g => R f g | _, _ => False end.
Definition tamed (p : phooks) (h : hooks) : Prop :=
  tame (fun f g => forall c x, f c = Some x -> g c = x) (pk_received p) (hk_received h) /\
  tame (fun f g => forall c x, f c = Some x -> g c = x) (pk_routed p) (hk_routed h) /\
  tame (fun f g => forall c x, f c = Some x -> g c = x) (pk_prepared p) (hk_prepared h) /\
  tame (fun _ _ => True) (pk_sent p) (hk_sent h) /\
  tame (fun f g => forall c e x, f c e = Some x -> g c e = x) (pk_error p) (hk_error h).
Definition alike_but_calm (p : option phooks) (hk : option hooks) : Prop := tame tamed p hk.

(** The hook that is called panics. *)
Definition panics {A : Type} (x : option A) : bool := match x with Some _ => false | None => true end.
Definition throws (p : option phooks) (e : hevent) : bool :=
  match p with
  | None => false
  | Some p =>
      match e with
      | HReceived c => match pk_received p with Some f => panics (f c) | None => false end
      | HRouted c => match pk_routed p with Some f => panics (f c) | None => false end
      | HPrepared c => match pk_prepared p with Some f => panics (f c) | None => false end
      | HSent c => match pk_sent p with Some f => panics (f c) | None => false end
      | HError c g => match pk_error p with Some f => panics (f c g) | None => false end
      | _ => false
      end
  end.
(** A response with a status that is none. *)
Definition unwritable (e : hevent) : bool := match e with HWrite n _ => negb ((100 <=? n) && (n <=? 999)) | _ => false end.
(** Nothing happens after the first panic. *)
Fixpoint cut (p : option phooks) (l : list hevent) : list hevent :=
  match l with
  | [] => []
  | e :: l => if unwritable e then [HPanic] else if throws p e then [e; HPanic] else e :: cut p l
  end.

Definition is_write (e : hevent) : bool := match e with HWrite _ _ => true | _ => false end.
(** What had been done when the hook was called. *)
Definition done_before (e : hevent) (pre : list hevent) : Prop :=
  match e with
  | HReceived _ | HRouted _ => filter outward pre = []
  | HPrepared _ => all_calls (filter outward pre)
  | HError _ _ => filter is_write pre = [] \/ exists pb bs, filter is_write pre = [HWrite 200 (WReply pb bs)]
  | HSent _ => exists n b, filter is_write pre = [HWrite n b]
  | _ => True
  end.
(** A panic that was answered: calls of the service, an internal error, and on. *)
Definition answered_panic (tr : list hevent) : Prop :=
  exists calls g, all_calls calls /\ ge_code g = str "internal" /\ filter outward tr = calls ++ [HWrite 500 (WError g); HFlush; HPanic].
(** The codes that Twirp knows. *)
Definition twirp_code (g : gerror) : Prop := In (ge_code g) (map fst statuses).
