(** Words for the statements about client hooks that panic. *)
From Coq Require Import String.
From Verif Require SpecHooks SpecHooksPanic.
From Verif Require Import GoBase GoStrings Server Wire Twirp GoClient JsonWrite JsonError ErrorText Failures Hooks ClientHooks SpecClientHooks ClientHooksPanic.

(** Hooks that do the same wherever the first do not panic. *)
Definition ctamed (p : pchooks) (h : chooks) : Prop :=
  SpecHooksPanic.tame (fun f g => forall c s x, f c s = Some x -> g c s = x) (pc_prepared p) (ck_prepared h) /\
  SpecHooksPanic.tame (fun _ _ => True) (pc_received p) (ck_received h) /\
  SpecHooksPanic.tame (fun _ _ => True) (pc_error p) (ck_error h).
Definition calm_twin (p : option pchooks) (hk : option chooks) : Prop := SpecHooksPanic.tame ctamed p hk.

(** The hook that is called panics. *)
Definition cthrows (p : option pchooks) (e : cevent) : bool :=
  match p with
  | None => false
  | Some p =>
      match e with
      | CPrepared c s => match pc_prepared p with Some f => SpecHooksPanic.panics (f c s) | None => false end
      | CReceived c => match pc_received p with Some f => SpecHooksPanic.panics (f c) | None => false end
      | CError c g => match pc_error p with Some f => SpecHooksPanic.panics (f c g) | None => false end
      | CSent _ => false
      end
  end.
(** Up to the first panic. *)
Fixpoint until_panic (p : option pchooks) (l : list cevent) : list cevent :=
  match l with
  | [] => []
  | e :: l => if cthrows p e then [e] else e :: until_panic p l
  end.
(** The work of an interceptor, [k] being the client with hooks that do not panic: one request after the other, each up to its
    panic; of a panic the interceptor learns no more than that there was one. *)
Inductive pcworks (p : option pchooks) (k : client) (ws : nat -> world) (name : list byte) : nat -> icode -> list cevent -> option (any * option goerr) -> Prop :=
| pw_return n v e : pcworks p k ws name n (IReturn v e) [] (Some (v, e))
| pw_panic n : pcworks p k ws name n IPanic [] None
| pw_call n c q i t r v t' x : str (rpc_name q) = name -> callMethod k (ws n) c q = (t, r) -> existsb (cthrows p) t = false -> chanded q r v ->
    pcworks p k ws name (S n) (i (Some v)) t' x -> pcworks p k ws name n (INext c (ARequest (message_of q)) i) (t ++ t') x
| pw_thrown n c q i t' x : str (rpc_name q) = name -> existsb (cthrows p) (fst (callMethod k (ws n) c q)) = true ->
    pcworks p k ws name (S n) (i None) t' x ->
    pcworks p k ws name n (INext c (ARequest (message_of q)) i) (until_panic p (fst (callMethod k (ws n) c q)) ++ t') x
| pw_wrong n c v i g t x : (forall q, str (rpc_name q) = name -> v <> ARequest (message_of q)) -> (forall q, str (rpc_name q) = name -> g = SpecHooks.misfit_request q) ->
    pcworks p k ws name n (i (Some (ANil, Some (ETwirp g)))) t x -> pcworks p k ws name n (INext c v i) t x.
(** What had been sent when the hook was called, by a client without an interceptor. *)
Definition sent_before (e : cevent) (pre : list cevent) : Prop :=
  match e with
  | CPrepared _ _ => sent_in pre = []
  | CReceived _ => exists h, sent_in pre = [h]
  | CError _ _ => sent_in pre = [] \/ exists h, sent_in pre = [h]
  | CSent _ => True
  end.
