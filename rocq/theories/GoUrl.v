(** Proofs about the URLs of the Go client. *)
From Coq Require Import String.
From Verif Require Import ProofBase GoStrings Proto Conn Proc Lib Server Client Wire Twirp SpecWire SpecTwirp TwirpProofs
  GoClient SpecGo.

Definition okc (c : byte) : Prop := 33 <= c < 127.
Lemma no_ctl s : Forall okc s -> existsb (fun c => (c <? 32) || (c =? 127)) s = false.
Proof. induction 1 as [|c s C F IH]; [reflexivity|]. cbn [existsb]. red in C. rewrite IH. lia. Qed.
Lemma letter_b c : letter c -> isLetter c = true.
Proof. unfold letter, isLetter. lia. Qed.
Lemma letter_nb c : ~ letter c -> isLetter c = false.
Proof. unfold letter, isLetter. lia. Qed.
Lemma digit_b c : digit c -> isDigit c = true.
Proof. unfold digit, isDigit. lia. Qed.
Lemma scheme_run b : forall r f, b <> [] \/ f = false -> Forall letter b -> scheme_ f (b ++ 58 :: r) = Some (Some (b, r)).
Proof.
  induction b as [|c b IH]; intros r f N F.
  - destruct N as [N| ->]; [congruence|reflexivity].
  - inversion F; subst. cbn [app scheme_]. rewrite letter_b by auto. rewrite (IH r false) by auto. reflexivity.
Qed.
Lemma web_letters s b : web_scheme s b -> Forall letter b /\ b <> [] /\ map lower1 b = str s.
Proof.
  intros [S F]. assert (L : map lower1 b = str s) by (apply same_lower; exact F). split; [|split]; auto.
  - assert (K : Forall (fun c => 97 <= c <= 122) (str s)).
    { destruct S as [-> | ->]; vm_compute; repeat constructor; discriminate. }
    clear S L. induction F as [|x y a b R F IH]; [constructor|]. inversion K; subst. constructor; auto.
    red in R. unfold letter. lia.
  - intros ->. inversion F. destruct S as [-> | ->]; discriminate.
Qed.
Lemma has1 r : hasPrefix [slash] (slash :: r) = true. Proof. reflexivity. Qed.
Lemma cut_none c s : Forall (fun x => x <> c) s -> cut c s = (s, [], false).
Proof. induction 1 as [|x s X F IH]; [reflexivity|]. cbn [cut]. rewrite IH. replace (x =? c) with false by lia. reflexivity. Qed.
Lemma cut_found c s r : Forall (fun x => x <> c) s -> cut c (s ++ c :: r) = (s, r, true).
Proof.
  induction 1 as [|x s X F IH]; cbn [cut app]; [rewrite Z.eqb_refl; reflexivity|]. rewrite IH. replace (x =? c) with false by lia. reflexivity.
Qed.
Lemma cut_path h p : Forall (fun x => x <> slash) h -> (p = [] \/ exists r, p = slash :: r) ->
  cut slash (h ++ p) = (h, match p with [] => [] | _ :: r => r end, match p with [] => false | _ => true end).
Proof. intros F [-> | (r & ->)]; [rewrite app_nil_r; apply cut_none; auto|apply cut_found; auto]. Qed.
Lemma contains_none c s : Forall (fun x => x <> c) s -> contains c s = false.
Proof. unfold contains. induction 1 as [|x s X F IH]; [reflexivity|]. cbn [existsb]. rewrite IH. replace (c =? x) with false by lia. reflexivity. Qed.
Lemma contains_in c s : In c s -> contains c s = true.
Proof. intros I. unfold contains. apply existsb_exists. exists c. split; auto. apply Z.eqb_refl. Qed.

(** Hosts *)
Definition hc (c : byte) : Prop := letter c \/ digit c \/ c = 45 \/ c = 46 \/ c = 58.
Lemma hc_ok c : hc c -> okc c /\ c <> slash /\ host_char c = true.
Proof.
  unfold hc, letter, digit, okc, slash, host_char, isLetter, isDigit. intros H. split; [lia|]. split; [lia|].
  cbn [existsb]. lia.
Qed.
Lemma hostname_hc h : hostname h -> Forall hc h /\ h <> [] /\ Forall (fun c => c <> 58) h.
Proof.
  intros [N F]. split; [|split]; auto; eapply Forall_impl; try exact F; cbn; unfold hc, letter, digit; intros; lia.
Qed.
Lemma port_hc p : port p -> Forall hc p.
Proof.
  intros [-> | (ds & -> & F)]; [constructor|]. constructor; [unfold hc; auto|].
  eapply Forall_impl; [|exact F]. unfold hc. auto.
Qed.
Lemma host_hc h : host_port h -> Forall hc h /\ h <> [].
Proof.
  intros (n & p & -> & N & P). destruct (hostname_hc n N) as (A & B & _). split; [apply Forall_app; split; auto using port_hc|].
  destruct n; [congruence|discriminate].
Qed.
Lemma last_colon_none s : Forall (fun c => c <> 58) s -> last_colon s = None.
Proof. induction 1 as [|x s X F IH]; [reflexivity|]. cbn [last_colon]. rewrite IH. unfold colon. replace (x =? 58) with false by lia. reflexivity. Qed.
Lemma last_colon_app s r : last_colon r <> None -> last_colon (s ++ r) = last_colon r.
Proof. intros N. induction s as [|c s IH]; [reflexivity|]. cbn [app last_colon]. rewrite IH. destruct (last_colon r); congruence. Qed.
Lemma host_parses h : host_port h -> parseHost h = true.
Proof.
  intros H. destruct (host_hc h H) as [F _]. destruct H as (n & p & -> & N & P). unfold parseHost. apply andb_true_iff. split.
  - destruct (hostname_hc n N) as (_ & _ & C). destruct P as [-> | (ds & -> & D)].
    + rewrite app_nil_r, last_colon_none by auto. reflexivity.
    + assert (E : last_colon (58 :: ds) = Some ds).
      { cbn [last_colon]. rewrite last_colon_none; [reflexivity|]. eapply Forall_impl; [|exact D]. cbn. unfold digit. intros; lia. }
      rewrite last_colon_app by congruence. rewrite E. unfold validPort. apply forallb_forall. intros x I.
      rewrite Forall_forall in D. apply digit_b. auto.
  - apply forallb_forall. intros x I. rewrite Forall_forall in F. destruct (hc_ok x (F x I)) as (_ & _ & ->). reflexivity.
Qed.
Lemma path_ok c : path_char c -> okc c.
Proof. unfold path_char, letter, digit, okc. cbn [In]. lia. Qed.
Lemma path_okc p : Forall path_char p -> Forall okc p.
Proof. apply Forall_impl. apply path_ok. Qed.
Lemma hc_okc h : Forall hc h -> Forall okc h.
Proof. apply Forall_impl. intros c H. apply (hc_ok c H). Qed.
Lemma hc_slash h : Forall hc h -> Forall (fun c => c <> slash) h.
Proof. apply Forall_impl. intros c H. apply (hc_ok c H). Qed.
Lemma letters_okc b : Forall letter b -> Forall okc b.
Proof. apply Forall_impl. unfold letter, okc. intros; lia. Qed.

Lemma beq_ne a : a <> [] -> beq a [] = false.
Proof. intros N. apply beq_neq. exact N. Qed.
(** A scheme that is there, an authority and a path. *)
Lemma authority sch h p : host_port h -> abs_path p -> (sch = [] \/ sch <> []) ->
  (let rest := str "//" ++ h ++ p in
   if negb (hasPrefix [slash] rest) then
     if negb (beq sch []) then Some (mkUrl sch rest [] [] false)
     else let '(seg, _, _) := cut slash rest in
          if contains colon seg then None else Some (mkUrl [] [] [] rest false)
   else if (negb (beq sch []) || negb (hasPrefix [slash; slash; slash] rest)) && hasPrefix [slash; slash] rest then
     let '(auth, after, found) := cut slash (skipn 2 rest) in
     if parseHost auth then Some (mkUrl sch [] auth (if found then slash :: after else []) false) else None
   else Some (mkUrl sch [] [] rest (negb (beq sch [])))) = Some (mkUrl sch [] h p false).
Proof.
  intros H P _. destruct (host_hc h H) as [F N]. cbv zeta. change (str "//") with [slash; slash]. cbn [app].
  rewrite has1. cbn [negb]. cbn [skipn].
  assert (T : hasPrefix [slash; slash; slash] (slash :: slash :: h ++ p) = false).
  { destruct h as [|c h]; [congruence|]. inversion F; subst. destruct (hc_ok c H2) as (_ & S & _).
    cbn [hasPrefix app]. rewrite !Z.eqb_refl. replace (slash =? c) with false by lia. reflexivity. }
  rewrite T. cbn [hasPrefix]. rewrite !Z.eqb_refl. cbn [negb andb]. rewrite orb_true_r. cbn [andb].
  rewrite cut_path; [|apply hc_slash; auto|apply P]. rewrite host_parses by auto.
  destruct P as [_ [-> | (r & ->)]]; reflexivity.
Qed.
Lemma parse_full s b h p : web_scheme s b -> host_port h -> abs_path p ->
  parseUrl (b ++ str "://" ++ h ++ p) = Some (mkUrl (str s) [] h p false).
Proof.
  intros S H P. destruct (web_letters s b S) as (L & N & E). destruct (host_hc h H) as [F _]. unfold parseUrl.
  rewrite no_ctl.
  2:{ repeat (apply Forall_app; split); auto using letters_okc, hc_okc; [vm_compute; repeat constructor; discriminate|].
      apply path_okc. apply P. }
  unfold getScheme. change (str "://") with (58 :: str "//"). cbn [app].
  rewrite scheme_run by auto. rewrite E. apply (authority (str s) h p H P). right. destruct S as [[-> | ->] _]; discriminate.
Qed.
Lemma parse_slashes h p : host_port h -> abs_path p -> parseUrl (str "//" ++ h ++ p) = Some (mkUrl [] [] h p false).
Proof.
  intros H P. destruct (host_hc h H) as [F _]. unfold parseUrl. rewrite no_ctl.
  2:{ repeat (apply Forall_app; split); auto using hc_okc; [vm_compute; repeat constructor; discriminate|]. apply path_okc. apply P. }
  change (getScheme (str "//" ++ h ++ p)) with (Some (@nil byte, str "//" ++ h ++ p)). cbn [map].
  apply (authority [] h p H P). auto.
Qed.
Lemma scheme_none s : Forall (fun c => letter c \/ digit c \/ c = 45 \/ c = 46) s -> forall f, scheme_ f s = Some None.
Proof.
  induction 1 as [|c s C F IH]; intros f; [reflexivity|]. cbn [scheme_]. rewrite !IH.
  destruct (isLetter c) eqn:L; [reflexivity|]. destruct (_ || _) eqn:D; [destruct f; reflexivity|].
  destruct (c =? colon) eqn:K; [|reflexivity]. exfalso. unfold isLetter, isDigit, letter, digit, colon in *. lia.
Qed.
Lemma parse_name h : hostname h -> parseUrl h = Some (mkUrl [] [] [] h false).
Proof.
  intros H. destruct (hostname_hc h H) as (F & N & C). unfold parseUrl. rewrite no_ctl by (apply hc_okc; auto).
  unfold getScheme. rewrite scheme_none by apply H. cbn [map].
  assert (S : hasPrefix [slash] h = false).
  { destruct h as [|c h]; [congruence|]. inversion F; subst. destruct (hc_ok c H2) as (_ & S & _).
    cbn [hasPrefix]. replace (slash =? c) with false by lia. reflexivity. }
  rewrite S. cbn [negb beq]. rewrite cut_none by (apply hc_slash; auto). rewrite contains_none by exact C. reflexivity.
Qed.
Lemma string_full s h p : (s = "http" \/ s = "https")%string -> h <> [] -> abs_path p ->
  urlString (mkUrl (str s) [] h p false) = str s ++ str "://" ++ h ++ p.
Proof.
  intros S N P. unfold urlString. cbn [u_scheme u_opaque u_host u_path u_omit beq negb andb].
  rewrite (beq_ne h N). assert (Q : str s <> []) by (destruct S as [-> | ->]; discriminate). rewrite (beq_ne _ Q).
  cbn [negb orb andb]. rewrite (andb_comm _ true). cbn [andb].
  assert (E : negb (beq p []) && negb (hasPrefix [slash] p) = false).
  { destruct P as [_ [-> | (r & ->)]]; reflexivity. }
  rewrite E. cbn [andb].
  assert (Z : beq ((str s ++ [colon]) ++ [slash; slash] ++ h) [] = false).
  { apply beq_ne. destruct (str s); [congruence|discriminate]. }
  rewrite Z. cbn [andb]. rewrite <- !app_assoc. reflexivity.
Qed.
Lemma sanitize_ok s h base : base_for s h base ->
  sanitizeBaseURL base = str s ++ str "://" ++ h /\ (s = "http" \/ s = "https")%string /\ host_port h.
Proof.
  assert (A0 : abs_path []) by (split; [constructor|auto]).
  intros [b W H | -> H | -> H].
  - destruct (host_hc h H) as [_ N]. unfold sanitizeBaseURL.
    pose proof (parse_full s b h [] W H A0) as E. rewrite app_nil_r in E. rewrite E. cbn [u_scheme].
    assert (Q : str s <> []) by (destruct W as [[-> | ->] _]; discriminate). rewrite (beq_ne _ Q).
    rewrite string_full; auto; [|apply W]. rewrite app_nil_r. destruct W as [W _]. auto.
  - destruct (host_hc h H) as [_ N]. unfold sanitizeBaseURL.
    pose proof (parse_slashes h [] H A0) as E. rewrite app_nil_r in E. rewrite E. cbn [u_scheme beq u_opaque u_host u_path u_omit].
    rewrite string_full; auto. rewrite app_nil_r. auto.
  - unfold sanitizeBaseURL. rewrite parse_name by auto. cbn [u_scheme beq u_opaque u_host u_path u_omit].
    destruct (hostname_hc h H) as (F & N & C). split.
    + unfold urlString. cbn [u_scheme u_opaque u_host u_path u_omit beq negb andb].
      change (beq (str "http") []) with false. cbn [negb orb]. rewrite (beq_ne h N). cbn [negb andb orb].
      rewrite andb_false_r. cbn [app]. reflexivity.
    + split; auto. exists h, []. rewrite app_nil_r. split; auto. split; auto. left. reflexivity.
Qed.
(** The base URL with a path behind the host. *)
Lemma sanitize_path s b h p : web_scheme s b -> host_port h -> abs_path p ->
  sanitizeBaseURL (b ++ str "://" ++ h ++ p) = str s ++ str "://" ++ h ++ p.
Proof.
  intros W H P. destruct (host_hc h H) as [_ N]. unfold sanitizeBaseURL. rewrite (parse_full s b h p W H P). cbn [u_scheme].
  assert (Q : str s <> []) by (destruct W as [[-> | ->] _]; discriminate). rewrite (beq_ne _ Q).
  apply string_full; auto. apply W.
Qed.

(** ** Requests *)
Lemma self_scheme s : (s = "http" \/ s = "https")%string -> web_scheme s (str s).
Proof.
  intros S. split; auto. destruct S as [-> | ->]; apply lower_same; reflexivity.
Qed.
Lemma request_to s h p ct b : (s = "http" \/ s = "https")%string -> host_port h -> abs_path p -> p <> [] ->
  newRequest (str s ++ str "://" ++ h ++ p) ct b = SentTo (str s) h (mkHreq (str "POST") p ct b).
Proof.
  intros S H P N. destruct (host_hc h H) as [_ Nh]. unfold newRequest.
  rewrite (parse_full s (str s) h p (self_scheme s S) H P). cbn [u_scheme u_host u_path].
  assert (E : beq (str s) (str "http") || beq (str s) (str "https") = true) by (destruct S as [-> | ->]; reflexivity).
  rewrite E. cbn [negb]. rewrite (beq_ne h Nh), (beq_ne p N). reflexivity.
Qed.
Lemma method_url_is base prefix q : method_url base prefix q =
  sanitizeBaseURL base ++ baseServicePath (match prefix with Some p => p | None => str "/twirp" end) (str "comfo.api") (str "Comfo")
    ++ str (rpc_name q).
Proof. unfold method_url, client_urls. rewrite app_assoc. destruct q; reflexivity. Qed.
Lemma default_path : baseServicePath (str "/twirp") (str "comfo.api") (str "Comfo") = str "/twirp/comfo.api.Comfo/".
Proof. reflexivity. Qed.
Lemma name_chars q : Forall path_char (str (rpc_name q)).
Proof.
  assert (K : forall s, forallb (fun c => ((97 <=? c) && (c <=? 122)) || ((65 <=? c) && (c <=? 90))) (str s) = true -> Forall path_char (str s)).
  { intros s E. apply Forall_forall. intros x I. rewrite forallb_forall in E. specialize (E x I). left. unfold letter. lia. }
  destruct q; apply K; reflexivity.
Qed.
Lemma chars_ok s : forallb (fun c => ((97 <=? c) && (c <=? 122)) || ((65 <=? c) && (c <=? 90)) || (c =? 46) || (c =? 47)) (str s) = true ->
  Forall path_char (str s).
Proof.
  intros E. apply Forall_forall. intros x I. rewrite forallb_forall in E. specialize (E x I).
  unfold path_char, letter. cbn [In]. lia.
Qed.
