(** Proofs for PropertiesNowhere.v. *)
From Coq Require Import String.
From Verif Require Import ProofBase GoStrings Proto Conn Proc Lib Server Client Wire Twirp SpecWire SpecTwirp TwirpProofs GoClient SpecGo GoUrl GoProofs JsonRead JsonWrite SpecNowhere.

Lemma scheme_tail r : Forall (fun c => letter c \/ digit c \/ c = 43 \/ c = 45 \/ c = 46) r -> forall x, scheme_ false (r ++ 58 :: x) = Some (Some (r, x)).
Proof.
  induction 1 as [|c r C F IH]; intros x; [reflexivity|]. cbn [app scheme_]. rewrite IH.
  destruct (isLetter c) eqn:Lc; [reflexivity|].
  replace (isDigit c || (c =? 43) || (c =? 45) || (c =? 46)) with true; [reflexivity|].
  symmetry. unfold isDigit, isLetter, letter, digit in *. lia.
Qed.
Lemma scheme_found b x : scheme_name b -> getScheme (b ++ 58 :: x) = Some (b, x).
Proof.
  intros (c & r & -> & C & F). unfold getScheme. cbn [app scheme_]. rewrite (letter_b c C), (scheme_tail r F). reflexivity.
Qed.
(** With such a scheme nothing is sent. *)
Lemma other_scheme b x ct body : scheme_name b -> map lower1 b <> str "http" -> map lower1 b <> str "https" -> newRequest (b ++ 58 :: x) ct body = NotSent.
Proof.
  intros S N1 N2. unfold newRequest, parseUrl. destruct (existsb _ _); [reflexivity|]. rewrite (scheme_found b x S).
  assert (E : beq (map lower1 b) (str "http") || beq (map lower1 b) (str "https") = false).
  { rewrite (proj2 (beq_neq _ _) N1), (proj2 (beq_neq _ _) N2). reflexivity. }
  destruct (negb (hasPrefix [slash] x)).
  - destruct (negb (beq (map lower1 b) [])); [cbn [u_scheme]; rewrite E; reflexivity|].
    destruct (cut slash x) as [[seg ?] ?]. destruct (contains colon seg); reflexivity.
  - destruct (_ && _); [|cbn [u_scheme]; rewrite E; reflexivity].
    destruct (cut slash (skipn 2 x)) as [[auth after] found]. destruct (parseHost auth); [|reflexivity]. cbn [u_scheme]. rewrite E. reflexivity.
Qed.
Lemma lower_idem c : lower1 (lower1 c) = lower1 c.
Proof. unfold lower1. destruct ((65 <=? c) && (c <=? 90)) eqn:E; [|rewrite E; reflexivity]. replace ((65 <=? c + 32) && (c + 32 <=? 90)) with false by lia. reflexivity. Qed.
Lemma lowers_idem b : map lower1 (map lower1 b) = map lower1 b.
Proof. rewrite map_map. apply map_ext. exact lower_idem. Qed.
Lemma scheme_low b : scheme_name b -> scheme_name (map lower1 b).
Proof.
  intros (c & r & -> & C & F). exists (lower1 c), (map lower1 r). split; [reflexivity|]. split.
  - unfold lower1, letter in *. destruct ((65 <=? c) && (c <=? 90)) eqn:E; lia.
  - apply Forall_map. eapply Forall_impl; [|exact F]. cbn. intros d D. unfold lower1, letter, digit in *. destruct ((65 <=? d) && (d <=? 90)) eqn:E; lia.
Qed.
Lemma string_starts u : u_scheme u <> [] -> exists y, urlString u = u_scheme u ++ 58 :: y.
Proof.
  intros N. unfold urlString. rewrite (beq_ne (u_scheme u)) by exact N. cbn [negb orb].
  destruct (negb (beq (u_opaque u) [])); [rewrite <- app_assoc; eexists; reflexivity|].
  assert (Q : forall z, exists y, ((u_scheme u ++ [colon]) ++ z) = u_scheme u ++ 58 :: y) by (intros z; rewrite <- app_assoc; eexists; reflexivity).
  cbv zeta. repeat match goal with |- context [if ?b then _ else _] => destruct b end; rewrite ?app_nil_r, <- ?app_assoc;
    first [eexists; reflexivity | eexists; rewrite <- app_assoc; reflexivity].
Qed.
Lemma control_unsent base x ct body : existsb (fun c => (c <? 32) || (c =? 127)) base = true -> newRequest (base ++ x) ct body = NotSent.
Proof. intros E. unfold newRequest, parseUrl. rewrite existsb_app, E. reflexivity. Qed.

Lemma nowhere_unsent base : nowhere base -> forall x ct body, newRequest (sanitizeBaseURL base ++ slash :: x) ct body = NotSent.
Proof.
  intros H x ct body. unfold sanitizeBaseURL. inversion H as [base' c I C F|r F|b r S N1 N2 F|s b n p c W Hn Fp Sl Co I D]; subst.
  - assert (E : existsb (fun c => (c <? 32) || (c =? 127)) base = true) by (apply existsb_exists; exists c; split; [auto|lia]).
    unfold parseUrl at 1. rewrite E. apply control_unsent; auto.
  - assert (P : forall y, parseUrl (58 :: y) = None) by (intros y; unfold parseUrl; destruct (existsb _ _); reflexivity).
    rewrite P. unfold newRequest. cbn [app]. rewrite P. reflexivity.
  - assert (M1 : map lower1 b <> str "http") by (intros E; apply N1, lower_same; auto).
    assert (M2 : map lower1 b <> str "https") by (intros E; apply N2, lower_same; auto).
    assert (Ne : map lower1 b <> []) by (destruct S as (? & ? & -> & _); discriminate).
    destruct (parseUrl (b ++ 58 :: r)) as [u|] eqn:P; [|rewrite <- app_assoc; apply other_scheme; auto].
    assert (U : u_scheme u = map lower1 b).
    { revert P. unfold parseUrl. destruct (existsb _ _); [discriminate|]. rewrite (scheme_found b r S). rewrite (beq_ne (map lower1 b)) by exact Ne. cbn [negb orb].
      destruct (negb (hasPrefix [slash] r)); [intros [= <-]; reflexivity|]. destruct (_ && _); [|intros [= <-]; reflexivity].
      destruct (cut slash (skipn 2 r)) as [[auth after] found]. destruct (parseHost auth); [intros [= <-]; reflexivity|discriminate]. }
    rewrite U, (beq_ne (map lower1 b)) by exact Ne. destruct (string_starts u) as (y & ->); [rewrite U; exact Ne|].
    rewrite U, <- app_assoc. apply other_scheme; [apply scheme_low; auto|rewrite lowers_idem; auto|rewrite lowers_idem; auto].
  - destruct (hostname_hc n Hn) as (A & B & Cn). destruct (web_letters s b W) as (Lb & Nb & Mb).
    assert (P : forall y, (y = [] \/ exists z, y = 47 :: z) -> parseUrl ((b ++ str "://" ++ n ++ 58 :: p) ++ y) = None).
    { intros y Y. unfold parseUrl. destruct (existsb _ _); [reflexivity|].
      replace ((b ++ str "://" ++ n ++ 58 :: p) ++ y) with (b ++ 58 :: (47 :: 47 :: (n ++ 58 :: p) ++ y)) by (rewrite <- !app_assoc; reflexivity).
      unfold getScheme. rewrite (scheme_run b) by auto.
      rewrite (beq_ne (map lower1 b)) by (destruct b; [congruence|discriminate]).
      change (negb (hasPrefix [slash] (47 :: 47 :: (n ++ 58 :: p) ++ y))) with false. cbn [negb orb].
      change (hasPrefix [slash; slash] (47 :: 47 :: (n ++ 58 :: p) ++ y)) with true. cbn [andb skipn].
      rewrite (cut_path (n ++ 58 :: p) y).
      - replace (parseHost (n ++ 58 :: p)) with false; [reflexivity|]. symmetry. unfold parseHost.
        assert (Lc : last_colon (58 :: p) = Some p).
        { cbn [last_colon]. rewrite last_colon_none; [reflexivity|]. apply Forall_forall. intros d Id ->. auto. }
        rewrite last_colon_app by (rewrite Lc; discriminate). rewrite Lc.
        replace (validPort p) with false; [reflexivity|]. symmetry. unfold validPort. apply not_true_is_false. intros V.
        rewrite forallb_forall in V. specialize (V _ I). apply D. unfold isDigit, digit in *. lia.
      - apply Forall_app. split; [apply hc_slash; exact A|]. constructor; [discriminate|]. apply Forall_forall. intros d Id ->. auto.
      - destruct Y as [-> |(z & ->)]; eauto. }
    pose proof (P [] (or_introl eq_refl)) as P0. rewrite app_nil_r in P0. rewrite P0.
    unfold newRequest. rewrite P by eauto. reflexivity.
Qed.
Lemma method_starts base prefix q : exists x, method_url base prefix q = sanitizeBaseURL base ++ slash :: x.
Proof.
  unfold method_url, client_urls, baseServicePath. generalize (sanitizeBaseURL base). intros s.
  destruct q; cbn [url_index map nth]; rewrite <- app_assoc; cbn [app]; eexists; reflexivity.
Qed.
Lemma nowhere_pb base prefix q : nowhere base -> go_send base prefix q = NotSent.
Proof.
  intros H. unfold go_send. destruct (marshal _); [|reflexivity]. destruct (method_starts base prefix q) as (x & ->). apply nowhere_unsent; auto.
Qed.
Lemma nowhere_json sp base prefix q : nowhere base -> go_json_send sp base prefix q = NotSent.
Proof.
  intros H. unfold go_json_send. destruct (request_json _ _); [|reflexivity]. destruct (method_starts base prefix q) as (x & ->). apply nowhere_unsent; auto.
Qed.
(** C134 *)
Lemma nothing_sent ul uj ftoa sp sp' t base prefix q w : nowhere base ->
  askGo ul uj t base prefix q w = (Some (GErr (str "internal") None), w) /\
  askGoJson ul ftoa sp sp' t base prefix q w = (Some (GErr (str "internal") None), w).
Proof. intros H. unfold askGo, askGoJson. rewrite nowhere_pb, nowhere_json by auto. auto. Qed.
(** What is sent, whatever the base URL. *)
Lemma request_sent u ct body s h hr : newRequest u ct body = SentTo s h hr ->
  (s = str "http" \/ s = str "https") /\ h <> [] /\ h_method hr = str "POST" /\ h_ctype hr = ct.
Proof.
  unfold newRequest. destruct (parseUrl u) as [v|]; [|discriminate].
  destruct (beq (u_scheme v) (str "http")) eqn:E1; cbn [orb negb].
  - destruct (beq (u_host v) []) eqn:E; [discriminate|]. intros [= <- <- <-]. apply beq_eq in E1. splits; auto.
    intros X. rewrite X in E. discriminate.
  - destruct (beq (u_scheme v) (str "https")) eqn:E2; cbn [negb]; [|discriminate].
    destruct (beq (u_host v) []) eqn:E; [discriminate|]. intros [= <- <- <-]. apply beq_eq in E2. splits; auto.
    intros X. rewrite X in E. discriminate.
Qed.
Lemma sent_only base prefix q s h hr : go_send base prefix q = SentTo s h hr ->
  (s = str "http" \/ s = str "https") /\ h <> [] /\ h_method hr = str "POST" /\ h_ctype hr = str "application/protobuf".
Proof. unfold go_send. destruct (marshal _) as [b|]; [|discriminate]. intros H. apply request_sent in H as (A & B & C & D). splits; auto. Qed.
Lemma json_sent_only sp base prefix q s h hr : go_json_send sp base prefix q = SentTo s h hr ->
  (s = str "http" \/ s = str "https") /\ h <> [] /\ h_method hr = str "POST" /\ h_ctype hr = str "application/json".
Proof. unfold go_json_send. destruct (request_json _ _) as [b|]; [|discriminate]. intros H. apply request_sent in H as (A & B & C & D). splits; auto. Qed.
