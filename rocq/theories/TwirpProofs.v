(** Proofs about the HTTP front end. *)
From Coq Require Import String Ascii Floats.SpecFloat.
From Verif Require Import ProofBase GoStrings Proto Conn Proc Lib Server SpecLayout TrimProofs Wire Twirp SpecWire SpecTwirp
  WireProofs Utf8Proofs WireOut.

Lemma beq_eq a : forall b, beq a b = true <-> a = b.
Proof.
  induction a as [|x a IH]; intros [|y b]; cbn [beq]; split; intros H; try congruence; auto.
  - apply andb_true_iff in H as [H1 H2]. apply IH in H2. f_equal; auto. lia.
  - injection H as <- <-. rewrite Z.eqb_refl. apply IH. reflexivity.
Qed.
Lemma beq_refl a : beq a a = true. Proof. apply beq_eq. reflexivity. Qed.
Lemma beq_neq a b : beq a b = false <-> a <> b.
Proof. rewrite <- (beq_eq a b). destruct (beq a b); split; congruence. Qed.

(** ** Media types *)
Lemma before_semi_spec h : exists rest, h = before_semi h ++ rest /\ (rest = [] \/ exists r, rest = 59 :: r) /\
  Forall (fun c => c <> 59) (before_semi h).
Proof.
  induction h as [|c h IH]; [exists []; cbn; auto|]. destruct IH as (rest & E & R & F). cbn [before_semi].
  destruct (c =? 59) eqn:C.
  - exists (c :: h). splits; auto. right. exists h. f_equal. lia.
  - exists rest. splits; auto; [rewrite <- app_comm_cons; congruence|]. constructor; auto. lia.
Qed.
Lemma before_semi_app a rest : Forall (fun c => c <> 59) a -> (rest = [] \/ exists r, rest = 59 :: r) ->
  before_semi (a ++ rest) = a.
Proof.
  intros F R. induction F as [|c a C F IH].
  - destruct R as [-> | (r & ->)]; reflexivity.
  - cbn [app before_semi]. replace (c =? 59) with false by lia. rewrite IH. reflexivity.
Qed.
Lemma ascii_lower ul s : ascii s -> toLower ul s = map lower1 s.
Proof.
  intros A. unfold toLower. replace (forallb _ s) with true; auto. symmetry. apply forallb_forall. intros x I.
  red in A. rewrite Forall_forall in A. specialize (A x I). simpl in A. lia.
Qed.
Lemma lower_blank c : blank_char (lower1 c) -> lower1 c = c /\ blank_char c.
Proof. unfold blank_char, lower1. destruct (_ && _) eqn:E; lia. Qed.
Lemma lower_id c : blank_char c -> lower1 c = c.
Proof. unfold blank_char, lower1. destruct (_ && _) eqn:E; lia. Qed.
Lemma ws_ascii x : ws x -> Forall (fun c => c < 128) x -> exists c, x = [c] /\ blank_char c.
Proof.
  intros W F. destruct W; repeat match goal with H : Forall _ (_ :: _) |- _ => inversion H; clear H; subst end; try lia;
    eexists; (split; [reflexivity|]); unfold blank_char; lia.
Qed.
Lemma concat_blank l : Forall ws l -> Forall (fun c => c < 128) (concat l) -> Forall blank_char (concat l).
Proof.
  induction 1 as [|x l W F IH]; cbn [concat]; intros A; [constructor|].
  apply Forall_app in A as [A1 A2]. apply Forall_app. split; auto.
  destruct (ws_ascii x W A1) as (c & -> & B). constructor; auto.
Qed.
Lemma blank_ws l : Forall blank_char l -> exists p, Forall ws p /\ l = concat p.
Proof.
  intros F. exists (map (fun c => [c]) l). split.
  - induction F as [|c l B F IH]; cbn [map]; constructor; auto. apply ascii_space_ws.
    unfold asciiSpace, in_rng. red in B. lia.
  - clear F. induction l as [|c l IH]; [reflexivity|]. cbn [map concat app]. congruence.
Qed.
Lemma map_app_inv {A B} (f : A -> B) l : forall x y, map f l = x ++ y -> exists a b, l = a ++ b /\ x = map f a /\ y = map f b.
Proof.
  induction l as [|c l IH]; intros [|z x] y E; cbn [app map] in E; try discriminate.
  - exists [], []. auto.
  - exists [], (c :: l). auto.
  - injection E as <- E. destruct (IH _ _ E) as (a & b & -> & -> & ->). exists (c :: a), b. auto.
Qed.
Lemma lower_same a : forall b, map lower1 a = b -> Forall2 same_letter a b.
Proof.
  induction a as [|c a IH]; intros b <-; constructor; auto. unfold same_letter, lower1. destruct (_ && _) eqn:E; lia.
Qed.
Lemma same_lower a b : Forall2 same_letter a b -> map lower1 a = b.
Proof.
  induction 1 as [|x y a b S F IH]; [reflexivity|]. cbn [map]. f_equal; auto.
  red in S. unfold lower1. destruct (_ && _) eqn:E; lia.
Qed.
Lemma lower_map_blank l x : map lower1 l = x -> Forall blank_char x -> Forall blank_char l.
Proof.
  intros <-. induction l as [|c l IH]; cbn [map]; intros F; constructor; inversion F; subst; auto.
  destruct (lower_blank c H1). auto.
Qed.
(** A media type without white space at either end and without semicolon. *)
Definition solid (s : list byte) : Prop := no_ws_prefix s /\ no_ws_suffix s /\ Forall (fun c => c <> 59) s.
Lemma media_trim ul ty h : solid (str ty) -> ascii h ->
  (trimSpace (toLower ul (before_semi h)) = str ty <-> media ty h).
Proof.
  intros (P & S & N) A. destruct (before_semi_spec h) as (rest & E & R & F).
  assert (A1 : ascii (before_semi h)) by (red in A; rewrite E in A; apply Forall_app in A; apply A).
  rewrite (ascii_lower ul _ A1). split.
  - intros T. pose proof (trim_space_ok (map lower1 (before_semi h))) as (pre & post & E1 & W1 & W2 & _). rewrite T in E1.
    assert (AL : Forall (fun c => c < 128) (map lower1 (before_semi h))).
    { apply Forall_forall. intros x I. apply in_map_iff in I as (y & <- & I). red in A1. rewrite Forall_forall in A1.
      specialize (A1 y I). simpl in A1. unfold lower1. destruct (_ && _) eqn:L; lia. }
    rewrite E1 in AL. apply Forall_app in AL as [AL1 AL2]. apply Forall_app in AL2 as [_ AL2].
    apply map_app_inv in E1 as (a & t & E1 & Ha & Ht). symmetry in Ht. apply map_app_inv in Ht as (b & c & -> & Hb & Hc).
    exists a, b, c, rest. split; [rewrite <- app_assoc in E1 || idtac; rewrite E at 1; rewrite E1, <- !app_assoc; reflexivity|].
    split; [|split; [|split; [|exact R]]].
    + eapply lower_map_blank; [symmetry; exact Ha|]. apply concat_blank; auto.
    + eapply lower_map_blank; [symmetry; exact Hc|]. apply concat_blank; auto.
    + apply lower_same. auto.
  - intros (a & b & c & r & Eh & Ba & Bc & L & Rr).
    assert (NS : Forall (fun x => x <> 59) (a ++ b ++ c)).
    { apply Forall_app. split; [eapply Forall_impl; [|exact Ba]; unfold blank_char; simpl; intros; lia|]. apply Forall_app.
      split; [|eapply Forall_impl; [|exact Bc]; unfold blank_char; simpl; intros; lia].
      clear - L N. induction L as [|x y l m S F IH]; constructor; inversion N; subst; auto. red in S. lia. }
    rewrite Eh, !app_assoc, <- (app_assoc a b c), before_semi_app by auto.
    rewrite !map_app, (same_lower _ _ L).
    replace (map lower1 a) with a by (clear - Ba; induction Ba; cbn [map]; [reflexivity|rewrite lower_id; auto; congruence]).
    replace (map lower1 c) with c by (clear - Bc; induction Bc; cbn [map]; [reflexivity|rewrite lower_id; auto; congruence]).
    destruct (blank_ws a Ba) as (pre & W1 & ->). destruct (blank_ws c Bc) as (post & W2 & ->).
    symmetry. apply device_name_trimmed. exists pre, post. auto.
Qed.
Lemma no_space_solid s : s <> [] -> Forall (fun c => 33 <= c < 128 /\ c <> 59) s -> solid s.
Proof.
  intros N F.
  assert (K : forall x, ws x -> (exists c r, x = c :: r /\ ~ (33 <= c < 128)) /\ (exists c r, x = r ++ [c] /\ ~ (33 <= c < 128))).
  { intros x W. split; [destruct W; eexists; eexists; (split; [reflexivity|]); lia|].
    destruct W; (eexists; match goal with |- exists r, ?l = _ /\ _ => exists (removelast l) end; split; [reflexivity|]); lia. }
  split; [|split].
  - intros x r W E. destruct (K x W) as ((c & q & -> & B) & _). rewrite E in F. inversion F; subst. lia.
  - intros x r W E. destruct (K x W) as (_ & (c & q & -> & B)). rewrite E in F. apply Forall_app in F as [_ F].
    apply Forall_app in F as [_ F]. inversion F; subst. lia.
  - eapply Forall_impl; [|exact F]. simpl. intros. lia.
Qed.
Definition pb_type := "application/protobuf"%string.
Definition js_type := "application/json"%string.
Lemma pb_solid : solid (str pb_type).
Proof. apply no_space_solid; [discriminate|]. vm_compute. repeat constructor; discriminate. Qed.
Lemma js_solid : solid (str js_type).
Proof. apply no_space_solid; [discriminate|]. vm_compute. repeat constructor; discriminate. Qed.

Lemma content_type ul h : ascii h ->
  match contentType ul h with
  | Some true => media pb_type h /\ ~ media js_type h
  | Some false => media js_type h /\ ~ media pb_type h
  | None => ~ media pb_type h /\ ~ media js_type h
  end.
Proof.
  intros A. unfold contentType. pose proof (media_trim ul _ _ pb_solid A) as MP. pose proof (media_trim ul _ _ js_solid A) as MJ.
  fold js_type pb_type. set (t := trimSpace _) in *.
  destruct (beq t (str js_type)) eqn:J; [apply beq_eq in J|apply beq_neq in J].
  - rewrite <- MP, <- MJ, J. split; [reflexivity|discriminate].
  - destruct (beq t (str pb_type)) eqn:P; [apply beq_eq in P|apply beq_neq in P]; rewrite <- MP, <- MJ; auto.
Qed.

(** ** Paths *)
Lemma split_nonempty s : split s <> [].
Proof. induction s as [|c s IH]; cbn [split]; [discriminate|]. destruct (split s); [congruence|]. destruct (_ =? _); discriminate. Qed.
Lemma join_cons p ps : ps <> [] -> join (p :: ps) = p ++ slash :: join ps.
Proof. destruct ps; [congruence|reflexivity]. Qed.
Lemma join_split s : join (split s) = s.
Proof.
  induction s as [|c s IH]; [reflexivity|]. cbn [split]. pose proof (split_nonempty s) as N.
  destruct (split s) as [|p ps] eqn:E; [congruence|]. destruct (c =? slash) eqn:C.
  - rewrite join_cons by discriminate. rewrite IH. cbn [app]. f_equal. lia.
  - destruct ps as [|q ps]; [cbn [join] in *; congruence|].
    rewrite join_cons in * by discriminate. cbn [app]. congruence.
Qed.
Lemma join_app a : forall b, a <> [] -> b <> [] -> join (a ++ b) = join a ++ slash :: join b.
Proof.
  induction a as [|p a IH]; intros b A B; [congruence|]. destruct a as [|q a].
  - cbn [app]. rewrite join_cons by auto. reflexivity.
  - change ((p :: q :: a) ++ b) with (p :: ((q :: a) ++ b)).
    rewrite (join_cons p ((q :: a) ++ b)) by discriminate. rewrite IH by (auto; discriminate).
    rewrite (join_cons p (q :: a)) by discriminate. rewrite <- app_assoc. reflexivity.
Qed.
Lemma two_last {A} (l : list A) d : (2 <= List.length l)%nat ->
  l = firstn (List.length l - 2) l ++ [nth (List.length l - 2) l d; nth (List.length l - 1) l d].
Proof.
  intros L. assert (E : exists a x y, l = a ++ [x; y]).
  { destruct (@exists_last _ l) as (m & y & ->); [intros ->; simpl in L; lia|]. rewrite app_length in L. simpl in L.
    destruct (@exists_last _ m) as (a & x & ->); [intros ->; simpl in L; lia|]. exists a, x, y. rewrite <- app_assoc. reflexivity. }
  destruct E as (a & x & y & ->). rewrite app_length. cbn [List.length].
  replace (List.length a + 2 - 2)%nat with (List.length a) by lia.
  replace (List.length a + 2 - 1)%nat with (S (List.length a)) by lia.
  rewrite firstn_app, Nat.sub_diag, firstn_all, !app_nth2 by lia. rewrite Nat.sub_diag.
  replace (S (List.length a) - List.length a)%nat with 1%nat by lia. cbn. rewrite app_nil_r. reflexivity.
Qed.
Lemma parse_path path m : parseTwirpPath path = (str "/twirp", str "comfo.api.Comfo", m) ->
  path = str "/twirp/comfo.api.Comfo/" ++ m.
Proof.
  unfold parseTwirpPath. destruct (Nat.ltb _ 2) eqn:L; [discriminate|]. intros H. injection H as H1 H2 H3.
  apply Nat.ltb_ge in L. pose proof (two_last (split path) [] L) as T.
  rewrite H2, H3 in T. rewrite <- (join_split path), T, join_app; [|intros E; rewrite E in H1; discriminate|discriminate].
  rewrite H1. reflexivity.
Qed.
Lemma str_app a b : str (a ++ b) = str a ++ str b.
Proof. unfold str. rewrite <- map_app. f_equal. induction a as [|c a IH]; [reflexivity|]. cbn. congruence. Qed.

Lemma served_cases name : served name -> In name
  ["GetBootInfo"; "GetTemps"; "GetBypass"; "GetFans"; "GetFanProfiles"; "GetErrors"; "SetFanSpeed"; "SetComfortTemp";
   "SetFanProfile"; "FlushCache"]%string.
Proof. unfold served, meaning. intros H. repeat (destruct (string_dec name _) as [->|_]; [simpl; tauto|]). congruence. Qed.

(** ** Routing *)
Ltac each H := repeat match type of H with _ \/ _ => destruct H as [<- | H] end; try contradiction.
Lemma route_of name : served name -> exists r, find_route (str name) rt_routes = Some r /\
  (forall fs, meaning name fs = Some (rt_call r (after (rt_desc r) [] fs))) /\
  (forall n, lookup n (rt_desc r) <> Some KString).
Proof.
  intros S. apply served_cases in S. simpl in S.
  assert (K : forall d, In d [dNoop; dComfortTarget; dFanProfileTarget; dFanSpeedTarget; dFlushCacheRequest] ->
    forall n, lookup n d <> Some KString).
  { intros d I n. simpl in I. each I; cbn [lookup dNoop dComfortTarget dFanProfileTarget
      dFanSpeedTarget dFlushCacheRequest]; repeat destruct (_ =? _); congruence. }
  each S; (eexists; split; [reflexivity|]); cbn [rt_desc rt_call];
    (split; [intros fs; rewrite ?get_uint, ?get_bool, ?get_enum by reflexivity; reflexivity|apply K; simpl; tauto]).
Qed.
Lemma find_route_served m r : find_route m rt_routes = Some r -> exists name, served name /\ m = str name.
Proof.
  unfold rt_routes. cbn [find_route rt_name].
  repeat (match goal with |- context [beq m (str ?n)] => destruct (beq m (str n)) eqn:?E end;
    [match goal with E : beq m (str ?n) = true |- _ => apply beq_eq in E; intros _; exists n; split; [discriminate|exact E] end|clear E]).
  discriminate.
Qed.
Lemma path_of name : served name -> let p := str ("/twirp/comfo.api.Comfo/" ++ name) in
  cleanPath p = p /\ hasPrefix ComfoPathPrefix p = true /\ parseTwirpPath p = (str "/twirp", str "comfo.api.Comfo", str name).
Proof.
  intros S. apply served_cases in S. simpl in S.
  each S; vm_compute; auto.
Qed.

Lemma front_addressed ul uj h name r : addressed h name -> find_route (str name) rt_routes = Some r ->
  front ul uj h = match contentType ul (h_ctype h) with
                  | None => Answer (writeError TBadRoute)
                  | Some pb => match (if pb then unmarshal (rt_desc r) (h_body h) else uj (rt_desc r) (h_body h)) with
                               | None => Answer (writeError TMalformed)
                               | Some m => Call pb (rt_call r m)
                               end
                  end.
Proof.
  intros (M & S & P) F. destruct (path_of name S) as (C & H & T). rewrite <- P in *.
  unfold front. rewrite C, beq_refl, H. cbn [negb]. unfold dispatch. rewrite M, beq_refl, T, !beq_refl, F. cbn [negb].
  reflexivity.
Qed.
(** cleanPath: its results are the tidy paths. *)
Lemma split_slash_free s : Forall (Forall (fun c => c <> slash)) (split s).
Proof.
  induction s as [|c s IH]; cbn [split]; [repeat constructor|]. pose proof (split_nonempty s) as N.
  destruct (split s) as [|p ps]; [congruence|].
  inversion IH; subst. destruct (c =? slash) eqn:C; [repeat constructor; auto|]. constructor; auto. constructor; auto. lia.
Qed.
Lemma clean_plain ps : forall st, Forall plain st -> Forall (Forall (fun c => c <> slash)) ps -> Forall plain (clean_ st ps).
Proof.
  induction ps as [|p ps IH]; intros st S F; cbn [clean_]; [apply Forall_rev; auto|]. inversion F; subst.
  destruct (beq p []) eqn:B1; cbn [orb]; [auto|]. destruct (beq p (str ".")) eqn:B2; [auto|].
  destruct (beq p (str "..")) eqn:B3.
  - apply IH; auto. destruct S; cbn; auto.
  - apply beq_neq in B1, B2, B3. apply IH; auto. constructor; auto. split; auto.
Qed.
Lemma clean_id ps : forall st, Forall plain ps -> clean_ st ps = rev st ++ ps.
Proof.
  induction ps as [|p ps IH]; intros st F; cbn [clean_]; [rewrite app_nil_r; reflexivity|]. inversion F; subst.
  destruct H1 as (N1 & N2 & N3 & _). apply beq_neq in N1, N2, N3. rewrite N1, N2, N3. cbn [orb].
  rewrite IH by auto. cbn [rev]. rewrite <- app_assoc. reflexivity.
Qed.
Lemma clean_id_slash ps : forall st, Forall plain ps -> clean_ st (ps ++ [[]]) = rev st ++ ps.
Proof.
  induction ps as [|p ps IH]; intros st F; cbn [clean_ app]; [cbn; rewrite app_nil_r; reflexivity|]. inversion F; subst.
  destruct H1 as (N1 & N2 & N3 & _). apply beq_neq in N1, N2, N3. rewrite N1, N2, N3. cbn [orb].
  rewrite IH by auto. cbn [rev]. rewrite <- app_assoc. reflexivity.
Qed.
Lemma join_concat es : es <> [] -> slash :: join es = concat (map (cons slash) es).
Proof.
  induction es as [|e es IH]; [congruence|]. intros _. destruct es as [|f es]; [cbn; rewrite app_nil_r; reflexivity|].
  rewrite join_cons by discriminate. rewrite IH by discriminate. reflexivity.
Qed.
Lemma split_app e : forall s p ps, Forall (fun c => c <> slash) e -> split s = p :: ps -> split (e ++ s) = (e ++ p) :: ps.
Proof.
  induction e as [|c e IH]; intros s p ps F S; [exact S|]. inversion F; subst. cbn [app split].
  rewrite (IH _ _ _ H2 S). replace (c =? slash) with false by lia. reflexivity.
Qed.
Lemma split_concat es tail : Forall (Forall (fun c => c <> slash)) es -> (tail = [] \/ tail = [slash]) ->
  split (concat (map (cons slash) es) ++ tail) = [] :: es ++ match tail with [] => [] | _ => [[]] end.
Proof.
  intros F T. induction F as [|e es E F IH].
  - destruct T as [-> | ->]; reflexivity.
  - cbn [map concat]. rewrite <- app_assoc. cbn [app split]. rewrite (split_app e _ _ _ E IH), app_nil_r.
    rewrite Z.eqb_refl. reflexivity.
Qed.
Lemma plain_free es : Forall plain es -> Forall (Forall (fun c => c <> slash)) es.
Proof. apply Forall_impl. intros e (_ & _ & _ & H). exact H. Qed.
Lemma concat_last es : es <> [] -> Forall plain es -> last (concat (map (cons slash) es)) 0 <> slash.
Proof.
  intros N F. destruct (exists_last N) as (m & e & ->). apply Forall_app in F as [_ F]. inversion F; subst.
  destruct H1 as (Ne & _ & _ & S). destruct (exists_last Ne) as (f & c & ->).
  rewrite map_app, concat_app. cbn [map concat]. rewrite app_nil_r, app_comm_cons, app_assoc, last_last.
  apply Forall_app in S as [_ S]. inversion S; auto.
Qed.
Lemma rooted es tail : (es <> [] \/ tail = [slash]) -> exists q, concat (map (cons slash) es) ++ tail = slash :: q.
Proof. destruct es as [|e es]; intros [H|H]; [congruence| | |]; subst; cbn; eauto. Qed.
Lemma clean_tidy p : tidy (cleanPath p).
Proof.
  unfold cleanPath. set (p' := match p with [] => _ | _ => _ end). set (q := clean_ [] (split p')).
  assert (F : Forall plain q) by (apply clean_plain; [constructor|apply split_slash_free]).
  exists q. split; auto. destruct q as [|e q]; [right; cbn; rewrite andb_false_r; reflexivity|].
  rewrite join_concat by discriminate. fold slash. destruct (_ && _); [right; reflexivity|left; split; [discriminate|reflexivity]].
Qed.
Lemma tidy_clean p : tidy p <-> cleanPath p = p.
Proof.
  split; [|intros <-; apply clean_tidy]. intros (es & F & P).
  assert (E : exists tail, p = concat (map (cons slash) es) ++ tail /\ ((tail = [] /\ es <> []) \/ tail = [slash])).
  { destruct P as [(N & ->) | ->]; [exists []|exists [slash]]; rewrite ?app_nil_r; auto. }
  destruct E as (tail & E & T). unfold cleanPath.
  destruct (rooted es tail) as (q & Q); [tauto|]. rewrite E, Q. rewrite Z.eqb_refl. rewrite <- Q.
  rewrite split_concat by (auto using plain_free; tauto).
  assert (C : clean_ [] ([] :: es ++ match tail with [] => [] | _ => [[]] end) = es).
  { cbn [clean_ beq orb]. destruct T as [(-> & _) | ->]; [rewrite app_nil_r; apply (clean_id es []); auto|apply (clean_id_slash es []); auto]. }
  rewrite C. destruct T as [(-> & N) | ->].
  - rewrite !app_nil_r, join_concat by auto. pose proof (concat_last es N F) as L.
    replace (last _ 0 =? slash) with false by lia. reflexivity.
  - rewrite last_last, Z.eqb_refl. cbn [andb]. destruct es as [|e es]; [reflexivity|].
    rewrite join_concat by discriminate. replace (beq _ [slash]) with false; [reflexivity|]. symmetry. apply beq_neq.
    inversion F; subst. destruct H1 as (Ne & _). cbn. destruct e; [congruence|discriminate].
Qed.
Lemma has_prefix p : forall s, hasPrefix p s = true <-> exists r, s = p ++ r.
Proof.
  induction p as [|x p IH]; intros s; cbn [hasPrefix].
  - split; [intros _; exists s; reflexivity|reflexivity].
  - destruct s as [|y s]; [split; [discriminate|intros (r & E); discriminate]|]. rewrite andb_true_iff, IH. split.
    + intros (A & r & ->). exists r. cbn. f_equal. lia.
    + intros (r & E). injection E as <- ->. split; [lia|eauto].
Qed.
Lemma refuse_by ul uj h : dispatch ul uj h = Answer (writeError TBadRoute) ->
  exists a, front ul uj h = Answer a /\ refusal h a.
Proof.
  intros D. unfold front. destruct (beq (cleanPath _) _) eqn:B; cbn [negb]; [apply beq_eq in B|apply beq_neq in B].
  - apply tidy_clean in B. destruct (hasPrefix _ _) eqn:P.
    + rewrite D. eexists. split; [reflexivity|]. apply has_prefix in P. split; [tauto|]. intros _. split; [reflexivity|].
      split; [intros X; destruct (X P)|]. intros _. exists TBadRoute. auto.
    + eexists. split; [reflexivity|]. assert (X : ~ in_service (h_path h)) by (intros X; apply (has_prefix ComfoPathPrefix) in X; congruence).
      split; [tauto|]. intros _. split; [reflexivity|]. split; [reflexivity|tauto].
  - eexists. split; [reflexivity|]. rewrite <- tidy_clean in B. split; [reflexivity|tauto].
Qed.
Lemma front_other ul uj h : (forall name, ~ addressed h name) -> exists a, front ul uj h = Answer a /\ refusal h a.
Proof.
  intros N. assert (D : dispatch ul uj h = Answer (writeError TBadRoute)).
  { unfold dispatch. destruct (beq (h_method h) _) eqn:M; cbn [negb]; [|auto].
    destruct (parseTwirpPath _) as [[p s] m] eqn:P. destruct (beq s _) eqn:S; cbn [negb]; [|auto].
    destruct (beq p _) eqn:Q; cbn [negb]; [|auto]. destruct (find_route m rt_routes) as [r|] eqn:F; [|auto].
    destruct (find_route_served _ _ F) as (name & Sv & ->). exfalso. apply (N name).
    apply beq_eq in M, S, Q. subst. split; auto. split; auto. rewrite str_app. apply parse_path. exact P. }
  apply refuse_by. exact D.
Qed.
Lemma front_bad_type ul uj h : contentType ul (h_ctype h) = None -> exists a, front ul uj h = Answer a /\ refusal h a.
Proof.
  intros N. assert (D : dispatch ul uj h = Answer (writeError TBadRoute)).
  { unfold dispatch. destruct (beq (h_method h) _); cbn [negb]; [|auto].
    destruct (parseTwirpPath _) as [[p s] m]. destruct (beq s _); cbn [negb]; [|auto].
    destruct (beq p _); cbn [negb]; [|auto]. destruct (find_route m rt_routes); [|auto]. rewrite N. auto. }
  apply refuse_by. exact D.
Qed.

Lemma unmarshal_request d b : bytes_ok b -> (forall n, lookup n d <> Some KString) ->
  (forall fs, encodes fs b -> unmarshal d b = Some (after d [] fs)) /\
  (forall m, unmarshal d b = Some m -> exists fs, encodes fs b /\ m = after d [] fs).
Proof.
  intros B N. split.
  - intros fs W. apply unmarshal_complete; auto. intros n s I K. destruct (N n K).
  - intros m U. apply unmarshal_sound in U as (fs & W & _ & E); auto. exists fs. auto.
Qed.

(** C65 *)
Lemma front_protobuf ul uj h name : bytes_ok (h_body h) -> ascii (h_ctype h) -> addressed h name ->
  media "application/protobuf" (h_ctype h) ->
  (forall fs, encodes fs (h_body h) -> exists q, meaning name fs = Some q /\ front ul uj h = Call true q) /\
  ((forall fs, ~ encodes fs (h_body h)) -> exists a, front ul uj h = Answer a /\ malformed a).
Proof.
  intros B A Ad M. destruct (route_of name) as (r & F & Me & NS); [apply Ad|].
  pose proof (content_type ul _ A) as C. rewrite (front_addressed ul uj h name r Ad F).
  destruct (contentType ul (h_ctype h)) as [[|]|]; [|destruct C as [_ C]; destruct (C M)|destruct C as [C _]; destruct (C M)].
  destruct (unmarshal_request (rt_desc r) (h_body h) B NS) as (U1 & U2). split.
  - intros fs W. eexists. split; [apply Me|]. rewrite (U1 fs W). reflexivity.
  - intros No. destruct (unmarshal (rt_desc r) (h_body h)) as [m|] eqn:U; [destruct (U2 m eq_refl) as (fs & W & _); destruct (No fs W)|].
    eexists. split; [reflexivity|]. split; [reflexivity|]. exists TMalformed. auto.
Qed.
Lemma front_json ul uj h name : ascii (h_ctype h) -> addressed h name -> media "application/json" (h_ctype h) ->
  (exists q, front ul uj h = Call false q) \/ (exists a, front ul uj h = Answer a /\ malformed a).
Proof.
  intros A Ad M. destruct (route_of name) as (r & F & Me & NS); [apply Ad|].
  pose proof (content_type ul _ A) as C. rewrite (front_addressed ul uj h name r Ad F).
  destruct (contentType ul (h_ctype h)) as [[|]|]; [destruct C as [_ C]; destruct (C M)| |destruct C as [_ C]; destruct (C M)].
  destruct (uj (rt_desc r) (h_body h)); [left|right]; eexists; [reflexivity|]. split; [reflexivity|]. split; [reflexivity|]. exists TMalformed. auto.
Qed.
Lemma front_call ul uj h pb q : bytes_ok (h_body h) -> ascii (h_ctype h) -> front ul uj h = Call pb q ->
  exists name, addressed h name /\
    if pb then media "application/protobuf" (h_ctype h) /\ exists fs, encodes fs (h_body h) /\ meaning name fs = Some q
    else media "application/json" (h_ctype h).
Proof.
  intros B A H. pose proof (content_type ul _ A) as C.
  assert (E : exists name, addressed h name).
  { unfold front in H. destruct (beq (cleanPath _) _); cbn [negb] in H; [|discriminate].
    destruct (hasPrefix _ _); [|discriminate]. unfold dispatch in H.
    destruct (beq (h_method h) _) eqn:M; cbn [negb] in H; [|discriminate].
    destruct (parseTwirpPath _) as [[p s] m] eqn:P. destruct (beq s _) eqn:S; cbn [negb] in H; [|discriminate].
    destruct (beq p _) eqn:Q; cbn [negb] in H; [|discriminate]. destruct (find_route m rt_routes) as [r|] eqn:F; [|discriminate].
    destruct (find_route_served _ _ F) as (name & Sv & ->). exists name.
    apply beq_eq in M, S, Q. subst. split; auto. split; auto. rewrite str_app. apply parse_path. exact P. }
  destruct E as (name & Ad). exists name. split; auto.
  destruct (route_of name) as (r & F & Me & NS); [apply Ad|].
  rewrite (front_addressed ul uj h name r Ad F) in H.
  destruct (contentType ul (h_ctype h)) as [[|]|]; [| |discriminate].
  - destruct (unmarshal_request (rt_desc r) (h_body h) B NS) as (_ & U2).
    destruct (unmarshal (rt_desc r) (h_body h)) as [m|]; [|discriminate]. injection H as <- <-.
    destruct (U2 m eq_refl) as (fs & W & ->). split; [apply C|]. exists fs. auto.
  - destruct (uj (rt_desc r) (h_body h)); [|discriminate]. injection H as <- _. apply C.
Qed.
Lemma front_refused ul uj h : ascii (h_ctype h) ->
  (forall name, ~ (addressed h name /\ (media "application/protobuf" (h_ctype h) \/ media "application/json" (h_ctype h)))) ->
  exists a, front ul uj h = Answer a /\ refusal h a.
Proof.
  intros A N. pose proof (content_type ul _ A) as C.
  destruct (contentType ul (h_ctype h)) as [[|]|] eqn:T; [| |apply front_bad_type; exact T];
    apply front_other; intros name Ad; apply (N name); split; auto; destruct C; auto.
Qed.
(** C66 *)
Lemma uint_range n fs : u32_ok (uint_field n fs).
Proof. unfold u32_ok, uint_field. lia. Qed.
Lemma enum_range n fs : -2147483648 <= enum_field n fs < 2147483648.
Proof. pose proof (uint_range n fs) as U. unfold u32_ok in U. unfold enum_field. destruct (_ <? _) eqn:E; lia. Qed.
Lemma meaning_args name fs q : meaning name fs = Some q -> args_ok q.
Proof.
  unfold meaning. intros H. repeat (destruct (string_dec name _) in H; [injection H as <-; cbn; auto using uint_range, enum_range|]).
  discriminate.
Qed.
Lemma called_args ul uj h q : bytes_ok (h_body h) -> ascii (h_ctype h) -> front ul uj h = Call true q -> args_ok q.
Proof. intros B A F. apply front_call in F as (name & _ & _ & fs & _ & M); auto. eapply meaning_args. exact M. Qed.
