(** Bodies that break off, and calls that fail. *)
From Coq Require Import String.
From Verif Require Import ProofBase GoStrings Proc Lib SpecServer SpecWire Server Wire Twirp SpecTwirp TwirpReply GoClient SpecGo GoProofs SpecJson JsonScan JsonScanProofs JsonRead
  JsonTokenProofs JsonReadProofs JsonFieldProofs JsonWrite JsonGoProofs JsonError JsonErrorProofs ErrorText SpecErrorText ErrorTextProofs ErrorTextClaims Failures SpecFailures TwirpProofs.

(** ** Scanning what breaks off *)
Lemma cut_more st ps b x rest : readCut st ps b = Some x -> readValue st ps (b ++ rest) = Some x.
Proof.
  revert st ps x. induction b as [|c b IH]; intros st ps x; [discriminate|]. cbn [readCut app readValue]. destruct (step st ps c) as [[o st'] ps'].
  assert (R : forall x, option_map (cons c) (readCut st' ps' b) = Some x -> option_map (cons c) (readValue st' ps' (b ++ rest)) = Some x).
  { intros y. destruct (readCut st' ps' b) as [z|] eqn:E; [|discriminate]. rewrite (IH _ _ _ E). auto. }
  destruct o; auto; destruct ps'; auto.
Qed.
Lemma inner_step st p ps c : st <> EndTop -> match step st (p :: ps) c with
  | (o, st', ps') => o <> OEnd /\ (o = OError \/ (ps' <> [] /\ st' <> EndTop) \/ (ps' = [] /\ (o = OEndObject \/ o = OEndArray))) end.
Proof.
  intros N.
  assert (Er : let '(o, st', ps') := serr in o <> OEnd /\ (o = OError \/ (ps' <> [] /\ st' <> EndTop) \/ (ps' = [] /\ (o = OEndObject \/ o = OEndArray)))) by (cbn; split; [discriminate|auto]).
  assert (Pu : forall q o s, o <> OEnd -> s <> EndTop -> let '(o, st', ps') := push (p :: ps) q o s in o <> OEnd /\ (o = OError \/ (ps' <> [] /\ st' <> EndTop) \/ (ps' = [] /\ (o = OEndObject \/ o = OEndArray)))).
  { intros q o s O S'. unfold push. destruct (_ <=? _); [|exact Er]. split; auto. right. left. split; [discriminate|auto]. }
  assert (Po : forall o l, o = OEndObject \/ o = OEndArray -> let '(o, st', ps') := pop o l in o <> OEnd /\ (o = OError \/ (ps' <> [] /\ st' <> EndTop) \/ (ps' = [] /\ (o = OEndObject \/ o = OEndArray)))).
  { intros o l O. unfold pop. split; [destruct O; congruence|]. right. destruct l; [right; auto|left; split; discriminate]. }
  assert (En : forall q, let '(o, st', ps') := endValue (q :: ps) c in o <> OEnd /\ (o = OError \/ (ps' <> [] /\ st' <> EndTop) \/ (ps' = [] /\ (o = OEndObject \/ o = OEndArray)))).
  { intros q. unfold endValue. destruct (jspace c); [split; [discriminate|right; left; split; discriminate]|].
    destruct q; repeat match goal with |- context [if ?t then _ else _] => destruct t end; try exact Er; try (apply Po; auto);
      (split; [discriminate|right; left; split; discriminate]). }
  assert (Be : let '(o, st', ps') := beginValue (p :: ps) c in o <> OEnd /\ (o = OError \/ (ps' <> [] /\ st' <> EndTop) \/ (ps' = [] /\ (o = OEndObject \/ o = OEndArray)))).
  { unfold beginValue. repeat match goal with |- context [if ?t then _ else _] => destruct t end; try exact Er; try (apply Pu; discriminate);
      (split; [discriminate|right; left; split; discriminate]). }
  destruct st; cbn [step]; unfold beginString, num0, eSign, expect, hexit; cbn [tl]; try congruence;
    repeat match goal with |- context [if ?t then _ else _] => destruct t end; try exact Er; try exact Be; try apply En;
    (split; [discriminate|right; left; split; discriminate]).
Qed.
Lemma inner_cut b : forall st p ps, st <> EndTop -> readCut st (p :: ps) b = readValue st (p :: ps) b.
Proof.
  induction b as [|c b IH]; intros st p ps N; cbn [readCut readValue].
  - pose proof (inner_step st p ps 32 N) as S. destruct (step st (p :: ps) 32) as [[o s] l]. destruct S as [S _]. destruct o; congruence.
  - pose proof (inner_step st p ps c N) as S. destruct (step st (p :: ps) c) as [[o s] l]. destruct S as [S T].
    destruct T as [-> |[[L T]|[-> [-> | ->]]]]; auto. destruct l as [|q l]; [congruence|]. rewrite (IH s q l T). reflexivity.
Qed.
Lemma object_cut b y r : readValue BeginValue [] b = Some y -> skipSpace y = 123 :: r -> readCut BeginValue [] b = Some y.
Proof.
  revert y. induction b as [|c b IH]; intros y E H; [cbn in E; discriminate E|]. cbn [readCut readValue] in *. unfold step in E |- *. unfold beginValue in E |- *.
  destruct (jspace c) eqn:J.
  - destruct (readValue BeginValue [] b) as [z|] eqn:Z; [|discriminate]. cbn in E. injection E as <-. cbn [skipSpace] in H. rewrite J in H. rewrite (IH z eq_refl H). reflexivity.
  - destruct (c =? 123) eqn:C.
    + unfold push in E |- *. change (len [PObjectKey] <=? maxNestingDepth) with true in E |- *. cbn [app] in E |- *. rewrite inner_cut by discriminate. exact E.
    + exfalso. assert (exists z, y = c :: z) as (z & ->).
      { unfold push, serr in E. repeat match type of E with context [if ?t then _ else _] => destruct t end; try discriminate;
          (match type of E with option_map _ ?t = _ => destruct t as [z|]; [|discriminate E] end; cbn in E; injection E as <-; eauto). }
      cbn [skipSpace] in H. rewrite J in H. injection H as -> _. discriminate.
Qed.
Lemma unmarshal_brace d body raw m : decodeRaw body = Some raw -> unmarshalJSON d raw = Some m -> exists r, raw = 123 :: r.
Proof.
  intros R U. unfold unmarshalJSON in U. destruct (read (mkDec raw None [])) as [[k s]|] eqn:E; [|discriminate]. destruct k; try discriminate.
  assert (Tr : jtrim raw = raw).
  { unfold decodeRaw in R. destruct (readValue BeginValue [] body) as [y|]; [|discriminate]. cbn in R. injection R as <-. apply jtrim_twice. }
  unfold read, read1, parseNext in E. cbn [jd_in jd_open jd_last] in E. rewrite Tr in E. destruct raw as [|c r]; [discriminate|]. exists r. f_equal.
  destruct (c =? 110); [destruct (matchWithDelim (str "null") (c :: r)); discriminate|].
  destruct (c =? 116); [destruct (matchWithDelim (str "true") (c :: r)); discriminate|].
  destruct (c =? 102); [destruct (matchWithDelim (str "false") (c :: r)); discriminate|].
  destruct ((c =? 45) || isDigit c); [destruct (parseNumber (c :: r)) as [[? ?]|]; discriminate|].
  destruct (c =? 34); [destruct (parseString (S (List.length r)) r) as [[? ?]|]; discriminate|].
  destruct (c =? 123) eqn:C; [apply Z.eqb_eq in C; exact C|].
  repeat match type of E with context [if ?t then _ else _] => destruct t; try discriminate end.
Qed.
(** For objects it makes no difference whether the body ends or breaks off. *)
Definition decoded (d : jdesc) (x : option (list byte)) : option msg := match x with Some raw => unmarshalJSON d raw | None => None end.
Lemma cut_raw b raw : decodeCut b = Some raw -> forall rest, decodeRaw (b ++ rest) = Some raw.
Proof.
  unfold decodeCut, decodeRaw. intros H rest. destruct (readCut BeginValue [] b) as [y|] eqn:E; [|discriminate]. rewrite (cut_more _ _ _ _ rest E). exact H.
Qed.
Lemma cut_same d b : decoded d (decodeCut b) = decoded d (decodeRaw b).
Proof.
  destruct (decodeCut b) as [raw|] eqn:E.
  - pose proof (cut_raw _ _ E []) as R. rewrite app_nil_r in R. rewrite R. reflexivity.
  - destruct (decodeRaw b) as [raw|] eqn:R; [|reflexivity]. cbn [decoded]. destruct (unmarshalJSON d raw) as [m|] eqn:U; [exfalso|reflexivity].
    destruct (unmarshal_brace d b raw m R U) as (r & ->). unfold decodeRaw in R. destruct (readValue BeginValue [] b) as [y|] eqn:Y; [|discriminate].
    cbn in R. injection R as R. unfold decodeCut in E. rewrite (object_cut b y r Y R) in E. discriminate.
Qed.
Lemma more_same d b rest m : decoded d (decodeRaw b) = Some m -> decoded d (decodeRaw (b ++ rest)) = Some m.
Proof.
  rewrite <- cut_same. destruct (decodeCut b) as [raw|] eqn:E; [|discriminate]. rewrite (cut_raw _ _ E rest). auto.
Qed.
Lemma unjson_decoded d b : unjson d b = decoded (named d (request_names d)) (decodeRaw b).
Proof. unfold unjson. destruct (decodeRaw b); reflexivity. Qed.

(** ** The server *)
Lemma cut_passed ip ul cx h pb q : frontCut ip ul cx h = Passed pb q <-> pb = false /\ front ul unjson h = Call pb q.
Proof.
  unfold frontCut, front, dispatchCut, dispatch. cbv zeta.
  destruct (negb (beq (cleanPath (h_path h)) (h_path h))); [split; [discriminate|intros [_ H]; discriminate]|].
  destruct (hasPrefix ComfoPathPrefix (h_path h)); [|split; [discriminate|intros [_ H]; discriminate]].
  destruct (negb (beq (h_method h) (str "POST"))); [split; [discriminate|intros [_ H]; discriminate]|].
  destruct (parseTwirpPath (h_path h)) as [[p s] m].
  destruct (negb (beq s (str "comfo.api.Comfo"))); [split; [discriminate|intros [_ H]; discriminate]|].
  destruct (negb (beq p (str "/twirp"))); [split; [discriminate|intros [_ H]; discriminate]|].
  destruct (find_route m rt_routes) as [r|]; [|split; [discriminate|intros [_ H]; discriminate]].
  destruct (contentType ul (h_ctype h)) as [[|]|]; [|rewrite unjson_decoded, <- cut_same|split; [discriminate|intros [_ H]; discriminate]].
  - split; [discriminate|]. intros [-> H]. destruct (unmarshal (rt_desc r) (h_body h)); discriminate.
  - unfold decoded. destruct (decodeCut (h_body h)) as [raw|]; [|split; [discriminate|intros [_ H]; discriminate]].
    destruct (unmarshalJSON _ raw) as [v|]; [|split; [discriminate|intros [_ H]; discriminate]].
    split; [intros H; injection H as <- <-; auto|intros [-> H]; injection H as <-; reflexivity].
Qed.
Lemma front_more ul h h' q : beginning h h' -> front ul unjson h = Call false q -> front ul unjson h' = Call false q.
Proof.
  destruct h as [m p c b], h' as [m' p' c' b']. intros (E1 & E2 & E3 & rest & E4). cbn [h_method h_path h_ctype h_body] in *. subst.
  unfold front, dispatch. cbn [h_method h_path h_ctype h_body].
  destruct (negb (beq (cleanPath p) p)); auto. destruct (hasPrefix ComfoPathPrefix p); auto. destruct (negb (beq m (str "POST"))); auto.
  destruct (parseTwirpPath p) as [[pp s] mm]. destruct (negb _); auto. destruct (negb _); auto. destruct (find_route mm rt_routes) as [r|]; auto.
  destruct (contentType ul c) as [[|]|]; auto; [destruct (unmarshal (rt_desc r) b); discriminate|]. rewrite !unjson_decoded.
  destruct (decoded _ (decodeRaw b)) as [v|] eqn:V; [|discriminate]. rewrite (more_same _ _ rest _ V). auto.
Qed.
(** C108 *)
Lemma cut_never_other ip ul cx h h' pb q : frontCut ip ul cx h = Passed pb q -> beginning h h' -> front ul unjson h' = Call pb q.
Proof. intros H B. apply cut_passed in H. destruct H as [-> H]. exact (front_more ul h h' q B H). Qed.
Lemma refusal_more ip ul h h' g : refusal_error ip ul unjson h = Some g -> ge_code g = str "bad_route" -> beginning h h' -> refusal_error ip ul unjson h' = Some g.
Proof.
  intros R C (M & P & T & _). unfold refusal_error in *. cbv zeta in *. unfold badRouteError in *. rewrite M, P, T.
  destruct (negb (beq (h_method h) (str "POST"))); [exact R|]. destruct (parseTwirpPath (h_path h)) as [[p s] m].
  destruct (negb (beq s (str "comfo.api.Comfo"))); [exact R|]. destruct (negb (beq p (str "/twirp"))); [exact R|].
  destruct (find_route m rt_routes) as [r|]; [|exact R]. destruct (contentType ul (h_ctype h)) as [pb|]; [|exact R]. exfalso.
  match type of R with match ?o with _ => _ end = _ => destruct o; [discriminate|] end. injection R as <-. destruct pb; discriminate.
Qed.
Lemma cut_elsewhere ip ul cx h a : frontCut ip ul cx h = Elsewhere a -> forall h', beginning h h' -> front ul unjson h' = Answer a.
Proof.
  unfold frontCut, front. intros H h' (M & P & T & _). rewrite P. destruct (negb _); [injection H as <-; reflexivity|].
  destruct (hasPrefix _ _); [|injection H as <-; reflexivity]. exfalso. unfold dispatchCut in H. cbv zeta in H.
  destruct (negb _); [discriminate|]. destruct (parseTwirpPath _) as [[p s] m]. destruct (negb _); [discriminate|]. destruct (negb _); [discriminate|].
  destruct (find_route _ _); [|discriminate]. destruct (contentType _ _) as [[|]|]; try discriminate. destruct (decodeCut _); [|discriminate]. destruct (unmarshalJSON _ _); discriminate.
Qed.
Lemma cut_refused ip ul cx h g : frontCut ip ul cx h = Refused g ->
  ((forall h', beginning h h' -> refusal_error ip ul unjson h' = Some g) /\ ge_code g = str "bad_route") \/ cut_short cx g.
Proof.
  unfold frontCut. destruct (negb (beq (cleanPath (h_path h)) (h_path h))); [discriminate|]. destruct (hasPrefix ComfoPathPrefix (h_path h)); [|discriminate].
  unfold dispatchCut. cbv zeta.
  assert (K : forall g', refusal_error ip ul unjson h = Some g' -> ge_code g' = str "bad_route" -> Refused g' = Refused g ->
    ((forall h', beginning h h' -> refusal_error ip ul unjson h' = Some g) /\ ge_code g = str "bad_route") \/ cut_short cx g).
  { intros g' R C H. injection H as <-. left. split; [|exact C]. intros h' B. exact (refusal_more ip ul h h' g' R C B). }
  unfold refusal_error in K at 1. cbv zeta in K.
  destruct (negb (beq (h_method h) (str "POST"))); [apply K; reflexivity|].
  destruct (parseTwirpPath (h_path h)) as [[p s] m].
  destruct (negb (beq s (str "comfo.api.Comfo"))); [apply K; reflexivity|].
  destruct (negb (beq p (str "/twirp"))); [apply K; reflexivity|].
  destruct (find_route m rt_routes) as [r|]; [|apply K; reflexivity].
  destruct (contentType ul (h_ctype h)) as [[|]|]; [| |apply K; reflexivity].
  - intros H. injection H as <-. right. unfold requestBodyError. destruct cx as [[|]|]; constructor; reflexivity.
  - assert (X : Refused (requestBodyError cx (str "the json request could not be decoded")) = Refused g ->
      ((forall h', beginning h h' -> refusal_error ip ul unjson h' = Some g) /\ ge_code g = str "bad_route") \/ cut_short cx g).
    { intros H. injection H as <-. right. unfold requestBodyError. destruct cx as [[|]|]; constructor; reflexivity. }
    destruct (decodeCut (h_body h)) as [raw|]; [|exact X]. destruct (unmarshalJSON _ raw); [discriminate|exact X].
Qed.
Lemma cut_delivered ip st cx g : cut_short cx g -> client_error ip st g = g.
Proof. intros H. destruct H; vm_compute; reflexivity. Qed.
(** C109 *)
Lemma pb_not_executed ip ul cx h : ascii (h_ctype h) -> media "application/protobuf" (h_ctype h) -> forall pb q, frontCut ip ul cx h <> Passed pb q.
Proof.
  intros A M pb q H. apply cut_passed in H. destruct H as [-> H].
  pose proof (content_type ul _ A) as C. unfold pb_type, js_type in C.
  unfold front, dispatch in H. destruct (negb (beq (cleanPath (h_path h)) (h_path h))); [discriminate|]. destruct (hasPrefix ComfoPathPrefix (h_path h)); [|discriminate].
  destruct (negb (beq (h_method h) (str "POST"))); [discriminate|]. destruct (parseTwirpPath (h_path h)) as [[p s] m]. destruct (negb _); [discriminate|]. destruct (negb _); [discriminate|].
  destruct (find_route m rt_routes) as [r|]; [|discriminate]. destruct (contentType ul (h_ctype h)) as [[|]|]; [|tauto|discriminate].
  destruct (unmarshal (rt_desc r) (h_body h)); discriminate.
Qed.
Lemma json_executed : exists h h', media "application/json" (h_ctype h) /\ beginning h h' /\ h_body h' <> h_body h /\
  forall ip ul cx, frontCut ip ul cx h = Passed false (SetFanSpeedR 3 false).
Proof.
  exists (mkHreq (str "POST") (str "/twirp/comfo.api.Comfo/SetFanSpeed") (str "application/json") (str "{""Abs"":3}")),
    (mkHreq (str "POST") (str "/twirp/comfo.api.Comfo/SetFanSpeed") (str "application/json") (str "{""Abs"":3}" ++ [32])).
  splits; [| |discriminate|intros; vm_compute; reflexivity].
  - exists [], (str "application/json"), [], []. split; [reflexivity|]. split; [constructor|]. split; [constructor|]. split; [|left; reflexivity].
    let l := eval vm_compute in (str "application/json") in change (str "application/json") with l.
    repeat (constructor; [left; split; [reflexivity|lia]|]). constructor.
  - unfold beginning. split; [reflexivity|]. split; [reflexivity|]. split; [reflexivity|]. exists [32]. reflexivity.
Qed.

(** ** The clients *)
Lemma send_sent tx d u ct b sent r : send tx d u ct b = (sent, r) ->
  match sent with
  | None => exists g, r = inl g /\ (g = wrapped "could not build request" (tx_build tx) \/ g = wrapped "failed to do request" (tx_refused tx)) /\ newRequest u ct b = NotSent
  | Some h => (exists sc ho, newRequest u ct b = SentTo sc ho h) /\ (exists e, d h = inl e /\ r = inl (wrapped "failed to do request" e)) \/
      (exists sc ho, newRequest u ct b = SentTo sc ho h) /\ exists s, d h = inr s /\ r = inr s
  end.
Proof.
  unfold send. destruct (parseUrl u) eqn:P.
  - destruct (newRequest u ct b) as [|sc ho h] eqn:N; intros H; injection H as <- <-; [eexists; split; [reflexivity|split; [right; reflexivity|reflexivity]]|]. destruct (d h) as [e|s] eqn:D; [left|right]; (split; [exists sc, ho; reflexivity|]); [exists e|exists s]; (split; [first [exact D|reflexivity]|reflexivity]).
  - intros H; injection H as <- <-. eexists. split; [reflexivity|]. split; [left; reflexivity|]. unfold newRequest. rewrite P. reflexivity.
Qed.
Lemma send_dest tx d base p q pb b : let '(sent, r) := send tx d (method_url base p q) pb b in forall h, sent = Some h -> exists sc ho, newRequest (method_url base p q) pb b = SentTo sc ho h.
Proof.
  destruct (send _ _ _ _ _) as [sent r] eqn:E. intros h ->. apply send_sent in E. destruct E as [[E _]|[E _]]; exact E.
Qed.
Lemma go_send_is base p q b : marshal (rpc_fields q) = Some b -> go_send base p q = newRequest (method_url base p q) (str "application/protobuf") b.
Proof. unfold go_send. intros ->. reflexivity. Qed.
Lemma json_send_is sp base p q b : request_json sp q = Some b -> go_json_send sp base p q = newRequest (method_url base p q) (str "application/json") b.
Proof. unfold go_json_send. intros ->. reflexivity. Qed.
(** C110 *)
Lemma replied_is q b r : replied q b r <-> option_map (read_resp q) (unmarshal (reply_desc q) b) = Some r.
Proof.
  unfold replied, go_result, of_http. cbn [gr_status gr_body]. change (negb (200 =? 200)) with false. cbn iota.
  destruct (unmarshal _ b); cbn; split; intros H; try discriminate; injection H as <-; reflexivity.
Qed.
Lemma replied_json_is q b r : replied_json q b r <-> option_map (read_resp q) (decoded (named (reply_desc q) (reply_names q)) (decodeRaw b)) = Some r.
Proof.
  unfold replied_json, go_json_result, of_http, decoded. cbn [gr_status gr_body]. change (negb (200 =? 200)) with false. cbn iota.
  destruct (decodeRaw b) as [raw|]; [|split; discriminate]. destruct (unmarshalJSON _ raw); cbn; split; intros H; try discriminate; injection H as <-; reflexivity.
Qed.
Lemma pb_reply ip st tx d c1 c2 c3 base p q sent r :
  callProtobuf ip st tx d c1 c2 c3 base p q = (sent, Returned r) <->
  c1 = None /\ c2 = None /\ c3 = None /\ exists sc ho h s, sent = Some h /\ go_send base p q = SentTo sc ho h /\ d h = inr s /\
    s_status s = 200 /\ s_cut s = None /\ replied q (s_body s) r.
Proof.
  destruct (marshal_writable (rpc_fields q) (request_writable q)) as (b & M & _). unfold callProtobuf. rewrite M. setoid_rewrite replied_is.
  rewrite (go_send_is base p q b M). destruct c1 as [c|]; [split; [discriminate|intros (? & _); discriminate]|].
  destruct (send _ _ _ _ _) as [sent' x] eqn:E. pose proof (send_sent _ _ _ _ _ _ _ E) as S. split.
  - intros H. injection H as <- H. destruct sent' as [h|]; [|destruct S as (g & -> & _); discriminate].
    destruct S as [[_ (e & _ & ->)]|[(sc & ho & N) (s & D & ->)]]; [discriminate|]. destruct c2; [discriminate|].
    destruct (negb (s_status s =? 200)) eqn:Z; [discriminate|]. destruct (s_cut s) eqn:Cu; [discriminate|]. destruct c3; [discriminate|].
    splits; auto. exists sc, ho, h, s. splits; auto; [lia|]. destruct (unmarshal _ _); [|discriminate]. injection H as <-. reflexivity.
  - intros (_ & -> & -> & sc & ho & h & s & -> & N & D & Z & Cu & R).
    destruct sent' as [h'|]; [|destruct S as (g & _ & _ & S); congruence].
    destruct S as [[(sc' & ho' & N') (e & D' & ->)]|[(sc' & ho' & N') (s' & D' & ->)]]; rewrite N in N'; injection N' as <- <- <-; rewrite D in D'; [discriminate|]. injection D' as <-.
    rewrite Z, Cu. change (negb (200 =? 200)) with false. cbn iota. destruct (unmarshal _ _); [|discriminate]. injection R as <-. reflexivity.
Qed.
Lemma json_reply ip st tx sp d c1 c2 c3 cl base p q sent r : args_ok q ->
  (callJson ip st tx sp d c1 c2 c3 cl base p q = (sent, Returned r) <->
   c1 = None /\ c2 = None /\ c3 = None /\ cl = None /\ exists sc ho h s, sent = Some h /\ go_json_send sp base p q = SentTo sc ho h /\ d h = inr s /\
     s_status s = 200 /\ replied_json q (s_body s) r).
Proof.
  intros A. destruct (request_written sp q A) as (b & l & M & _). unfold callJson. rewrite M. setoid_rewrite replied_json_is.
  rewrite (json_send_is sp base p q b M). destruct c1 as [c|]; [split; [discriminate|intros (? & _); discriminate]|].
  destruct (send _ _ _ _ _) as [sent' x] eqn:E. pose proof (send_sent _ _ _ _ _ _ _ E) as S. 
  assert (Dc : forall s, decoded (named (reply_desc q) (reply_names q)) (match s_cut s with Some _ => decodeCut (s_body s) | None => decodeRaw (s_body s) end) =
    decoded (named (reply_desc q) (reply_names q)) (decodeRaw (s_body s))) by (intros s; destruct (s_cut s); [apply cut_same|reflexivity]).
  split.
  - intros H. injection H as <- H. destruct sent' as [h|]; [|destruct S as (g & -> & _); discriminate].
    destruct S as [[_ (e & _ & ->)]|[(sc & ho & N) (s & D & ->)]]; [discriminate|]. destruct c2; [discriminate|]. cbv zeta in H.
    destruct (negb (s_status s =? 200)) eqn:Z; [discriminate|]. specialize (Dc s). unfold decoded at 1 in Dc.
    destruct (match s_cut s with Some _ => _ | None => _ end) as [raw|]; [|discriminate]. destruct (unmarshalJSON _ raw); [|discriminate]. destruct c3; [discriminate|]. destruct cl; [discriminate|].
    splits; auto. exists sc, ho, h, s. splits; auto; [lia|]. rewrite <- Dc. injection H as <-. reflexivity.
  - intros (_ & -> & -> & -> & sc & ho & h & s & -> & N & D & Z & R).
    destruct sent' as [h'|]; [|destruct S as (g & _ & _ & S); congruence].
    destruct S as [[(sc' & ho' & N') (e & D' & ->)]|[(sc' & ho' & N') (s' & D' & ->)]]; rewrite N in N'; injection N' as <- <- <-; rewrite D in D'; [discriminate|]. injection D' as <-.
    rewrite Z. change (negb (200 =? 200)) with false. cbv zeta iota. rewrite <- Dc in R. unfold decoded in R.
    destruct (match s_cut s with Some _ => _ | None => _ end) as [raw|]; [|discriminate]. destruct (unmarshalJSON _ raw); [|discriminate]. injection R as <-. reflexivity.
Qed.
Lemma response_error_told ip st d h s : responses_ok st d -> d h = inr s -> s_status s <> 200 ->
  (exists e, s_cut s = Some e /\ response_error ip st s = wrapped "failed to read server error response body" e) \/ answered st d (Some h) (response_error ip st s).
Proof.
  intros O D N. destruct (O h s D) as (R & B1 & B2 & B3). pose proof (response_told ip st (s_status s) (s_location s) (s_body s) R B1 B2 B3) as T.
  unfold response_error. destruct (s_cut s) as [e|] eqn:Cu.
  - destruct (isHTTPRedirect (s_status s)) eqn:Re; [right|left; eauto]. exists h, s. splits; auto. right. unfold isHTTPRedirect in Re. lia.
  - right. exists h, s. splits; auto.
Qed.
Lemma pb_error ip st tx d c1 c2 c3 base p q sent g : responses_ok st d ->
  callProtobuf ip st tx d c1 c2 c3 base p q = (sent, Failed g) ->
  (exists w c, trouble true tx d [c1; c2; c3] None (fun b => exists r, replied q b r) sent w c /\ g = wrapped w c) \/ answered st d sent g.
Proof.
  intros O. destruct (marshal_writable (rpc_fields q) (request_writable q)) as (b & M & _). unfold callProtobuf. rewrite M.
  destruct c1 as [c|]; [intros H; injection H as <- <-; left; exists "aborted because context was done"%string, (reason c); split; [constructor; cbn; auto|reflexivity]|].
  destruct (send _ _ _ _ _) as [sent' x] eqn:E. pose proof (send_sent _ _ _ _ _ _ _ E) as S. intros H. injection H as <- H. destruct sent' as [h|].
  - destruct S as [[_ (e & D & ->)]|[(sc & ho & N) (s & D & ->)]].
    + injection H as <-. left. do 2 eexists. split; [apply tr_connection; exact D|reflexivity].
    + destruct c2 as [c|]; [injection H as <-; left; exists "aborted because context was done"%string, (reason c); split; [constructor; cbn; auto|reflexivity]|].
      destruct (negb (s_status s =? 200)) eqn:Z.
      * injection H as <-. destruct (response_error_told ip st d h s O D ltac:(lia)) as [(e & Cu & ->)|An]; auto. left. do 2 eexists. split; [eapply tr_error_body; eauto; lia|reflexivity].
      * destruct (s_cut s) as [e|] eqn:Cu; [injection H as <-; left; do 2 eexists; split; [eapply tr_body; eauto; lia|reflexivity]|].
        destruct c3 as [c|]; [injection H as <-; left; exists "aborted because context was done"%string, (reason c); split; [constructor; cbn; auto|reflexivity]|].
        destruct (unmarshal _ _) eqn:U; [discriminate|]. injection H as <-. left. exists "failed to unmarshal proto response"%string, (tx_unmarshal tx). split; [|reflexivity].
        apply (tr_no_reply true _ _ _ _ _ h s); auto; [lia|]. intros (r & R). apply replied_is in R. rewrite U in R. discriminate.
  - destruct S as (g' & -> & [-> | ->] & _); injection H as <-; left; do 2 eexists; (split; [|reflexivity]); constructor.
Qed.
Lemma json_error ip st tx sp d c1 c2 c3 cl base p q sent g : args_ok q -> responses_ok st d ->
  callJson ip st tx sp d c1 c2 c3 cl base p q = (sent, Failed g) ->
  (exists w c, trouble false tx d [c1; c2; c3] cl (fun b => exists r, replied_json q b r) sent w c /\ g = wrapped w c) \/ answered st d sent g.
Proof.
  intros A O. destruct (request_written sp q A) as (b & l & M & _). unfold callJson. rewrite M.
  assert (Dc : forall s, decoded (named (reply_desc q) (reply_names q)) (match s_cut s with Some _ => decodeCut (s_body s) | None => decodeRaw (s_body s) end) =
    decoded (named (reply_desc q) (reply_names q)) (decodeRaw (s_body s))) by (intros s; destruct (s_cut s); [apply cut_same|reflexivity]).
  destruct c1 as [c|]; [intros H; injection H as <- <-; left; exists "aborted because context was done"%string, (reason c); split; [constructor; cbn; auto|reflexivity]|].
  destruct (send _ _ _ _ _) as [sent' x] eqn:E. pose proof (send_sent _ _ _ _ _ _ _ E) as S. intros H. injection H as <- H. destruct sent' as [h|].
  - destruct S as [[_ (e & D & ->)]|[(sc & ho & N) (s & D & ->)]].
    + injection H as <-. left. do 2 eexists. split; [apply tr_connection; exact D|reflexivity].
    + destruct c2 as [c|]; [injection H as <-; left; exists "aborted because context was done"%string, (reason c); split; [constructor; cbn; auto|reflexivity]|]. cbv zeta in H.
      destruct (negb (s_status s =? 200)) eqn:Z.
      * injection H as <-. destruct (response_error_told ip st d h s O D ltac:(lia)) as [(e & Cu & ->)|An]; auto. left. do 2 eexists. split; [eapply tr_error_body; eauto; lia|reflexivity].
      * assert (No : decoded (named (reply_desc q) (reply_names q)) (match s_cut s with Some _ => decodeCut (s_body s) | None => decodeRaw (s_body s) end) = None ->
          trouble false tx d [None; None; c3] cl (fun b => exists r, replied_json q b r) (Some h) "failed to unmarshal json response" (tx_unmarshal tx)).
        { intros U. apply (tr_no_reply false _ _ _ _ _ h s); auto; [lia|]. intros (r & R). apply replied_json_is in R. rewrite <- Dc, U in R. discriminate. }
        unfold decoded in No. destruct (match s_cut s with Some _ => _ | None => _ end) as [raw|]; [|injection H as <-; left; do 2 eexists; split; [apply No; reflexivity|reflexivity]].
        destruct (unmarshalJSON _ raw); [|injection H as <-; left; do 2 eexists; split; [apply No; reflexivity|reflexivity]].
        destruct c3 as [c|]; [injection H as <-; left; exists "aborted because context was done"%string, (reason c); split; [constructor; cbn; auto|reflexivity]|].
        destruct cl as [e|]; [|discriminate]. injection H as <-. left. do 2 eexists. split; [apply tr_close; reflexivity|reflexivity].
  - destruct S as (g' & -> & [-> | ->] & _); injection H as <-; left; do 2 eexists; (split; [|reflexivity]); constructor.
Qed.
Lemma pb_sent ip st tx d c1 c2 c3 base p q h r : callProtobuf ip st tx d c1 c2 c3 base p q = (Some h, r) -> exists sc ho, go_send base p q = SentTo sc ho h.
Proof.
  destruct (marshal_writable (rpc_fields q) (request_writable q)) as (b & M & _). unfold callProtobuf. rewrite M, (go_send_is base p q b M).
  destruct c1; [discriminate|]. pose proof (send_dest tx d base p q (str "application/protobuf") b) as S. destruct (send _ _ _ _ _) as [s x]. intros H. injection H as -> _. apply S. reflexivity.
Qed.
Lemma json_sent ip st tx sp d c1 c2 c3 cl base p q h r : callJson ip st tx sp d c1 c2 c3 cl base p q = (Some h, r) -> exists sc ho, go_json_send sp base p q = SentTo sc ho h.
Proof.
  unfold callJson. destruct (request_json sp q) as [b|] eqn:M; [|discriminate]. rewrite (json_send_is sp base p q b M).
  destruct c1; [discriminate|]. pose proof (send_dest tx d base p q (str "application/json") b) as S. destruct (send _ _ _ _ _) as [s x]. intros H. injection H as -> _. apply S. reflexivity.
Qed.
(** C111 *)
Lemma json_more q b rest r : replied_json q b r -> replied_json q (b ++ rest) r.
Proof.
  rewrite !replied_json_is. intros H. destruct (decoded _ (decodeRaw b)) as [m|] eqn:E; [|discriminate]. rewrite (more_same _ _ rest _ E). exact H.
Qed.
(** C111 *)
Lemma json_cut ip st tx sp d d' c1 c2 c3 cl base p q sent r : args_ok q ->
  (forall h s, d h = inr s -> s_status s = 200 -> exists s' rest, d' h = inr s' /\ s_status s' = 200 /\ s_body s' = s_body s ++ rest) ->
  callJson ip st tx sp d c1 c2 c3 cl base p q = (sent, Returned r) -> callJson ip st tx sp d' c1 c2 c3 cl base p q = (sent, Returned r).
Proof.
  intros A D H. apply (json_reply ip st tx sp d c1 c2 c3 cl base p q sent r A) in H. apply (json_reply ip st tx sp d' c1 c2 c3 cl base p q sent r A).
  destruct H as (E1 & E2 & E3 & E4 & sc & ho & h & s & S & G & Dh & St & R). destruct (D h s Dh St) as (s' & rest & D' & St' & B).
  splits; auto. exists sc, ho, h, s'. splits; auto. rewrite B. apply json_more, R.
Qed.
Lemma pb_cut ip st tx d c1 c2 c3 base p q sent r :
  (forall h s, d h = inr s -> s_cut s <> None) -> callProtobuf ip st tx d c1 c2 c3 base p q <> (sent, Returned r).
Proof.
  intros D H. apply pb_reply in H. destruct H as (_ & _ & _ & sc & ho & h & s & _ & _ & Dh & _ & C & _). exact (D h s Dh C).
Qed.
