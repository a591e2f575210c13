(** The steps of ReadPacket, taken one after the other, do what ReadPacket does. *)
From Verif Require Import ProofBase Proto Scanner Conn Proc Lib Server Machine Fine.

Inductive completes : reading -> conn -> outcome (packet * option err) -> conn -> Prop :=
| co_over r c o c' : read_step r c = Over o c' -> completes r c o c'
| co_more r c r' c1 o c' : read_step r c = More r' c1 -> completes r' c1 o c' -> completes r c o c'.
(** What is done after a scan. *)
Inductive follows_on (b : rstep) : outcome (packet * option err) -> conn -> Prop :=
| fo_over o c : b = Over o c -> follows_on b o c
| fo_more r c o c' : b = More r c -> completes r c o c' -> follows_on b o c'.
Lemma step_follows r c b o c' : read_step r c = b -> follows_on b o c' -> completes r c o c'.
Proof. intros E [o1 c1 ->|r1 c1 o1 c2 -> C]; [apply co_over|eapply co_more]; eauto. Qed.
Definition result (q : scan_result) : list byte * option err * option scanner :=
  match q with STok tok s => (tok, None, Some s) | SFalse s => ([], None, Some s) | STime => ([], Some ErrTimeout, None) end.
Lemma scan_waits evs : forall pre s post dev log st x o c',
  (let '(q, evs', os) := scan_wait evs pre s post in forall s', match q with STok _ s1 | SFalse s1 => s' = s1 | STime => True end ->
    follows_on (scanned st x (fst (fst (result q))) (snd (fst (result q))) s' (mkConn dev evs' os log)) o c') ->
  completes (mkReading st x s (Some (length pre))) (mkConn dev evs (pre ++ post) log) o c'.
Proof.
  induction evs as [|ev evs IH]; intros pre s post dev log st x o c' H; cbn [scan_wait] in H; destruct (scan_top s) as [tok s1|s1|s1] eqn:T; cbn [result fst snd] in H.
  - eapply step_follows; [|apply (H s1); auto]. unfold read_step. cbn [r_wait r_s r_stage r_expect c_pend]. rewrite T. reflexivity.
  - eapply step_follows; [|apply (H s1); auto]. unfold read_step. cbn [r_wait r_s r_stage r_expect c_pend]. rewrite T. reflexivity.
  - eapply step_follows; [|apply (H s1); auto]. unfold read_step. cbn [r_wait r_s r_stage r_expect c_pend c_orph c_dev c_log]. rewrite T. cbn [scanned].
    rewrite firstn_app, skipn_app, firstn_all, skipn_all, Nat.sub_diag. cbn [firstn skipn]. rewrite app_nil_r. reflexivity.
  - eapply step_follows; [|apply (H s1); auto]. unfold read_step. cbn [r_wait r_s r_stage r_expect c_pend]. rewrite T. reflexivity.
  - eapply step_follows; [|apply (H s1); auto]. unfold read_step. cbn [r_wait r_s r_stage r_expect c_pend]. rewrite T. reflexivity.
  - destruct ev as [bs e| |].
    + destruct pre as [|q pre].
      * eapply co_more; [|apply (IH post (scan_feed s1 bs e) []); exact H]. unfold read_step. cbn [r_wait r_s r_stage r_expect c_pend c_orph c_dev c_log length app]. rewrite T, app_nil_r. reflexivity.
      * destruct (scan_top (scan_feed q bs e)) as [tok q1|q1|q1] eqn:Q.
        -- eapply co_more; [|apply (IH pre s1 post); exact H]. unfold read_step. cbn [r_wait r_s r_stage r_expect c_pend c_orph c_dev c_log length app]. rewrite T, Q. reflexivity.
        -- eapply co_more; [|apply (IH pre s1 post); exact H]. unfold read_step. cbn [r_wait r_s r_stage r_expect c_pend c_orph c_dev c_log length app]. rewrite T, Q. reflexivity.
        -- eapply co_more; [|apply (IH pre s1 (post ++ [q1])); exact H]. unfold read_step. cbn [r_wait r_s r_stage r_expect c_pend c_orph c_dev c_log length app]. rewrite T, Q, app_assoc. reflexivity.
    + cbn [result fst snd] in H. eapply step_follows; [|apply (H s1); auto]. unfold read_step. cbn [r_wait r_s r_stage r_expect c_pend c_orph c_dev c_log]. rewrite T. cbn [scanned].
      rewrite firstn_app, skipn_app, firstn_all, skipn_all, Nat.sub_diag. cbn [firstn skipn]. rewrite app_nil_r. reflexivity.
    + destruct pre as [|q pre].
      * eapply co_more; [|apply (IH post s1 []); exact H]. unfold read_step. cbn [r_wait r_s r_stage r_expect c_pend c_orph c_dev c_log length app]. rewrite T, app_nil_r. reflexivity.
      * eapply co_more; [|apply (IH pre s1 (post ++ [q])); exact H]. unfold read_step. cbn [r_wait r_s r_stage r_expect c_pend c_orph c_dev c_log length app]. rewrite T, app_assoc. reflexivity.
Qed.
Lemma scan_timeouts c s st x o c' :
  (let '(pr, e, s', c1) := ScanTimeout c s in follows_on (scanned st x pr e s' c1) o c') -> completes (mkReading st x s None) c o c'.
Proof.
  intros H. destruct c as [dev evs os log].
  assert (W : match evs with Expire :: _ => False | _ => True end -> completes (mkReading st x s None) (mkConn dev evs os log) o c').
  { intros N. eapply co_more.
    { unfold read_step. cbn [r_wait c_pend r_stage r_expect r_s c_orph]. destruct evs as [|[bs e| |] evs]; [reflexivity|reflexivity|contradiction|reflexivity]. }
    rewrite <- (app_nil_r os) at 2. apply scan_waits.
    unfold ScanTimeout in H. cbn [c_pend c_orph c_dev c_log] in H.
    destruct evs as [|[bs e| |] evs]; [| |contradiction|]; destruct (scan_wait _ os s []) as [[q evs'] os']; intros s' S; destruct q as [tok s1|s1|]; subst; cbn [result fst snd]; auto. }
  destruct evs as [|[bs e| |] evs]; [apply W; exact I|apply W; exact I| |apply W; exact I]. clear W.
  unfold ScanTimeout in H. cbn [c_pend c_orph c_dev c_log] in H.
  destruct (scan_top s) eqn:T; (eapply step_follows; [|exact H]); unfold read_step; cbn [r_wait c_pend r_stage r_expect r_s c_orph c_dev c_log]; rewrite T; reflexivity.
Qed.
Lemma reads_packet c x : completes (mkReading 0 x new_scanner None) c (fst (ReadPacket c x)) (snd (ReadPacket c x)).
Proof.
  apply scan_timeouts. unfold ReadPacket. destruct (ScanTimeout c new_scanner) as [[[pr [e|]] s] c1]; cbn [scanned]; [apply fo_over; reflexivity|].
  destruct (negb (len pr =? 0)); [apply fo_over; reflexivity|]. destruct (negb x); [apply fo_over; reflexivity|].
  eapply fo_more; [reflexivity|]. apply scan_timeouts. clear pr. destruct (ScanTimeout c1 s) as [[[pr [e|]] s1] c2]; cbn [scanned]; [apply fo_over; reflexivity|].
  destruct (negb (len pr =? 0)); [apply fo_over; reflexivity|].
  eapply fo_more; [reflexivity|]. apply scan_timeouts. clear pr. destruct (ScanTimeout c2 s1) as [[[pr [e|]] s2] c3]; cbn [scanned]; [apply fo_over; reflexivity|].
  destruct (_ && _); [apply fo_over; reflexivity|]. destruct (len pr >=? 4); apply fo_over; reflexivity.
Qed.
