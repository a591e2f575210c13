(** Property C101: interleavings within ReadPacket and Write (Fine.v) add nothing to those of Machine.v. *)
From Verif Require Import GoBase Proto Scanner Conn Proc Lib Server Machine SpecMachine Fine SpecFine Samples SamplesServer SamplesMachine SamplesFine FineClaims.

(** Whatever happens when goroutines can be interrupted at every read, happens when ReadPacket and Write are single
    steps: the requests have the same answers, and the rest of the state is the same. *)
Theorem C101_coarse : forall rs c clk xs fm, fexec xs (fserve rs c clk) = Some fm ->
  exists ys m, some_of ys xs /\ exec ys (serve rs c clk) = Some m /\ same fm m /\ forall i r, fanswered fm i r <-> answered m i r.
Proof. exact fine_answers. Qed.
Print Assumptions C101_coarse.
(** The worker is within its third scan of a packet. *)
Example C101_coarse_ex : match fexec inside_schedule inside_start with
  | Some fm => places fm = ([None; None], Some (Some 2%nat)) /\ fresults fm = [Some (RespFans (mkPbFans 35 35 915 813)); None]
  | None => False
  end.
Proof. vm_compute. auto. Qed.

(** And the other way round: the executions of Machine.v are those in which nobody is interrupted within a call. *)
Theorem C101_fine : forall rs c clk ys m, exec ys (serve rs c clk) = Some m ->
  exists xs fm, some_of ys xs /\ fexec xs (fserve rs c clk) = Some fm /\ all_settled fm /\ same fm m.
Proof. exact coarse_fine. Qed.
Print Assumptions C101_fine.
Example C101_fine_ex : match exec (repeat RunWk 94) inside_coarse, fexec (repeat RunWk 160) inside_start with
  | Some m, Some fm => m_wk m = None /\ fm_wk fm = None /\ m_g m = fm_g fm
  | _, _ => False
  end.
Proof. vm_compute. auto. Qed.

(** At most one goroutine is within ReadPacket or Write, and it holds the packet lock. *)
Theorem C101_one_inside : forall rs c clk xs fm, fexec xs (fserve rs c clk) = Some fm ->
  (forall i t, nth_error (fm_ts fm) i = Some t -> ~ settled t -> In (LPm, true) (f_h t) /\
     (forall j u, nth_error (fm_ts fm) j = Some u -> ~ settled u -> i = j) /\ (forall u, fm_wk fm = Some u -> settled u)) /\
  (forall t, fm_wk fm = Some t -> ~ settled t -> In (LPm, true) (f_h t) /\ Forall settled (fm_ts fm)).
Proof. exact one_inside. Qed.
Print Assumptions C101_one_inside.
Example C101_one_inside_ex : match fexec inside_schedule inside_start with
  | Some fm => option_map f_h (fm_wk fm) = Some [(LPm, true); (LC CProf, true)] /\ fexec1 fm (Run 1) = None
  | None => False
  end.
Proof. vm_compute. auto. Qed.

(** No execution in small steps gets stuck or goes on for ever without time passing, and all requests can be answered. *)
Theorem C101_no_deadlock : forall rs c clk xs fm, fexec xs (fserve rs c clk) = Some fm ->
  (~ ffinished fm -> exists x, working x /\ fpossible fm x) /\ Acc fworks fm /\
  exists ys fm', Forall working ys /\ fproceeds fm ys fm' /\ ffinished fm'.
Proof. exact fine_no_deadlock. Qed.
Print Assumptions C101_no_deadlock.
Example C101_no_deadlock_ex :
  match fexec inside_schedule inside_start with
  | Some fm => match fexec (repeat RunWk 43 ++ repeat (Run 1) 10) fm with
               | Some fm' => fm_wk fm' = None /\ fresults fm' = [Some (RespFans (mkPbFans 35 35 915 813)); Some (RespErr (Internal (LibErr ErrTimeout)))]
               | None => False
               end
  | None => False
  end.
Proof. vm_compute. auto. Qed.
