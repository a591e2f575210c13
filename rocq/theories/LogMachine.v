(** The interleaved execution of Machine.v once more, of the programs of LogServer.v: what every goroutine logs.
    The records of an operation are listed when it is over, those of the worker after each of its actions; how the records of
    different goroutines are ordered among each other is not modelled. *)
From Verif Require Import GoBase Proto Scanner Conn Proc Lib Server Machine Log LogServer.

(** caches.go:82-105 *)
Definition FlushCaches' (io : Z -> list byte) (c : Z) : sproc (list event) :=
  do (b, l) <- FlushCaches_body' io c; SendSucc b (Ret l).

(** [l_out]: what the worker has logged, StartCaches included. *)
Record lmachine := mkLMachine { l_g : mem; l_ts : list (thread (resp * list event)); l_wk : option (thread (list event)); l_out : list event }.

Definition locks_held' (m : lmachine) : list held :=
  match l_wk m with Some t => [t_h t] | None => [] end ++ map t_h (l_ts m).

(** Machine.v, exec1; server.go:68-231, timers.go:49-64. *)
Definition lexec1 (io : Z -> list byte) (m : lmachine) (x : item) : option lmachine :=
  match x with
  | Run i => match nth_error (l_ts m) i with
             | Some t => match tstep (locks_held' m) t (l_g m) with
                         | Some (t', g') => Some (mkLMachine g' (set_nth i t' (l_ts m)) (l_wk m) (l_out m))
                         | None => None
                         end
             | None => None
             end
  | RunWk => match l_wk m with
             | Some t => match t_p t, t_h t with
                         | Ret es, [] => Some (mkLMachine (l_g m) (l_ts m) None (l_out m ++ es))
                         | _, _ =>
                             match tstep (locks_held' m) t (l_g m) with
                             | Some (t', g') => Some (mkLMachine g' (l_ts m) (Some t') (l_out m))
                             | None => None
                             end
                         end
             | None => None
             end
  | Pass d => Some (mkLMachine (mkMem (g_conn (l_g m)) (g_sh (l_g m)) (g_clk (l_g m) + Z.max 0 d)) (l_ts m) (l_wk m) (l_out m))
  | Tick t => match l_wk m with
              | None => Some (mkLMachine (l_g m) (l_ts m) (Some (mkThread (on_tick' io t) [])) (l_out m))
              | Some _ => None
              end
  | Flush i => match l_wk m, nth_error (l_ts m) i with
               | None, Some t =>
                   match t_p t with
                   | SendFlush c k => Some (mkLMachine (l_g m) (set_nth i (mkThread k (t_h t)) (l_ts m))
                                                       (Some (mkThread (FlushCaches' io c) [])) (l_out m))
                   | _ => None
                   end
               | _, _ => None
               end
  | Succ i => match l_wk m, nth_error (l_ts m) i with
              | Some w, Some t =>
                  match t_p w, t_p t with
                  | SendSucc b kw, RecvSucc k =>
                      Some (mkLMachine (l_g m) (set_nth i (mkThread (k b) (t_h t)) (l_ts m))
                                       (Some (mkThread kw (t_h w))) (l_out m))
                  | _, _ => None
                  end
              | _, _ => None
              end
  end.

Fixpoint lexec (io : Z -> list byte) (xs : list item) (m : lmachine) : option lmachine :=
  match xs with
  | [] => Some m
  | x :: r => match lexec1 io m x with Some m' => lexec io r m' | None => None end
  end.

(** comfo.go:57-71 *)
Definition lserve (io : Z -> list byte) (rs : list rpc) (c : conn) (clk : Z) : lmachine :=
  mkLMachine (mkMem c init_shared clk) (map (fun r => mkThread (handle' io r) []) rs)
             (Some (mkThread (StartCaches' io) [])) [].
