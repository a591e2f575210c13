(** What a text says about a duration (the documentation of time.ParseDuration): "a possibly signed sequence of decimal
    numbers, each with optional fraction and a unit suffix, such as 300ms, -1.5h or 2h45m". *)
From Coq Require Import String.
From Verif Require Import GoBase Twirp SpecJson.

(** Units in nanoseconds; the u of us is U+00B5. *)
Inductive time_unit : list byte -> Z -> Prop :=
| u_ns : time_unit (str "ns") 1
| u_us : time_unit [194; 181; 115] 1000
| u_ms : time_unit (str "ms") 1000000
| u_s : time_unit (str "s") 1000000000
| u_m : time_unit (str "m") 60000000000
| u_h : time_unit (str "h") 3600000000000.
(** One number with its unit, [n] nanoseconds. *)
Definition time_part (t : list byte) (n : Z) : Prop :=
  exists i x f u s, t = i ++ x ++ u /\ i <> [] /\ Forall dig i /\ frac_part x f /\ time_unit u s /\ num (i ++ f) * s = n * 10 ^ len f.
Inductive time_parts : list byte -> Z -> Prop :=
| tp_one t n : time_part t n -> time_parts t n
| tp_more t n t' n' : time_part t n -> time_parts t' n' -> time_parts (t ++ t') (n + n').
(** The text says [d] nanoseconds. *)
Definition says_time (t : list byte) (d : Z) : Prop :=
  exists (neg : bool) t' n, t = (if neg then [45] else []) ++ t' /\ time_parts t' n /\ d = if neg then - n else n.
