(** Vocabulary for statements about the start of the program: command lines and where settings come from. *)
From Coq Require Import String.
From Verif Require Import GoBase Twirp Main.

(** The words that mean true or false. *)
Definition truth (b : bool) (v : list byte) : Prop :=
  exists w, v = str w /\ In w (if b then ["1"; "t"; "T"; "TRUE"; "true"; "True"] else ["0"; "f"; "F"; "FALSE"; "false"; "False"])%string.
Definition text_flag (n : string) : Prop := In n ["mode"; "target"; "listen"]%string.
(** [command_line l args]: the arguments make the settings [l], in this order. *)
Inductive command_line : list (string * list byte) -> list (list byte) -> Prop :=
| cl_end : command_line [] []
| cl_dashes rest : command_line [] (str "--" :: rest)
| cl_other a l args : (forall c r, a <> 45 :: c :: r) -> command_line l args -> command_line l (a :: args)
| cl_equals n v l args : text_flag n -> command_line l args -> command_line ((n, v) :: l) ((str "--" ++ str n ++ 61 :: v) :: args)
| cl_next n v l args : text_flag n -> command_line l args -> command_line ((n, v) :: l) ((str "--" ++ str n) :: v :: args)
| cl_debug l args : command_line l args -> command_line (("debug"%string, str "true") :: l) (str "--debug" :: args)
| cl_debug_is b w l args : truth b w -> command_line l args ->
    command_line (("debug"%string, if b then str "true" else str "false") :: l) ((str "--debug=" ++ w) :: args).
(** The value that setting [n] gets: from the last flag that sets it, else from the environment variable [var], if it
    is not empty, else the default. *)
Inductive setting (l : list (string * list byte)) (env : list byte -> option (list byte)) (n var : string) (dflt : list byte) : list byte -> Prop :=
| set_flag a v b : l = a ++ (n, v) :: b -> (forall x, ~ In (n, x) b) -> setting l env n var dflt v
| set_env v : (forall x, ~ In (n, x) l) -> env (str var) = Some v -> v <> [] -> setting l env n var dflt v
| set_default : (forall x, ~ In (n, x) l) -> (env (str var) = None \/ env (str var) = Some []) -> setting l env n var dflt dflt.
