(** Go clients with hooks and interceptors. *)
From Coq Require Import String.
From Verif Require Import GoBase GoStrings Server Wire Twirp GoClient JsonWrite JsonError ErrorText Failures Hooks ClientHooks SpecClientHooks.

(** RequestPrepared refuses what does not go to the ten methods under /twirp, with a Twirp error wrapped in another. *)
Definition whole_path : list byte := str "/twirp/comfo.api.Comfo/GetFans".
Definition wary : ctx -> sending -> ctx * sending * option goerr :=
  fun c s => match s with
             | SentTo _ _ h => if beq (h_path h) whole_path then (SOwn 1 :: c, s, None)
                               else (c, s, Some (EWrap (str "wary: no") (str "*main.waryError") (mkGerror (str "permission_denied") (str "no") [])))
             | NotSent => (c, s, None)
             end.
Definition client_hooks : chooks := mkCHooks (Some wary) (Some (fun _ => tt)) (Some (fun _ _ => tt)).
Definition sample_client (hk : option chooks) (i : option (ctx -> any -> icode)) : client :=
  mkCl hk i None (str "http://box:8080") None (mkTexts [] [] [] []) (fun _ => false) (fun _ => []).
(** The server is out of order for the first request, then answers. *)
Definition late_world (n : nat) : world :=
  mkWorld (fun _ => match n with O => inl (str "connection refused") | _ => inr (mkResponse 200 [] [8; 40; 16; 45] None) end) None None None None.
(** Try again once. *)
Definition again (c : ctx) (v : any) : icode :=
  INext c v (fun x => match x with
                      | Some (_, Some _) => INext c v (fun y => match y with Some (v, e) => IReturn v e | None => IPanic end)
                      | Some (v, e) => IReturn v e
                      | None => IPanic
                      end).
Inductive cglance := KPrepared | KSent (path : list byte) | KReceived | KError (code : list byte).
Definition cglance_at (e : cevent) : cglance :=
  match e with CPrepared _ _ => KPrepared | CSent h => KSent (h_path h) | CReceived _ => KReceived | CError _ g => KError (ge_code g) end.
(** RequestPrepared sends everything to one path, and marks the context. *)
Definition redirecting : chooks :=
  mkCHooks (Some (fun c s => match s with SentTo a o h => (SOwn 7 :: c, SentTo a o (mkHreq (h_method h) (str "/elsewhere") (h_ctype h) (h_body h)), None) | NotSent => (c, s, None) end))
    (Some (fun _ => tt)) None.
