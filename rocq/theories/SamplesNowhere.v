(** Base URLs for PropertiesNowhere.v. *)
From Coq Require Import String Lia.
From Verif Require Import GoBase GoStrings Proc Server Twirp SpecTwirp GoClient SpecGo TwirpProofs GoUrl GoProofs SpecNowhere.

Lemma tab_nowhere : nowhere (9 :: str "//comfo").
Proof. apply (nw_control _ 9); [left; reflexivity|left; reflexivity|]. constructor; [left; reflexivity|]. eapply Forall_impl; [|apply (chars_ok "//comfo"); reflexivity]. cbn beta. auto. Qed.
Lemma colon_nowhere : nowhere (str ":3094").
Proof. apply (nw_colon (str "3094")). eapply Forall_impl; [|apply (digits_b (str "3094")); reflexivity]. unfold path_char. auto. Qed.
Lemma ftp_nowhere : nowhere (str "svn+ssh://comfo.local").
Proof.
  apply (nw_scheme (str "svn+ssh") (str "//comfo.local")).
  - exists 115, (str "vn+ssh"). split; [reflexivity|]. split; [left; lia|]. assert (B : forallb (fun c => isLetter c || (c =? 43)) (str "vn+ssh") = true) by reflexivity.
    apply Forall_forall. intros c I. rewrite forallb_forall in B. specialize (B c I). unfold isLetter, letter in *. lia.
  - intros H. apply same_lower in H. discriminate.
  - intros H. apply same_lower in H. discriminate.
  - apply chars_ok. reflexivity.
Qed.
Lemma port_nowhere : nowhere (str "http://comfo:http").
Proof.
  apply (nw_port "http" (str "http") (str "comfo") (str "http") 104); try (apply chars_ok; reflexivity).
  - split; [auto|]. apply lower_same. reflexivity.
  - apply host_name_b. reflexivity.
  - cbn. intuition discriminate.
  - cbn. intuition discriminate.
  - left. reflexivity.
  - unfold digit. lia.
Qed.
