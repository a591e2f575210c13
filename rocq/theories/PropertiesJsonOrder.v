(** C97: the order of an error's metadata. *)
From Coq Require Import String Permutation Sorted.
From Verif Require Import GoBase Server SpecWire Wire Twirp SpecTwirp GoClient SpecGo SpecJson SpecJsonError SpecJsonOrder JsonError JsonOrderProofs.

(** The JSON of an error does not depend on the order in which its metadata is found in the map, *)
Theorem C97_one_text : forall c m d d', NoDup (map fst d) -> Permutation d d' ->
  marshalErrorToJSON (mkGerror c m d) = marshalErrorToJSON (mkGerror c m d').
Proof. exact same_text. Qed.
Print Assumptions C97_one_text.
Example C97_one_text_here : let d := [(str "b", str "2"); (str "ab", str "3"); ([], str "4"); (str "a", str "1")] in
  NoDup (map fst d) /\ Permutation d (rev d) /\
  marshalErrorToJSON (mkGerror (str "internal") [] d) = str "{""code"":""internal"",""msg"":"""",""meta"":{"""":""4"",""a"":""1"",""ab"":""3"",""b"":""2""}}" /\
  marshalErrorToJSON (mkGerror (str "internal") [] (rev d)) = marshalErrorToJSON (mkGerror (str "internal") [] d).
Proof.
  cbv zeta. split; [vm_compute; repeat (constructor; [cbn [In]; intuition discriminate|]); constructor|]. split; [apply Permutation_rev|]. split; vm_compute; reflexivity.
Qed.
(** and lists it by its keys. *)
Theorem C97_order : forall c m d e c' m1 m' e', bytes_ok c -> bytes_ok m -> Forall pair_ok d ->
  Permutation d e -> StronglySorted earlier (map fst e) ->
  mends c c' -> cut_message m m1 -> mends m1 m' -> mends_pairs e e' ->
  exists l, json_whole (marshalErrorToJSON (mkGerror c m d)) l /\ ordered_object c' m' e' l.
Proof. exact written_sorted. Qed.
Print Assumptions C97_order.
(** Such an order there always is: keys are distinct. *)
Theorem C97_has_order : forall d : list (list byte * list byte), NoDup (map fst d) -> exists e, Permutation d e /\ StronglySorted earlier (map fst e).
Proof. exact has_order. Qed.
Print Assumptions C97_has_order.
Example C97_order_here : StronglySorted earlier [[]; str "a"; str "ab"; str "b"].
Proof.
  assert (A : str "a" = [97]) by reflexivity. assert (B : str "ab" = [97; 98]) by reflexivity. assert (C : str "b" = [98]) by reflexivity. rewrite A, B, C.
  repeat constructor; lia.
Qed.
