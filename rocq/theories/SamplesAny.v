(** Clients of all three kinds, among other requests, and a simulated unit. *)
From Coq Require Import String.
From Verif Require Import GoBase Proto Scanner Conn Proc Lib Server Client Wire Twirp ClientHttp TwirpProofs GoClient SpecGo GoProofs JsonRead JsonWrite SpecProto SpecFrame SpecUnit Machine SpecMachine
  HttpMachine SpecWire SpecTwirp SpecConn Samples SamplesServer SamplesUnit SamplesMachine SamplesTrack SamplesHttp SamplesEnd SpecAny.

Definition any_base : list byte := str "http://comfo.local:3094".
Definition any_sent (k : speaker) (q : rpc) : hreq :=
  let req s := match s with SentTo _ _ h => h | NotSent => mkHreq [] [] [] [] end in
  match k with Python => sent q | GoPb => req (go_send any_base None q) | GoJson sp => req (go_json_send sp any_base None q) end.
Definition any_calls : list (speaker * rpc) :=
  [(GoPb, SetComfortTempR 22); (GoJson true, SetFanProfileR 1 20); (Python, SetFanSpeedR 3 false); (Python, GetTempsRPC);
   (GoJson false, GetFanProfilesRPC); (Python, SetComfortTempR 110); (GoPb, SetComfortTempR 300);
   (GoJson true, FlushCacheR 2); (GoPb, GetTempsRPC)].
(** A stray GET and those. *)
Definition any_reqs : list (hreq * list byte) :=
  (mkHreq (str "GET") (str "/twirp/comfo.api.Comfo/GetFans") (str "application/protobuf") [], str "1ms") ::
  map (fun x => (any_sent (fst x) (snd x), str "1ms")) any_calls.
Definition any_start : machine hresp := serve_http (fun x => x) unjson any_reqs unit_line 0.
Definition any_after : list item := end_after ++ [Run 7].
Definition any_flush_items : list item := [Flush 8] ++ repeat RunWk 18 ++ [Succ 8; RunWk].
Definition any_again : list item := repeat (Run 9) 10.
Definition any_heard (mh : machine hresp) (i : nat) : option heard :=
  match nth_error (results mh) i, nth_error any_calls (pred i) with
  | Some (Some a), Some (k, q) =>
      let of_go g := match g with GGot r => Some (Told r) | GErr c _ => Some (Error c) end in
      match k with
      | GoPb => of_go (go_result q (of_server a))
      | GoJson _ => of_go (go_json_result q (of_json_server (fun _ => []) true (str "1ms") a))
      | Python => match stub_result q a with Got r => Some (Told r) | Twirp e => Some (Error (code_name (code_of e))) | OtherExc => None end
      end
  | _, _ => None
  end.
(** The requests are those of such clients. *)
Lemma any_host : base_for "http" (str "comfo.local:3094") any_base.
Proof.
  apply (base_full "http" (str "comfo.local:3094") (str "http")).
  - split; auto. apply lower_same. reflexivity.
  - exists (str "comfo.local"), (str ":3094"). split; [reflexivity|]. split; [apply host_name_b; reflexivity|].
    right. exists (str "3094"). split; [reflexivity|]. apply digits_b. reflexivity.
Qed.
Lemma any_wrote_1 : wrote any_reqs 1 GoPb (SetComfortTempR 22).
Proof.
  do 2 eexists. split; [reflexivity|]. split; [cbn; unfold u32_ok; lia|]. split; [exact ms_string|].
  do 3 eexists. split; [exact any_host|]. vm_compute. reflexivity.
Qed.
Lemma any_wrote_2 : wrote any_reqs 2 (GoJson true) (SetFanProfileR 1 20).
Proof.
  do 2 eexists. split; [reflexivity|]. split; [cbn; unfold u32_ok; lia|]. split; [exact ms_string|].
  do 3 eexists. split; [exact any_host|]. vm_compute. reflexivity.
Qed.
Lemma any_wrote_4 : wrote any_reqs 4 Python GetTempsRPC.
Proof. do 2 eexists. split; [reflexivity|]. split; [exact I|]. split; [exact ms_string|]. vm_compute. reflexivity. Qed.
Lemma any_wrote_7 : wrote any_reqs 7 GoPb (SetComfortTempR 300).
Proof.
  do 2 eexists. split; [reflexivity|]. split; [cbn; unfold u32_ok; lia|]. split; [exact ms_string|].
  do 3 eexists. split; [exact any_host|]. vm_compute. reflexivity.
Qed.
