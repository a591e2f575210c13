(** A reader of gzip files that only finds what is there. *)
From Coq Require Import Lia.
From Verif Require Import GoBase SpecGzip GzipProofs.

(** ** Codes *)
Fixpoint to_bits (n : nat) (v : Z) : list bool := match n with O => [] | S n => Z.testbit v (Z.of_nat n) :: to_bits n v end.
Lemma to_bits_len n v : length (to_bits n v) = n. Proof. induction n; cbn; congruence. Qed.
Definition entry (lens : list nat) (p : nat * nat) : list (list bool * nat) :=
  let (s, n) := p in
  if (n =? 0)%nat then []
  else let v := code_value lens s n in let w := to_bits n v in if msb_number w =? v then [(w, s)] else [].
Definition table (lens : list nat) : list (list bool * nat) := concat (map (entry lens) (combine (seq 0 (length lens)) lens)).
Lemma numbered_in (l : list nat) k s n : In (s, n) (combine (seq k (length l)) l) -> exists i, s = (k + i)%nat /\ nth_error l i = Some n.
Proof.
  revert k. induction l as [|x l IH]; intros k H; [contradiction|]. cbn in H. destruct H as [H|H].
  - injection H as <- <-. exists 0%nat. split; [lia|reflexivity].
  - destruct (IH _ H) as (i & -> & N). exists (S i). split; [lia|exact N].
Qed.
Lemma table_sound lens w s : In (w, s) (table lens) -> word lens s w.
Proof.
  intros H. apply in_concat in H as (x & X & I). apply in_map_iff in X as ([s' n] & <- & P). cbn in I.
  destruct (n =? 0)%nat eqn:Z0; [contradiction|]. destruct (msb_number (to_bits n (code_value lens s' n)) =? code_value lens s' n) eqn:V; [|contradiction].
  destruct I as [I|[]]. injection I as <- <-. destruct (numbered_in _ _ _ _ P) as (i & E & N). cbn in E. subst i.
  exists n. split; [exact N|]. split; [apply Nat.eqb_neq; exact Z0|]. split; [apply to_bits_len|]. apply Z.eqb_eq. exact V.
Qed.
Fixpoint strip (w b : list bool) : option (list bool) :=
  match w, b with [], _ => Some b | x :: w, y :: b => if Bool.eqb x y then strip w b else None | _, [] => None end.
Lemma strip_sound w b r : strip w b = Some r -> b = w ++ r.
Proof.
  revert b. induction w as [|x w IH]; intros b H; [cbn in *; congruence|]. destruct b as [|y b]; [discriminate|]. cbn in H.
  destruct (Bool.eqb x y) eqn:E; [|discriminate]. apply Bool.eqb_prop in E as ->. rewrite (IH _ H). reflexivity.
Qed.
Fixpoint symbol (t : list (list bool * nat)) (b : list bool) : option (nat * list bool) :=
  match t with [] => None | (w, s) :: t => match strip w b with Some r => Some (s, r) | None => symbol t b end end.
Lemma symbol_in t b s r : symbol t b = Some (s, r) -> exists w, In (w, s) t /\ b = w ++ r.
Proof.
  induction t as [|[w s'] t IH]; cbn; [discriminate|]. destruct (strip w b) as [q|] eqn:E; intros H.
  - injection H as -> ->. exists w. split; [left; reflexivity|apply strip_sound; exact E].
  - destruct (IH H) as (v & I & ->). exists v. split; [right; exact I|reflexivity].
Qed.
Lemma symbol_sound lens b s r : symbol (table lens) b = Some (s, r) -> exists w, word lens s w /\ b = w ++ r.
Proof. intros H. destruct (symbol_in _ _ _ _ H) as (w & I & E). exists w. split; [apply table_sound; exact I|exact E]. Qed.
Fixpoint take (n : nat) (b : list bool) : option (list bool * list bool) :=
  match n, b with
  | O, _ => Some ([], b)
  | S n, x :: b => match take n b with Some (e, r) => Some (x :: e, r) | None => None end
  | _, [] => None
  end.
Lemma take_sound n b e r : take n b = Some (e, r) -> length e = n /\ b = e ++ r.
Proof.
  revert b e r. induction n as [|n IH]; intros b e r H; [cbn in H; injection H as <- <-; auto|]. destruct b as [|x b]; [discriminate|].
  cbn in H. destruct (take n b) as [[f q]|] eqn:E; [|discriminate]. injection H as <- <-. destruct (IH _ _ _ E) as [L ->]. cbn. auto.
Qed.

(** ** Contents *)
Fixpoint extend (n : nat) (d : nat) (out : list byte) : list byte :=
  match n with O => out | S n => extend n d (out ++ [nth (length out - d) out 0]) end.
Lemma extend_spec n d : forall out, (0 < d <= length out)%nat -> exists more, extend n d out = out ++ more /\ length more = n /\
  forall i, (length out <= i < length out + n)%nat -> nth_error (out ++ more) i = nth_error (out ++ more) (i - d).
Proof.
  induction n as [|n IH]; intros out D; [exists []; cbn; rewrite app_nil_r; repeat split; intros; lia|]. cbn [extend].
  set (x := nth (length out - d) out 0). destruct (IH (out ++ [x])) as (m & E & L & H); [rewrite app_length; cbn; lia|].
  exists (x :: m). rewrite E, <- app_assoc. split; [reflexivity|]. split; [cbn; lia|]. intros i I.
  rewrite app_length in H. cbn [length] in H. replace (out ++ x :: m) with ((out ++ [x]) ++ m) by (rewrite <- app_assoc; reflexivity).
  destruct (Nat.eq_dec i (length out)) as [->|N].
  - rewrite !(nth_error_app1 (out ++ [x])) by (rewrite app_length; cbn; lia). rewrite (nth_error_app2 out) by lia. rewrite Nat.sub_diag.
    rewrite (nth_error_app1 out) by lia. cbn. symmetry. apply nth_error_nth'. lia.
  - apply H. lia.
Qed.
Definition copied (out : list byte) (n d : Z) : option (list byte) :=
  if (0 <? d) && (d <=? len out) && (0 <=? n) then Some (extend (Z.to_nat n) (Z.to_nat d) out) else None.
Lemma copied_sound out n d o : copied out n d = Some o -> copies out n d o.
Proof.
  unfold copied. destruct (0 <? d) eqn:A; [|discriminate]. destruct (d <=? len out) eqn:B; [|discriminate].
  destruct (0 <=? n) eqn:C; [|discriminate]. cbn. intros H. injection H as <-.
  apply Z.ltb_lt in A. apply Z.leb_le in B, C. split; [lia|]. unfold len in *.
  destruct (extend_spec (Z.to_nat n) (Z.to_nat d) out) as (m & E & L & H); [lia|].
  exists m. split; [exact E|]. split; [lia|]. intros i I. rewrite E in *. rewrite app_length in I.
  rewrite H by lia. f_equal. lia.
Qed.
Fixpoint read_contents (fuel : nat) (lit dist : list (list bool * nat)) (out : list byte) (b : list bool) : option (list byte * list bool) :=
  match fuel with
  | O => None
  | S f =>
      match symbol lit b with
      | None => None
      | Some (s, r) =>
          if (s <? 256)%nat then read_contents f lit dist (out ++ [Z.of_nat s]) r
          else if (s =? 256)%nat then Some (out, r)
          else match nth_error length_codes (s - 257) with
               | None => None
               | Some (x, base) =>
                   match take x r with
                   | None => None
                   | Some (e, r) =>
                       match symbol dist r with
                       | None => None
                       | Some (j, r) =>
                           match nth_error distance_codes j with
                           | None => None
                           | Some (x', base') =>
                               match take x' r with
                               | None => None
                               | Some (e', r) =>
                                   match copied out (base + number e) (base' + number e') with
                                   | None => None
                                   | Some out1 => read_contents f lit dist out1 r
                                   end
                               end
                           end
                       end
                   end
               end
      end
  end.
Lemma contents_sound f lit dist : forall out b out' r, read_contents f (table lit) (table dist) out b = Some (out', r) -> contents lit dist out b out' r.
Proof.
  induction f as [|f IH]; [discriminate|]. intros out b out' r H. cbn [read_contents] in H.
  destruct (symbol (table lit) b) as [[s r1]|] eqn:S1; [|discriminate]. destruct (symbol_sound _ _ _ _ S1) as (w & W & ->).
  destruct (s <? 256)%nat eqn:A.
  { apply Nat.ltb_lt in A. eapply Literal; [exact W|exact A|]. apply IH. exact H. }
  destruct (s =? 256)%nat eqn:B.
  { apply Nat.eqb_eq in B as ->. injection H as <- <-. apply At_end. exact W. }
  apply Nat.ltb_ge in A. apply Nat.eqb_neq in B.
  destruct (nth_error length_codes (s - 257)) as [[x base]|] eqn:N; [|discriminate].
  destruct (take x r1) as [[e r2]|] eqn:T; [|discriminate]. destruct (take_sound _ _ _ _ T) as [L ->].
  destruct (symbol (table dist) r2) as [[j r3]|] eqn:S2; [|discriminate]. destruct (symbol_sound _ _ _ _ S2) as (w' & W' & ->).
  destruct (nth_error distance_codes j) as [[x' base']|] eqn:N'; [|discriminate].
  destruct (take x' r3) as [[e' r4]|] eqn:T'; [|discriminate]. destruct (take_sound _ _ _ _ T') as [L' ->].
  destruct (copied out (base + number e) (base' + number e')) as [o1|] eqn:K; [|discriminate].
  eapply (Copy lit dist out (s - 257)); [replace (257 + (s - 257))%nat with s by lia; exact W|exact N|exact L|exact W'|exact N'|exact L'|apply copied_sound; exact K|].
  apply IH. exact H.
Qed.

(** ** Lengths *)
Fixpoint read_lengths (fuel : nat) (cl : list (list bool * nat)) (n : nat) (l : list nat) (b : list bool) : option (list nat * list bool) :=
  match fuel with
  | O => None
  | S f =>
      if (length l =? n)%nat then Some (l, b)
      else if (n <? length l)%nat then None
      else match symbol cl b with
           | None => None
           | Some (s, r) =>
               if (s <? 16)%nat then read_lengths f cl n (l ++ [s]) r
               else if (s =? 16)%nat then
                 match rev l, take 2 r with
                 | p :: _, Some (e, r) => read_lengths f cl n (l ++ repeat p (3 + Z.to_nat (number e))) r
                 | _, _ => None
                 end
               else if (s =? 17)%nat then
                 match take 3 r with Some (e, r) => read_lengths f cl n (l ++ repeat 0%nat (3 + Z.to_nat (number e))) r | None => None end
               else if (s =? 18)%nat then
                 match take 7 r with Some (e, r) => read_lengths f cl n (l ++ repeat 0%nat (11 + Z.to_nat (number e))) r | None => None end
               else None
           end
  end.
Lemma lengths_sound f cl n : forall l b l' r, read_lengths f (table cl) n l b = Some (l', r) -> lengths cl n l b l' r.
Proof.
  induction f as [|f IH]; [discriminate|]. intros l b l' r H. cbn [read_lengths] in H.
  destruct (length l =? n)%nat eqn:A; [apply Nat.eqb_eq in A; injection H as <- <-; apply All_given; exact A|].
  destruct (n <? length l)%nat eqn:B; [discriminate|]. apply Nat.eqb_neq in A. apply Nat.ltb_ge in B.
  destruct (symbol (table cl) b) as [[s r1]|] eqn:S1; [|discriminate]. destruct (symbol_sound _ _ _ _ S1) as (w & W & ->).
  destruct (s <? 16)%nat eqn:C; [apply Nat.ltb_lt in C; eapply One; [lia|exact W|exact C|apply IH; exact H]|].
  destruct (s =? 16)%nat eqn:D.
  { apply Nat.eqb_eq in D as ->. destruct (rev l) as [|p q] eqn:R; [discriminate|].
    assert (l = rev q ++ [p]) as -> by (rewrite <- (rev_involutive l), R; reflexivity).
    destruct (take 2 r1) as [[e r2]|] eqn:T; [|discriminate]. destruct (take_sound _ _ _ _ T) as [L ->].
    rewrite app_length in A, B. cbn [length] in A, B. eapply Again; [lia|exact W|exact L|apply IH; exact H]. }
  destruct (s =? 17)%nat eqn:E.
  { apply Nat.eqb_eq in E as ->. destruct (take 3 r1) as [[e r2]|] eqn:T; [|discriminate]. destruct (take_sound _ _ _ _ T) as [L ->].
    eapply Zeros; [lia|exact W|exact L|apply IH; exact H]. }
  destruct (s =? 18)%nat eqn:F; [|discriminate].
  apply Nat.eqb_eq in F as ->. destruct (take 7 r1) as [[e r2]|] eqn:T; [|discriminate]. destruct (take_sound _ _ _ _ T) as [L ->].
  eapply Many_zeros; [lia|exact W|exact L|apply IH; exact H].
Qed.
Fixpoint read_triples (n : nat) (b : list bool) : option (list (list bool) * list bool) :=
  match n with
  | O => Some ([], b)
  | S n => match take 3 b with
           | Some (h, b) => match read_triples n b with Some (hs, r) => Some (h :: hs, r) | None => None end
           | None => None
           end
  end.
Lemma triples_sound n : forall b hs r, read_triples n b = Some (hs, r) ->
  length hs = n /\ Forall (fun h => length h = 3%nat) hs /\ b = concat hs ++ r.
Proof.
  induction n as [|n IH]; intros b hs r H; [cbn in H; injection H as <- <-; auto|]. cbn [read_triples] in H.
  destruct (take 3 b) as [[h b1]|] eqn:T; [|discriminate]. destruct (take_sound _ _ _ _ T) as [L ->].
  destruct (read_triples n b1) as [[hs' r']|] eqn:R; [|discriminate]. injection H as <- <-. destruct (IH _ _ _ R) as (LL & F & ->).
  split; [cbn; lia|]. split; [constructor; assumption|]. cbn. rewrite app_assoc. reflexivity.
Qed.
Fixpoint index_of (s : nat) (l : list nat) : nat := match l with [] => O | x :: l => if (x =? s)%nat then O else S (index_of s l) end.
Definition arrange (hs : list (list bool)) : list nat :=
  map (fun s => match nth_error hs (index_of s length_order) with Some h => Z.to_nat (number h) | None => 0%nat end) (seq 0 19).
Lemma arrange_sound hs : length_lengths hs (arrange hs).
Proof.
  split; [reflexivity|]. intros i s H. unfold arrange. do 19 (destruct i as [|i]; [cbn in H; injection H as <-; reflexivity|]). destruct i; discriminate.
Qed.
Definition code_check (lens : list nat) : bool :=
  (zsum (map (fun n => if (n =? 0)%nat then 0 else 2 ^ Z.of_nat (15 - n)) lens) <=? 2 ^ 15) && forallb (fun n => (n <=? 15)%nat) lens.
Lemma code_sound lens : code_check lens = true -> code_ok lens.
Proof.
  unfold code_check. intros H. apply andb_prop in H as [A B]. split; [apply Z.leb_le; exact A|]. apply Forall_forall. intros x I.
  apply Nat.leb_le. exact (proj1 (forallb_forall _ _) B x I).
Qed.

(** ** Blocks *)
Definition from_bits (l : list bool) : byte := number l.
Fixpoint read_bytes (n : nat) (b : list bool) : option (list byte * list bool) :=
  match n with
  | O => Some ([], b)
  | S n => match take 8 b with
           | Some (h, b) => match read_bytes n b with Some (d, r) => Some (from_bits h :: d, r) | None => None end
           | None => None
           end
  end.
Lemma from_bits_ok h : length h = 8%nat -> byte_ok (from_bits h) /\ byte_bits (from_bits h) = h.
Proof.
  intros L. do 8 (destruct h as [|[] h]; [discriminate L| |]; cbn [length] in L); (destruct h; [|cbn in L; lia]);
    (split; [unfold byte_ok, from_bits; cbn; lia|reflexivity]).
Qed.
Lemma bytes_sound n : forall b d r, read_bytes n b = Some (d, r) -> length d = n /\ bytes_ok d /\ b = bits d ++ r.
Proof.
  induction n as [|n IH]; intros b d r H; [cbn in H; injection H as <- <-; split; [reflexivity|split; [constructor|reflexivity]]|]. cbn [read_bytes] in H.
  destruct (take 8 b) as [[h b1]|] eqn:T; [|discriminate]. destruct (take_sound _ _ _ _ T) as [L ->].
  destruct (read_bytes n b1) as [[d' r']|] eqn:R; [|discriminate]. injection H as <- <-. destruct (IH _ _ _ R) as (LL & O & ->).
  destruct (from_bits_ok h L) as [B E]. split; [cbn; lia|]. split; [constructor; assumption|].
  change (bits (from_bits h :: d')) with (byte_bits (from_bits h) ++ bits d'). rewrite E, app_assoc. reflexivity.
Qed.
Definition read_block (fuel : nat) (out : list byte) (b : list bool) : option (list byte * list bool) :=
  match b with
  | false :: false :: b =>
      match take (length b mod 8) b with
      | None => None
      | Some (_, b) =>
          match take 16 b with
          | None => None
          | Some (ln, b) =>
              match strip (map negb ln) b with
              | None => None
              | Some b => match read_bytes (Z.to_nat (number ln)) b with Some (d, r) => Some (out ++ d, r) | None => None end
              end
          end
      end
  | true :: false :: b => read_contents fuel (table fixed_lit) (table fixed_dist) out b
  | false :: true :: b =>
      match take 5 b with
      | None => None
      | Some (hl, b) =>
          match take 5 b with
          | None => None
          | Some (hd, b) =>
              match take 4 b with
              | None => None
              | Some (hc, b) =>
                  match read_triples (4 + Z.to_nat (number hc)) b with
                  | None => None
                  | Some (hs, b) =>
                      let cl := arrange hs in
                      let nl := (257 + Z.to_nat (number hl))%nat in let nd := (1 + Z.to_nat (number hd))%nat in
                      if code_check cl then
                        match read_lengths fuel (table cl) (nl + nd) [] b with
                        | None => None
                        | Some (ls, b) =>
                            if code_check (firstn nl ls) && code_check (skipn nl ls) then
                              read_contents fuel (table (firstn nl ls)) (table (skipn nl ls)) out b
                            else None
                        end
                      else None
                  end
              end
          end
      end
  | _ => None
  end.
Lemma number_nonneg l : 0 <= number l.
Proof. induction l as [|[] l IH]; cbn [number Z.b2z]; lia. Qed.
Lemma block_sound f out b out' r : read_block f out b = Some (out', r) -> block out b out' r.
Proof.
  intros H. destruct b as [|x [|y b]]; [discriminate|destruct x; discriminate|]. destruct x, y; cbn [read_block] in H; [discriminate| | |].
  - apply (Fixed out b). apply contents_sound in H. exact H.
  - destruct (take 5 b) as [[hl b1]|] eqn:T1; [|discriminate]. destruct (take_sound _ _ _ _ T1) as [L1 ->].
    destruct (take 5 b1) as [[hd b2]|] eqn:T2; [|discriminate]. destruct (take_sound _ _ _ _ T2) as [L2 ->].
    destruct (take 4 b2) as [[hc b3]|] eqn:T3; [|discriminate]. destruct (take_sound _ _ _ _ T3) as [L3 ->].
    destruct (read_triples (4 + Z.to_nat (number hc)) b3) as [[hs b4]|] eqn:T4; [|discriminate]. destruct (triples_sound _ _ _ _ T4) as (L4 & F & ->).
    destruct (code_check (arrange hs)) eqn:K; [|discriminate].
    destruct (read_lengths f (table (arrange hs)) (257 + Z.to_nat (number hl) + (1 + Z.to_nat (number hd))) [] b4) as [[ls b5]|] eqn:R; [|discriminate].
    destruct (code_check (firstn (257 + Z.to_nat (number hl)) ls)) eqn:K1; [|discriminate].
    destruct (code_check (skipn (257 + Z.to_nat (number hl)) ls)) eqn:K2; [|discriminate]. cbn [andb] in H.
    apply (Dynamic out hl hd hc hs (arrange hs) ls b4 b5); auto using arrange_sound, code_sound.
    + exact (lengths_sound _ _ _ _ _ _ _ R).
    + exact (contents_sound _ _ _ _ _ _ _ H).
  - destruct (take (length b mod 8) b) as [[pad b1]|] eqn:T1; [|discriminate]. destruct (take_sound _ _ _ _ T1) as [L1 E1].
    destruct (take 16 b1) as [[ln b2]|] eqn:T2; [|discriminate]. destruct (take_sound _ _ _ _ T2) as [L2 ->].
    destruct (strip (map negb ln) b2) as [b3|] eqn:T3; [|discriminate]. apply strip_sound in T3 as ->.
    destruct (read_bytes (Z.to_nat (number ln)) b3) as [[d r']|] eqn:T4; [|discriminate]. injection H as <- <-.
    destruct (bytes_sound _ _ _ _ T4) as (LD & O & ->).
    pose proof (number_nonneg ln). pose proof (Nat.mod_upper_bound (length b) 8 ltac:(lia)) as MB. rewrite E1 at 1.
    apply (Stored out pad ln (map negb ln) d r').
    + lia.
    + assert (L := f_equal (@length bool) E1). rewrite app_length in L. rewrite L1 in L.
      pose proof (Nat.div_mod (length b) 8 ltac:(lia)) as DM.
      replace (length (ln ++ map negb ln ++ bits d ++ r')) with (length b / 8 * 8)%nat by lia. apply Nat.mod_mul. lia.
    + exact L2.
    + reflexivity.
    + unfold len. lia.
    + exact O.
Qed.
Fixpoint inflate (blocks fuel : nat) (out : list byte) (b : list bool) : option (list byte * list bool) :=
  match blocks with
  | O => None
  | S n =>
      match b with
      | true :: b => read_block fuel out b
      | false :: b => match read_block fuel out b with Some (o, r) => inflate n fuel o r | None => None end
      | [] => None
      end
  end.
Lemma inflate_sound n f : forall out b out' r, inflate n f out b = Some (out', r) -> deflated out b out' r.
Proof.
  induction n as [|n IH]; [discriminate|]. intros out b out' r H. destruct b as [|[] b]; [discriminate| |]; cbn [inflate] in H.
  - apply Last. apply (block_sound f). exact H.
  - destruct (read_block f out b) as [[o q]|] eqn:B; [|discriminate]. eapply More; [exact (block_sound _ _ _ _ _ B)|]. apply IH. exact H.
Qed.
Fixpoint same_bytes (a b : list byte) : bool :=
  match a, b with [], [] => true | x :: a, y :: b => (x =? y) && same_bytes a b | _, _ => false end.
Lemma same_bytes_eq a b : same_bytes a b = true -> a = b.
Proof.
  revert b. induction a as [|x a IH]; intros [|y b] H; try discriminate; [reflexivity|]. cbn in H. apply andb_prop in H as [E H].
  apply Z.eqb_eq in E as ->. rewrite (IH _ H). reflexivity.
Qed.
(** [z] is read with its parts given by position. *)
Definition check_unzips (blocks fuel : nat) (z d : list byte) : bool :=
  let body := firstn (length z - 18) (skipn 10 z) in
  let tail := skipn (length z - 8) z in
  (18 <=? length z)%nat && same_bytes (firstn 4 z) [31; 139; 8; 0] &&
  match inflate blocks fuel [] (bits body) with
  | Some (d', pad) => same_bytes d' d && (length pad <? 8)%nat && (little (firstn 4 tail) =? crc32 d) && (little (skipn 4 tail) =? len d mod 2 ^ 32)
  | None => false
  end.
Lemma split_at {A} n (l : list A) : l = firstn n l ++ skipn n l. Proof. symmetry. apply firstn_skipn. Qed.
Lemma skipn_skipn_ {A} n : forall m (l : list A), skipn n (skipn m l) = skipn (m + n) l.
Proof. induction m; intros l; [reflexivity|]. destruct l; [destruct n; reflexivity|]. cbn. apply IHm. Qed.
Lemma unzips_sound blocks fuel z d : check_unzips blocks fuel z d = true -> unzips z d.
Proof.
  unfold check_unzips. intros H. apply andb_prop in H as [H R]. apply andb_prop in H as [L H4]. apply Nat.leb_le in L. apply same_bytes_eq in H4.
  destruct (inflate blocks fuel [] (bits (firstn (length z - 18) (skipn 10 z)))) as [[d' pad]|] eqn:I; [|discriminate].
  apply andb_prop in R as [R S]. apply andb_prop in R as [R C]. apply andb_prop in R as [D P]. apply same_bytes_eq in D as ->.
  apply Nat.ltb_lt in P. apply Z.eqb_eq in C, S. apply inflate_sound in I.
  assert (exists x o, firstn 2 (skipn 8 z) = [x; o]) as (x & o & XO).
  { assert (length (firstn 2 (skipn 8 z)) = 2%nat) as Q by (rewrite firstn_length, skipn_length; lia).
    destruct (firstn 2 (skipn 8 z)) as [|x [|o [|]]]; try discriminate; eauto. }
  exists (firstn 4 (skipn 4 z)), x, o, (firstn (length z - 18) (skipn 10 z)), (firstn 4 (skipn (length z - 8) z)), (skipn 4 (skipn (length z - 8) z)), pad.
  split; [|repeat split; auto; rewrite ?firstn_length, ?skipn_length; lia].
  rewrite <- H4, <- XO. rewrite (split_at 4 z) at 1. f_equal. rewrite (split_at 4 (skipn 4 z)) at 1. f_equal. rewrite skipn_skipn_.
  rewrite (split_at 2 (skipn (4 + 4) z)) at 1. cbn [Nat.add]. f_equal. rewrite skipn_skipn_. cbn [Nat.add].
  rewrite (split_at (length z - 18) (skipn 10 z)) at 1. f_equal. rewrite skipn_skipn_.
  replace (10 + (length z - 18))%nat with (length z - 8)%nat by lia. apply split_at.
Qed.
