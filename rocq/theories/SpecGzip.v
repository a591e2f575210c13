(** What it is for bytes to be a gzip file of given data: RFC 1951 (DEFLATE) and RFC 1952 (gzip, without any of its optional
    fields).  Nothing here is computed: a file is a succession of code words that says what the data is. *)
From Verif Require Import GoBase.

(** ** Bits.  RFC 1951, 3.1.1 *)
(** The bits of a byte, the least significant one first. *)
Definition byte_bits (b : byte) : list bool := map (Z.testbit b) [0; 1; 2; 3; 4; 5; 6; 7].
Definition bits (b : list byte) : list bool := concat (map byte_bits b).
(** Numbers begin with their least significant bit, *)
Fixpoint number (l : list bool) : Z := match l with [] => 0 | b :: l => Z.b2z b + 2 * number l end.
(** Huffman codes with their most significant one. *)
Fixpoint msb_number (l : list bool) : Z := match l with [] => 0 | b :: l => Z.b2z b * 2 ^ len l + msb_number l end.

(** ** Codes.  3.2.2: a code is given by the lengths of its words; 0 for symbols that do not occur. *)
Definition zsum (l : list Z) : Z := fold_right Z.add 0 l.
(** The symbols whose words come first: shorter ones, and those of the same length with a smaller symbol. *)
Definition precedes (s' n' s n : nat) : bool := negb (n' =? 0)%nat && ((n' <? n)%nat || (n' =? n)%nat && (s' <? s)%nat).
(** The value of a word: what is left of those that come first, in units of its last bit. *)
Definition code_value (lens : list nat) (s n : nat) : Z :=
  zsum (map (fun p => if precedes (fst p) (snd p) s n then 2 ^ Z.of_nat (n - snd p) else 0) (combine (seq 0 (length lens)) lens)).
Definition word (lens : list nat) (s : nat) (w : list bool) : Prop :=
  exists n, nth_error lens s = Some n /\ n <> 0%nat /\ length w = n /\ msb_number w = code_value lens s n.
(** There is room for all the words. *)
Definition code_ok (lens : list nat) : Prop :=
  zsum (map (fun n => if (n =? 0)%nat then 0 else 2 ^ Z.of_nat (15 - n)) lens) <= 2 ^ 15 /\ Forall (fun n => (n <= 15)%nat) lens.

(** ** Copies.  3.2.3: [n] bytes more, each the one [d] before it. *)
Definition copies (out : list byte) (n d : Z) (out' : list byte) : Prop :=
  0 < d <= len out /\ exists more, out' = out ++ more /\ len more = n /\
  forall i, len out <= i < len out' -> nth_error out' (Z.to_nat i) = nth_error out' (Z.to_nat (i - d)).
(** 3.2.5: extra bits and smallest length of symbols 257 to 285; extra bits and smallest distance. *)
Definition length_codes : list (nat * Z) :=
  [(0%nat, 3); (0%nat, 4); (0%nat, 5); (0%nat, 6); (0%nat, 7); (0%nat, 8); (0%nat, 9); (0%nat, 10); (1%nat, 11); (1%nat, 13); (1%nat, 15); (1%nat, 17);
   (2%nat, 19); (2%nat, 23); (2%nat, 27); (2%nat, 31); (3%nat, 35); (3%nat, 43); (3%nat, 51); (3%nat, 59); (4%nat, 67); (4%nat, 83); (4%nat, 99);
   (4%nat, 115); (5%nat, 131); (5%nat, 163); (5%nat, 195); (5%nat, 227); (0%nat, 258)].
Definition distance_codes : list (nat * Z) :=
  [(0%nat, 1); (0%nat, 2); (0%nat, 3); (0%nat, 4); (1%nat, 5); (1%nat, 7); (2%nat, 9); (2%nat, 13); (3%nat, 17); (3%nat, 25); (4%nat, 33); (4%nat, 49);
   (5%nat, 65); (5%nat, 97); (6%nat, 129); (6%nat, 193); (7%nat, 257); (7%nat, 385); (8%nat, 513); (8%nat, 769); (9%nat, 1025); (9%nat, 1537);
   (10%nat, 2049); (10%nat, 3073); (11%nat, 4097); (11%nat, 6145); (12%nat, 8193); (12%nat, 12289); (13%nat, 16385); (13%nat, 24577)].

(** ** Blocks.  [R out b out' r]: after [out], the bits [b] extend the data to [out'] and leave [r]. *)
(** Literals and copies up to the end of the block, in the codes given. *)
Inductive contents (lit dist : list nat) : list byte -> list bool -> list byte -> list bool -> Prop :=
| At_end out w r : word lit 256 w -> contents lit dist out (w ++ r) out r
| Literal out s w b out' r : word lit s w -> (s < 256)%nat ->
    contents lit dist (out ++ [Z.of_nat s]) b out' r -> contents lit dist out (w ++ b) out' r
| Copy out k w x e j w' x' e' base base' out1 b out' r : word lit (257 + k) w -> nth_error length_codes k = Some (x, base) -> length e = x ->
    word dist j w' -> nth_error distance_codes j = Some (x', base') -> length e' = x' ->
    copies out (base + number e) (base' + number e') out1 ->
    contents lit dist out1 b out' r -> contents lit dist out (w ++ e ++ w' ++ e' ++ b) out' r.
(** 3.2.7: [n] code lengths, themselves in a code; 16 repeats the last one, 17 and 18 stand for zeros. *)
Inductive lengths (cl : list nat) (n : nat) : list nat -> list bool -> list nat -> list bool -> Prop :=
| All_given l b : length l = n -> lengths cl n l b l b
| One l s w b l' r : (length l < n)%nat -> word cl s w -> (s < 16)%nat -> lengths cl n (l ++ [s]) b l' r -> lengths cl n l (w ++ b) l' r
| Again l p w e b l' r : (length l + 1 < n)%nat -> word cl 16 w -> length e = 2%nat ->
    lengths cl n ((l ++ [p]) ++ repeat p (3 + Z.to_nat (number e))) b l' r -> lengths cl n (l ++ [p]) (w ++ e ++ b) l' r
| Zeros l w e b l' r : (length l < n)%nat -> word cl 17 w -> length e = 3%nat ->
    lengths cl n (l ++ repeat 0%nat (3 + Z.to_nat (number e))) b l' r -> lengths cl n l (w ++ e ++ b) l' r
| Many_zeros l w e b l' r : (length l < n)%nat -> word cl 18 w -> length e = 7%nat ->
    lengths cl n (l ++ repeat 0%nat (11 + Z.to_nat (number e))) b l' r -> lengths cl n l (w ++ e ++ b) l' r.
(** The lengths of that code, three bits each, in this order of symbols. *)
Definition length_order : list nat := [16; 17; 18; 0; 8; 7; 9; 6; 10; 5; 11; 4; 12; 3; 13; 2; 14; 1; 15]%nat.
Definition length_lengths (hs : list (list bool)) (cl : list nat) : Prop :=
  length cl = 19%nat /\ forall i s, nth_error length_order i = Some s ->
    nth_error cl s = Some (match nth_error hs i with Some h => Z.to_nat (number h) | None => 0%nat end).
(** 3.2.6 *)
Definition fixed_lit : list nat := repeat 8%nat 144 ++ repeat 9%nat 112 ++ repeat 7%nat 24 ++ repeat 8%nat 8.
Definition fixed_dist : list nat := repeat 5%nat 32.
(** A block without the bit that says whether it is the last one.  The bits left show where bytes begin. *)
Inductive block : list byte -> list bool -> list byte -> list bool -> Prop :=
| Stored out pad ln nln data r : (length pad < 8)%nat -> (length (ln ++ nln ++ bits data ++ r) mod 8 = 0)%nat ->
    length ln = 16%nat -> nln = map negb ln -> number ln = len data -> bytes_ok data ->
    block out ([false; false] ++ pad ++ ln ++ nln ++ bits data ++ r) (out ++ data) r
| Fixed out b out' r : contents fixed_lit fixed_dist out b out' r -> block out ([true; false] ++ b) out' r
| Dynamic out hl hd hc hs cl ls b b' out' r : length hl = 5%nat -> length hd = 5%nat -> length hc = 4%nat ->
    let nl := (257 + Z.to_nat (number hl))%nat in let nd := (1 + Z.to_nat (number hd))%nat in
    length hs = (4 + Z.to_nat (number hc))%nat -> Forall (fun h => length h = 3%nat) hs -> length_lengths hs cl -> code_ok cl ->
    lengths cl (nl + nd) [] b ls b' -> code_ok (firstn nl ls) -> code_ok (skipn nl ls) ->
    contents (firstn nl ls) (skipn nl ls) out b' out' r ->
    block out ([false; true] ++ hl ++ hd ++ hc ++ concat hs ++ b) out' r.
Inductive deflated : list byte -> list bool -> list byte -> list bool -> Prop :=
| Last out b out' r : block out b out' r -> deflated out (true :: b) out' r
| More out b out1 b1 out' r : block out b out1 b1 -> deflated out1 b1 out' r -> deflated out (false :: b) out' r.

(** ** Files.  RFC 1952 *)
(** Section 8: the remainder, bit by bit. *)
Definition crc_bit (c : Z) : Z := if Z.odd c then Z.lxor 3988292384 (Z.shiftr c 1) else Z.shiftr c 1.
Definition crc_byte (c b : Z) : Z := Nat.iter 8 crc_bit (Z.lxor c b).
Definition crc32 (d : list byte) : Z := Z.lxor (fold_left crc_byte d 4294967295) 4294967295.
Fixpoint little (l : list byte) : Z := match l with [] => 0 | b :: l => b + 256 * little l end.
(** 2.3: one member, no flags: time, extra flags and system may be anything. *)
Definition unzips (z d : list byte) : Prop :=
  exists mtime xfl os body crc isize pad, z = [31; 139; 8; 0] ++ mtime ++ [xfl; os] ++ body ++ crc ++ isize /\
    length mtime = 4%nat /\ length crc = 4%nat /\ length isize = 4%nat /\
    deflated [] (bits body) d pad /\ (length pad < 8)%nat /\ little crc = crc32 d /\ little isize = len d mod 2 ^ 32.
