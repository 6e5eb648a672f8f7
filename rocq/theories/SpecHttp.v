(** Specification vocabulary: what a compressed HTTP body begins with (RFC 7230 4.2.2: "deflate" is a zlib stream of RFC 1950 around a stream of
    RFC 1951; some programs leave out the zlib part). *)
From Verif Require Import GoBase.
Open Scope string_scope.
Open Scope list_scope.

(** RFC 1950 2.2: method 8, a window of at most 32K, and the check that the two bytes are a multiple of 31. *)
Definition zlib_head (s : string) : Prop :=
  exists cmf flg r, s = String cmf (String flg r) /\ (code cmf mod 16 = 8)%N /\ (code cmf / 16 <= 7)%N /\ ((code cmf * 256 + code flg) mod 31 = 0)%N.

(** RFC 1951 3.1.1: bits from the least significant one on. *)
Definition bits_of (c : ascii) : list bool := map (N.testbit (code c)) [0; 1; 2; 3; 4; 5; 6; 7]%N.
Fixpoint bits (s : string) : list bool := match s with "" => [] | String c r => bits_of c ++ bits r end.
Fixpoint num (l : list bool) : nat := match l with [] => 0 | b :: r => (if b then 1 else 0) + 2 * num r end.
(** The number in the [n] bits from bit [i] on. *)
Definition at_bit (s : string) (i n : nat) : nat := num (firstn n (skipn i (bits s))).
(** A code word of [l] bits takes this part, in 128ths, of all that a prefix code can have. *)
Definition part (l : nat) : nat := match l with 0 => 0 | _ => Nat.pow 2 (7 - l) end.
(** RFC 1951 3.2.3, 3.2.7: what the first block must satisfy: type 0, 1 or 2, and if it is 2, there is a prefix code with the lengths of the code for
    code lengths. *)
Definition deflate_head (s : string) : Prop :=
  let kind := at_bit s 1 2 in
  kind < 3 /\ (kind = 2 -> fold_right plus 0 (map (fun i => part (at_bit s (17 + 3 * i) 3)) (seq 0 (at_bit s 13 4 + 4))) <= 128).
(** RFC 1952 2.3.1 *)
Definition gzip_head (s : string) : Prop := exists r, s = String (chr 31) (String (chr 139) r).

(** "x" compressed: the beginning of a zlib stream, and one block of fixed codes without the zlib part. *)
Definition zlib_x : string := String (chr 120) (String (chr 156) (String (chr 171) (String (chr 0) ""))).
Example zlib_ex : zlib_head zlib_x /\ deflate_head (String (chr 171) (String (chr 0) "")).
Proof.
  split.
  - exists (chr 120), (chr 156), (String (chr 171) (String (chr 0) "")). split; [reflexivity|]. split; [reflexivity|]. split; [vm_compute; intros K; discriminate K|reflexivity].
  - split; [vm_compute; repeat constructor|]. intros K. vm_compute in K. discriminate K.
Qed.
