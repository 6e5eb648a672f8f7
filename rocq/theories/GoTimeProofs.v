(** RFC 3339 round trip. *)
From Coq Require Import ZifyBool ZifyNat ZifyN.
From Verif Require Import GoBase Json JsonProofs Float64 Float64Proofs GoTime.
Ltac Zify.zify_post_hook ::= Z.div_mod_to_equations.
Local Open Scope Z_scope.

Fixpoint zrange (k : nat) (lo : Z) : list Z :=
  match k with O => [] | S k' => lo :: zrange k' (lo + 1) end.

Lemma zrange_in k : forall lo n, lo <= n < lo + Z.of_nat k -> In n (zrange k lo).
Proof.
  induction k as [|k IH]; intros lo n H; [lia|].
  cbn [zrange]. destruct (Z.eq_dec lo n) as [->|Hn]; [left; reflexivity|].
  right. apply IH. lia.
Qed.

Definition two (n : Z) : string := String (digit (n / 10)) (String (digit (n mod 10)) EmptyString).

Lemma pad2_two n : 0 <= n < 100 -> pad 2 n = two n.
Proof.
  intros H.
  assert (A : forallb (fun n => String.eqb (pad 2 n) (two n)) (zrange 100 0) = true) by (vm_compute; reflexivity).
  rewrite forallb_forall in A. apply String.eqb_eq, A, zrange_in. lia.
Qed.

Definition four (n : Z) : string :=
  String (digit (n / 1000)) (String (digit (n / 100 mod 10)) (String (digit (n / 10 mod 10)) (String (digit (n mod 10)) EmptyString))).

Lemma pad4_four n : 0 <= n < 10000 -> pad 4 n = four n.
Proof.
  intros H.
  assert (A : forallb (fun n => String.eqb (pad 4 n) (four n)) (zrange (Z.to_nat 10000) 0) = true)
    by (vm_compute; reflexivity).
  rewrite forallb_forall in A. apply String.eqb_eq, A, zrange_in. lia.
Qed.

Lemma getnum_pad f n X : 0 <= n < 100 -> getnum f (pad 2 n +++ X) = Some (n, X).
Proof.
  intros H. rewrite pad2_two by lia. unfold two.
  cbn [String.append getnum]. unfold is_dig.
  rewrite !is_digit_digit by lia.
  rewrite !dval_digit by lia. f_equal. f_equal. lia.
Qed.

Lemma getyear_pad n X : 0 <= n < 10000 -> getyear (pad_int 4 n +++ X) = Some (n, X).
Proof.
  intros H. unfold pad_int. replace (n <? 0) with false by lia.
  rewrite pad4_four by lia. unfold four.
  cbn [String.append getyear]. unfold is_dig.
  rewrite !is_digit_digit by lia. cbn [andb].
  cbn [digits_val]. rewrite !dval_digit by lia. f_equal. f_equal. lia.
Qed.

Lemma atoi2_pad n : 0 <= n < 100 -> atoi2 (digit (n / 10)) (digit (n mod 10)) = Some n.
Proof.
  intros H. unfold atoi2, is_dig. rewrite !is_digit_digit by lia. cbn [andb].
  rewrite !dval_digit by lia. f_equal. lia.
Qed.

Lemma getzone_fmt off : off mod 60 = 0 -> Z.abs off < 360000 ->
  getzone (fmt_zone off) = Some (off, EmptyString).
Proof.
  intros H1 H2. unfold fmt_zone.
  destruct (off =? 0) eqn:E0; [replace off with 0 by lia; reflexivity|].
  assert (exists k, off = 60 * k) as [k ->] by (exists (off / 60); lia).
  replace (Z.quot (60 * k) 60) with k by (symmetry; rewrite Z.mul_comm; apply Z.quot_mul; lia).
  cbn zeta.
  rewrite !pad2_two by lia. unfold two.
  set (a := Z.abs k) in *.
  destruct (k <? 0) eqn:Ek; cbn [String.append getzone].
  - replace (Ascii.eqb "-" "Z") with false by reflexivity.
    replace (Ascii.eqb ":" ":") with true by reflexivity.
    rewrite !atoi2_pad by lia.
    replace (Ascii.eqb "-" "+") with false by reflexivity.
    replace (Ascii.eqb "-" "-") with true by reflexivity.
    f_equal. f_equal. lia.
  - replace (Ascii.eqb "+" "Z") with false by reflexivity.
    replace (Ascii.eqb ":" ":") with true by reflexivity.
    rewrite !atoi2_pad by lia.
    replace (Ascii.eqb "+" "+") with true by reflexivity.
    f_equal. f_equal. lia.
Qed.

Lemma zone_head off : exists c r, fmt_zone off = String c r /\ Ascii.eqb c "."%char = false /\ is_digit c = false.
Proof.
  unfold fmt_zone. destruct (off =? 0); [exists "Z"%char, EmptyString; repeat split; reflexivity|].
  cbn zeta. destruct (Z.quot off 60 <? 0); cbn [String.append]; eexists _, _; (split; [reflexivity|split; reflexivity]).
Qed.

Lemma getfrac_zone off : getfrac (fmt_zone off) = Some (0, fmt_zone off).
Proof.
  destruct (zone_head off) as (c & r & E & H & _). rewrite E. unfold getfrac.
  destruct r; [reflexivity|]. rewrite H. reflexivity.
Qed.

(** Reading the civil part back. *)
Definition after_sec (y mo d h mi se : Z) (s : string) : option time :=
  obind (getfrac s) (fun '(ns, s) =>
  obind (getzone s) (fun '(off, s) =>
  match s with
  | EmptyString =>
    if (1 <=? d) && (d <=? days_in mo y) then Some (MkTime y mo d h mi se ns off) else None
  | _ => None
  end)).

Lemma expect_eq c X : expect c (String c X) = Some X.
Proof. unfold expect. rewrite Ascii.eqb_refl. reflexivity. Qed.

Lemma days_in_bound m y : 28 <= days_in m y <= 31.
Proof. unfold days_in. repeat match goal with |- context [if ?b then _ else _] => destruct b end; lia. Qed.

Lemma time_valid_spec t : time_valid t = true <->
  1 <= t_month t <= 12 /\ 1 <= t_day t <= days_in (t_month t) (t_year t) /\
  0 <= t_hour t <= 23 /\ 0 <= t_min t <= 59 /\ 0 <= t_sec t <= 59 /\ 0 <= t_nsec t < 1000000000.
Proof. unfold time_valid. split; intros H; lia. Qed.

Lemma parse_civil t X : time_valid t = true -> 0 <= t_year t <= 9999 ->
  parse_rfc3339 (fmt_civil t +++ X) =
  after_sec (t_year t) (t_month t) (t_day t) (t_hour t) (t_min t) (t_sec t) X.
Proof.
  intros HV HY. apply time_valid_spec in HV. destruct HV as (H1 & H2 & H3 & H4 & H5 & H6).
  pose proof (days_in_bound (t_month t) (t_year t)) as HD.
  unfold fmt_civil, parse_rfc3339. rewrite !sapp_assoc.
  rewrite getyear_pad by lia. cbn [obind String.append]. rewrite expect_eq. cbn [obind].
  rewrite getnum_pad by lia. unfold in_range at 1.
  replace ((1 <=? t_month t) && (t_month t <=? 12)) with true by lia.
  cbn [obind String.append]. rewrite expect_eq. cbn [obind].
  rewrite getnum_pad by lia. cbn [obind String.append]. rewrite expect_eq. cbn [obind].
  rewrite getnum_pad by lia. unfold in_range at 1.
  replace ((0 <=? t_hour t) && (t_hour t <=? 23)) with true by lia.
  cbn [obind String.append]. rewrite expect_eq. cbn [obind].
  rewrite getnum_pad by lia. unfold in_range at 1.
  replace ((0 <=? t_min t) && (t_min t <=? 59)) with true by lia.
  cbn [obind String.append]. rewrite expect_eq. cbn [obind].
  rewrite getnum_pad by lia. unfold in_range.
  replace ((0 <=? t_sec t) && (t_sec t <=? 59)) with true by lia.
  cbn [obind]. reflexivity.
Qed.

Lemma time_wire_spec t : time_wire t = true <->
  time_valid t = true /\ 0 <= t_year t <= 9999 /\ t_off t mod 60 = 0 /\ Z.abs (t_off t) < 360000.
Proof. unfold time_wire. rewrite !andb_true_iff. split; intros H; repeat split; try tauto; lia. Qed.

Theorem parse_format t : time_wire t = true -> parse_rfc3339 (format_rfc3339 t) = Some (trunc_sec t).
Proof.
  intros H. apply time_wire_spec in H. destruct H as (HV & HY & HO & HA).
  unfold format_rfc3339. rewrite parse_civil by assumption.
  unfold after_sec. rewrite getfrac_zone. cbn [obind]. rewrite getzone_fmt by assumption.
  cbn [obind]. apply time_valid_spec in HV.
  replace ((1 <=? t_day t) && (t_day t <=? days_in (t_month t) (t_year t))) with true by lia.
  reflexivity.
Qed.

(** ** Nanoseconds (RFC3339Nano): exact *)

Lemma strip_zeros_spec f : forall n w n' w', 0 < n < 10 ^ Z.of_nat w -> strip_zeros f n w = (n', w') ->
  0 < n' < 10 ^ Z.of_nat w' /\ (w' <= w)%nat /\ n = n' * 10 ^ Z.of_nat (w - w').
Proof.
  induction f as [|f IH]; intros n w n' w' Hn E; cbn [strip_zeros] in E.
  - assert (n' = n /\ w' = w) as [-> ->] by (split; congruence).
    rewrite Nat.sub_diag. change (10 ^ Z.of_nat 0) with 1. lia.
  - destruct (n mod 10 =? 0) eqn:E0.
    + destruct w as [|w]; [change (10 ^ Z.of_nat 0) with 1 in Hn; lia|].
      cbn [pred] in E.
      assert (HP : 10 ^ Z.of_nat (S w) = 10 * 10 ^ Z.of_nat w).
      { rewrite Nat2Z.inj_succ, Z.pow_succ_r by lia. reflexivity. }
      rewrite HP in Hn.
      destruct (IH (n / 10) w n' w') as (A & B & C); [|exact E|].
      { set (P := 10 ^ Z.of_nat w) in *. lia. }
      split; [exact A|]. split; [lia|].
      replace (S w - w')%nat with (S (w - w')) by lia.
      rewrite Nat2Z.inj_succ, Z.pow_succ_r by lia.
      set (Q := 10 ^ Z.of_nat (w - w')) in *.
      replace n with (10 * (n / 10)) by lia. rewrite C at 1. ring.
    + assert (n' = n /\ w' = w) as [-> ->] by (split; congruence).
      rewrite Nat.sub_diag. change (10 ^ Z.of_nat 0) with 1. lia.
Qed.

Lemma zpad_len k s : String.length (zpad k s) = (k + String.length s)%nat.
Proof. induction k as [|k IH]; cbn; [reflexivity|]. rewrite IH. reflexivity. Qed.
Lemma zpad_val k s : digits_val 0 (zpad k s) = digits_val 0 s.
Proof.
  induction k as [|k IH]; cbn [zpad digits_val]; [reflexivity|].
  replace (10 * 0 + dval "0"%char) with 0 by reflexivity. exact IH.
Qed.
Lemma zpad_digits k s : str_forall is_digit s = true -> str_forall is_digit (zpad k s) = true.
Proof. intros H. induction k as [|k IH]; cbn; [exact H|]. exact IH. Qed.

Lemma dec_length_le w n : (0 < w)%nat -> 0 <= n < 10 ^ Z.of_nat w -> (String.length (dec n) <= w)%nat.
Proof.
  revert n. induction w as [|w IH]; intros n H0 H; [lia|].
  rewrite dec_unfold by lia.
  destruct (n <? 10) eqn:E; [cbn; lia|].
  assert (HP : 10 ^ Z.of_nat (S w) = 10 * 10 ^ Z.of_nat w).
  { rewrite Nat2Z.inj_succ, Z.pow_succ_r by lia. reflexivity. }
  rewrite HP in H. rewrite sapp_length. cbn [String.length str1].
  destruct w as [|w]; [change (10 ^ Z.of_nat 0) with 1 in H; lia|].
  specialize (IH (n / 10)). set (P := 10 ^ Z.of_nat (S w)) in *.
  enough (String.length (dec (n / 10)) <= S w)%nat by lia. apply IH; lia.
Qed.

Lemma pad_spec w n : (0 < w)%nat -> 0 <= n < 10 ^ Z.of_nat w ->
  String.length (pad w n) = w /\ digits_val 0 (pad w n) = n /\ str_forall is_digit (pad w n) = true.
Proof.
  intros H0 H. pose proof (dec_length_le w n H0 H) as HL.
  unfold pad. rewrite zpad_len, zpad_val, dec_val by lia.
  repeat split; [lia|]. apply zpad_digits, dec_digits. lia.
Qed.

Lemma span_digits_stop s X : str_forall is_digit s = true ->
  (exists c r, X = String c r /\ is_digit c = false) -> span_digits (s +++ X) = (s, X).
Proof.
  intros H (c & r & -> & HX). induction s as [|a s IH]; cbn [String.append span_digits].
  - rewrite HX. reflexivity.
  - cbn [str_forall] in H. apply andb_true_iff in H. destruct H as [Ha Hs].
    rewrite Ha, (IH Hs). reflexivity.
Qed.

Lemma getfrac_fmt ns off : 0 <= ns < 1000000000 -> getfrac (fmt_frac ns +++ fmt_zone off) = Some (ns, fmt_zone off).
Proof.
  intros H. unfold fmt_frac. destruct (ns =? 0) eqn:E0.
  { replace ns with 0 by lia. apply getfrac_zone. }
  destruct (strip_zeros 9 ns 9) as [n w] eqn:E.
  destruct (strip_zeros_spec 9 ns 9 n w) as (A & B & C); [change (10 ^ Z.of_nat 9) with 1000000000; lia|exact E|].
  assert (Hw : (0 < w)%nat) by (destruct w; [change (10 ^ Z.of_nat 0) with 1 in A; lia|lia]).
  destruct (pad_spec w n Hw ltac:(lia)) as (L & V & D).
  assert (HB : 10 ^ Z.of_nat w <= 1000000000).
  { change 1000000000 with (10 ^ Z.of_nat 9). apply Z.pow_le_mono_r; lia. }
  cbn [String.append]. destruct (pad w n) as [|d r] eqn:EP; [cbn in L; lia|].
  pose proof D as D0. cbn [str_forall] in D. apply andb_true_iff in D. destruct D as [Dd _].
  cbn [String.append getfrac]. unfold is_dig. rewrite Dd.
  replace (Ascii.eqb "." ".") with true by reflexivity. cbn [andb].
  change (String d (r +++ fmt_zone off)) with (String d r +++ fmt_zone off).
  rewrite span_digits_stop; [|exact D0|].
  2:{ destruct (zone_head off) as (c & q & Ez & _ & Hc). exists c, q. split; assumption. }
  rewrite V. replace (n <? 1000000000) with true by lia.
  rewrite L. replace (Z.max 0 (9 - Z.of_nat w)) with (Z.of_nat (9 - w)) by lia.
  rewrite <- C. reflexivity.
Qed.

Theorem parse_nano t : time_wire t = true -> parse_rfc3339 (format_nano t) = Some t.
Proof.
  intros H. apply time_wire_spec in H. destruct H as (HV & HY & HO & HA).
  unfold format_nano. rewrite parse_civil by assumption.
  unfold after_sec. apply time_valid_spec in HV. rewrite getfrac_fmt by lia.
  cbn [obind]. rewrite getzone_fmt by assumption. cbn [obind].
  replace ((1 <=? t_day t) && (t_day t <=? days_in (t_month t) (t_year t))) with true by lia.
  destruct t; reflexivity.
Qed.
