(** The search for the shortest decimal: it finds the shortest one, within seventeen
    digits, and the closest of that length. *)
From Coq Require Import Arith ZifyBool ZifyNat ZifyN QArith Qabs Qpower Qfield Lqa.
From Verif Require Import GoBase Json JsonText Float64 Float64Proofs SpecJson JsonGrammar SpecNumber FloatNear NearProofs NumberProofs ShortText.
Open Scope string_scope.
Open Scope list_scope.
Local Open Scope Z_scope.

(** ** Where the leading digit is *)

Lemma inject_ne z : 0 < z -> ~ (inject_Z z == 0)%Q.
Proof. intros H K. pose proof (inject_pos z H) as P. rewrite K in P. exact (Qlt_irrefl _ P). Qed.

Lemma dec1_nat k : 0 <= k -> (decimal 1 k == inject_Z (10 ^ k))%Q.
Proof. intros H. unfold decimal. change 10%Q with (inject_Z 10). rewrite qpow_nat by exact H. change (inject_Z 1) with 1%Q. ring. Qed.
Lemma dec1_neg k : 0 <= k -> (decimal 1 (- k) == 1 / inject_Z (10 ^ k))%Q.
Proof.
  intros H. unfold decimal. change 10%Q with (inject_Z 10). rewrite (qpow_neg 10 k), qpow_nat by lia. change (inject_Z 1) with 1%Q.
  field. apply inject_ne, Z.pow_pos_nonneg; lia.
Qed.
Lemma quot_le a b c d : 0 < b -> 0 < d -> (inject_Z a / inject_Z b <= inject_Z c / inject_Z d)%Q <-> a * d <= c * b.
Proof.
  intros Hb Hd. pose proof (inject_pos b Hb) as Pb. pose proof (inject_pos d Hd) as Pd. pose proof (inject_ne b Hb). pose proof (inject_ne d Hd).
  assert (E1 : (inject_Z (a * d) == inject_Z a / inject_Z b * (inject_Z b * inject_Z d))%Q) by (rewrite inject_Z_mult; field; assumption).
  assert (E2 : (inject_Z (c * b) == inject_Z c / inject_Z d * (inject_Z b * inject_Z d))%Q) by (rewrite inject_Z_mult; field; assumption).
  rewrite Zle_Qle, E1, E2. assert (0 < inject_Z b * inject_Z d)%Q as PP by (apply Qmult_lt_0_compat; assumption).
  symmetry. apply Qmult_le_r. exact PP.
Qed.
Lemma quot_lt a b c d : 0 < b -> 0 < d -> (inject_Z a / inject_Z b < inject_Z c / inject_Z d)%Q <-> a * d < c * b.
Proof.
  intros Hb Hd. pose proof (quot_le c d a b Hd Hb) as K. split; intros L.
  - destruct (Z_lt_ge_dec (a * d) (c * b)) as [|G]; [assumption|exfalso]. apply (Qlt_not_le _ _ L), K. lia.
  - apply Qnot_le_lt. intros G. apply K in G. lia.
Qed.
Lemma one_quot a : (inject_Z a == inject_Z a / inject_Z 1)%Q.
Proof. change (inject_Z 1) with 1%Q. field. Qed.

Lemma dexp_spec num den : 0 < num -> 0 < den -> let X := (inject_Z num / inject_Z den)%Q in let dx := dexp num den in
  (decimal 1 (dx - 1) <= X)%Q /\ (X < decimal 1 dx)%Q.
Proof.
  intros Hn Hd. cbv zeta. unfold dexp. destruct (den <=? num) eqn:E.
  - apply Z.leb_le in E. set (q := num / den). assert (0 < q) as Hq by (apply Z.div_str_pos; lia).
    pose proof (dec_len q Hq) as DL. pose proof (dec_length_pos q ltac:(lia)) as L1. set (L := Z.of_nat (String.length (dec q))) in *.
    pose proof (Z.div_mod num den ltac:(lia)) as DM. pose proof (Z.mod_pos_bound num den Hd) as MB. fold q in DM. set (r := num mod den) in *. clearbody q r.
    rewrite !dec1_nat by lia. rewrite (one_quot (10 ^ (L - 1))), (one_quot (10 ^ L)). rewrite quot_le, quot_lt by lia. nia.
  - apply Z.leb_gt in E. set (c := (den + num - 1) / num - 1).
    pose proof (Z.div_mod (den + num - 1) num ltac:(lia)) as DM. pose proof (Z.mod_pos_bound (den + num - 1) num Hn) as MB.
    assert (num * c < den /\ den <= num * (c + 1)) as [C1 C2] by (unfold c; nia). assert (0 < c) as Hc by nia. clearbody c.
    pose proof (dec_len c Hc) as DL. pose proof (dec_length_pos c ltac:(lia)) as L1. set (L := Z.of_nat (String.length (dec c))) in *.
    replace (1 - L - 1) with (- L) by lia. replace (1 - L) with (- (L - 1)) by lia. rewrite !dec1_neg by lia. change 1%Q with (inject_Z 1).
    assert (0 < 10 ^ L) by (apply Z.pow_pos_nonneg; lia). assert (0 < 10 ^ (L - 1)) by (apply Z.pow_pos_nonneg; lia).
    rewrite quot_le, quot_lt by lia. nia.
Qed.

(** ** The two candidates *)

Definition scaled_num (num j : Z) : Z := if 0 <=? j then num else num * 10 ^ (- j).
Definition scaled_den (den j : Z) : Z := if 0 <=? j then den * 10 ^ j else den.

Lemma scaled_value num den j : 0 < den ->
  (inject_Z num / inject_Z den == inject_Z (scaled_num num j) / inject_Z (scaled_den den j) * Qpower 10 j)%Q /\ 0 < scaled_den den j.
Proof.
  intros Hd. unfold scaled_num, scaled_den. change 10%Q with (inject_Z 10). destruct (0 <=? j) eqn:E.
  - assert (0 < 10 ^ j) as P by (apply Z.pow_pos_nonneg; lia). split; [|nia]. rewrite qpow_nat, inject_Z_mult by lia.
    field. split; apply inject_ne; assumption.
  - split; [|lia]. rewrite inject_Z_mult, <- qpow_nat, (qpow_neg 10 j) by lia. pose proof (qpow_pos 10 j ltac:(lia)) as P.
    set (x := Qpower (inject_Z 10) j) in *. clearbody x. field. split; [|apply inject_ne; assumption]. intros K. rewrite K in P. exact (Qlt_irrefl _ P).
Qed.

Lemma floor_facts a b : 0 < b -> let t := (inject_Z a / inject_Z b)%Q in let lo := a / b in
  (inject_Z lo <= t)%Q /\ (t < inject_Z (lo + 1))%Q /\
  (rounds_up lo (a mod b) b = true -> inject_Z lo + inject_Z (lo + 1) <= t + t)%Q /\
  (rounds_up lo (a mod b) b = false -> t + t <= inject_Z lo + inject_Z (lo + 1))%Q /\
  ((t + t == inject_Z lo + inject_Z (lo + 1))%Q -> Z.even (if rounds_up lo (a mod b) b then lo + 1 else lo) = true).
Proof.
  intros Hb. cbv zeta. pose proof (Z.div_mod a b ltac:(lia)) as DM. pose proof (Z.mod_pos_bound a b Hb) as MB.
  set (lo := a / b) in *. set (r := a mod b) in *. clearbody lo r.
  assert (E2 : (inject_Z a / inject_Z b + inject_Z a / inject_Z b == inject_Z (2 * a) / inject_Z b)%Q).
  { rewrite inject_Z_mult. change (inject_Z 2) with 2%Q. field. apply inject_ne, Hb. }
  rewrite E2, <- inject_Z_plus. rewrite (one_quot lo), (one_quot (lo + 1)), (one_quot (lo + (lo + 1))).
  assert (E3 : (inject_Z (2 * a) / inject_Z b == inject_Z (lo + (lo + 1)) / inject_Z 1)%Q -> 2 * a = (2 * lo + 1) * b).
  { intros K. assert (K1 : (inject_Z (2 * a) / inject_Z b <= inject_Z (lo + (lo + 1)) / inject_Z 1)%Q) by (rewrite K; apply Qle_refl).
    assert (K2 : (inject_Z (lo + (lo + 1)) / inject_Z 1 <= inject_Z (2 * a) / inject_Z b)%Q) by (rewrite K; apply Qle_refl).
    pose proof (proj1 (quot_le _ b _ 1 Hb Z.lt_0_1) K1) as J1. pose proof (proj1 (quot_le _ 1 _ b Z.lt_0_1 Hb) K2) as J2. clear - J1 J2. nia. }
  rewrite quot_le, quot_lt, !quot_le by lia. unfold rounds_up. split; [nia|]. split; [nia|]. split; [nia|]. split; [nia|].
  intros K. apply E3 in K. assert (2 * r = b) as T by nia.
  assert ((b <? 2 * r) = false) as -> by lia. assert ((2 * r =? b) = true) as -> by lia. cbn [orb andb].
  destruct (Z.odd lo) eqn:EO; [rewrite Z.even_add|]; rewrite <- Z.negb_odd, EO; reflexivity.
Qed.

Definition good (m e : Z) (v : Q) : Prop := nearest v m e /\ ~ too_large v.

(** All about the candidates at precision [p]. *)
Lemma candidates m e p : 0 < m -> canon (FFin false m e) = true -> 1 <= p ->
  let num := fnum m e in let den := fden e in let X := double m e in let j := dexp num den - p in
  let lo := scaled_num num j / scaled_den den j in let up := rounds_up lo (scaled_num num j mod scaled_den den j) (scaled_den den j) in
  (decimal 1 (dexp num den - 1) <= X)%Q /\ (X < decimal 1 (dexp num den))%Q /\
  (decimal lo j <= X)%Q /\ (X < decimal (lo + 1) j)%Q /\
  (up = true -> decimal lo j + decimal (lo + 1) j <= X + X)%Q /\ (up = false -> X + X <= decimal lo j + decimal (lo + 1) j)%Q /\
  ((X + X == decimal lo j + decimal (lo + 1) j)%Q -> Z.even (if up then lo + 1 else lo) = true) /\
  10 ^ (p - 1) <= lo < 10 ^ p.
Proof.
  intros Hm HC Hp num den X j lo up.
  assert (Hn : 0 < num) by (unfold num, fnum; pose proof (up_pos e); nia).
  assert (Hd : 0 < den) by (unfold den, fden; apply up_pos).
  assert (EX : (X == inject_Z num / inject_Z den)%Q).
  { unfold X, double, num, den, fnum, fden, Float64.up. rewrite inject_Z_mult. change 2%Q with (inject_Z 2).
    destruct (Z_le_gt_dec 0 e) as [H|H].
    - rewrite (Z.max_l e 0), (Z.max_r (- e) 0) by lia. rewrite qpow_nat by lia. change (inject_Z (2 ^ 0)) with 1%Q. field.
    - rewrite (Z.max_r e 0), (Z.max_l (- e) 0) by lia. rewrite <- (qpow_nat 2 (- e)), (qpow_neg 2 e) by lia. change (inject_Z (2 ^ 0)) with 1%Q.
      pose proof (qpow_pos 2 e ltac:(lia)) as P. set (x := Qpower (inject_Z 2) e) in *. clearbody x. field. intros K. rewrite K in P. exact (Qlt_irrefl _ P). }
  destruct (dexp_spec num den Hn Hd) as [D1 D2]. cbv zeta in D1, D2. rewrite <- EX in D1, D2.
  destruct (scaled_value num den j Hd) as [SV SD]. rewrite <- EX in SV.
  destruct (floor_facts (scaled_num num j) (scaled_den den j) SD) as (F1 & F2 & F3 & F4 & F5). fold lo in F1, F2, F3, F4, F5. fold up in F3, F4, F5.
  set (t := (inject_Z (scaled_num num j) / inject_Z (scaled_den den j))%Q) in *.
  assert (PU : (0 < Qpower 10 j)%Q) by (change 10%Q with (inject_Z 10); apply qpow_pos; lia).
  set (U := Qpower 10 j) in *.
  assert (C1 : (decimal lo j <= X)%Q) by (rewrite SV; unfold decimal; fold U; apply Qmult_le_compat_r; [exact F1|apply Qlt_le_weak, PU]).
  assert (C2 : (X < decimal (lo + 1) j)%Q) by (rewrite SV; unfold decimal; fold U; apply Qmult_lt_compat_r; [exact PU|exact F2]).
  split; [exact D1|]. split; [exact D2|]. split; [exact C1|]. split; [exact C2|]. split; [|split; [|split]].
  - intros H. specialize (F3 H). rewrite SV. unfold decimal. fold U. rewrite <- !Qmult_plus_distr_l. apply Qmult_le_compat_r; [exact F3|apply Qlt_le_weak, PU].
  - intros H. specialize (F4 H). rewrite SV. unfold decimal. fold U. rewrite <- !Qmult_plus_distr_l. apply Qmult_le_compat_r; [exact F4|apply Qlt_le_weak, PU].
  - intros H. apply F5. rewrite SV in H. unfold decimal in H. fold U in H. rewrite <- !Qmult_plus_distr_l in H.
    apply (Qmult_inj_r _ _ U); [intros K; rewrite K in PU; exact (Qlt_irrefl _ PU)|exact H].
  - assert (E1 : (decimal 1 (dexp num den - 1) == decimal (10 ^ (p - 1)) j)%Q).
    { rewrite <- (Z.mul_1_l (10 ^ (p - 1))). rewrite decimal_shift by lia. replace (j + (p - 1)) with (dexp num den - 1) by (unfold j; lia). reflexivity. }
    assert (E2 : (decimal 1 (dexp num den) == decimal (10 ^ p) j)%Q).
    { rewrite <- (Z.mul_1_l (10 ^ p)). rewrite decimal_shift by lia. replace (j + p) with (dexp num den) by (unfold j; lia). reflexivity. }
    rewrite E1 in D1. rewrite E2 in D2. split.
    + assert (10 ^ (p - 1) < lo + 1); [|lia]. destruct (Z_lt_ge_dec (10 ^ (p - 1)) (lo + 1)) as [|G]; [assumption|exfalso].
      assert (decimal (lo + 1) j <= decimal (10 ^ (p - 1)) j)%Q by (apply decimal_le; lia). lra.
    + destruct (Z_lt_ge_dec lo (10 ^ p)) as [|G]; [assumption|exfalso].
      assert (decimal (10 ^ p) j <= decimal lo j)%Q by (apply decimal_le; lia). lra.
Qed.

(** No decimal of [p] digits lies between the candidates. *)
Lemma no_between lo j p D k : 1 <= p -> 10 ^ (p - 1) <= lo -> 0 < D < 10 ^ p ->
  (decimal D k <= decimal lo j)%Q \/ (decimal (lo + 1) j <= decimal D k)%Q.
Proof.
  intros Hp Hlo HD. destruct (Z_le_gt_dec j k) as [H|H].
  - assert (E : (decimal D k == decimal (D * 10 ^ (k - j)) j)%Q).
    { rewrite decimal_shift by lia. replace (j + (k - j)) with k by lia. reflexivity. }
    rewrite E. destruct (Z_le_gt_dec (D * 10 ^ (k - j)) lo); [left|right]; apply decimal_le; lia.
  - left. apply (Qle_trans _ (decimal (10 ^ (p - 1)) j)); [|apply decimal_le; exact Hlo].
    apply (Qle_trans _ (decimal (10 ^ p) k)); [apply decimal_le; lia|].
    assert (E1 : (decimal (10 ^ p) k == decimal 1 (k + p))%Q) by (rewrite <- (Z.mul_1_l (10 ^ p)); apply decimal_shift; lia).
    assert (E2 : (decimal (10 ^ (p - 1)) j == decimal 1 (j + (p - 1)))%Q) by (rewrite <- (Z.mul_1_l (10 ^ (p - 1))); apply decimal_shift; lia).
    rewrite E1, E2. replace (j + (p - 1)) with (k + p + (j - 1 - k)) by lia. rewrite <- (decimal_shift 1 (k + p)) by lia. apply decimal_le.
    assert (0 < 10 ^ (j - 1 - k)) by (apply Z.pow_pos_nonneg; lia). lia.
Qed.

Lemma good_between a b c m e : good m e a -> good m e c -> (a <= b)%Q -> (b <= c)%Q -> good m e b.
Proof.
  intros [A1 A2] [C1 C2] L1 L2. split; [exact (nearest_between _ _ _ _ _ A1 C1 L1 L2)|].
  intros K. apply C2. unfold too_large in *. apply (Qle_trans _ _ _ K L2).
Qed.

(** ** Half a step around a double *)

Lemma double_shift m e c : 0 <= c -> (double (m * 2 ^ c) e == double m (e + c))%Q.
Proof. intros H. unfold double. change 2%Q with (inject_Z 2). rewrite inject_Z_mult, <- qpow_nat, qpow_plus by lia. ring. Qed.
Lemma double_le m m' e : m <= m' -> (double m e <= double m' e)%Q.
Proof.
  intros H. unfold double. change 2%Q with (inject_Z 2). apply Qmult_le_compat_r; [rewrite <- Zle_Qle; exact H|]. apply Qlt_le_weak, qpow_pos. lia.
Qed.
Lemma double_pos m e : 0 < m -> (0 < double m e)%Q.
Proof. intros H. unfold double. change 2%Q with (inject_Z 2). apply Qmult_lt_0_compat; [apply inject_pos; exact H|apply qpow_pos; lia]. Qed.
Lemma double_plus m m' e : (double (m + m') e == double m e + double m' e)%Q.
Proof. unfold double. rewrite inject_Z_plus. ring. Qed.

Lemma below_limit m e v : canon (FFin false m e) = true -> (v < double m e + double 1 (e - 1))%Q -> ~ too_large v.
Proof.
  intros HC HV K. unfold too_large in K. apply canon_cases in HC as (A1 & A2 & _). change (2 ^ 53) with 9007199254740992 in A2.
  assert (E : (double m e + double 1 (e - 1) == double (2 * m + 1) (e - 1))%Q).
  { rewrite double_plus. assert ((double (2 * m) (e - 1) == double m e)%Q) as ->; [|reflexivity].
    replace (2 * m) with (m * 2 ^ 1) by (change (2 ^ 1) with 2; lia). rewrite double_shift by lia. replace (e - 1 + 1) with e by lia. reflexivity. }
  rewrite E in HV.
  assert (L1 : (double (2 * m + 1) (e - 1) <= double (2 ^ 54 - 1) (e - 1))%Q).
  { apply double_le. change (2 ^ 54) with 18014398509481984. lia. }
  assert (L2 : (double (2 ^ 54 - 1) (e - 1) <= double (2 ^ 54 - 1) 970)%Q).
  { replace 970 with (e - 1 + (971 - e)) by lia. rewrite <- double_shift by lia. apply double_le.
    assert (0 < 2 ^ (971 - e)) by (apply Z.pow_pos_nonneg; lia). assert (0 < 2 ^ 54 - 1) by reflexivity. nia. }
  lra.
Qed.

Lemma self_good m e : canon (FFin false m e) = true -> good m e (double m e).
Proof.
  intros HC. split; [apply nearest_self; exact HC|]. apply (below_limit m e _ HC). pose proof (double_pos 1 (e - 1) ltac:(lia)). lra.
Qed.

(** Doubles are not closer to each other than 2^-53 of their size. *)
Lemma gap m e m' e' : canon (FFin false m e) = true -> canon (FFin false m' e') = true -> sc m e <> sc m' e' ->
  sc m e <= 2 ^ 53 * Z.abs (sc m e - sc m' e').
Proof.
  intros H H' N. assert (sc m e < sc m' e' \/ sc m' e' < sc m e) as [L|L] by lia.
  - destruct (next_ok m e m' e' H H' L) as (_ & _ & K). apply canon_cases in H as (A1 & A2 & _). unfold sc in *.
    assert (0 < 2 ^ (e + 1074)) as P by (apply Z.pow_pos_nonneg; lia). set (U := 2 ^ (e + 1074)) in *. clearbody U. set (y := m' * 2 ^ (e' + 1074)) in *. clearbody y.
    change (2 ^ 53) with 9007199254740992 in *. assert (m * U <= 9007199254740992 * U) by nia. lia.
  - apply canon_cases in H as (A1 & A2 & A3), H' as (B1 & B2 & B3). unfold sc in *.
    change (2 ^ 53) with 9007199254740992 in *. change (2 ^ 52) with 4503599627370496 in *.
    assert (0 < 2 ^ (e + 1074)) as P by (apply Z.pow_pos_nonneg; lia). assert (0 < 2 ^ (e' + 1074)) as P' by (apply Z.pow_pos_nonneg; lia).
    assert (e' < e \/ e' = e \/ e < e') as [C|[C|C]] by lia.
    + assert (2 * 2 ^ (e' + 1074) <= 2 ^ (e + 1074)) as Q.
      { replace (2 * 2 ^ (e' + 1074)) with (2 ^ (1 + (e' + 1074))) by (rewrite (pow2_split 1) by lia; reflexivity). apply Z.pow_le_mono_r; lia. }
      set (U := 2 ^ (e + 1074)) in *. clearbody U. set (U' := 2 ^ (e' + 1074)) in *. clearbody U'.
      destruct A3 as [A3|A3]; [|lia].
      assert (2 * (m' * U') <= 9007199254740991 * U) as Q1 by nia.
      rewrite Z.abs_eq by lia. assert (4503599627370496 * U <= m * U) as Q2 by nia. assert (m * U <= 9007199254740991 * U) by nia. lia.
    + subst e'. set (U := 2 ^ (e + 1074)) in *. clearbody U. rewrite Z.abs_eq by lia. assert (m' + 1 <= m) by nia. assert (m' * U + U <= m * U) by nia. assert (m * U <= 9007199254740992 * U) by nia. lia.
    + exfalso. assert (2 * 2 ^ (e + 1074) <= 2 ^ (e' + 1074)) as Q.
      { replace (2 * 2 ^ (e + 1074)) with (2 ^ (1 + (e + 1074))) by (rewrite (pow2_split 1) by lia; reflexivity). apply Z.pow_le_mono_r; lia. }
      destruct B3 as [B3|B3]; [|lia]. nia.
Qed.

Lemma gap_q m e m' e' : canon (FFin false m e) = true -> canon (FFin false m' e') = true -> sc m e <> sc m' e' ->
  (double m e <= inject_Z (2 ^ 53) * Qabs (double m e - double m' e'))%Q.
Proof.
  intros H H' N. pose proof (gap m e m' e' H H' N) as G.
  assert (-1074 <= e /\ -1074 <= e') as [A A'] by (apply canon_cases in H, H'; lia).
  pose proof (inject_pos (2 ^ 1074) ltac:(apply Z.pow_pos_nonneg; lia)) as P. pose proof (inject_ne (2 ^ 1074) ltac:(apply Z.pow_pos_nonneg; lia)) as NE.
  assert (E : (Qabs (double m e - double m' e') == inject_Z (Z.abs (sc m e - sc m' e')) / inject_Z (2 ^ 1074))%Q).
  { rewrite !double_sc by assumption. set (K := inject_Z (2 ^ 1074)) in *. clearbody K.
    assert (E0 : (inject_Z (sc m e) / K - inject_Z (sc m' e') / K == inject_Z (sc m e - sc m' e') / K)%Q).
    { unfold Zminus. rewrite inject_Z_plus, inject_Z_opp. field. exact NE. }
    rewrite E0. unfold Qdiv. rewrite Qabs_Qmult. rewrite (Qabs_pos (/ K)) by (apply Qlt_le_weak, Qinv_lt_0_compat, P). reflexivity. }
  rewrite E, double_sc by assumption. rewrite Zle_Qle, inject_Z_mult in G. set (K := inject_Z (2 ^ 1074)) in *. clearbody K.
  set (a := inject_Z (2 ^ 53)) in *. set (b := inject_Z (Z.abs (sc m e - sc m' e'))) in *. clearbody a b.
  assert (E1 : (a * (b / K) == (a * b) / K)%Q) by (field; exact NE). rewrite E1. unfold Qdiv. apply Qmult_le_compat_r; [exact G|]. apply Qlt_le_weak, Qinv_lt_0_compat, P.
Qed.

(** What is within 10^-16 / 2 of the size of a double is taken for it. *)
Lemma close_good m e v : canon (FFin false m e) = true -> 0 < m ->
  (inject_Z (2 * 10 ^ 16) * Qabs (v - double m e) <= double m e)%Q -> good m e v.
Proof.
  intros HC Hm HV. pose proof (double_pos m e Hm) as PX. set (X := double m e) in *. set (d := Qabs (v - X)) in *.
  assert (0 <= d)%Q as Pd by apply Qabs_nonneg.
  change (2 * 10 ^ 16) with 20000000000000000 in HV.
  assert (HV2 : ((20000000000000000 # 1) * d <= X)%Q) by exact HV. clear HV.
  split.
  - split; [exact HC|]. intros m' e' HC'.
    destruct (Z.eq_dec (sc m e) (sc m' e')) as [E|N].
    + apply sc_inj in E; [|assumption|assumption]. destruct E as [<- <-]. split; [apply Qle_refl|]. intros _. left. split; reflexivity.
    + pose proof (gap_q m e m' e' HC HC' N) as G. fold X in G. change (2 ^ 53) with 9007199254740992 in G.
      assert (G2 : (X <= (9007199254740992 # 1) * Qabs (X - double m' e'))%Q) by exact G. clear G.
      set (Y := double m' e') in *.
      assert (T : (Qabs (X - Y) <= d + Qabs (v - Y))%Q).
      { assert (E : (X - Y == (X - v) + (v - Y))%Q) by ring. rewrite E. eapply Qle_trans; [apply Qabs_triangle|].
        assert (E2 : (Qabs (X - v) == d)%Q) by (unfold d; rewrite Qabs_Qminus; reflexivity). rewrite E2. apply Qle_refl. }
      set (g := Qabs (X - Y)) in *. set (h := Qabs (v - Y)) in *. assert (d < h)%Q as L by (clearbody d g h; clearbody X; lra).
      split; [apply Qlt_le_weak; exact L|]. intros K. exfalso. apply (Qlt_not_le _ _ L). rewrite <- K. apply Qle_refl.
  - apply (below_limit m e v HC). fold X.
    assert (v - X <= d)%Q as L by apply Qle_Qabs.
    assert (B : (X < (18014398509481984 # 1) * double 1 (e - 1))%Q).
    { assert (E : (X == double (2 * m) (e - 1))%Q).
      { unfold X. replace (2 * m) with (m * 2 ^ 1) by (change (2 ^ 1) with 2; lia). rewrite double_shift by lia. replace (e - 1 + 1) with e by lia. reflexivity. }
      rewrite E. assert (E2 : ((18014398509481984 # 1) * double 1 (e - 1) == double 18014398509481984 (e - 1))%Q).
      { unfold double. change (inject_Z 1) with 1%Q. change (inject_Z 18014398509481984) with (18014398509481984 # 1)%Q. ring. }
      rewrite E2. apply canon_cases in HC as (_ & A2 & _). change (2 ^ 53) with 9007199254740992 in A2.
      unfold double. change 2%Q with (inject_Z 2). apply Qmult_lt_compat_r; [apply qpow_pos; lia|]. rewrite <- Zlt_Qlt. lia. }
    lra.
Qed.

(** ** The search *)

Lemma reads_good m e s D k : denotes s false D k -> reads_as m e s = true <-> good m e (decimal D k).
Proof.
  intros H. pose proof (parse_taken s false D k H) as P. unfold reads_as.
  assert (is_num s = true) as ->.
  { apply denotes_number in H. apply number_read in H. unfold is_num. rewrite H. reflexivity. }
  cbn [andb]. split.
  - intros K. destruct (parse_float s) as [x|]; [|discriminate K]. destruct P as (m' & e' & -> & P1 & P2).
    apply andb_true_iff in K as [K1 K2]. apply Z.eqb_eq in K1, K2. subst. split; assumption.
  - intros [G1 G2]. destruct (parse_float s) as [x|]; [|destruct (G2 P)]. destruct P as (m' & e' & -> & P1 & P2).
    destruct (nearest_unique _ _ _ _ _ G1 P1) as [<- <-]. rewrite !Z.eqb_refl. reflexivity.
Qed.

Definition faithful (R : Z -> Z -> string) : Prop :=
  forall D j, 0 < D -> exists D' k, denotes (R D j) false D' k /\ (decimal D' k == decimal D j)%Q.

Lemma good_eq m e v w : (v == w)%Q -> good m e v -> good m e w.
Proof. intros E [H1 H2]. split; [eapply nearest_eq; eassumption|]. intros K. apply H2. apply (large_eq _ _ E). exact K. Qed.

Lemma faithful_reads R m e D j : faithful R -> 0 < D -> reads_as m e (R D j) = true <-> good m e (decimal D j).
Proof.
  intros HR HD. destruct (HR D j HD) as (D' & k & H & E). rewrite (reads_good _ _ _ _ _ H).
  split; apply good_eq; [exact E|symmetry; exact E].
Qed.

(** [shortest] with the rendering as a parameter. *)
Fixpoint search (R : Z -> Z -> string) (fuel : nat) (p m e : Z) : string :=
  match fuel with
  | O => exact_lit m e
  | S f' =>
    let num := fnum m e in
    let den := fden e in
    let j := dexp num den - p in
    let a := scaled_num num j in
    let b := scaled_den den j in
    let lo := a / b in
    let near := if rounds_up lo (a mod b) b then lo + 1 else lo in
    let other := if rounds_up lo (a mod b) b then lo else lo + 1 in
    if reads_as m e (R near j) then R near j
    else if reads_as m e (R other j) then R other j
    else search R f' (p + 1) m e
  end.

Lemma shortest_search f : forall p m e, shortest f p m e = search (render (fnum m e) (fden e)) f p m e.
Proof. induction f as [|f IH]; intros p m e; [reflexivity|]. cbn [shortest search]. rewrite IH. reflexivity. Qed.

(** What the search returns. *)
Definition found (m e : Z) (first : Z) (s : string) (R : Z -> Z -> string) : Prop :=
  exists p D, let X := double m e in let j := dexp (fnum m e) (fden e) - p in
  first <= p <= 17 /\ s = R D j /\ 10 ^ (p - 1) <= D <= 10 ^ p /\ good m e (decimal D j) /\
  (* nothing shorter *)
  (first < p -> forall D' k, 0 < D' < 10 ^ (p - 1) -> ~ good m e (decimal D' k)) /\
  (* nothing closer *)
  (forall D' k, 0 < D' < 10 ^ p -> good m e (decimal D' k) ->
     (Qabs (decimal D j - X) <= Qabs (decimal D' k - X))%Q /\
     ((Qabs (decimal D j - X) == Qabs (decimal D' k - X))%Q -> (decimal D' k == decimal D j)%Q \/
        (Z.even D = true /\ ((decimal D' k == decimal (D + 1) j)%Q \/ (decimal D' k == decimal (D - 1) j)%Q)))).

Lemma search_found R : faithful R -> forall f p m e, 0 < m -> canon (FFin false m e) = true -> 1 <= p -> (0 < f)%nat -> p + Z.of_nat f = 18 ->
  found m e p (search R f p m e) R.
Proof.
  intros HR. induction f as [|f IH]; intros p m e Hm HC Hp Hf0 Hf; [lia|]. cbn [search].
  destruct (candidates m e p Hm HC Hp) as (D1 & D2 & C1 & C2 & C3 & C4 & C5 & CB). 
  set (num := fnum m e) in *. set (den := fden e) in *. set (j := dexp num den - p) in *.
  set (lo := scaled_num num j / scaled_den den j) in *.
  set (up := rounds_up lo (scaled_num num j mod scaled_den den j) (scaled_den den j)) in *.
  set (X := double m e) in *.
  assert (Plo : 0 < lo) by (assert (0 < 10 ^ (p - 1)) by (apply Z.pow_pos_nonneg; lia); lia).
  pose proof (self_good m e HC) as GX. fold X in GX.
  assert (BT : forall D' k, 0 < D' < 10 ^ p -> (decimal D' k <= decimal lo j)%Q \/ (decimal (lo + 1) j <= decimal D' k)%Q).
  { intros D' k HD'. apply (no_between lo j p D' k Hp); [apply CB|exact HD']. }
  assert (AL : (Qabs (decimal lo j - X) == X - decimal lo j)%Q) by (rewrite Qabs_neg; [ring|lra]).
  assert (AH : (Qabs (decimal (lo + 1) j - X) == decimal (lo + 1) j - X)%Q) by (rewrite Qabs_pos; [ring|lra]).
  assert (VL : forall v, (v <= decimal lo j)%Q -> (Qabs (v - X) == X - v)%Q) by (intros v Hv; rewrite Qabs_neg; [ring|lra]).
  assert (VH : forall v, (decimal (lo + 1) j <= v)%Q -> (Qabs (v - X) == v - X)%Q) by (intros v Hv; rewrite Qabs_pos; [ring|lra]).
  (* the candidates as seen from the others *)
  assert (GL : forall v, (v <= decimal lo j)%Q -> good m e v -> good m e (decimal lo j)).
  { intros v Hv Gv. exact (good_between v _ X m e Gv GX Hv C1). }
  assert (GH : forall v, (decimal (lo + 1) j <= v)%Q -> good m e v -> good m e (decimal (lo + 1) j)).
  { intros v Hv Gv. exact (good_between X _ v m e GX Gv (Qlt_le_weak _ _ C2) Hv). }
  assert (UPL : 10 ^ (p - 1) <= lo + 1 <= 10 ^ p) by lia.
  destruct (reads_as m e (R (if up then lo + 1 else lo) j)) eqn:E1.
  { (* the nearer one *)
    assert (HG : good m e (decimal (if up then lo + 1 else lo) j)) by (apply (faithful_reads R); [exact HR|destruct up; lia|exact E1]).
    exists p, (if up then lo + 1 else lo). cbv zeta. fold num den j X.
    split; [lia|]. split; [reflexivity|]. split; [destruct up; lia|]. split; [exact HG|]. split; [lia|].
    intros D' k HD' GD'. destruct up.
    - specialize (C3 eq_refl). clear C4. destruct (BT D' k HD') as [B|B].
      + rewrite AH, (VL _ B). split; [lra|]. intros K. right.
        split; [apply C5; lra|]. right. replace (lo + 1 - 1) with lo by lia. lra.
      + rewrite AH, (VH _ B). split; [lra|]. intros K. left. lra.
    - specialize (C4 eq_refl). clear C3. destruct (BT D' k HD') as [B|B].
      + rewrite AL, (VL _ B). split; [lra|]. intros K. left. lra.
      + rewrite AL, (VH _ B). split; [lra|]. intros K. right.
        split; [apply C5; lra|]. left. lra. }
  assert (NG : ~ good m e (decimal (if up then lo + 1 else lo) j)).
  { intros K. apply (faithful_reads R) in K; [|exact HR|destruct up; lia]. rewrite K in E1. discriminate E1. }
  destruct (reads_as m e (R (if up then lo else lo + 1) j)) eqn:E2.
  { (* the other one *)
    assert (HG : good m e (decimal (if up then lo else lo + 1) j)) by (apply (faithful_reads R); [exact HR|destruct up; lia|exact E2]).
    exists p, (if up then lo else lo + 1). cbv zeta. fold num den j X.
    split; [lia|]. split; [reflexivity|]. split; [destruct up; lia|]. split; [exact HG|]. split; [lia|].
    intros D' k HD' GD'. destruct up.
    - destruct (BT D' k HD') as [B|B]; [|exfalso; exact (NG (GH _ B GD'))].
      rewrite AL, (VL _ B). split; [lra|]. intros K. left. lra.
    - destruct (BT D' k HD') as [B|B]; [exfalso; exact (NG (GL _ B GD'))|].
      rewrite AH, (VH _ B). split; [lra|]. intros K. left. lra. }
  assert (NO : ~ good m e (decimal (if up then lo else lo + 1) j)).
  { intros K. apply (faithful_reads R) in K; [|exact HR|destruct up; lia]. rewrite K in E2. discriminate E2. }
  assert (NA : forall D' k, 0 < D' < 10 ^ p -> ~ good m e (decimal D' k)).
  { intros D' k HD' GD'. destruct (BT D' k HD') as [B|B]; destruct up.
    - exact (NO (GL _ B GD')).
    - exact (NG (GL _ B GD')).
    - exact (NG (GH _ B GD')).
    - exact (NO (GH _ B GD')). }
  destruct f as [|f'].
  { (* seventeen digits suffice *)
    exfalso. assert (p = 17) as -> by lia. apply NG. apply close_good; [exact HC|exact Hm|]. fold X.
    assert (E0 : (decimal 1 (dexp num den - 1) == inject_Z (10 ^ 16) * decimal 1 j)%Q).
    { replace (dexp num den - 1) with (j + 16) by (unfold j; lia). rewrite <- decimal_shift by lia. rewrite Z.mul_1_l. unfold decimal. change (inject_Z 1) with 1%Q. ring. }
    rewrite E0 in D1.
    assert (E3 : (decimal (lo + 1) j == decimal lo j + decimal 1 j)%Q) by (unfold decimal; rewrite inject_Z_plus; ring).
    change (10 ^ 16) with 10000000000000000 in *. change (2 * 10000000000000000) with 20000000000000000.
    assert (D1' : ((10000000000000000 # 1) * decimal 1 j <= X)%Q) by exact D1.
    assert ((20000000000000000 # 1) * Qabs (decimal (if up then lo + 1 else lo) j - X) <= X)%Q; [|assumption].
    destruct up; [rewrite AH; specialize (C3 eq_refl)|rewrite AL; specialize (C4 eq_refl)]; lra. }
  destruct (IH (p + 1) m e Hm HC ltac:(lia) ltac:(lia) ltac:(lia)) as (p' & D & F1 & F2 & F3 & F4 & F5 & F6).
  exists p', D. cbv zeta. split; [lia|]. split; [exact F2|]. split; [exact F3|]. split; [exact F4|]. split; [|exact F6].
  intros _. destruct (Z.eq_dec p' (p + 1)) as [->|N]; [|exact (F5 ltac:(lia))].
  intros D' k HD'. apply NA. replace (p + 1 - 1) with p in HD' by lia. exact HD'.
Qed.
