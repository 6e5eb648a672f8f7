(** From scaled integers to rational numbers: the double read is the nearest one,
    there is only one nearest, and what lies between is read alike. *)
From Coq Require Import Arith ZifyBool ZifyNat ZifyN QArith Qabs Qpower Qfield Lqa.
From Verif Require Import GoBase Json Float64 Float64Proofs SpecJson SpecNumber FloatNear.
Open Scope string_scope.
Open Scope list_scope.
Local Open Scope Z_scope.

(** ** Powers *)

Lemma qpow_nat a n : 0 <= n -> (Qpower (inject_Z a) n == inject_Z (a ^ n))%Q.
Proof. intros H. symmetry. apply Zpower_Qpower. exact H. Qed.

Lemma inject_pos z : 0 < z -> (0 < inject_Z z)%Q.
Proof. intros H. change 0%Q with (inject_Z 0). rewrite <- Zlt_Qlt. exact H. Qed.

Lemma qpow_pos (a : Z) n : 0 < a -> (0 < Qpower (inject_Z a) n)%Q.
Proof. intros H. apply Qpower_0_lt, inject_pos, H. Qed.

Lemma qpow_plus (a : Z) n m : 0 < a -> (Qpower (inject_Z a) (n + m) == Qpower (inject_Z a) n * Qpower (inject_Z a) m)%Q.
Proof. intros H. apply Qpower_plus. intros K. pose proof (inject_pos a H) as P. rewrite K in P. revert P. apply Qlt_irrefl. Qed.

Lemma qpow_neg (a : Z) n : 0 < a -> (Qpower (inject_Z a) (- n) == / Qpower (inject_Z a) n)%Q.
Proof. intros H. apply Qpower_opp. Qed.

(** A double is its scaled integer over 2^1074. *)
Lemma double_sc m e : -1074 <= e -> (double m e == inject_Z (sc m e) / inject_Z (2 ^ 1074))%Q.
Proof.
  intros He. unfold double, sc. rewrite inject_Z_mult.
  change 2%Q with (inject_Z 2).
  assert (Qpower (inject_Z 2) e == inject_Z (2 ^ (e + 1074)) / inject_Z (2 ^ 1074))%Q as ->.
  { rewrite <- !qpow_nat by lia. rewrite (qpow_plus 2 e 1074) by lia.
    pose proof (qpow_pos 2 1074 ltac:(lia)) as P. set (x := Qpower (inject_Z 2) 1074) in *. clearbody x.
    set (y := Qpower (inject_Z 2) e). clearbody y. field. intros K. rewrite K in P. revert P. apply Qlt_irrefl. }
  set (K := inject_Z (2 ^ 1074)). assert (~ K == 0)%Q as HK.
  { unfold K. intros H. pose proof (inject_pos (2 ^ 1074) ltac:(apply Z.pow_pos_nonneg; lia)) as P. rewrite H in P. revert P. apply Qlt_irrefl. }
  clearbody K. field. exact HK.
Qed.

Lemma quotient_diff num den s : 0 < den ->
  (inject_Z num / inject_Z den - inject_Z s / inject_Z (2 ^ 1074) == (num * 2 ^ 1074 - s * den) # Z.to_pos (den * 2 ^ 1074))%Q.
Proof.
  intros Hd. assert (0 < 2 ^ 1074) as P by (apply Z.pow_pos_nonneg; lia). set (K := 2 ^ 1074) in *. clearbody K.
  rewrite Qmake_Qdiv. rewrite Z2Pos.id by nia. unfold Zminus. rewrite inject_Z_plus, inject_Z_opp, !inject_Z_mult.
  pose proof (inject_pos den Hd) as P1. pose proof (inject_pos K P) as P2.
  field. split; intros H; [rewrite H in P2|rewrite H in P1]; revert P1 P2; intros; (eapply Qlt_irrefl; eassumption).
Qed.

Lemma frac_le a b p : (Qabs (a # p) <= Qabs (b # p))%Q <-> Z.abs a <= Z.abs b.
Proof. unfold Qle. cbn. nia. Qed.
Lemma frac_eq a b p : (Qabs (a # p) == Qabs (b # p))%Q <-> Z.abs a = Z.abs b.
Proof. unfold Qeq. cbn. nia. Qed.

(** ** Only one double has its value *)

Lemma sc_inj m e m' e' : canon (FFin false m e) = true -> canon (FFin false m' e') = true -> sc m e = sc m' e' -> m = m' /\ e = e'.
Proof.
  intros H H' E. apply canon_cases in H as (A1 & A2 & A3), H' as (B1 & B2 & B3). unfold sc in E.
  change (2 ^ 53) with 9007199254740992 in *. change (2 ^ 52) with 4503599627370496 in *.
  assert (0 < 2 ^ (e + 1074)) as P by (apply Z.pow_pos_nonneg; lia).
  assert (0 < 2 ^ (e' + 1074)) as P' by (apply Z.pow_pos_nonneg; lia).
  assert (e < e' \/ e = e' \/ e' < e) as [L|[L|L]] by lia.
  - exfalso. assert (2 * 2 ^ (e + 1074) <= 2 ^ (e' + 1074)) as Q.
    { replace (2 * 2 ^ (e + 1074)) with (2 ^ (1 + (e + 1074))) by (rewrite (pow2_split 1) by lia; reflexivity). apply Z.pow_le_mono_r; lia. }
    nia.
  - subst e'. nia.
  - exfalso. assert (2 * 2 ^ (e' + 1074) <= 2 ^ (e + 1074)) as Q.
    { replace (2 * 2 ^ (e' + 1074)) with (2 ^ (1 + (e' + 1074))) by (rewrite (pow2_split 1) by lia; reflexivity). apply Z.pow_le_mono_r; lia. }
    nia.
Qed.

Lemma double_sc_le m e m' e' : -1074 <= e -> -1074 <= e' -> (double m e <= double m' e')%Q <-> sc m e <= sc m' e'.
Proof.
  intros H H'. rewrite !double_sc by assumption. pose proof (inject_pos (2 ^ 1074) ltac:(apply Z.pow_pos_nonneg; lia)) as P.
  set (K := inject_Z (2 ^ 1074)) in *. clearbody K. split; intros L.
  - rewrite Zle_Qle. assert (E : forall x, (x == x / K * K)%Q) by (intros x; field; intros Z; rewrite Z in P; revert P; apply Qlt_irrefl).
    rewrite (E (inject_Z (sc m e))), (E (inject_Z (sc m' e'))). apply Qmult_le_compat_r; [exact L|]. apply Qlt_le_weak, P.
  - rewrite Zle_Qle in L. unfold Qdiv. apply Qmult_le_compat_r; [exact L|]. apply Qlt_le_weak, Qinv_lt_0_compat, P.
Qed.

Lemma double_lt m e m' e' : -1074 <= e -> -1074 <= e' -> (double m e < double m' e')%Q <-> sc m e < sc m' e'.
Proof.
  intros H H'. pose proof (double_sc_le m' e' m e H' H) as K. split; intros L.
  - destruct (Z_lt_ge_dec (sc m e) (sc m' e')) as [|G]; [assumption|exfalso].
    apply (Qlt_not_le _ _ L). apply K. lia.
  - apply Qnot_le_lt. intros G. apply K in G. lia.
Qed.

Lemma double_eq m e m' e' : canon (FFin false m e) = true -> canon (FFin false m' e') = true -> (double m e == double m' e')%Q -> m = m' /\ e = e'.
Proof.
  intros H H' E. apply sc_inj; [assumption|assumption|].
  assert (-1074 <= e /\ -1074 <= e') as [A A'] by (apply canon_cases in H, H'; lia).
  apply Z.le_antisymm; apply double_sc_le; try assumption; rewrite E; apply Qle_refl.
Qed.

(** ** Which of two is nearer *)

Lemma nearer_lo (c x y : Q) : (x < y -> (Qabs (c - x) <= Qabs (c - y) <-> c + c <= x + y) /\ (Qabs (c - x) == Qabs (c - y) <-> c + c == x + y))%Q.
Proof.
  intros H. pattern (Qabs (c - x)). apply Qabs_case; intros A; pattern (Qabs (c - y)); apply Qabs_case; intros B; (split; split; intros; lra).
Qed.
Lemma nearer_hi (c x y : Q) : (y < x -> (Qabs (c - x) <= Qabs (c - y) <-> x + y <= c + c) /\ (Qabs (c - x) == Qabs (c - y) <-> c + c == x + y))%Q.
Proof.
  intros H. pattern (Qabs (c - x)). apply Qabs_case; intros A; pattern (Qabs (c - y)); apply Qabs_case; intros B; (split; split; intros; lra).
Qed.

(** ** Rounding *)

Lemma large_scaled num den : 0 < den ->
  too_large (inject_Z num / inject_Z den)%Q <-> (2 ^ 54 - 1) * 2 ^ (971 + 1074) * den <= 2 * (num * 2 ^ 1074).
Proof.
  intros Hd. unfold too_large. rewrite Qle_minus_iff. change (- double (2 ^ 54 - 1) 970)%Q with (- double (2 ^ 54 - 1) 970)%Q.
  assert (inject_Z num / inject_Z den + - double (2 ^ 54 - 1) 970 == inject_Z num / inject_Z den - inject_Z (sc (2 ^ 54 - 1) 970) / inject_Z (2 ^ 1074))%Q as ->
    by (rewrite double_sc by lia; reflexivity).
  rewrite quotient_diff by exact Hd. unfold sc. replace (971 + 1074) with (1 + (970 + 1074)) by lia. rewrite (pow2_split 1) by lia. change (2 ^ 1) with 2.
  set (x := 2 ^ (970 + 1074)). clearbody x. set (y := num * 2 ^ 1074). clearbody y. set (p := Z.to_pos (den * 2 ^ 1074)). clearbody p.
  set (z := 2 ^ 54 - 1). clearbody z. unfold Qle. cbn [Qnum Qden]. rewrite Z.mul_1_r. change (Qnum 0) with 0. rewrite Z.mul_0_l.
  assert (z * (2 * x) * den = 2 * (z * x * den)) as -> by ring. lia.
Qed.

Lemma round_nearest num den : 0 < num -> 0 < den ->
  match round_pos num den with
  | Some (m, e) => nearest (inject_Z num / inject_Z den)%Q m e /\ ~ too_large (inject_Z num / inject_Z den)%Q
  | None => too_large (inject_Z num / inject_Z den)%Q
  end.
Proof.
  intros Hn Hd. pose proof (round_best num den Hn Hd) as H. cbv zeta in H.
  destruct (round_pos num den) as [[m e]|].
  - destruct H as (HC & HL & HB). split; [|rewrite large_scaled by exact Hd; lia].
    split; [exact HC|]. intros m' e' HC'.
    assert (-1074 <= e /\ -1074 <= e') as [A A'] by (apply canon_cases in HC, HC'; lia).
    assert (D : (inject_Z num / inject_Z den - double m e == (num * 2 ^ 1074 - sc m e * den) # Z.to_pos (den * 2 ^ 1074))%Q)
      by (rewrite double_sc by lia; apply quotient_diff; exact Hd).
    assert (D' : (inject_Z num / inject_Z den - double m' e' == (num * 2 ^ 1074 - sc m' e' * den) # Z.to_pos (den * 2 ^ 1074))%Q)
      by (rewrite double_sc by lia; apply quotient_diff; exact Hd).
    rewrite D, D'. rewrite frac_le, frac_eq. destruct (HB m' e' HC') as [B1 B2]. split; [exact B1|].
    intros E. destruct (B2 E) as [S|S]; [left|right; exact S].
    apply sc_inj; assumption.
  - apply large_scaled; [exact Hd|]. exact H.
Qed.

(** ** Uniqueness *)

Definition next (m e : Z) : Z * Z := if m + 1 =? 2 ^ 53 then (2 ^ 52, e + 1) else (m + 1, e).
Lemma next_ok m e m' e' : canon (FFin false m e) = true -> canon (FFin false m' e') = true -> sc m e < sc m' e' ->
  canon (FFin false (fst (next m e)) (snd (next m e))) = true /\ sc (fst (next m e)) (snd (next m e)) = sc m e + 2 ^ (e + 1074) /\
  sc m e + 2 ^ (e + 1074) <= sc m' e'.
Proof.
  intros H H' L. pose proof H as H0. apply canon_cases in H as (A1 & A2 & A3), H' as (B1 & B2 & B3). unfold sc in *.
  change (2 ^ 53) with 9007199254740992 in *. change (2 ^ 52) with 4503599627370496 in *.
  assert (0 < 2 ^ (e + 1074)) as P by (apply Z.pow_pos_nonneg; lia).
  assert (0 < 2 ^ (e' + 1074)) as P' by (apply Z.pow_pos_nonneg; lia).
  assert (e <= e') as HE.
  { destruct (Z_le_gt_dec e e') as [|G]; [assumption|exfalso].
    assert (2 * 2 ^ (e' + 1074) <= 2 ^ (e + 1074)) as Q.
    { replace (2 * 2 ^ (e' + 1074)) with (2 ^ (1 + (e' + 1074))) by (rewrite (pow2_split 1) by lia; reflexivity). apply Z.pow_le_mono_r; lia. }
    destruct A3; [nia|lia]. }
  assert (m * 2 ^ (e + 1074) + 2 ^ (e + 1074) <= m' * 2 ^ (e' + 1074)) as HM.
  { replace (e' + 1074) with (e' - e + (e + 1074)) in * by lia. rewrite (pow2_split (e' - e)) in * by lia.
    assert (0 < 2 ^ (e' - e)) by (apply Z.pow_pos_nonneg; lia).
    assert (m < m' * 2 ^ (e' - e)) by nia. nia. }
  unfold next. change (2 ^ 53) with 9007199254740992. change (2 ^ 52) with 4503599627370496.
  destruct (m + 1 =? 9007199254740992) eqn:E; cbn [fst snd].
  - apply Z.eqb_eq in E. assert (e <> 971) as N971.
    { intros ->. assert (e' = 971) as -> by lia. nia. }
    split; [cbn [canon]; change (2 ^ 53) with 9007199254740992; change (2 ^ 52) with 4503599627370496; lia|].
    split; [|exact HM]. replace (e + 1 + 1074) with (1 + (e + 1074)) by lia. rewrite (pow2_split 1) by lia. change (2 ^ 1) with 2. nia.
  - apply Z.eqb_neq in E. split; [cbn [canon]; change (2 ^ 53) with 9007199254740992; change (2 ^ 52) with 4503599627370496; lia|].
    split; [|exact HM]. lia.
Qed.

Lemma nearest_lt v m e m' e' : nearest v m e -> nearest v m' e' -> sc m e < sc m' e' -> False.
Proof.
  intros [C H] [C' H'] L. destruct (next_ok m e m' e' C C' L) as (N1 & N2 & N3).
  set (m1 := fst (next m e)) in *. set (e1 := snd (next m e)) in *.
  assert (-1074 <= e /\ -1074 <= e') as [A A'] by (apply canon_cases in C, C'; lia).
  assert (-1074 <= e1) as A1 by (apply canon_cases in N1; lia).
  assert (0 < 2 ^ (e + 1074)) as P by (apply Z.pow_pos_nonneg; lia).
  assert (Q1 : (double m e < double m1 e1)%Q) by (apply double_lt; lia).
  assert (Q2 : (double m1 e1 <= double m' e')%Q) by (apply double_sc_le; lia).
  assert (Q3 : (double m e < double m' e')%Q) by (apply double_lt; lia).
  destruct (H m' e' C') as [K1 K2]. destruct (H' m e C) as [K1' K2'].
  destruct (H m1 e1 N1) as [J1 J2].
  destruct (nearer_lo v _ _ Q3) as [M1 M2]. destruct (nearer_lo v _ _ Q1) as [M3 M4]. destruct (nearer_hi v _ _ Q3) as [M5 M6].
  apply M1 in K1. apply M5 in K1'. apply M3 in J1.
  assert (EQ : (double m1 e1 == double m' e')%Q) by lra.
  destruct (double_eq _ _ _ _ N1 C' EQ) as [E1 E2].
  assert (Z.even m = true) as V.
  { destruct K2 as [[U1 U2]|U]; [apply M2; lra| |exact U]. exfalso. rewrite U1, U2 in Q3. exact (Qlt_irrefl _ Q3). }
  assert (Z.even m' = true) as V'.
  { destruct K2' as [[U1 U2]|U]; [apply M6; lra| |exact U]. exfalso. rewrite U1, U2 in Q3. exact (Qlt_irrefl _ Q3). }
  clear - V V' E1. subst m1. unfold next in E1. destruct (m + 1 =? 2 ^ 53) eqn:E; cbn [fst] in E1.
  - apply Z.eqb_eq in E. assert (m = 2 ^ 53 - 1) as -> by lia. discriminate V.
  - rewrite <- E1, Z.even_add, V in V'. discriminate V'.
Qed.

Lemma nearest_unique v m e m' e' : nearest v m e -> nearest v m' e' -> m = m' /\ e = e'.
Proof.
  intros H H'. assert (sc m e < sc m' e' \/ sc m e = sc m' e' \/ sc m' e' < sc m e) as [L|[L|L]] by lia.
  - exfalso. exact (nearest_lt _ _ _ _ _ H H' L).
  - apply sc_inj; [apply H|apply H'|exact L].
  - exfalso. exact (nearest_lt _ _ _ _ _ H' H L).
Qed.

(** What lies between two numbers with the same nearest double has it too. *)
Lemma nearest_between a b c m e : nearest a m e -> nearest c m e -> (a <= b)%Q -> (b <= c)%Q -> nearest b m e.
Proof.
  intros [C H] [_ H'] L1 L2. split; [exact C|]. intros m' e' C'.
  destruct (H m' e' C') as [A1 A2]. destruct (H' m' e' C') as [B1 B2].
  destruct (Q_dec (double m e) (double m' e')) as [[L|L]|L].
  - destruct (nearer_lo a _ _ L) as [M1 M2]. destruct (nearer_lo b _ _ L) as [M3 M4]. destruct (nearer_lo c _ _ L) as [M5 M6].
    apply M5 in B1. rewrite M3, M4. split; [lra|]. intros E. apply B2. apply M6. lra.
  - destruct (nearer_hi a _ _ L) as [M1 M2]. destruct (nearer_hi b _ _ L) as [M3 M4]. destruct (nearer_hi c _ _ L) as [M5 M6].
    apply M1 in A1. rewrite M3, M4. split; [lra|]. intros E. apply A2. apply M2. lra.
  - split; [rewrite L; apply Qle_refl|]. intros _. left. apply double_eq in L; [|assumption|assumption]. destruct L; split; congruence.
Qed.

(** A double is nearest to itself. *)
Lemma nearest_self m e : canon (FFin false m e) = true -> nearest (double m e) m e.
Proof.
  intros C. split; [exact C|]. intros m' e' C'.
  assert (Z0 : (double m e - double m e == 0)%Q) by ring. rewrite Z0. change (Qabs 0) with 0%Q.
  split; [apply Qabs_nonneg|]. intros E. left. symmetry in E. 
  assert ((double m e - double m' e' == 0)%Q) as E'.
  { revert E. set (d := (double m e - double m' e')%Q). clearbody d. apply (Qabs_case d (fun q => q == 0 -> d == 0)%Q); intros; lra. }
  assert (EQ : (double m e == double m' e')%Q) by lra. apply double_eq in EQ; [|assumption|assumption]. destruct EQ; split; congruence.
Qed.
