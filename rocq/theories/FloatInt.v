(** Doubles with integer values. *)
From Coq Require Import ZifyBool.
From Verif Require Import GoBase Json Float64 Float64Proofs SpecSchema NumTotal.
Local Open Scope Z_scope.

Lemma canon_unique m e m' e' : 0 < m -> 0 < m' -> canon (FFin false m e) = true -> canon (FFin false m' e') = true ->
  m * 2 ^ (e + 1074) = m' * 2 ^ (e' + 1074) -> m = m' /\ e = e'.
Proof.
  intros Hm Hm' C C' Q. cbn [canon] in C, C'.
  assert (e = e').
  { destruct (Z.lt_trichotomy e' e) as [L|[L|L]]; [exfalso|congruence|exfalso].
    - replace (e + 1074) with ((e - e') + (e' + 1074)) in Q by lia.
      rewrite (Z.pow_add_r 2 (e - e')), Z.mul_assoc in Q by lia.
      apply Z.mul_reg_r in Q; [|apply Z.pow_nonzero; lia].
      assert (2 ^ 1 <= 2 ^ (e - e')) by (apply Z.pow_le_mono_r; lia). nia.
    - replace (e' + 1074) with ((e' - e) + (e + 1074)) in Q by lia.
      rewrite (Z.pow_add_r 2 (e' - e)), Z.mul_assoc in Q by lia.
      apply Z.mul_reg_r in Q; [|apply Z.pow_nonzero; lia].
      assert (2 ^ 1 <= 2 ^ (e' - e)) by (apply Z.pow_le_mono_r; lia). nia. }
  subst e'. apply Z.mul_reg_r in Q; [|apply Z.pow_nonzero; lia]. auto.
Qed.

(** The double of an integer up to 2^53, exactly. *)
Lemma f64_of_small k : 0 < k <= 2 ^ 53 -> exists m e, parse_float (dec k) = Some (FFin false m e) /\
  0 < m /\ canon (FFin false m e) = true /\ m * 2 ^ (e + 1074) = k * 2 ^ 1074.
Proof.
  intros Hk. destruct (Z.eq_dec k (2 ^ 53)) as [->|H53].
  { exists (2 ^ 52), 1. split; [vm_compute; reflexivity|]. split; [lia|]. split; [reflexivity|].
    rewrite <- !Z.pow_add_r by lia. reflexivity. }
  destruct (round_small k ltac:(lia)) as (m & e & R & A1 & A2 & A3 & A4).
  exists m, e. rewrite parse_float_dec, R by lia. split; [reflexivity|]. split; [exact A3|]. split; [exact A4|].
  assert (-1074 <= e) by (cbn [canon] in A4; lia).
  rewrite A2, <- Z.mul_assoc, <- Z.pow_add_r by lia. f_equal. f_equal. lia.
Qed.

Lemma toZ_scaled neg m e z : 0 <= m -> -1074 <= e -> f64_toZ (FFin neg m e) = Some z ->
  (if neg then - m else m) * 2 ^ (e + 1074) = z * 2 ^ 1074.
Proof.
  intros Hm He. cbn [f64_toZ]. set (n := if neg then - m else m).
  destruct (0 <=? e) eqn:E.
  - intros H. assert (z = n * 2 ^ e) as -> by congruence. rewrite <- Z.mul_assoc, <- Z.pow_add_r by lia. reflexivity.
  - destruct (n mod 2 ^ (- e) =? 0) eqn:E2; [|discriminate]. intros H. assert (z = n / 2 ^ (- e)) as -> by congruence.
    assert (n = 2 ^ (- e) * (n / 2 ^ (- e))) as X.
    { apply Z_div_exact_full_2; [apply Z.pow_nonzero; lia|lia]. }
    rewrite X at 1. rewrite (Z.mul_comm (2 ^ (- e))), <- Z.mul_assoc, <- Z.pow_add_r by lia. f_equal. f_equal. lia.
Qed.

Theorem fmt_integral x z : canon x = true -> f64_toZ x = Some z -> Z.abs z <= 2 ^ 53 ->
  exists s, fmt_float x = Some s /\ forall b, - 2 ^ (b - 1) <= z < 2 ^ (b - 1) -> parse_int b s = Some z.
Proof.
  intros HC HZ HB. destruct x as [neg m e| |]; try discriminate.
  assert (Hm : 0 <= m /\ -1074 <= e) by (cbn [canon] in HC; lia). destruct Hm as [Hm He].
  pose proof (toZ_scaled neg m e z Hm He HZ) as HS.
  assert (P : 0 < 2 ^ (e + 1074)) by (apply Z.pow_pos_nonneg; lia).
  assert (P' : 0 < 2 ^ 1074) by (apply Z.pow_pos_nonneg; lia).
  destruct (Z.eq_dec m 0) as [->|Hm0].
  { assert (z = 0). { assert (z * 2 ^ 1074 = 0) by (rewrite <- HS; destruct neg; reflexivity). nia. } subst z.
    exists (if neg then "-0" else "0")%string. split; [destruct neg; reflexivity|]. intros b Hb. unfold parse_int.
    assert (Y : (if (- 2 ^ (b - 1) <=? 0) && (0 <? 2 ^ (b - 1)) then Some 0 else None) = Some 0).
    { destruct ((- 2 ^ (b - 1) <=? 0) && (0 <? 2 ^ (b - 1))) eqn:E; [reflexivity|lia]. }
    destruct neg.
    - change (Ascii.eqb "-" "-") with true. cbv iota.
      change (str_forall is_digit "0" && negb (String.eqb "0" EmptyString))%string with true. cbv iota.
      change (- digits_val 0 "0") with 0. exact Y.
    - change (Ascii.eqb "0" "-") with false. cbv iota.
      change (str_forall is_digit "0" && negb (String.eqb "0" EmptyString))%string with true. cbv iota.
      change (digits_val 0 "0") with 0. exact Y. }
  destruct (fmt_int z HB) as (x' & E1 & E2). exists (dec_int z). split.
  - rewrite <- E2. f_equal. f_equal.
    unfold f64_of_Z, dec_int in E1. destruct neg.
    + assert (Hz : 0 < - z) by nia. destruct (z <? 0) eqn:Ez; [|lia].
      destruct (f64_of_small (- z) ltac:(lia)) as (m' & e' & F1 & F2 & F3 & F4).
      destruct (nonneg_head _ _ _ F1) as (c & r & N1 & N2).
      pose proof (parse_float_neg _ _ _ _ _ N1 N2 F1) as F5. rewrite F5 in E1. injection E1 as <-.
      destruct (canon_unique m e m' e') as [-> ->]; try assumption; try lia; [reflexivity].
    + assert (Hz : 0 < z) by nia. destruct (z <? 0) eqn:Ez; [lia|].
      destruct (f64_of_small z ltac:(lia)) as (m' & e' & F1 & F2 & F3 & F4).
      rewrite F1 in E1. injection E1 as <-.
      destruct (canon_unique m e m' e') as [-> ->]; try assumption; try lia; [reflexivity].
  - intros b Hb. apply parse_int_dec_int. exact Hb.
Qed.

Lemma lit_parts_neg n : 0 <= n -> lit_parts (String "-"%char (dec n)) = Some (true, n, 0).
Proof.
  intros Hn. unfold lit_parts. change (Ascii.eqb "-" "-") with true. cbv iota beta zeta.
  rewrite <- (sapp_nil_r (dec n)) at 1. rewrite pint_dec by auto.
  cbn [pfrac pexp drop1 String.length]. rewrite sapp_nil_r, dec_val by auto. reflexivity.
Qed.

(** Integers stay integers. *)
Theorem int_integral z x : parse_float (dec_int z) = Some x -> f64_toZ x <> None.
Proof.
  assert (K : forall k m e, 0 < k -> parse_float (dec k) = Some (FFin false m e) -> 0 <= e \/ m mod 2 ^ (- e) = 0).
  { intros k m e Hk H. rewrite parse_float_dec in H by lia. destruct (round_pos k 1) as [[m' e']|] eqn:R; [|discriminate].
    injection H as -> ->. destruct (Z_lt_le_dec k (2 ^ 53)) as [L|L].
    - destruct (round_small k ltac:(lia)) as (m' & e' & R' & A1 & A2 & _). rewrite R in R'. injection R' as <- <-.
      right. rewrite A2. apply Z_mod_mult.
    - left. pose proof (round_big k m e L R). lia. }
  intros H. unfold dec_int in H. destruct (z <? 0) eqn:E.
  - assert (exists m e, parse_float (dec (- z)) = Some (FFin false m e)) as (m & e & F1).
    { rewrite parse_float_dec by lia. destruct (round_pos (- z) 1) as [[m e]|] eqn:R; [eauto|exfalso].
      revert H. change ("-" +++ dec (- z))%string with (String "-"%char (dec (- z))). unfold parse_float.
      rewrite lit_parts_neg by lia. destruct (- z =? 0) eqn:Z0; [lia|]. change (0 <=? 0) with true. cbv iota.
      rewrite Z.pow_0_r, Z.mul_1_r, R. discriminate. }
    destruct (nonneg_head _ _ _ F1) as (c & r & N1 & N2).
    pose proof (parse_float_neg _ _ _ _ _ N1 N2 F1) as F5. rewrite F5 in H. injection H as <-.
    cbn [f64_toZ]. destruct (K (- z) m e ltac:(lia) F1) as [L|L].
    + destruct (0 <=? e) eqn:?; [discriminate|lia].
    + destruct (0 <=? e) eqn:Ee; [discriminate|]. rewrite (Z_mod_zero_opp_full _ _ L). discriminate.
  - destruct (Z.eq_dec z 0) as [->|H0]; [vm_compute in H; injection H as <-; vm_compute; discriminate|].
    pose proof H as H'. rewrite parse_float_dec in H' by lia. destruct (round_pos z 1) as [[m e]|]; [|discriminate]. injection H' as <-.
    cbn [f64_toZ]. destruct (K z m e ltac:(lia) H) as [L|L].
    + destruct (0 <=? e) eqn:?; [discriminate|lia].
    + destruct (0 <=? e) eqn:Ee; [discriminate|]. rewrite L. discriminate.
Qed.

(** A literal without fraction and exponent stands for an integral double. *)
Lemma digits_integral neg D x : 0 <= D ->
  (if D =? 0 then Some (FFin neg 0 (-1074))
   else match round_pos D 1 with Some (m, e) => Some (FFin neg m e) | None => None end) = Some x ->
  f64_toZ x <> None.
Proof.
  intros HD H. destruct (D =? 0) eqn:E0.
  { assert (x = FFin neg 0 (-1074)) as -> by congruence. destruct neg; vm_compute; discriminate. }
  destruct (round_pos D 1) as [[m e]|] eqn:R; [|discriminate]. assert (x = FFin neg m e) as -> by congruence.
  assert (K : 0 <= e \/ m mod 2 ^ (- e) = 0).
  { destruct (Z_lt_le_dec D (2 ^ 53)) as [L|L].
    - destruct (round_small D ltac:(lia)) as (m' & e' & R' & A1 & A2 & _). rewrite R in R'.
      assert (m' = m /\ e' = e) as [-> ->] by (split; congruence). right. rewrite A2. apply Z_mod_mult.
    - left. pose proof (round_big D m e L R). lia. }
  cbn [f64_toZ]. destruct (0 <=? e) eqn:Ee; [discriminate|]. destruct K as [K|K]; [lia|].
  destruct neg; [rewrite (Z_mod_zero_opp_full _ _ K)|rewrite K]; discriminate.
Qed.

Lemma digit_not_sym c : is_digit c = true -> Ascii.eqb c "."%char = false /\ Ascii.eqb c "e"%char = false /\ Ascii.eqb c "E"%char = false.
Proof.
  intros H. repeat split; (destruct (Ascii.eqb_spec c "."%char) as [->|]; [discriminate|]);
    try reflexivity; match goal with |- Ascii.eqb c ?x = false => destruct (Ascii.eqb_spec c x) as [->|]; [discriminate|reflexivity] end.
Qed.

Lemma digits_parts s : str_forall is_digit s = true -> forall i s2, pint s = Some (i, s2) -> str_forall is_digit s2 = true.
Proof.
  assert (SP : forall r d t, str_forall is_digit r = true -> span_digits r = (d, t) -> str_forall is_digit t = true).
  { induction r as [|c r IH]; intros d t H E; cbn [span_digits] in E; [injection E as <- <-; reflexivity|].
    cbn [str_forall] in H. apply andb_true_iff in H. destruct H as [H1 H2]. rewrite H1 in E.
    destruct (span_digits r) as [d' t'] eqn:Es. injection E as <- <-. eapply IH; eauto. }
  destruct s as [|c r]; [discriminate|]. cbn [str_forall pint]. intros H i s2. apply andb_true_iff in H. destruct H as [H1 H2].
  destruct (Ascii.eqb c "0"%char). { intros E. injection E as <- <-. exact H2. }
  rewrite H1. destruct (span_digits r) as [d t] eqn:Es. intros E. injection E as <- <-. eapply SP; eauto.
Qed.

Theorem parse_int_integral b s z x : parse_int b s = Some z -> parse_float s = Some x -> f64_toZ x <> None.
Proof.
  intros HI HF. unfold parse_float in HF. destruct (lit_parts s) as [[[neg D] k]|] eqn:EL; [|discriminate].
  pose proof (lit_parts_nonneg _ _ _ _ EL) as HD.
  assert (k = 0) as ->.
  { unfold lit_parts, parse_int in *.
    assert (X : forall s1 (n1 n2 : bool),
      match pint s1 with
      | None => None
      | Some (i, s2) => match pfrac s2 with
        | None => None
        | Some (f, s3) => match pexp s3 with
          | Some (e, EmptyString) => let fr := drop1 f in
            let ex := match drop1 e with
              | String c r => if Ascii.eqb c "-"%char then - digits_val 0 r else if Ascii.eqb c "+"%char then digits_val 0 r else digits_val 0 (String c r)
              | EmptyString => 0 end in
            Some (n1, digits_val 0 (i +++ fr)%string, ex - Z.of_nat (String.length fr))
          | _ => None end end end = Some (neg, D, k) -> str_forall is_digit s1 = true -> k = 0).
    { intros s1 n1 n2 H HD1. destruct (pint s1) as [[i s2]|] eqn:EP; [|discriminate].
      pose proof (digits_parts s1 HD1 i s2 EP) as H2. destruct s2 as [|c r].
      - cbn [pfrac pexp drop1 String.length] in H. cbv zeta in H. injection H as _ _ H. lia.
      - cbn [str_forall] in H2. apply andb_true_iff in H2. destruct H2 as [H2 _]. destruct (digit_not_sym c H2) as (D1 & D2 & D3).
        cbn [pfrac] in H. rewrite D1 in H. cbn [pexp] in H. rewrite D2, D3 in H. cbn [orb] in H. discriminate. }
    destruct s as [|c r]; [discriminate|]. destruct (Ascii.eqb c "-"%char).
    - destruct (str_forall is_digit r) eqn:ED; [|discriminate]. eapply (X r true true); eauto.
    - destruct (str_forall is_digit (String c r)) eqn:ED; [|discriminate]. eapply (X (String c r) false true); eauto. }
  change (0 <=? 0) with true in HF. cbv iota in HF. rewrite Z.pow_0_r, Z.mul_1_r in HF.
  eapply digits_integral; eauto.
Qed.
