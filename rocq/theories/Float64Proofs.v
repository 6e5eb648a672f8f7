(** Facts about the float64 model. *)
From Coq Require Import Arith ZifyBool ZifyNat ZifyN.
From Verif Require Import GoBase Json JsonProofs JsonText Float64.
Ltac Zify.zify_post_hook ::= Z.div_mod_to_equations.
Local Open Scope Z_scope.

(** ** Decimal text *)

Lemma code_digit d : 0 <= d < 10 -> code (digit d) = Z.to_N (48 + d).
Proof. intros H. unfold digit. apply code_chr. lia. Qed.

Lemma dval_digit d : 0 <= d < 10 -> dval (digit d) = d.
Proof. intros H. unfold dval. rewrite code_digit by auto. lia. Qed.

Lemma is_digit_digit d : 0 <= d < 10 -> is_digit (digit d) = true.
Proof. intros H. apply between_spec. rewrite code_digit by auto. lia. Qed.

Lemma digits_val_app acc a b : digits_val acc (a +++ b) = digits_val (digits_val acc a) b.
Proof. revert acc. induction a as [|c a IH]; intros acc; cbn; [reflexivity|apply IH]. Qed.

Lemma dec_fuel_val f : forall n, 0 <= n -> n < 2 ^ Z.of_nat f ->
  digits_val 0 (dec_fuel f n) = n.
Proof.
  induction f as [|f IH]; intros n Hn Hl.
  - cbn in *. lia.
  - cbn [dec_fuel]. destruct (n <? 10) eqn:E.
    + cbn [digits_val str1]. rewrite dval_digit; lia.
    + rewrite digits_val_app, IH.
      * cbn [digits_val str1]. rewrite dval_digit by lia. lia.
      * lia.
      * rewrite Nat2Z.inj_succ, Z.pow_succ_r in Hl by lia. lia.
Qed.

Lemma dec_bound n : 0 <= n -> n < 2 ^ Z.of_nat (S (Z.to_nat (Z.log2 n))).
Proof.
  intros Hn. pose proof (Z.log2_nonneg n).
  rewrite Nat2Z.inj_succ, Z2Nat.id by lia.
  destruct (Z.eq_dec n 0) as [->|Hz]; [cbn; lia|].
  apply Z.log2_spec. lia.
Qed.

Lemma dec_val n : 0 <= n -> digits_val 0 (dec n) = n.
Proof. intros Hn. apply dec_fuel_val; [auto|]. now apply dec_bound. Qed.

Lemma dec_fuel_digits f : forall n, 0 <= n -> str_forall is_digit (dec_fuel f n) = true.
Proof.
  induction f as [|f IH]; intros n Hn; [reflexivity|]. cbn [dec_fuel].
  destruct (n <? 10) eqn:E.
  - cbn. rewrite is_digit_digit by lia. reflexivity.
  - rewrite str_forall_app, IH by lia. cbn. rewrite is_digit_digit by lia. reflexivity.
Qed.

Lemma dec_digits n : 0 <= n -> str_forall is_digit (dec n) = true.
Proof. apply dec_fuel_digits. Qed.

(** Any sufficient fuel gives the same text. *)
Lemma dec_fuel_enough f : forall g n, 0 <= n ->
  n < 2 ^ Z.of_nat (S f) -> n < 2 ^ Z.of_nat (S g) ->
  dec_fuel (S f) n = dec_fuel (S g) n.
Proof.
  induction f as [|f IH]; intros g n Hn Hf Hg.
  - cbn in Hf. cbn [dec_fuel]. destruct (n <? 10) eqn:E; [reflexivity|lia].
  - cbn [dec_fuel]. destruct (n <? 10) eqn:E; [reflexivity|].
    destruct g as [|g]; [change (2 ^ Z.of_nat 1) with 2 in Hg; lia|].
    f_equal. change (dec_fuel (S f) (n / 10) = dec_fuel (S g) (n / 10)).
    rewrite (Nat2Z.inj_succ (S f)), Z.pow_succ_r in Hf by lia.
    rewrite (Nat2Z.inj_succ (S g)), Z.pow_succ_r in Hg by lia. apply IH; lia.
Qed.

Lemma dec_unfold n : 0 <= n ->
  dec n = if n <? 10 then str1 (digit n) else dec (n / 10) +++ str1 (digit (n mod 10)).
Proof.
  intros Hn. pose proof (dec_bound n Hn) as B. unfold dec at 1.
  rewrite (dec_fuel_enough _ (S (Z.to_nat (Z.log2 n))) n); auto.
  2:{ rewrite Nat2Z.inj_succ, Z.pow_succ_r by lia. lia. }
  cbn [dec_fuel]. destruct (n <? 10) eqn:E; [reflexivity|]. f_equal.
  change (dec_fuel (S (Z.to_nat (Z.log2 n))) (n / 10) = dec (n / 10)).
  unfold dec. apply dec_fuel_enough; [lia| |].
  - eapply Z.le_lt_trans; [|exact B]. lia.
  - apply dec_bound. lia.
Qed.

Lemma dec_ne n : 0 <= n -> dec n <> EmptyString.
Proof.
  intros Hn H. rewrite dec_unfold in H by auto. destruct (n <? 10); [discriminate|].
  destruct (dec (n / 10)); discriminate.
Qed.


Lemma dec_ind (P : Z -> Prop) :
  (forall n, 0 <= n < 10 -> P n) ->
  (forall n, 10 <= n -> P (n / 10) -> P n) -> forall n, 0 <= n -> P n.
Proof.
  intros H1 H2 n Hn. revert Hn. pattern n. apply (well_founded_induction (Z.lt_wf 0)).
  intros x IH Hx. destruct (Z_lt_dec x 10) as [L|L]; [apply H1; lia|].
  apply H2; [lia|]. apply IH; lia.
Qed.

(** No leading zero. *)
Lemma dec_head n : 0 < n -> exists c r, dec n = String c r /\ is_digit c = true /\ Ascii.eqb c "0"%char = false.
Proof.
  intros Hn. assert (0 <= n) as Hn' by lia. revert Hn. pattern n. apply dec_ind; [| |exact Hn'].
  - intros x Hx Hp. rewrite dec_unfold by lia. destruct (x <? 10) eqn:E; [|lia].
    exists (digit x), EmptyString. split; [reflexivity|]. split; [apply is_digit_digit; lia|].
    destruct (Ascii.eqb_spec (digit x) "0"%char) as [H|H]; [|reflexivity].
    apply (f_equal dval) in H. rewrite dval_digit in H by lia. cbn in H. lia.
  - intros x Hx IH _. rewrite dec_unfold by lia. destruct (x <? 10) eqn:E; [lia|].
    destruct IH as (c & r & -> & Hc); [lia|]. eexists _, _. split; [reflexivity|exact Hc].
Qed.

Lemma span_digits_all s : str_forall is_digit s = true -> span_digits s = (s, EmptyString).
Proof.
  induction s as [|c s IH]; [reflexivity|]. cbn. rewrite andb_true_iff. intros [Hc Hs].
  rewrite Hc, IH by auto. reflexivity.
Qed.

Lemma dec_0 : dec 0 = "0"%string. Proof. reflexivity. Qed.

Lemma pint_dec n X : 0 <= n -> stop X = true \/ (exists c r, X = String c r /\ is_digit c = false) ->
  pint (dec n +++ X) = Some (dec n, X).
Proof.
  intros Hn HX. destruct (Z.eq_dec n 0) as [->|Hz].
  { rewrite dec_0. reflexivity. }
  destruct (dec_head n ltac:(lia)) as (c & r & E & Hc & H0).
  pose proof (dec_digits n Hn) as Hd. rewrite E in *. cbn [String.append pint].
  rewrite H0, Hc. cbn in Hd. apply andb_true_iff in Hd as [_ Hd].
  assert (span_digits (r +++ X) = (r, X)) as ->; [|reflexivity].
  apply span_digits_all in Hd.
  destruct HX as [HX|(x & r' & -> & Hx)].
  - exact (span_digits_app _ _ _ X Hd HX).
  - clear -Hd Hx. induction r as [|a r IH]; cbn in *; [now rewrite Hx|].
    destruct (is_digit a); [|discriminate]. destruct (span_digits r) as [d t] eqn:E.
    injection Hd as Hd1 Hd2. subst. rewrite IH; reflexivity.
Qed.

Lemma dec_nominus n X : 0 <= n -> exists c r, dec n +++ X = String c r /\ Ascii.eqb c "-"%char = false.
Proof.
  intros Hn. destruct (Z.eq_dec n 0) as [->|Hz].
  - rewrite dec_0. eexists _, _. split; reflexivity.
  - destruct (dec_head n ltac:(lia)) as (c & r & E & Hc & _). rewrite E.
    eexists _, _. split; [reflexivity|].
    destruct (Ascii.eqb_spec c "-"%char) as [->|]; [discriminate Hc|reflexivity].
Qed.

Lemma dec_is_num n : 0 <= n -> is_num (dec n) = true.
Proof.
  intros Hn. unfold is_num, pnum.
  destruct (dec_nominus n EmptyString Hn) as (c & r & E & Hc). rewrite sapp_nil_r in E.
  rewrite E, Hc, <- E. rewrite <- (sapp_nil_r (dec n)) at 1. rewrite pint_dec by auto. reflexivity.
Qed.

Lemma is_num_neg l c r : l = String c r -> Ascii.eqb c "-"%char = false -> is_num l = true ->
  is_num ("-" +++ l) = true.
Proof.
  intros -> Hc. unfold is_num, pnum. cbn [String.append]. rewrite Hc.
  change (Ascii.eqb "-" "-") with true. cbv iota.
  destruct (pint (String c r)) as [[i s2]|]; [|auto].
  destruct (pfrac s2) as [[f s3]|]; [|auto].
  destruct (pexp s3) as [[e' s4]|]; auto.
Qed.

Lemma dec_int_is_num n : is_num (dec_int n) = true.
Proof.
  unfold dec_int. destruct (n <? 0) eqn:E; [|apply dec_is_num; lia].
  destruct (dec_nominus (- n) EmptyString ltac:(lia)) as (c & r & E' & Hc). rewrite sapp_nil_r in E'.
  eapply is_num_neg; [exact E'|exact Hc|]. apply dec_is_num. lia.
Qed.

Lemma lit_parts_dec n : 0 <= n -> lit_parts (dec n) = Some (false, n, 0).
Proof.
  intros Hn. unfold lit_parts.
  destruct (dec_nominus n EmptyString Hn) as (c & r & E & Hc). rewrite sapp_nil_r in E.
  rewrite E, Hc, <- E. rewrite <- (sapp_nil_r (dec n)) at 1. rewrite pint_dec by auto.
  cbn [pfrac pexp drop1 String.length]. rewrite sapp_nil_r, dec_val by auto. reflexivity.
Qed.

Definition neg_parts (o : option (bool * Z * Z)) : option (bool * Z * Z) :=
  match o with Some (_, D, k) => Some (true, D, k) | None => None end.

Lemma lit_parts_neg l c r : l = String c r -> Ascii.eqb c "-"%char = false ->
  lit_parts ("-" +++ l) = neg_parts (lit_parts l).
Proof.
  intros -> Hc. unfold lit_parts. cbn [String.append]. rewrite Hc.
  change (Ascii.eqb "-" "-") with true. cbv iota.
  destruct (pint (String c r)) as [[i s2]|]; [|reflexivity].
  destruct (pfrac s2) as [[f s3]|]; [|reflexivity].
  destruct (pexp s3) as [[e' s4]|]; [|reflexivity]. destruct s4; reflexivity.
Qed.

Lemma lit_parts_exp n k : 0 <= n -> 0 <= k ->
  lit_parts (dec n +++ "e-" +++ dec k) = Some (false, n, - k).
Proof.
  intros Hn Hk. unfold lit_parts.
  destruct (dec_nominus n ("e-" +++ dec k) Hn) as (c & r & E & Hc).
  rewrite E, Hc, <- E. rewrite pint_dec.
  2:{ auto. }
  2:{ right. eexists _, _. split; reflexivity. }
  cbn [String.append pfrac]. change (Ascii.eqb "e" ".") with false. cbv iota.
  unfold pexp. change (Ascii.eqb "e" "e" || Ascii.eqb "e" "E") with true. cbv iota.
  change (Ascii.eqb "-" "+" || Ascii.eqb "-" "-") with true. cbv iota.
  rewrite span_digits_all by (apply dec_digits; auto).
  destruct (dec k) eqn:Ek; [exfalso; now apply (dec_ne k Hk)|]. rewrite <- Ek.
  cbn [drop1 String.append str1 String.length]. change (Ascii.eqb "-" "-") with true. cbv iota.
  rewrite sapp_nil_r, !dec_val by auto. do 2 f_equal. cbn. lia.
Qed.

Lemma exp_is_num n k : 0 <= n -> 0 <= k -> is_num (dec n +++ "e-" +++ dec k) = true.
Proof.
  intros Hn Hk. unfold is_num, pnum.
  destruct (dec_nominus n ("e-" +++ dec k) Hn) as (c & r & E & Hc).
  rewrite E, Hc, <- E. rewrite pint_dec.
  2:{ auto. }
  2:{ right. eexists _, _. split; reflexivity. }
  cbn [String.append pfrac]. change (Ascii.eqb "e" ".") with false. cbv iota.
  unfold pexp. change (Ascii.eqb "e" "e" || Ascii.eqb "e" "E") with true. cbv iota.
  change (Ascii.eqb "-" "+" || Ascii.eqb "-" "-") with true. cbv iota.
  rewrite span_digits_all by (apply dec_digits; auto).
  destruct (dec k) eqn:Ek; [exfalso; now apply (dec_ne k Hk)|]. reflexivity.
Qed.

(** strconv.ParseInt inverts strconv.AppendInt. *)
Lemma parse_int_dec_int bits n : - 2 ^ (bits - 1) <= n < 2 ^ (bits - 1) -> parse_int bits (dec_int n) = Some n.
Proof.
  intros H. unfold parse_int, dec_int. destruct (n <? 0) eqn:E.
  - cbn [String.append]. change (Ascii.eqb "-" "-") with true. cbv iota.
    rewrite dec_digits, dec_val by lia.
    destruct (String.eqb_spec (dec (- n)) EmptyString) as [X|_]; [exfalso; apply (dec_ne (- n)); auto; lia|].
    cbn [andb negb]. replace (- - n) with n by lia.
    destruct ((- 2 ^ (bits - 1) <=? n) && (n <? 2 ^ (bits - 1))) eqn:E2; [reflexivity|lia].
  - destruct (dec_nominus n EmptyString ltac:(lia)) as (c & r & E' & Hc). rewrite sapp_nil_r in E'.
    rewrite E', Hc, <- E'. rewrite dec_digits, dec_val by lia.
    destruct (String.eqb_spec (dec n) EmptyString) as [X|_]; [exfalso; apply (dec_ne n); auto; lia|].
    cbn [andb negb].
    destruct ((- 2 ^ (bits - 1) <=? n) && (n <? 2 ^ (bits - 1))) eqn:E2; [reflexivity|lia].
Qed.

(** ** Rounding *)

Lemma up_pos k : 0 < up k.
Proof. unfold up. apply Z.pow_pos_nonneg; lia. Qed.

(** [le2 num den L] : 2^L <= num/den, cross-multiplied. *)
Definition le2 (num den L : Z) : Prop := den * up L <= num * up (- L).

Lemma le2_scale num den L K : 0 <= K -> 0 <= L + K ->
  (le2 num den L <-> den * 2 ^ (L + K) <= num * 2 ^ K).
Proof.
  intros HK HL. unfold le2, up.
  destruct (Z_le_gt_dec 0 L) as [H|H].
  - rewrite (Z.max_l L 0), (Z.max_r (- L) 0) by lia. rewrite Z.pow_add_r by lia.
    assert (0 < 2 ^ K) by (apply Z.pow_pos_nonneg; lia). rewrite Z.mul_assoc. change (2 ^ 0) with 1.
    nia.
  - rewrite (Z.max_r L 0), (Z.max_l (- L) 0) by lia. change (2 ^ 0) with 1.
    replace K with ((L + K) + (- L)) at 2 by lia. rewrite (Z.pow_add_r 2 (L + K)) by lia.
    assert (0 < 2 ^ (L + K)) by (apply Z.pow_pos_nonneg; lia).
    assert (0 < 2 ^ (- L)) by (apply Z.pow_pos_nonneg; lia). nia.
Qed.

Lemma le2_mono num den L L' : 0 <= den -> L' <= L -> le2 num den L -> le2 num den L'.
Proof.
  intros Hd Hl H. set (K := Z.abs L + Z.abs L').
  rewrite (le2_scale num den L K) in H by lia. rewrite (le2_scale num den L' K) by lia.
  eapply Z.le_trans; [|exact H]. apply Z.mul_le_mono_nonneg_l; [lia|]. apply Z.pow_le_mono_r; lia.
Qed.

Lemma flog2_spec num den : 0 < num -> 0 < den ->
  le2 num den (flog2 num den) /\ ~ le2 num den (flog2 num den + 1).
Proof.
  intros Hn Hd.
  pose proof (Z.log2_spec num Hn) as [N1 N2]. pose proof (Z.log2_spec den Hd) as [D1 D2].
  pose proof (Z.log2_nonneg num) as L1. pose proof (Z.log2_nonneg den) as L2.
  set (l := Z.log2 num - Z.log2 den).
  assert (~ le2 num den (l + 1)) as A1.
  { rewrite (le2_scale _ _ (l + 1) (Z.log2 den)) by lia.
    replace (l + 1 + Z.log2 den) with (Z.succ (Z.log2 num)) by lia.
    intros H.
    assert (0 < 2 ^ Z.log2 den) by (apply Z.pow_pos_nonneg; lia).
    assert (0 < 2 ^ Z.succ (Z.log2 num)) by (apply Z.pow_pos_nonneg; lia). nia. }
  assert (le2 num den (l - 1)) as A2.
  { rewrite (le2_scale _ _ (l - 1) (Z.log2 den + 1)) by lia.
    replace (l - 1 + (Z.log2 den + 1)) with (Z.log2 num) by lia.
    replace (Z.log2 den + 1) with (Z.succ (Z.log2 den)) by lia.
    assert (0 < 2 ^ Z.log2 num) by (apply Z.pow_pos_nonneg; lia). nia. }
  unfold flog2. fold l.
  destruct (den * up l <=? num * up (- l)) eqn:E.
  - split; [unfold le2; lia|exact A1].
  - split; [exact A2|]. replace (l - 1 + 1) with l by lia. unfold le2. lia.
Qed.

Lemma flog2_unique num den L : 0 < num -> 0 < den ->
  le2 num den L -> ~ le2 num den (L + 1) -> flog2 num den = L.
Proof.
  intros Hn Hd H1 H2. destruct (flog2_spec num den Hn Hd) as [F1 F2].
  destruct (Z_lt_le_dec (flog2 num den) L) as [H|H].
  - exfalso. apply F2. eapply le2_mono; [|  |exact H1]; lia.
  - destruct (Z_lt_le_dec L (flog2 num den)) as [H'|H']; [|lia].
    exfalso. apply H2. eapply le2_mono; [| |exact F1]; lia.
Qed.

(** num/den = m * 2^e, cross-multiplied. *)
Definition is_val (num den m e : Z) : Prop := num * up (- e) = m * (den * up e).

Lemma is_val_scale num den m e K : 0 <= K -> 0 <= e + K -> is_val num den m e ->
  num * 2 ^ K = m * den * 2 ^ (e + K).
Proof.
  intros HK HL. unfold is_val, up. intros H.
  destruct (Z_le_gt_dec 0 e) as [H0|H0].
  - rewrite (Z.max_l e 0), (Z.max_r (- e) 0) in H by lia. change (2 ^ 0) with 1 in H.
    rewrite Z.pow_add_r by lia. nia.
  - rewrite (Z.max_r e 0), (Z.max_l (- e) 0) in H by lia. change (2 ^ 0) with 1 in H.
    replace K with ((e + K) + (- e)) at 1 by lia. rewrite (Z.pow_add_r 2 (e + K)) by lia. nia.
Qed.

Lemma round_exact num den m e : 0 < num -> 0 < den ->
  canon (FFin false m e) = true -> is_val num den m e -> round_pos num den = Some (m, e).
Proof.
  intros Hn Hd Hc Hv. unfold round_pos.
  assert (0 < m) as Hm.
  { unfold is_val in Hv. pose proof (up_pos (- e)). pose proof (up_pos e).
    assert (0 < den * up e) by nia. assert (0 < num * up (- e)) by nia. nia. }
  assert (Z.max (flog2 num den - 52) (-1074) = e) as He.
  { cbn [canon] in Hc.
    assert (-1074 <= e <= 971) as He by lia.
    set (K := 2000).
    pose proof (is_val_scale num den m e K ltac:(lia) ltac:(lia) Hv) as Hs.
    destruct (Z_le_gt_dec (2 ^ 52) m) as [Hbig|Hsmall].
    - assert (flog2 num den = e + 52) as ->; [|lia].
      apply flog2_unique; auto.
      + rewrite (le2_scale _ _ _ K) by lia. rewrite Hs.
        replace (e + 52 + K) with (52 + (e + K)) by lia. rewrite Z.pow_add_r by lia.
        assert (0 < 2 ^ (e + K)) by (apply Z.pow_pos_nonneg; lia). nia.
      + rewrite (le2_scale _ _ _ K) by lia. rewrite Hs.
        replace (e + 52 + 1 + K) with (53 + (e + K)) by lia. rewrite Z.pow_add_r by lia.
        assert (0 < 2 ^ (e + K)) by (apply Z.pow_pos_nonneg; lia). assert (m < 2 ^ 53) by lia. nia.
    - assert (e = -1074) as -> by lia.
      enough (flog2 num den < -1074 + 52) by lia.
      destruct (Z_lt_le_dec (flog2 num den) (-1074 + 52)) as [|H]; [auto|exfalso].
      destruct (flog2_spec num den Hn Hd) as [F1 _].
      apply (le2_mono _ _ _ (-1074 + 52)) in F1; [|lia|lia].
      rewrite (le2_scale _ _ _ K) in F1 by lia. rewrite Hs in F1.
      replace (-1074 + 52 + K) with (52 + (-1074 + K)) in F1 by lia. rewrite Z.pow_add_r in F1 by lia.
      assert (0 < 2 ^ (-1074 + K)) by (apply Z.pow_pos_nonneg; lia). nia. }
  rewrite He.
  pose proof (up_pos (- e)). pose proof (up_pos e).
  unfold is_val in Hv. rewrite Hv.
  assert (0 < den * up e) as Hb by nia.
  rewrite Z.div_mul, Z.mod_mul by lia.
  destruct (2 * 0 <? den * up e) eqn:E0; [|lia].
  cbn [canon] in Hc.
  destruct (m =? 2 ^ 53) eqn:E1; [lia|].
  destruct (971 <? e) eqn:E2; [lia|]. reflexivity.
Qed.

(** ** Formatting *)

Lemma exact_lit_ok m e : 0 < m -> canon (FFin false m e) = true -> reads_as m e (exact_lit m e) = true.
Proof.
  intros Hm Hc. unfold reads_as, exact_lit, parse_float.
  assert (-1074 <= e <= 971) as He by (cbn [canon] in Hc; lia).
  destruct (0 <=? e) eqn:E.
  - assert (0 < 2 ^ e) by (apply Z.pow_pos_nonneg; lia).
    rewrite dec_is_num, lit_parts_dec by nia.
    destruct (m * 2 ^ e =? 0) eqn:E0; [nia|].
    change (0 <=? 0) with true. cbv iota. change (10 ^ 0) with 1.
    rewrite (round_exact (m * 2 ^ e * 1) 1 m e); [|nia|lia|auto|].
    + rewrite !Z.eqb_refl. reflexivity.
    + unfold is_val, up. rewrite (Z.max_r (- e) 0), (Z.max_l e 0) by lia. change (2 ^ 0) with 1. lia.
  - assert (0 < 5 ^ (- e)) by (apply Z.pow_pos_nonneg; lia).
    assert (0 < 10 ^ (- e)) by (apply Z.pow_pos_nonneg; lia).
    rewrite exp_is_num, lit_parts_exp by nia.
    destruct (m * 5 ^ (- e) =? 0) eqn:E0; [nia|].
    destruct (0 <=? - - e) eqn:E1; [lia|].
    replace (- - - e) with (- e) by lia.
    rewrite (round_exact (m * 5 ^ (- e)) (10 ^ (- e)) m e); [|nia|lia|auto|].
    + rewrite !Z.eqb_refl. reflexivity.
    + unfold is_val, up. rewrite (Z.max_l (- e) 0), (Z.max_r e 0) by lia. change (2 ^ 0) with 1.
      change 10 with (5 * 2). rewrite Z.pow_mul_l. lia.
Qed.

Lemma shortest_ok f : forall p m e, 0 < m -> canon (FFin false m e) = true ->
  reads_as m e (shortest f p m e) = true.
Proof.
  induction f as [|f IH]; intros p m e Hm Hc; cbn [shortest].
  - now apply exact_lit_ok.
  - match goal with |- context [if reads_as m e ?x then _ else _] => destruct (reads_as m e x) eqn:E1 end; [exact E1|].
    match goal with |- context [if reads_as m e ?x then _ else _] => destruct (reads_as m e x) eqn:E2 end; [exact E2|].
    now apply IH.
Qed.

Lemma reads_as_spec m e l : reads_as m e l = true ->
  is_num l = true /\ parse_float l = Some (FFin false m e).
Proof.
  unfold reads_as. rewrite andb_true_iff. intros [H1 H2]. split; [exact H1|].
  destruct (parse_float l) as [[[] m' e'| |]|]; try discriminate.
  apply andb_true_iff in H2 as [A B]. repeat f_equal; lia.
Qed.

Lemma parse_float_neg l c r m e : l = String c r -> Ascii.eqb c "-"%char = false ->
  parse_float l = Some (FFin false m e) -> parse_float ("-" +++ l) = Some (FFin true m e).
Proof.
  intros E Hc. unfold parse_float. rewrite (lit_parts_neg l c r E Hc).
  destruct (lit_parts l) as [[[ng D] k]|]; [|discriminate]. cbn [neg_parts].
  destruct (D =? 0); [intros H; congruence|].
  destruct (round_pos _ _) as [[m' e']|]; [|discriminate]. intros H. congruence.
Qed.

Lemma nonneg_head l m e : parse_float l = Some (FFin false m e) ->
  exists c r, l = String c r /\ Ascii.eqb c "-"%char = false.
Proof.
  unfold parse_float, lit_parts. destruct l as [|c r]; [discriminate|].
  destruct (Ascii.eqb c "-"%char) eqn:E; [|eauto]. intros H. exfalso.
  destruct (pint r) as [[i s2]|]; [|discriminate].
  destruct (pfrac s2) as [[f s3]|]; [|discriminate].
  destruct (pexp s3) as [[e' [|? ?]]|]; [|discriminate|discriminate].
  destruct (_ =? 0); [discriminate|]. destruct (round_pos _ _) as [[? ?]|]; discriminate.
Qed.

(** Every finite canonical double survives being written and read. *)
Theorem fmt_parse x : canon x = true -> finite x = true ->
  exists s, fmt_float x = Some s /\ is_num s = true /\ parse_float s = Some x.
Proof.
  destruct x as [neg m e| |]; try discriminate. intros Hc _. cbn [fmt_float].
  eexists. split; [reflexivity|].
  assert (forall b, is_num b = true -> parse_float b = Some (FFin false m e) ->
     is_num (if neg then "-" +++ b else b) = true /\ parse_float (if neg then "-" +++ b else b) = Some (FFin neg m e)) as K.
  { intros b H1 H2. destruct neg; [|auto].
    destruct (nonneg_head _ _ _ H2) as (c & r & E & Hcc). split.
    - eapply is_num_neg; eauto.
    - eapply parse_float_neg; eauto. }
  destruct (m =? 0) eqn:E.
  - apply K; [reflexivity|]. cbn [canon] in Hc. assert (m = 0) as -> by lia.
    assert (e = -1074) as -> by lia. reflexivity.
  - assert (0 < m) as Hm by (cbn [canon] in Hc; lia).
    pose proof (shortest_ok 17 1 m e Hm Hc) as R. apply reads_as_spec in R as [R1 R2]. auto.
Qed.

(** What ParseFloat returns is canonical. *)
Lemma round_pos_canon num den m e neg : 0 < num -> 0 < den ->
  round_pos num den = Some (m, e) -> canon (FFin neg m e) = true.
Proof.
  intros Hn Hd. unfold round_pos.
  set (E := Z.max (flog2 num den - 52) (-1074)).
  pose proof (up_pos (- E)). pose proof (up_pos E).
  set (a := num * up (- E)). set (b := den * up E).
  assert (0 < b) as Hb by (unfold b; nia). assert (0 <= a) as Ha by (unfold a; nia).
  destruct (flog2_spec num den Hn Hd) as [F1 F2].
  (* a/b = (num/den) / 2^E *)
  assert (a < 2 ^ 53 * b) as Hup.
  { destruct (Z_lt_le_dec a (2 ^ 53 * b)) as [|Hge]; [auto|exfalso].
    apply F2. apply (le2_mono _ _ (E + 53)); [lia|lia|].
    set (K := Z.abs E + 100).
    rewrite (le2_scale _ _ _ K) by lia.
    assert (a * 2 ^ (K - Z.max (- E) 0) = num * 2 ^ K) as A1.
    { unfold a, up. rewrite <- Z.mul_assoc, <- Z.pow_add_r by lia. f_equal. f_equal. lia. }
    assert (b * 2 ^ (K - Z.max (- E) 0) = den * 2 ^ (E + K)) as A2.
    { unfold b, up. rewrite <- Z.mul_assoc, <- Z.pow_add_r by lia. f_equal. f_equal. lia. }
    replace (E + 53 + K) with (53 + (E + K)) by lia. rewrite Z.pow_add_r by lia.
    rewrite <- A1. replace (den * (2 ^ 53 * 2 ^ (E + K))) with (2 ^ 53 * (den * 2 ^ (E + K))) by lia.
    rewrite <- A2.
    assert (0 < 2 ^ (K - Z.max (- E) 0)) by (apply Z.pow_pos_nonneg; lia). nia. }
  assert (-1074 < E -> 2 ^ 52 * b <= a) as Hlo.
  { intros HE. assert (E = flog2 num den - 52) as HE' by lia.
    set (K := Z.abs E + 100).
    replace (flog2 num den) with (E + 52) in F1 by lia.
    rewrite (le2_scale _ _ _ K) in F1 by lia.
    assert (a * 2 ^ (K - Z.max (- E) 0) = num * 2 ^ K) as A1.
    { unfold a, up. rewrite <- Z.mul_assoc, <- Z.pow_add_r by lia. f_equal. f_equal. lia. }
    assert (b * 2 ^ (K - Z.max (- E) 0) = den * 2 ^ (E + K)) as A2.
    { unfold b, up. rewrite <- Z.mul_assoc, <- Z.pow_add_r by lia. f_equal. f_equal. lia. }
    replace (E + 52 + K) with (52 + (E + K)) in F1 by lia. rewrite Z.pow_add_r in F1 by lia.
    rewrite <- A1 in F1. replace (den * (2 ^ 52 * 2 ^ (E + K))) with (2 ^ 52 * (den * 2 ^ (E + K))) in F1 by lia.
    rewrite <- A2 in F1.
    assert (0 < 2 ^ (K - Z.max (- E) 0)) by (apply Z.pow_pos_nonneg; lia). nia. }
  assert (0 <= a / b < 2 ^ 53) as Hq.
  { split; [apply Z.div_pos; lia|]. apply Z.div_lt_upper_bound; lia. }
  assert (-1074 < E -> 2 ^ 52 <= a / b) as Hq2.
  { intros HE. apply Z.div_le_lower_bound; [lia|]. specialize (Hlo HE). lia. }
  set (q := a / b) in *. clearbody q.
  match goal with |- context [if ?x =? 2 ^ 53 then _ else _] => set (M := x) end.
  assert (q <= M <= q + 1) as HM.
  { unfold M. repeat match goal with |- context [if ?c then _ else _] => destruct c end; lia. }
  clearbody M. clear Hlo Hup F1 F2.
  destruct (M =? 2 ^ 53) eqn:E1.
  - destruct (971 <? E + 1) eqn:E2; [discriminate|]. intros X. injection X as <- <-. cbn [canon].
    change (2 ^ 53) with 9007199254740992 in *. change (2 ^ 52) with 4503599627370496 in *. lia.
  - destruct (971 <? E) eqn:E2; [discriminate|]. intros X. injection X as <- <-. cbn [canon].
    change (2 ^ 53) with 9007199254740992 in *. change (2 ^ 52) with 4503599627370496 in *. lia.
Qed.

Lemma digits_val_nonneg acc s : 0 <= acc -> str_forall is_digit s = true -> 0 <= digits_val acc s.
Proof.
  revert acc. induction s as [|c s IH]; intros acc Ha; [auto|]. cbn [digits_val str_forall]. rewrite andb_true_iff. intros [Hc Hs].
  apply IH; [|auto]. apply between_spec in Hc. unfold dval. lia.
Qed.

Lemma pint_digits s i t : pint s = Some (i, t) -> str_forall is_digit i = true.
Proof.
  destruct s as [|c s]; [discriminate|]. cbn.
  destruct (Ascii.eqb c "0"%char); [intros H; injection H as <- <-; reflexivity|].
  destruct (is_digit c) eqn:E; [|discriminate]. destruct (span_digits s) as [d t'] eqn:E'.
  intros H; injection H as <- <-. cbn. rewrite E. now apply span_digits_chars in E'.
Qed.

Lemma pfrac_digits s f t : pfrac s = Some (f, t) -> str_forall is_digit (drop1 f) = true.
Proof.
  destruct s as [|c s]; cbn; [intros H; injection H as <- <-; reflexivity|].
  destruct (Ascii.eqb c "."%char); [|intros H; injection H as <- <-; reflexivity].
  destruct (span_digits s) as [d t'] eqn:E'. destruct d; [discriminate|].
  intros H; injection H as <- <-. now apply span_digits_chars in E'.
Qed.

Lemma lit_parts_nonneg l ng D k : lit_parts l = Some (ng, D, k) -> 0 <= D.
Proof.
  unfold lit_parts.
  destruct (match l with
            | EmptyString => (false, l)
            | String c r => if Ascii.eqb c "-"%char then (true, r) else (false, l)
            end) as [n0 s1].
  destruct (pint s1) as [[i s2]|] eqn:E1; [|discriminate].
  destruct (pfrac s2) as [[f s3]|] eqn:E2; [|discriminate].
  destruct (pexp s3) as [[e' [|? ?]]|]; [|discriminate|discriminate].
  intros H. injection H as <- <- <-. apply digits_val_nonneg; [lia|].
  rewrite str_forall_app, (pint_digits _ _ _ E1), (pfrac_digits _ _ _ E2). reflexivity.
Qed.

Theorem parse_float_canon l x : parse_float l = Some x -> canon x = true /\ finite x = true.
Proof.
  unfold parse_float. destruct (lit_parts l) as [[[ng D] k]|] eqn:E; [|discriminate].
  apply lit_parts_nonneg in E.
  destruct (D =? 0) eqn:E0; [intros H; injection H as <-; split; reflexivity|].
  destruct (round_pos _ _) as [[m e]|] eqn:ER; [|discriminate]. intros H; injection H as <-.
  split; [|reflexivity]. eapply round_pos_canon; [| |exact ER].
  - destruct (0 <=? k) eqn:Ek; [|lia]. assert (0 < 10 ^ k) by (apply Z.pow_pos_nonneg; lia). nia.
  - destruct (0 <=? k) eqn:Ek; [lia|]. apply Z.pow_pos_nonneg; lia.
Qed.

(** ** Integers up to 2^53 *)

Lemma parse_float_dec n : 0 < n ->
  parse_float (dec n) = match round_pos n 1 with Some (m, e) => Some (FFin false m e) | None => None end.
Proof.
  intros Hn. unfold parse_float. rewrite lit_parts_dec by lia.
  destruct (n =? 0) eqn:E; [lia|]. change (0 <=? 0) with true. cbv iota.
  rewrite Z.mul_1_r. reflexivity.
Qed.

(** The canonical pair of an integer below 2^53. *)
Lemma round_small n : 0 < n < 2 ^ 53 -> exists m e, round_pos n 1 = Some (m, e) /\
  e <= 0 /\ m = n * 2 ^ (- e) /\ 0 < m /\ canon (FFin false m e) = true.
Proof.
  intros Hn. set (l := Z.log2 n).
  pose proof (Z.log2_spec n ltac:(lia)) as [L1 L2]. fold l in L1, L2.
  pose proof (Z.log2_nonneg n) as L0. fold l in L0.
  assert (l <= 52) as L3.
  { destruct (Z_le_gt_dec l 52); [auto|exfalso].
    assert (2 ^ 53 <= 2 ^ l) by (apply Z.pow_le_mono_r; lia). lia. }
  exists (n * 2 ^ (52 - l)), (l - 52).
  assert (0 < 2 ^ (52 - l)) as P by (apply Z.pow_pos_nonneg; lia).
  assert (canon (FFin false (n * 2 ^ (52 - l)) (l - 52)) = true) as C.
  { cbn [canon].
    assert (2 ^ 52 <= n * 2 ^ (52 - l)) as B1.
    { replace 52 with (l + (52 - l)) at 1 by lia. rewrite Z.pow_add_r by lia. nia. }
    assert (n * 2 ^ (52 - l) < 2 ^ 53) as B2.
    { replace 53 with (Z.succ l + (52 - l)) by lia. rewrite Z.pow_add_r by lia. nia. }
    lia. }
  split; [|split; [lia|split; [f_equal; f_equal; lia|split; [nia|exact C]]]].
  apply round_exact; [lia|lia|exact C|].
  unfold is_val, up. destruct (Z.eq_dec l 52) as [->|].
  - change (52 - 52) with 0. cbn. lia.
  - rewrite (Z.max_l (- (l - 52)) 0), (Z.max_r (l - 52) 0) by lia. change (2 ^ 0) with 1.
    replace (- (l - 52)) with (52 - l) by lia. lia.
Qed.

(** An integer above 2^53 is not read as a smaller double. *)
Lemma round_big n m e : 2 ^ 53 <= n -> round_pos n 1 = Some (m, e) -> 0 < e /\ 2 ^ 52 <= m.
Proof.
  intros Hn HR. pose proof HR as HC.
  apply (round_pos_canon n 1 m e false) in HC; [|lia|lia].
  assert (53 <= flog2 n 1) as HL.
  { unfold flog2. change (Z.log2 1) with 0. rewrite Z.sub_0_r.
    pose proof (Z.log2_spec n ltac:(lia)) as [L1 L2].
    assert (53 <= Z.log2 n).
    { destruct (Z_le_gt_dec 53 (Z.log2 n)); [auto|exfalso].
      assert (2 ^ Z.succ (Z.log2 n) <= 2 ^ 53) by (apply Z.pow_le_mono_r; lia). lia. }
    unfold up. rewrite (Z.max_l (Z.log2 n) 0), (Z.max_r (- Z.log2 n) 0) by lia. change (2 ^ 0) with 1.
    destruct (1 * 2 ^ Z.log2 n <=? n * 1) eqn:E; lia. }
  assert (0 < e) as He.
  { unfold round_pos in HR.
    set (E := Z.max (flog2 n 1 - 52) (-1074)) in *.
    match type of HR with context [if ?x =? 2 ^ 53 then _ else _] => set (M := x) in * end.
    destruct (M =? 2 ^ 53).
    - destruct (971 <? E + 1); [discriminate|]. injection HR as <- <-. lia.
    - destruct (971 <? E); [discriminate|]. injection HR as <- <-. lia. }
  split; [exact He|]. cbn [canon] in HC. lia.
Qed.

Lemma round_inj n N m e : 0 < n < 2 ^ 53 -> 0 < N ->
  round_pos n 1 = Some (m, e) -> round_pos N 1 = Some (m, e) -> N = n.
Proof.
  intros Hn HN H1 H2. destruct (round_small n Hn) as (m1 & e1 & R1 & A1 & A2 & A3 & A4).
  rewrite H1 in R1. injection R1 as <- <-.
  destruct (Z_lt_le_dec N (2 ^ 53)) as [HB|HB].
  - destruct (round_small N (conj HN HB)) as (m2 & e2 & R2 & B1 & B2 & B3 & B4).
    rewrite H2 in R2. injection R2 as <- <-.
    assert (0 < 2 ^ (- e)) by (apply Z.pow_pos_nonneg; lia). nia.
  - apply round_big in H2; [|exact HB]. lia.
Qed.

(** *** Rendering integers *)

Lemma zeros_val k : forall acc, digits_val acc (zeros k) = acc * 10 ^ Z.of_nat k.
Proof.
  induction k as [|k IH]; intros acc; cbn [zeros digits_val]; [cbn; lia|].
  rewrite IH. change (dval "0") with 0. rewrite Nat2Z.inj_succ, Z.pow_succ_r by lia. lia.
Qed.

Lemma zeros_snoc k : zeros k +++ "0" = zeros (S k).
Proof. induction k as [|k IH]; [reflexivity|]. cbn in *. now rewrite IH. Qed.

Lemma dec_zeros k : forall D, 0 < D -> dec D +++ zeros k = dec (D * 10 ^ Z.of_nat k).
Proof.
  induction k as [|k IH]; intros D HD.
  - cbn [zeros]. rewrite sapp_nil_r. change (10 ^ Z.of_nat 0) with 1. now rewrite Z.mul_1_r.
  - rewrite <- zeros_snoc, <- sapp_assoc, IH by auto.
    assert (0 < 10 ^ Z.of_nat k) by (apply Z.pow_pos_nonneg; lia).
    rewrite (dec_unfold (D * 10 ^ Z.of_nat (S k))) by (apply Z.mul_nonneg_nonneg; [lia|apply Z.pow_nonneg; lia]).
    rewrite Nat2Z.inj_succ, Z.pow_succ_r by lia.
    replace (D * (10 * 10 ^ Z.of_nat k)) with (D * 10 ^ Z.of_nat k * 10) by lia.
    rewrite Z.div_mul, Z.mod_mul by lia.
    destruct (D * 10 ^ Z.of_nat k * 10 <? 10) eqn:E; [nia|]. reflexivity.
Qed.

Lemma strip0_spec f : forall D j D' j', 0 < D -> 0 <= j -> strip0 f D j = (D', j') ->
  0 < D' /\ j <= j' /\ D' * 10 ^ j' = D * 10 ^ j.
Proof.
  induction f as [|f IH]; intros D j D' j' HD Hj; cbn [strip0].
  - intros H; injection H as <- <-. lia.
  - destruct ((D =? 0) || negb (D mod 10 =? 0)) eqn:E.
    + intros H; injection H as <- <-. lia.
    + intros H. apply IH in H as (A & B & C); [|lia|lia]. repeat split; try lia.
      rewrite C, Z.pow_add_r by lia. change (10 ^ 1) with 10. lia.
Qed.

Lemma render_int num den D j : use_e num den = false -> 0 < D -> 0 <= j ->
  render num den D j = dec (D * 10 ^ j).
Proof.
  intros Hu HD Hj. unfold render. destruct (strip0 20 D j) as [D' j'] eqn:E.
  apply strip0_spec in E as (A & B & C); [|auto|auto]. rewrite Hu, <- C.
  unfold render_f. pose proof (dec_ne D' ltac:(lia)) as Hne.
  assert (0 < Z.of_nat (String.length (dec D'))) as HL.
  { destruct (dec D'); [congruence|]. cbn [String.length]. lia. }
  destruct (Z.of_nat (String.length (dec D')) + j' <=? 0) eqn:E1; [lia|].
  destruct (Z.of_nat (String.length (dec D')) + j' <? Z.of_nat (String.length (dec D'))) eqn:E2; [lia|].
  rewrite dec_zeros by auto. rewrite Z2Nat.id by lia. reflexivity.
Qed.

(** Length of the decimal text. *)
Lemma dec_len n : 0 < n ->
  10 ^ (Z.of_nat (String.length (dec n)) - 1) <= n < 10 ^ Z.of_nat (String.length (dec n)).
Proof.
  intros Hn. assert (0 <= n) as Hn' by lia. revert Hn. pattern n. apply dec_ind; [| |exact Hn'].
  - intros x Hx Hp. rewrite dec_unfold by lia. destruct (x <? 10) eqn:E; [|lia].
    cbn [str1 String.length]. change (Z.of_nat 1) with 1. change (10 ^ (1 - 1)) with 1. change (10 ^ 1) with 10. lia.
  - intros x Hx IH _. rewrite dec_unfold by lia. destruct (x <? 10) eqn:E; [lia|].
    rewrite sapp_length. cbn [str1 String.length].
    specialize (IH ltac:(lia)). pose proof (dec_ne (x / 10) ltac:(lia)) as Hne.
    set (L := Z.of_nat (String.length (dec (x / 10)))) in *.
    assert (1 <= L) as HL.
    { unfold L. destruct (dec (x / 10)); [congruence|]. cbn [String.length]. lia. }
    replace (Z.of_nat (String.length (dec (x / 10)) + 1)) with (L + 1) by (unfold L; lia).
    replace (L + 1 - 1) with ((L - 1) + 1) by lia. rewrite !Z.pow_add_r by lia. change (10 ^ 1) with 10.
    lia.
Qed.

Lemma shortest_int f : forall p n m e,
  0 < n < 2 ^ 53 -> round_pos n 1 = Some (m, e) -> 1 <= p ->
  p <= Z.of_nat (String.length (dec n)) -> Z.of_nat (String.length (dec n)) < p + Z.of_nat f ->
  shortest f p m e = dec n.
Proof.
  induction f as [|f IH]; intros p n m e Hn HR Hp1 Hp2 Hf; [lia|].
  destruct (round_small n Hn) as (m1 & e1 & R1 & A1 & A2 & A3 & A4).
  rewrite HR in R1. injection R1 as <- <-.
  assert (0 < 2 ^ (- e)) as P2 by (apply Z.pow_pos_nonneg; lia).
  assert (fnum m e = m) as Fn.
  { unfold fnum, up. rewrite (Z.max_r e 0) by lia. change (2 ^ 0) with 1. lia. }
  assert (fden e = 2 ^ (- e)) as Fd.
  { unfold fden, up. rewrite (Z.max_l (- e) 0) by lia. reflexivity. }
  assert (dexp m (2 ^ (- e)) = Z.of_nat (String.length (dec n))) as Dx.
  { unfold dexp. destruct (2 ^ (- e) <=? m) eqn:E; [|nia].
    rewrite A2, Z.div_mul by lia. reflexivity. }
  assert (use_e m (2 ^ (- e)) = false) as Ue.
  { unfold use_e. change (10 ^ 21) with 1000000000000000000000.
    change (2 ^ 72) with 4722366482869645213696. change (2 ^ 53) with 9007199254740992 in Hn.
    rewrite A2. destruct (_ || _) eqn:E; [nia|reflexivity]. }
  cbn [shortest]. rewrite Fn, Fd, Dx.
  set (len := Z.of_nat (String.length (dec n))) in *.
  set (j := len - p). assert (j = len - p) as Hj by reflexivity. clearbody j.
  destruct (0 <=? j) eqn:Ej; [|lia].
  assert (0 < 10 ^ j) as P10 by (apply Z.pow_pos_nonneg; lia).
  (* a / b = n / 10^j *)
  assert (m / (2 ^ (- e) * 10 ^ j) = n / 10 ^ j) as Hdiv.
  { rewrite A2, (Z.mul_comm n). apply Z.div_mul_cancel_l; lia. }
  pose proof (dec_len n ltac:(lia)) as DL. fold len in DL.
  assert (0 < n / 10 ^ j) as Hlo.
  { apply Z.div_str_pos. split; [lia|]. eapply Z.le_trans; [|apply DL]. apply Z.pow_le_mono_r; lia. }
  rewrite Hdiv.
  set (lo := n / 10 ^ j) in *.
  (* any accepted candidate is n *)
  assert (forall D, 0 < D -> reads_as m e (render m (2 ^ (- e)) D j) = true ->
            render m (2 ^ (- e)) D j = dec n) as Hacc.
  { intros D HD Hr. rewrite render_int in * by (auto; lia).
    apply reads_as_spec in Hr as [_ Hr]. rewrite parse_float_dec in Hr by nia.
    destruct (round_pos (D * 10 ^ j) 1) as [[m' e']|] eqn:E'; [|discriminate]. injection Hr as -> ->.
    f_equal. eapply round_inj; eauto. nia. }
  set (cond := rounds_up lo (m mod (2 ^ (- e) * 10 ^ j)) (2 ^ (- e) * 10 ^ j)).
  match goal with |- context [if reads_as m e ?x then _ else _] => destruct (reads_as m e x) eqn:E1 end.
  { apply Hacc; [destruct cond; lia|exact E1]. }
  match goal with |- context [if reads_as m e ?x then _ else _] => destruct (reads_as m e x) eqn:E2 end.
  { apply Hacc; [destruct cond; lia|exact E2]. }
  (* p < len, otherwise the candidate is n itself *)
  destruct (Z.eq_dec p len) as [->|Hne].
  - exfalso. assert (j = 0) as Hj0 by lia.
    assert (cond = false) as Hcond.
    { unfold cond, rounds_up. rewrite Hj0. change (10 ^ 0) with 1. rewrite Z.mul_1_r, A2, Z.mod_mul by lia.
      apply orb_false_iff. split; [lia|]. apply andb_false_iff. left. lia. }
    rewrite Hcond in E1. unfold lo in E1. rewrite Hj0 in E1. change (10 ^ 0) with 1 in E1. rewrite Z.div_1_r in E1.
    rewrite render_int in E1 by (auto; lia). change (10 ^ 0) with 1 in E1. rewrite Z.mul_1_r in E1.
    unfold reads_as in E1. rewrite dec_is_num, parse_float_dec, HR in E1 by lia.
    rewrite !Z.eqb_refl in E1. discriminate.
  - apply (IH (p + 1)); auto; lia.
Qed.

Theorem fmt_int n : Z.abs n <= 2 ^ 53 -> exists x, f64_of_Z n = Some x /\ fmt_float x = Some (dec_int n).
Proof.
  intros Hn.
  assert (forall k, 0 <= k <= 2 ^ 53 -> exists m e, parse_float (dec k) = Some (FFin false m e) /\
            (if m =? 0 then "0"%string else shortest 17 1 m e) = dec k) as K.
  { intros k Hk. destruct (Z.eq_dec k 0) as [->|H0].
    { exists 0, (-1074). split; reflexivity. }
    destruct (Z.eq_dec k (2 ^ 53)) as [->|H53].
    { exists (2 ^ 52), 1. split; vm_compute; reflexivity. }
    destruct (round_small k ltac:(lia)) as (m & e & R & A1 & A2 & A3 & A4).
    exists m, e. rewrite parse_float_dec, R by lia. split; [reflexivity|].
    destruct (m =? 0) eqn:E; [lia|].
    pose proof (dec_len k ltac:(lia)) as DL. pose proof (dec_ne k ltac:(lia)) as Hne.
    set (L := Z.of_nat (String.length (dec k))) in *.
    assert (1 <= L) as HL1. { unfold L. destruct (dec k); [congruence|]. cbn [String.length]. lia. }
    apply (shortest_int 17 1 k m e); auto; fold L; try lia.
    destruct (Z_lt_le_dec L 17) as [|HL]; [lia|exfalso].
    assert (10 ^ 16 <= 10 ^ (L - 1)) as X by (apply Z.pow_le_mono_r; lia).
    change (10 ^ 16) with 10000000000000000 in X. change (2 ^ 53) with 9007199254740992 in Hk. lia. }
  unfold f64_of_Z, dec_int. destruct (n <? 0) eqn:E.
  - destruct (K (- n) ltac:(lia)) as (m & e & P & F).
    destruct (nonneg_head _ _ _ P) as (c & r & E1 & Hc).
    exists (FFin true m e). split; [eapply parse_float_neg; eauto|]. cbn [fmt_float]. now rewrite F.
  - destruct (K n ltac:(lia)) as (m & e & P & F).
    exists (FFin false m e). split; [exact P|]. cbn [fmt_float]. now rewrite F.
Qed.

(** Beyond 2^53 the value can change or become unreadable. *)
Example int_altered : exists x, f64_of_Z (2 ^ 53 + 1) = Some x /\ fmt_float x = Some (dec_int (2 ^ 53)).
Proof. exists (FFin false (2 ^ 52) 1). split; vm_compute; reflexivity. Qed.
Example int_rejected : exists x s, f64_of_Z (2 ^ 63 - 1) = Some x /\ fmt_float x = Some s /\ parse_int 64 s = None.
Proof.
  exists (FFin false (2 ^ 52) 11), "9223372036854776000"%string.
  split; [|split]; vm_compute; reflexivity.
Qed.
