(** The doubles read are the nearest ones. *)
From Coq Require Import Arith ZifyBool ZifyNat ZifyN QArith Qabs Qpower Qfield.
From Verif Require Import GoBase Json Float64 Float64Proofs SpecJson SpecNumber.
Open Scope string_scope.
Open Scope list_scope.
Local Open Scope Z_scope.

(** ** Rounding a quotient to an integer *)

Definition rne (N B : Z) : Z :=
  let q := N / B in let r := N mod B in
  if 2 * r <? B then q else if B <? 2 * r then q + 1 else if Z.even q then q else q + 1.

Lemma rne_scale N B k : 0 < B -> 0 < k -> rne (N * k) (B * k) = rne N B.
Proof.
  intros HB Hk. unfold rne. rewrite Z.div_mul_cancel_r, Z.mul_mod_distr_r by lia.
  pose proof (Z.mod_pos_bound N B HB) as HR. set (r := N mod B) in *.
  assert ((2 * (r * k) <? B * k) = (2 * r <? B)) as -> by (destruct (2 * r <? B) eqn:E; [apply Z.ltb_lt|apply Z.ltb_ge]; nia).
  assert ((B * k <? 2 * (r * k)) = (B <? 2 * r)) as -> by (destruct (B <? 2 * r) eqn:E; [apply Z.ltb_lt|apply Z.ltb_ge]; nia).
  reflexivity.
Qed.

Lemma rne_best N B t : 0 < B ->
  Z.abs (N - rne N B * B) <= Z.abs (N - t * B) /\
  (Z.abs (N - rne N B * B) = Z.abs (N - t * B) -> t = rne N B \/ Z.even (rne N B) = true).
Proof.
  intros HB. pose proof (Z.div_mod N B ltac:(lia)) as HD. pose proof (Z.mod_pos_bound N B HB) as HR.
  unfold rne. set (q := N / B) in *. set (r := N mod B) in *. clearbody q r. subst N.
  assert (forall u, B * q + r - u * B = (q - u) * B + r) as X by (intros; ring).
  assert (t <= q \/ q + 1 <= t) as [Ht|Ht] by lia.
  - assert (0 <= (q - t) * B) as H0 by nia. assert (t < q -> B <= (q - t) * B) as H1 by nia.
    destruct (2 * r <? B) eqn:E1.
    { rewrite !X. split; [lia|]. intros H. left. destruct (Z.eq_dec t q) as [|N]; [assumption|]. specialize (H1 ltac:(lia)). lia. }
    destruct (B <? 2 * r) eqn:E2.
    { rewrite !X. replace (q - (q + 1)) with (-1) by lia. split; [lia|]. intros H. exfalso. lia. }
    destruct (Z.even q) eqn:E3.
    { rewrite !X. split; [lia|]. auto. }
    { rewrite !X. replace (q - (q + 1)) with (-1) by lia. split; [lia|]. intros _. right.
      rewrite Z.even_add, E3. reflexivity. }
  - assert ((q - t) * B <= - B) as H0 by nia. assert (q + 1 < t -> (q - t) * B <= - 2 * B) as H1 by nia.
    destruct (2 * r <? B) eqn:E1.
    { rewrite !X. split; [lia|]. intros H. exfalso. lia. }
    destruct (B <? 2 * r) eqn:E2.
    { rewrite !X. replace (q - (q + 1)) with (-1) by lia. split; [lia|]. intros H. left. destruct (Z.eq_dec t (q + 1)) as [|N]; [assumption|]. specialize (H1 ltac:(lia)). lia. }
    destruct (Z.even q) eqn:E3.
    { rewrite !X. split; [lia|]. auto. }
    { rewrite !X. replace (q - (q + 1)) with (-1) by lia. split; [lia|]. intros _. right.
      rewrite Z.even_add, E3. reflexivity. }
Qed.

Lemma rne_half N B : 0 < B -> 2 * Z.abs (N - rne N B * B) <= B /\ (2 * Z.abs (N - rne N B * B) = B -> Z.even (rne N B) = true).
Proof.
  intros HB. pose proof (Z.div_mod N B ltac:(lia)) as HD. pose proof (Z.mod_pos_bound N B HB) as HR.
  unfold rne. set (q := N / B) in *. set (r := N mod B) in *. clearbody q r. subst N.
  assert (forall u, B * q + r - u * B = (q - u) * B + r) as X by (intros; ring).
  destruct (2 * r <? B) eqn:E1; [rewrite X; lia|].
  destruct (B <? 2 * r) eqn:E2; [rewrite X; replace (q - (q + 1)) with (-1) by lia; lia|].
  destruct (Z.even q) eqn:E3; rewrite X; [split; [lia|auto]|].
  replace (q - (q + 1)) with (-1) by lia. split; [lia|]. intros _. rewrite Z.even_add, E3. reflexivity.
Qed.

(** ** [round_pos] with all doubles scaled to integers *)

Definition finish (m E : Z) : option (Z * Z) :=
  let '(m', e') := if m =? 2 ^ 53 then (2 ^ 52, E - 1074 + 1) else (m, E - 1074) in
  if 971 <? e' then None else Some (m', e').

Lemma round_rne num den : 0 < num -> 0 < den ->
  exists E, 0 <= E /\ num * 2 ^ 1074 < den * 2 ^ (E + 53) /\ (E = 0 \/ den * 2 ^ (E + 52) <= num * 2 ^ 1074) /\
    round_pos num den = finish (rne (num * 2 ^ 1074) (den * 2 ^ E)) E.
Proof.
  intros Hn Hd. destruct (flog2_spec num den Hn Hd) as [F1 F2].
  set (L := flog2 num den) in *. set (e := Z.max (L - 52) (-1074)). exists (e + 1074).
  assert (0 <= e + 1074) as HE by lia. split; [exact HE|].
  split.
  { assert (~ le2 num den (e + 53)) as K.
    { intros K. apply F2. eapply le2_mono; [| |exact K]; lia. }
    rewrite (le2_scale _ _ _ 1074) in K by lia. replace (e + 1074 + 53) with (e + 53 + 1074) by lia. lia. }
  split.
  { destruct (Z_le_gt_dec (L - 52) (-1074)) as [H|H]; [left; lia|right].
    assert (le2 num den (e + 52)) as K by (eapply le2_mono; [| |exact F1]; lia).
    rewrite (le2_scale _ _ _ 1074) in K by lia. replace (e + 1074 + 52) with (e + 52 + 1074) by lia. lia. }
  unfold round_pos. fold L. fold e.
  assert (rne (num * up (- e)) (den * up e) = rne (num * 2 ^ 1074) (den * 2 ^ (e + 1074))) as HR.
  { pose proof (up_pos e). destruct (Z_le_gt_dec e 0) as [H0|H0].
    - assert (0 < 2 ^ (e + 1074)) by (apply Z.pow_pos_nonneg; lia).
      rewrite <- (rne_scale (num * up (- e)) (den * up e) (2 ^ (e + 1074))) by nia.
      unfold up. rewrite (Z.max_l (- e) 0), (Z.max_r e 0) by lia. change (2 ^ 0) with 1.
      f_equal; [|ring]. rewrite <- Z.mul_assoc, <- Z.pow_add_r by lia. f_equal. f_equal. lia.
    - assert (0 < 2 ^ 1074) by (apply Z.pow_pos_nonneg; lia).
      rewrite <- (rne_scale (num * up (- e)) (den * up e) (2 ^ 1074)) by nia.
      unfold up. rewrite (Z.max_r (- e) 0), (Z.max_l e 0) by lia. change (2 ^ 0) with 1.
      f_equal; [ring|]. rewrite <- Z.mul_assoc, <- Z.pow_add_r by lia. reflexivity. }
  unfold rne in HR at 1. cbv zeta in HR. cbv zeta. rewrite HR. unfold finish.
  replace (e + 1074 - 1074) with e by lia. reflexivity.
Qed.

(** The scaled double. *)
Definition sc (m e : Z) : Z := m * 2 ^ (e + 1074).

Lemma canon_cases m e : canon (FFin false m e) = true ->
  -1074 <= e <= 971 /\ 0 <= m < 2 ^ 53 /\ (2 ^ 52 <= m \/ e = -1074).
Proof. cbn [canon]. intros H. lia. Qed.

Lemma pow2_split a b : 0 <= a -> 0 <= b -> 2 ^ (a + b) = 2 ^ a * 2 ^ b.
Proof. intros. apply Z.pow_add_r; lia. Qed.

(** What comes out is closest, and nothing comes out only far above. *)
Lemma round_best num den : 0 < num -> 0 < den ->
  let N := num * 2 ^ 1074 in
  match round_pos num den with
  | Some (m, e) => canon (FFin false m e) = true /\ 2 * N < (2 ^ 54 - 1) * 2 ^ (971 + 1074) * den /\
      forall m' e', canon (FFin false m' e') = true ->
        Z.abs (N - sc m e * den) <= Z.abs (N - sc m' e' * den) /\
        (Z.abs (N - sc m e * den) = Z.abs (N - sc m' e' * den) -> sc m' e' = sc m e \/ Z.even m = true)
  | None => (2 ^ 54 - 1) * 2 ^ (971 + 1074) * den <= 2 * N
  end.
Proof.
  intros Hn Hd N. destruct (round_rne num den Hn Hd) as (E & HE & HU & HL & HR). fold N in HU, HL, HR.
  assert (0 < 2 ^ E) as P by (apply Z.pow_pos_nonneg; lia).
  assert (0 < den * 2 ^ E) as HB by nia.
  assert (0 < N) as HN by (unfold N; assert (0 < 2 ^ 1074) by (apply Z.pow_pos_nonneg; lia); nia).
  set (r := rne N (den * 2 ^ E)) in *.
  destruct (rne_half N _ HB) as [RH RE]. fold r in RH, RE.
  rewrite (pow2_split E 53) in HU by lia. rewrite (pow2_split E 52) in HL by lia.
  change (2 ^ 53) with 9007199254740992 in *. change (2 ^ 52) with 4503599627370496 in *. change (2 ^ 54) with 18014398509481984.
  set (B := den * 2 ^ E) in *.
  assert (N < 9007199254740992 * B) as HU' by (unfold B; nia).
  assert (E = 0 \/ 4503599627370496 * B <= N) as HL' by (destruct HL; [left; assumption|right; unfold B; nia]).
  assert (0 <= r <= 9007199254740992) as Hr by nia.
  assert (E = 0 \/ 4503599627370496 <= r) as Hr' by (destruct HL'; [left; assumption|right; nia]).
  (* in all cases the result is r at E *)
  assert (K : forall m' e', canon (FFin false m' e') = true ->
    Z.abs (N - r * B) <= Z.abs (N - sc m' e' * den) /\
    (Z.abs (N - r * B) = Z.abs (N - sc m' e' * den) -> sc m' e' = r * 2 ^ E \/ Z.even r = true)).
  { intros m' e' HC. apply canon_cases in HC as (C1 & C2 & C3). unfold sc.
    change (2 ^ 53) with 9007199254740992 in *. change (2 ^ 52) with 4503599627370496 in *.
    assert (E <= e' + 1074 \/ e' + 1074 < E) as [H|H] by lia.
    - replace (e' + 1074) with (e' + 1074 - E + E) by lia. rewrite (pow2_split (e' + 1074 - E) E) by lia.
      destruct (rne_best N B (m' * 2 ^ (e' + 1074 - E)) HB) as [A1 A2]. fold r in A1, A2.
      replace (m' * (2 ^ (e' + 1074 - E) * 2 ^ E) * den) with (m' * 2 ^ (e' + 1074 - E) * B) by (unfold B; ring).
      split; [exact A1|]. intros H1. destruct (A2 H1) as [H2|H2]; [left|right; exact H2]. rewrite <- H2. ring.
    - assert (0 < 2 ^ (e' + 1074)) as P' by (apply Z.pow_pos_nonneg; lia).
      assert (2 * 2 ^ (e' + 1074) <= 2 ^ E) as P2.
      { replace E with (E - (e' + 1074) - 1 + (1 + (e' + 1074))) at 1 by lia. rewrite (pow2_split (E - (e' + 1074) - 1)), (pow2_split 1) by lia.
        change (2 ^ 1) with 2. assert (0 < 2 ^ (E - (e' + 1074) - 1)) by (apply Z.pow_pos_nonneg; lia). nia. }
      destruct HL' as [H0|HL']; [lia|].
      assert (m' * 2 ^ (e' + 1074) < 4503599627370496 * 2 ^ E) as HM by nia.
      assert (m' * 2 ^ (e' + 1074) * den < 4503599627370496 * B) as HM' by (unfold B; nia).
      destruct (rne_best N B 4503599627370496 HB) as [A1 A2]. fold r in A1, A2. split; [lia|]. intros H1. exfalso. lia. }
  rewrite HR. unfold finish.
  change (2 ^ 53) with 9007199254740992 in *. change (2 ^ 52) with 4503599627370496 in *.
  destruct (r =? 9007199254740992) eqn:E1.
  - apply Z.eqb_eq in E1.
    destruct (971 <? E - 1074 + 1) eqn:E2.
    + assert (18014398509481983 * B <= 2 * N) as Q.
      { rewrite E1 in RH. lia. }
      assert (2 ^ (971 + 1074) <= 2 ^ E) as Q2 by (apply Z.pow_le_mono_r; lia).
      unfold B in Q. nia.
    + split; [cbn [canon]; change (2 ^ 53) with 9007199254740992; change (2 ^ 52) with 4503599627370496; lia|].
      split.
      { assert (2 * 2 ^ E <= 2 ^ (971 + 1074)) as Q2.
        { replace (971 + 1074) with (971 + 1074 - E - 1 + (1 + E)) by lia. rewrite (pow2_split (971 + 1074 - E - 1)), (pow2_split 1) by lia.
          change (2 ^ 1) with 2. assert (0 < 2 ^ (971 + 1074 - E - 1)) by (apply Z.pow_pos_nonneg; lia). nia. }
        unfold B in HU'. clear -HU' Q2 Hd P. set (x := 2 ^ (971 + 1074)) in *. clearbody x.
        assert (2 * (den * 2 ^ E) <= x * den) by nia. nia. }
      assert (sc 4503599627370496 (E - 1074 + 1) = r * 2 ^ E) as S.
      { unfold sc. replace (E - 1074 + 1 + 1074) with (1 + E) by lia. rewrite (pow2_split 1) by lia. change (2 ^ 1) with 2. rewrite E1. lia. }
      rewrite S. replace (r * 2 ^ E * den) with (r * B) by (unfold B; ring).
      intros m' e' HC. destruct (K m' e' HC) as [K1 K2]. split; [exact K1|]. intros _. right. reflexivity.
  - destruct (971 <? E - 1074) eqn:E2.
    + assert (2 * 2 ^ (971 + 1074) <= 2 ^ E) as Q2.
      { replace (2 * 2 ^ (971 + 1074)) with (2 ^ (1 + (971 + 1074))) by (rewrite (pow2_split 1) by lia; reflexivity). apply Z.pow_le_mono_r; lia. }
      destruct HL' as [H0|HL']; [lia|]. unfold B in HL'. set (x := 2 ^ (971 + 1074)) in *. clearbody x.
      assert (2 * (den * x) <= den * 2 ^ E) by nia. nia.
    + assert (canon (FFin false r (E - 1074)) = true) as HC0.
      { cbn [canon]. change (2 ^ 53) with 9007199254740992. change (2 ^ 52) with 4503599627370496. lia. }
      split; [exact HC0|].
      assert (sc r (E - 1074) = r * 2 ^ E) as S by (unfold sc; f_equal; f_equal; lia).
      split.
      { assert (2 ^ E <= 2 ^ (971 + 1074)) as Q2 by (apply Z.pow_le_mono_r; lia).
        assert (2 * N < 18014398509481983 * B) as Q1.
        { destruct (Z_lt_ge_dec (2 * N) (18014398509481983 * B)) as [|G]; [assumption|exfalso].
          assert (2 * N <= (2 * r + 1) * B) as G2 by lia. assert (9007199254740991 <= r) as G3 by nia. assert (r = 9007199254740991) as Er by lia. clear G2 G3. rewrite Er in *. assert (2 * Z.abs (N - 9007199254740991 * B) = B) as T by lia. specialize (RE T). discriminate RE. }
        unfold B in Q1. set (x := 2 ^ (971 + 1074)) in *. clearbody x. nia. }
      rewrite S. replace (r * 2 ^ E * den) with (r * B) by (unfold B; ring). exact K.
Qed.
