(** What becomes of an integer that travels as a double, from 2^53 on. *)
From Coq Require Import Arith ZifyBool ZifyNat ZifyN QArith Qabs Qpower Qfield Lqa.
From Verif Require Import GoBase Json JsonText Float64 Float64Proofs SpecJson JsonGrammar SpecNumber FloatNear NearProofs NumberProofs ShortText SpecShort
  ShortProofs ShortFound ShortUnique FloatInt Lang Types Codec SpecCodec SpecYields YieldsProofs SpecSays SpecArrives SaysProofs.
From Verif Require PropsNumber.
Open Scope string_scope.
Open Scope list_scope.
Local Open Scope Z_scope.

Lemma trailing_app a b : trailing b = b -> b <> "" -> trailing (a +++ b) = a +++ b.
Proof.
  intros H N. induction a as [|c a IH]; [exact H|]. cbn [String.append trailing]. rewrite IH.
  destruct (a +++ b) as [|x t] eqn:E; [|reflexivity]. exfalso. destruct a; [exact (N E)|discriminate E].
Qed.
Lemma slen_app a b : String.length (a +++ b) = (String.length a + String.length b)%nat.
Proof. induction a as [|c a IH]; [reflexivity|]. cbn [String.append String.length]. rewrite IH. reflexivity. Qed.
Lemma leading_length s : (String.length (leading s) <= String.length s)%nat.
Proof. induction s as [|c s IH]; [apply Nat.le_refl|]. cbn [leading]. destruct (Ascii.eqb c "0"); cbn [String.length]; lia. Qed.
Lemma trailing_length s : (String.length (trailing s) <= String.length s)%nat.
Proof.
  induction s as [|c s IH]; [apply Nat.le_refl|]. cbn [trailing]. destruct (trailing s) as [|x t]; [destruct (Ascii.eqb c "0"); cbn [String.length]; lia|].
  cbn [String.length] in *. lia.
Qed.

Lemma double_int m e : 0 <= e -> (double m e == inject_Z (m * 2 ^ e))%Q.
Proof. intros H. unfold double. rewrite inject_Z_mult. apply Qmult_comp; [reflexivity|]. change 2%Q with (inject_Z 2). apply qpow_nat. exact H. Qed.
Lemma decimal_int z : (decimal z 0 == inject_Z z)%Q.
Proof. unfold decimal. cbn [Qpower]. apply Qmult_1_r. Qed.

(** A double below which, or above which, a number stays when it is rounded. *)
Lemma nearest_below v m e m' e' : nearest v m e -> canon (FFin false m' e') = true -> (v <= double m' e')%Q -> (double m e <= double m' e')%Q.
Proof.
  intros [_ H] C L. destruct (H m' e' C) as [H1 _]. destruct (Qlt_le_dec (double m' e') (double m e)) as [G|G]; [|exact G].
  rewrite (Qabs_neg (v - double m e)), (Qabs_neg (v - double m' e')) in H1 by lra. lra.
Qed.
Lemma nearest_above v m e m' e' : nearest v m e -> canon (FFin false m' e') = true -> (double m' e' <= v)%Q -> (double m' e' <= double m e)%Q.
Proof.
  intros [_ H] C L. destruct (H m' e' C) as [H1 _]. destruct (Qlt_le_dec (double m e) (double m' e')) as [G|G]; [|exact G].
  rewrite (Qabs_pos (v - double m e)), (Qabs_pos (v - double m' e')) in H1 by lra. lra.
Qed.

Lemma micro : nearest (decimal 1 (-6)) 4722366482869645 (-72).
Proof.
  assert (denotes "1e-6" false 1 (-6)) as Hd.
  { exists "1", "", "", "e-6", (-6). split; [reflexivity|]. split; [right; exists "1"%char, ""; repeat split; discriminate|].
    split; [constructor|]. split; [apply (ex_minus "e" "6"); [now left|split; [discriminate|reflexivity]]|]. split; reflexivity. }
  pose proof (parse_taken _ _ _ _ Hd) as P. assert (parse_float "1e-6" = Some (FFin false 4722366482869645 (-72))) as E by (vm_compute; reflexivity).
  rewrite E in P. destruct P as (m & e & E2 & P & _). injection E2 as <- <-. exact P.
Qed.

(** The text of a double that is an integer between 2^53 and 2^63 is that of an integer. *)
Lemma big_text m e b : 2 ^ 53 <= m * 2 ^ e <= 2 ^ 63 -> 0 <= e -> canon (FFin false m e) = true ->
  closest m e b -> json_layout m e b ->
  str_forall is_digit b = true /\ b <> "" /\ nearest (inject_Z (digits_val 0 b)) m e.
Proof.
  intros HN He HC (T & S17 & SM & _) HL.
  set (N := m * 2 ^ e) in *. assert (DN : (double m e == inject_Z N)%Q) by (apply double_int; exact He).
  assert (LN : forall a, (inject_Z a <= double m e)%Q <-> a <= N) by (intros a; rewrite DN, <- Zle_Qle; reflexivity).
  assert (UN : forall a, (double m e <= inject_Z a)%Q <-> N <= a) by (intros a; rewrite DN, <- Zle_Qle; reflexivity).
  assert (PL : plain_layout b).
  { apply (HL 4722366482869645 (-72)).
    - exact micro.
    - split.
      + apply (Qle_trans _ (inject_Z 1)); [unfold double; apply Qlt_le_weak; reflexivity|apply LN; lia].
      + apply (Qle_lt_trans _ (inject_Z (2 ^ 63))); [apply UN; lia|reflexivity]. }
  destruct PL as (i & f & fd & -> & Hi & Hf & Ht).
  assert (DD : denotes (i +++ f) false (digits_val 0 (i +++ fd)) (0 - Z.of_nat (String.length fd))).
  { exists i, f, fd, "", 0. rewrite sapp_nil_r. split; [reflexivity|]. split; [exact Hi|]. split; [exact Hf|]. split; [constructor|]. split; reflexivity. }
  destruct T as (neg & D & k & m' & e' & TD & E & TN & TL).
  assert (neg = false /\ m' = m /\ e' = e) as (-> & -> & ->) by (injection E as <- <- <-; auto). clear E.
  destruct (denotes_unique _ _ _ _ _ _ _ TD DD) as (_ & -> & ->).
  assert (FE : fd = "").
  { destruct fd as [|c0 r0] eqn:EF; [reflexivity|exfalso]. rewrite <- EF in *. assert (FN : fd <> "") by (rewrite EF; discriminate). clear EF c0 r0.
    pose proof (int_part_digits i Hi) as Di. pose proof (fraction_digits f fd Hf) as Df.
    set (v := decimal (digits_val 0 (i +++ fd)) (0 - Z.of_nat (String.length fd))) in *.
    assert (IV : forall a, (v < inject_Z a)%Q <-> digits_val 0 i < a).
    { intros a. set (L := Z.of_nat (String.length fd)) in *.
      pose proof (digits_bound fd (digits_val 0 i) Df ltac:(pose proof (digits_bound i 0 Di ltac:(lia)); lia)) as K. fold L in K.
      set (W := digits_val (digits_val 0 i) fd) in *.
      assert (0 < 10 ^ L) as P by (apply Z.pow_pos_nonneg; lia).
      assert (EA : (inject_Z a == decimal (a * 10 ^ L) (0 - L))%Q).
      { rewrite decimal_shift by lia. replace (0 - L + L) with 0 by lia. symmetry. apply decimal_int. }
      assert (EV : v = decimal W (0 - L)) by (unfold v, W; rewrite digits_val_app; reflexivity). rewrite EV, EA. clear EV. split.
      - intros G. destruct (Z_lt_le_dec (digits_val 0 i) a) as [|G2]; [assumption|exfalso]. apply (Qlt_not_le _ _ G). apply decimal_le. nia.
      - intros G. apply decimal_lt. nia. }
    assert (V15 : 10 ^ 15 <= digits_val 0 i).
    { destruct (Z_lt_ge_dec (digits_val 0 i) (10 ^ 15)) as [G|G]; [exfalso|lia]. apply IV in G.
      assert (C15 : canon (FFin false (10 ^ 15 * 8) (-3)) = true) by (vm_compute; reflexivity).
      assert (E15 : (double (10 ^ 15 * 8) (-3) == inject_Z (10 ^ 15))%Q) by reflexivity.
      pose proof (nearest_below v m e _ _ TN C15) as K. rewrite E15 in K. specialize (K (Qlt_le_weak _ _ G)). apply UN in K. lia. }
    pose proof (digits_bound i 0 Di ltac:(lia)) as BI. rewrite Z.mul_0_l, Z.mul_1_l in BI || idtac.
    assert (LI : (16 <= String.length i)%nat).
    { destruct (le_lt_dec 16 (String.length i)) as [|G]; [assumption|exfalso]. assert (10 ^ Z.of_nat (String.length i) <= 10 ^ 15) by (apply Z.pow_le_mono_r; lia). lia. }
    assert (SG : significant (i +++ f) = (String.length i + String.length fd)%nat).
    { unfold significant. destruct (mantissa_denotes i f fd "" 0 false Hi Hf ex_none) as [M _]. cbn [String.append] in M. rewrite sapp_nil_r in M. rewrite M.
      assert (leading (i +++ fd) = i +++ fd) as ->.
      { destruct Hi as [->|(c & d & -> & _ & Hz & _)]; [cbn in LI; lia|]. cbn [String.append leading]. destruct (Ascii.eqb_spec c "0"); [congruence|reflexivity]. }
      rewrite trailing_app by assumption. apply slen_app. }
    assert (LF : (1 <= String.length fd)%nat) by (destruct fd; [congruence|cbn [String.length]; lia]).
    assert (LI' : String.length i = 16%nat) by lia. rewrite LI' in BI.
    assert (N16 : N <= 10 ^ 16).
    { assert (C16 : canon (FFin false 5000000000000000 1) = true) by (vm_compute; reflexivity).
      assert (E16 : (double 5000000000000000 1 == inject_Z (10 ^ 16))%Q) by reflexivity.
      pose proof (nearest_below v m e _ _ TN C16) as K. rewrite E16 in K. apply UN. apply K. apply Qlt_le_weak, IV. change (Z.of_nat 16) with 16 in BI. lia. }
    assert (DT : denotes (Float64.dec N) false N 0).
    { exists (Float64.dec N), "", "", "", 0. split; [rewrite !sapp_nil_r; reflexivity|]. split; [apply dec_int_part; lia|]. split; [constructor|]. split; [constructor|].
      rewrite sapp_nil_r, dec_val by lia. split; reflexivity. }
    assert (TT : taken_as (Float64.dec N) (FFin false m e)).
    { exists false, N, 0, m, e. split; [exact DT|]. split; [reflexivity|]. split.
      - apply (nearest_eq (double m e)); [rewrite DN; symmetry; apply decimal_int|apply nearest_self; exact HC].
      - unfold too_large. rewrite decimal_int. intros K. assert (K2 : (inject_Z (2 ^ 64) <= inject_Z N)%Q).
        { apply (Qle_trans _ (double (2 ^ 54 - 1) 970)); [|exact K]. unfold Qle. vm_compute. discriminate. }
        rewrite <- Zle_Qle in K2. lia. }
    specialize (SM _ TT). assert (significant (Float64.dec N) <= 16)%nat; [|lia].
    destruct (Z.eq_dec N (10 ^ 16)) as [->|NE]; [vm_compute; lia|].
    unfold significant. destruct (mantissa_denotes (Float64.dec N) "" "" "" 0 false (dec_int_part N ltac:(lia)) fr_none ex_none) as [M _]. cbn [String.append] in M. rewrite !sapp_nil_r in M. rewrite M.
    pose proof (trailing_length (leading (Float64.dec N))). pose proof (leading_length (Float64.dec N)).
    assert (Z.of_nat (String.length (Float64.dec N)) <= 16); [|lia].
    pose proof (dec_len N ltac:(lia)) as DL. destruct (Z_le_gt_dec (Z.of_nat (String.length (Float64.dec N))) 16) as [|G]; [assumption|exfalso].
    assert (10 ^ 16 <= 10 ^ (Z.of_nat (String.length (Float64.dec N)) - 1)) by (apply Z.pow_le_mono_r; lia). lia. }
  subst fd. assert (f = "") as -> by (inversion Hf as [|d Hd E1 E2]; [reflexivity|exfalso; subst d; destruct Hd as [Hd _]; exact (Hd eq_refl)]).
  rewrite sapp_nil_r in *. apply int_part_digits in Hi as Hd. split; [apply digits_is; exact Hd|]. split.
  - destruct Hi as [->|(c & d & -> & _)]; discriminate.
  - eapply nearest_eq; [|exact TN]. cbn [String.length]. change (0 - Z.of_nat 0) with 0. apply decimal_int.
Qed.

Lemma canon_nearest v m e : nearest v m e -> canon (FFin false m e) = true.
Proof. intros [H _]. exact H. Qed.
Lemma canon_sign neg m e : canon (FFin neg m e) = canon (FFin false m e).
Proof. reflexivity. Qed.

Lemma whole m e a b : nearest (inject_Z a) m e -> 2 ^ 53 <= a <= 2 ^ 63 -> b = 2 ^ 63 -> 0 <= e /\ 2 ^ 52 <= m < 2 ^ 53 /\ 2 ^ 53 <= m * 2 ^ e <= b.
Proof.
  intros H HA ->. pose proof (canon_nearest _ _ _ H) as C.
  assert (C1 : canon (FFin false (2 ^ 52) 1) = true) by (vm_compute; reflexivity).
  assert (C2 : canon (FFin false (2 ^ 52) 11) = true) by (vm_compute; reflexivity).
  assert (E1 : (double (2 ^ 52) 1 == inject_Z (2 ^ 53))%Q) by reflexivity.
  assert (E2 : (double (2 ^ 52) 11 == inject_Z (2 ^ 63))%Q) by reflexivity.
  pose proof (nearest_above _ _ _ _ _ H C1) as A. rewrite E1 in A. specialize (A ltac:(rewrite <- Zle_Qle; lia)).
  pose proof (nearest_below _ _ _ _ _ H C2) as B. rewrite E2 in B. specialize (B ltac:(rewrite <- Zle_Qle; lia)).
  assert (0 <= e) as He.
  { destruct (Z_lt_ge_dec e 0) as [G|]; [exfalso|lia]. 
    assert (M : 0 <= m < 2 ^ 53) by (cbn [canon] in C; lia).
    assert (L : (double m e < inject_Z (2 ^ 53))%Q); [|lra].
    unfold double. apply (Qle_lt_trans _ (inject_Z m)); [|rewrite <- Zlt_Qlt; lia].
    rewrite <- (Qmult_1_r (inject_Z m)) at 2. assert (0 <= inject_Z m)%Q by (change 0%Q with (inject_Z 0); rewrite <- Zle_Qle; lia).
    rewrite (Qmult_comm (inject_Z m) (Qpower 2 e)), (Qmult_comm (inject_Z m) 1). apply Qmult_le_compat_r; [|assumption].
    replace e with (- (- e)) by lia. change 2%Q with (inject_Z 2). rewrite qpow_neg, qpow_nat by lia.
    assert (1 <= 2 ^ (- e)) by (assert (2 ^ 0 <= 2 ^ (- e)) by (apply Z.pow_le_mono_r; lia); lia).
    set (P := 2 ^ (- e)) in *. clearbody P. unfold Qle, Qinv, inject_Z. cbn. destruct P; cbn; lia. }
  rewrite (double_int m e He) in A, B. rewrite <- Zle_Qle in A, B. split; [exact He|]. split; [|lia].
  cbn [canon] in C. destruct (Z_lt_ge_dec m (2 ^ 52)) as [G|]; [exfalso|lia].
  assert (e = -1074) by lia. lia.
Qed.

(** Half a step. *)
Lemma half_step v m e : nearest v m e -> 2 ^ 52 <= m < 2 ^ 53 -> 0 <= e <= 20 ->
  (Qabs (v - inject_Z (m * 2 ^ e)) * inject_Z 2 <= inject_Z (2 ^ e))%Q.
Proof.
  intros [C H] Hm He. rewrite <- (double_int m e) by lia. pose proof (double_int m e ltac:(lia)) as D0.
  assert (P : 0 < 2 ^ e) by (apply Z.pow_pos_nonneg; lia).
  assert (U : exists m' e', canon (FFin false m' e') = true /\ (double m' e' == inject_Z ((m + 1) * 2 ^ e))%Q).
  { destruct (Z.eq_dec m (2 ^ 53 - 1)) as [->|].
    - exists (2 ^ 52), (e + 1). split; [cbn [canon]; lia|]. rewrite double_int by lia. rewrite Z.pow_add_r by lia. change (2 ^ 1) with 2.
      apply inject_Z_injective. ring_simplify. lia.
    - exists (m + 1), e. split; [cbn [canon]; lia|apply double_int; lia]. }
  assert (L : exists m' e' k, canon (FFin false m' e') = true /\ 1 <= k <= 2 /\ (double m' e' * inject_Z 2 == inject_Z ((2 * m - k) * 2 ^ e))%Q).
  { destruct (Z.eq_dec m (2 ^ 52)) as [->|].
    - exists (2 ^ 53 - 1), (e - 1), 1. split; [cbn [canon]; lia|]. split; [lia|].
      unfold double. change 2%Q with (inject_Z 2). rewrite <- Qmult_assoc.
      assert (Q : (Qpower (inject_Z 2) (e - 1) * inject_Z 2 == Qpower (inject_Z 2) e)%Q).
      { replace e with ((e - 1) + 1) at 2 by lia. rewrite qpow_plus by lia. reflexivity. }
      rewrite Q, qpow_nat by lia. rewrite <- inject_Z_mult. apply inject_Z_injective. lia.
    - exists (m - 1), e, 2. split; [cbn [canon]; lia|]. split; [lia|]. rewrite double_int by lia. rewrite <- inject_Z_mult. apply inject_Z_injective. lia. }
  destruct U as (m1 & e1 & C1 & D1). destruct L as (m2 & e2 & k & C2 & Hk & D2).
  destruct (H m1 e1 C1) as [H1 _]. destruct (H m2 e2 C2) as [H2 _].
  replace ((m + 1) * 2 ^ e) with (m * 2 ^ e + 2 ^ e) in D1 by ring. rewrite inject_Z_plus in D1.
  assert (D2' : (double m2 e2 * inject_Z 2 == inject_Z (m * 2 ^ e) * inject_Z 2 - inject_Z k * inject_Z (2 ^ e))%Q).
  { rewrite D2. replace ((2 * m - k) * 2 ^ e) with (m * 2 ^ e * 2 + (- (k * 2 ^ e))) by ring. rewrite inject_Z_plus, inject_Z_opp, !inject_Z_mult. ring. }
  set (x := double m e) in *. set (y := double m1 e1) in *. set (w := double m2 e2) in *. set (p := inject_Z (2 ^ e)) in *.
  assert (0 < p)%Q as Pp by (unfold p; change 0%Q with (inject_Z 0); rewrite <- Zlt_Qlt; exact P).
  rewrite <- D0 in D1, D2'. change (inject_Z 2) with 2%Q in *.
  assert (KQ : (inject_Z k * p <= 2 * p)%Q).
  { apply Qmult_le_compat_r; [|lra]. change 2%Q with (inject_Z 2). rewrite <- Zle_Qle. lia. }
  destruct (Qlt_le_dec v x) as [G|G].
  - rewrite (Qabs_neg (v - x)) in * by lra. destruct (Qlt_le_dec v w) as [G2|G2].
    + rewrite (Qabs_neg (v - w)) in H2 by lra. assert (1 * p <= inject_Z k * p)%Q by (apply Qmult_le_compat_r; [change 1%Q with (inject_Z 1); rewrite <- Zle_Qle; lia|lra]). lra.
    + rewrite (Qabs_pos (v - w)) in H2 by lra. lra.
  - rewrite (Qabs_pos (v - x)) in * by lra. destruct (Qlt_le_dec v y) as [G2|G2].
    + rewrite (Qabs_neg (v - y)) in H1 by lra. lra.
    + rewrite (Qabs_pos (v - y)) in H1 by lra. lra.
Qed.

(** ** What an integer becomes *)

Lemma nearest_of_text l z m e : denotes l false z 0 -> parse_float l = Some (FFin false m e) -> nearest (inject_Z z) m e.
Proof.
  intros H E. pose proof (parse_taken _ _ _ _ H) as P. rewrite E in P. destruct P as (m' & e' & Q & P & _). injection Q as <- <-.
  eapply nearest_eq; [apply decimal_int|exact P].
Qed.
Lemma nearest_dec z m e : 0 <= z -> parse_float (dec_int z) = Some (FFin false m e) -> nearest (inject_Z z) m e.
Proof.
  intros H. apply nearest_of_text. pose proof (dec_int_denotes z) as D. assert ((z <? 0) = false) as E by lia. rewrite E in D. replace (Z.abs z) with z in D by lia. exact D.
Qed.

Lemma fmt_exists neg m e : canon (FFin false m e) = true -> exists s, json_number (FFin neg m e) s.
Proof.
  intros C. destruct (Float64Proofs.fmt_parse (FFin neg m e) C eq_refl) as (s & E & _). exists s. apply PropsNumber.C100_json; assumption.
Qed.

(** Between 2^53 and 2^63. *)
Lemma becomes_big z m e : 2 ^ 53 <= Z.abs z <= 2 ^ 63 -> nearest (inject_Z (Z.abs z)) m e ->
  exists z', 0 < z' /\ nearest (inject_Z z') m e /\ becomes z (if z <? 0 then - z' else z') /\
    forall y, becomes z y -> y = if z <? 0 then - z' else z'.
Proof.
  intros HZ HN. destruct (whole m e _ _ HN HZ eq_refl) as (He & Hm & HB). pose proof (canon_nearest _ _ _ HN) as C.
  destruct (fmt_exists (z <? 0) m e C) as [s HS].
  assert (G : forall t, json_number (FFin (z <? 0) m e) t -> exists z', 0 < z' /\ nearest (inject_Z z') m e /\ integer_text t (if z <? 0 then - z' else z')).
  { intros t (neg & m' & e' & b & E & -> & HC).
    assert ((z <? 0) = neg /\ m = m' /\ e = e') as (EN & <- & <-) by (injection E as E1 E2 E3; auto). rewrite EN.
    destruct HC as [[H0 _]|(_ & C1 & C2)]; [lia|]. destruct (big_text m e b HB He C C1 C2) as (B1 & B2 & B3).
    assert (0 < digits_val 0 b) as PB.
    { pose proof (digits_bound b 0 ltac:(apply digits_is; exact B1) ltac:(lia)) as K. destruct (Z.eq_dec (digits_val 0 b) 0) as [E0|]; [exfalso|lia].
      rewrite E0 in B3. assert (C0 : canon (FFin false 0 (-1074)) = true) by reflexivity. pose proof (nearest_below _ _ _ _ _ B3 C0 ltac:(unfold Qle; cbn; lia)) as L.
      rewrite (double_int m e He) in L. assert (Z0 : (double 0 (-1074) == inject_Z 0)%Q) by reflexivity. rewrite Z0, <- Zle_Qle in L. lia. }
    exists (digits_val 0 b). split; [exact PB|]. split; [exact B3|]. exists (if neg then "-" else ""), b. split; [reflexivity|]. split; [exact B1|]. split; [exact B2|].
    destruct neg; [right|left]; split; reflexivity. }
  destruct (G s HS) as (z' & Z1 & Z2 & Z3). exists z'. split; [exact Z1|]. split; [exact Z2|]. split; [exists m, e, s; auto|].
  intros y (m' & e' & t & N' & T & I). destruct (nearest_unique _ _ _ _ _ N' HN) as [-> ->].
  assert (t = s) as -> by exact (json_unique _ _ _ T HS). exact (integer_text_one _ _ _ I Z3).
Qed.

(** Up to 2^53. *)
Lemma becomes_small z : Z.abs z <= 2 ^ 53 -> becomes z z /\ forall y, becomes z y -> y = z.
Proof.
  intros HZ. destruct (Float64Proofs.fmt_int z HZ) as (x & E1 & E2). 
  assert (E3 : parse_float (dec_int z) = Some x) by exact E1.
  destruct (nearest_integer z x E3) as (m & e & -> & HN). pose proof (canon_nearest _ _ _ HN) as C.
  assert (J : json_number (FFin (z <? 0) m e) (dec_int z)) by (apply PropsNumber.C100_json; [exact C|exact E2]).
  assert (I : integer_text (dec_int z) z).
  { assert (- 2 ^ (64 - 1) <= z < 2 ^ (64 - 1)) as R by lia. exact (proj1 (proj1 (parse_int_text 64 (dec_int z) z) (Float64Proofs.parse_int_dec_int 64 z R))). }
  split; [exists m, e, (dec_int z); auto|]. intros y (m' & e' & t & N' & T & I'). destruct (nearest_unique _ _ _ _ _ N' HN) as [-> ->].
  assert (t = dec_int z) as -> by exact (json_unique _ _ _ T J). exact (integer_text_one _ _ _ I' I).
Qed.

Lemma rounded_exists z : Z.abs z <= 2 ^ 63 -> exists m e, nearest (inject_Z (Z.abs z)) m e.
Proof.
  intros HZ. destruct (NumTotal.dec_int_float z ltac:(lia)) as [x E]. destruct (nearest_integer z x E) as (m & e & _ & H). exists m, e. exact H.
Qed.

Theorem becomes_one z y y' : Z.abs z <= 2 ^ 63 -> becomes z y -> becomes z y' -> y = y'.
Proof.
  intros HZ H H'. destruct (Z_le_gt_dec (Z.abs z) (2 ^ 53)) as [L|G].
  - destruct (becomes_small z L) as [_ U]. rewrite (U y H), (U y' H'). reflexivity.
  - destruct (rounded_exists z HZ) as (m & e & HN). destruct (becomes_big z m e ltac:(lia) HN) as (z' & _ & _ & _ & U). rewrite (U y H), (U y' H'). reflexivity.
Qed.
Theorem becomes_some z : Z.abs z <= 2 ^ 63 -> exists y, becomes z y.
Proof.
  intros HZ. destruct (Z_le_gt_dec (Z.abs z) (2 ^ 53)) as [L|G]; [exists z; apply (becomes_small z L)|].
  destruct (rounded_exists z HZ) as (m & e & HN). destruct (becomes_big z m e ltac:(lia) HN) as (z' & _ & _ & H & _). eexists. exact H.
Qed.

(** Close to the number sent. *)
Theorem becomes_near z y k : 53 <= k <= 63 -> Z.abs z <= 2 ^ k -> becomes z y -> Z.abs (y - z) <= 2 ^ (k - 52) /\ (Z.abs z <= 2 ^ 53 -> y = z).
Proof.
  intros Hk HZ H. assert (2 ^ k <= 2 ^ 63) as Bk by (apply Z.pow_le_mono_r; lia).
  assert (P : 0 < 2 ^ (k - 52)) by (apply Z.pow_pos_nonneg; lia).
  destruct (Z_le_gt_dec (Z.abs z) (2 ^ 53)) as [L|G].
  { destruct (becomes_small z L) as [_ U]. rewrite (U y H). split; [|reflexivity]. replace (z - z) with 0 by lia. change (Z.abs 0) with 0. lia. }
  split; [|lia]. destruct (rounded_exists z ltac:(lia)) as (m & e & HN). destruct (becomes_big z m e ltac:(lia) HN) as (z' & Pz & HN' & _ & U). rewrite (U y H). clear U H y.
  destruct (whole m e _ _ HN ltac:(lia) eq_refl) as (He & Hm & HB).
  assert (Ck : canon (FFin false (2 ^ 52) (k - 52)) = true) by (cbn [canon]; lia).
  pose proof (nearest_below _ _ _ _ _ HN Ck) as B. rewrite !double_int in B by lia. rewrite <- !Zle_Qle in B.
  rewrite <- Z.pow_add_r in B by lia. replace (52 + (k - 52)) with k in B by lia. specialize (B HZ).
  assert (EK : e <= k - 52).
  { destruct (Z_le_gt_dec e (k - 52)) as [|G2]; [assumption|exfalso]. assert (2 ^ (k - 51) <= 2 ^ e) by (apply Z.pow_le_mono_r; lia).
    assert (2 ^ (k + 1) <= m * 2 ^ e); [|assert (2 ^ k < 2 ^ (k + 1)) by (apply Z.pow_lt_mono_r; lia); lia].
    replace (k + 1) with (52 + (k - 51)) by lia. rewrite Z.pow_add_r by lia. nia. }
  pose proof (half_step _ _ _ HN Hm ltac:(lia)) as S1. pose proof (half_step _ _ _ HN' Hm ltac:(lia)) as S2.
  assert (K : forall a, (Qabs (inject_Z a - inject_Z (m * 2 ^ e)) * inject_Z 2 <= inject_Z (2 ^ e))%Q -> 2 * Z.abs (a - m * 2 ^ e) <= 2 ^ e).
  { intros a. unfold Qminus. rewrite <- inject_Z_opp, <- inject_Z_plus. 
    assert (Qabs (inject_Z (a + - (m * 2 ^ e))) = inject_Z (Z.abs (a + - (m * 2 ^ e)))) as -> by reflexivity.
    rewrite <- inject_Z_mult, <- Zle_Qle. intros Q. replace (a - m * 2 ^ e) with (a + - (m * 2 ^ e)) by lia. lia. }
  apply K in S1. apply K in S2. assert (2 ^ e <= 2 ^ (k - 52)) by (apply Z.pow_le_mono_r; lia). destruct (z <? 0) eqn:E; lia.
Qed.

(** From here on it is 2^63. *)
Lemma edge m e v : nearest (inject_Z v) m e -> 2 ^ 63 - 512 <= v <= 2 ^ 63 -> m = 2 ^ 52 /\ e = 11.
Proof.
  intros H HV. assert (A : nearest (inject_Z (2 ^ 63 - 512)) (2 ^ 52) 11) by (apply nearest_dec; [lia|vm_compute; reflexivity]).
  assert (B : nearest (inject_Z (2 ^ 63)) (2 ^ 52) 11) by (apply nearest_dec; [lia|vm_compute; reflexivity]).
  apply (nearest_unique _ _ _ _ _ H). eapply nearest_between; [exact A|exact B| |]; rewrite <- Zle_Qle; lia.
Qed.

Theorem becomes_fits z y : Z.abs z <= 2 ^ 63 -> becomes z y -> (- 2 ^ 63 <= y < 2 ^ 63 <-> Z.abs z < 2 ^ 63 - 512).
Proof.
  intros HZ H. destruct (Z_le_gt_dec (Z.abs z) (2 ^ 53)) as [L|G].
  { destruct (becomes_small z L) as [_ U]. rewrite (U y H). lia. }
  destruct (rounded_exists z HZ) as (m & e & HN). destruct (becomes_big z m e ltac:(lia) HN) as (z' & Pz & HN' & _ & U). rewrite (U y H).
  assert (C11 : canon (FFin false (2 ^ 52) 11) = true) by (vm_compute; reflexivity).
  destruct (Z_lt_ge_dec (Z.abs z) (2 ^ 63 - 512)) as [LT|GE].
  - split; [intros _; exact LT|intros _]. destruct (Z_lt_ge_dec z' (2 ^ 63)) as [|G2]; [destruct (z <? 0); lia|exfalso].
    assert (E11 : (double (2 ^ 52) 11 == inject_Z (2 ^ 63))%Q) by reflexivity.
    pose proof (nearest_above _ _ _ _ _ HN' C11) as A. rewrite E11 in A. specialize (A ltac:(rewrite <- Zle_Qle; lia)).
    assert (B : nearest (inject_Z (2 ^ 63 - 513)) (2 ^ 53 - 1) 10) by (apply nearest_dec; [lia|vm_compute; reflexivity]).
    destruct (Z_le_gt_dec (Z.abs z) (2 ^ 63 - 1024)) as [L2|G3].
    + assert (C10 : canon (FFin false (2 ^ 53 - 1) 10) = true) by (vm_compute; reflexivity).
      assert (E10 : (double (2 ^ 53 - 1) 10 == inject_Z (2 ^ 63 - 1024))%Q) by reflexivity.
      pose proof (nearest_below _ _ _ _ _ HN C10) as D. rewrite E10 in D. specialize (D ltac:(rewrite <- Zle_Qle; lia)).
      assert (X : (inject_Z (2 ^ 63) <= inject_Z (2 ^ 63 - 1024))%Q) by lra. rewrite <- Zle_Qle in X. lia.
    + assert (B0 : nearest (inject_Z (2 ^ 63 - 1024)) (2 ^ 53 - 1) 10) by (apply nearest_dec; [lia|vm_compute; reflexivity]).
      assert (B1 : nearest (inject_Z (Z.abs z)) (2 ^ 53 - 1) 10) by (eapply nearest_between; [exact B0|exact B| |]; rewrite <- Zle_Qle; lia).
      destruct (nearest_unique _ _ _ _ _ HN B1) as [-> ->].
      assert (E10 : (double (2 ^ 53 - 1) 10 == inject_Z (2 ^ 63 - 1024))%Q) by reflexivity. rewrite E10, <- Zle_Qle in A. lia.
  - split; [intros K; exfalso|lia]. destruct (edge _ _ _ HN ltac:(lia)) as [-> ->].
    assert (X : becomes z (if z <? 0 then - 9223372036854775808 - 192 else 9223372036854776000)).
    { exists (2 ^ 52), 11. destruct (z <? 0).
      - exists "-9223372036854776000". split; [exact HN|]. split; [apply PropsNumber.C100_json; [reflexivity|vm_compute; reflexivity]|].
        exists "-", "9223372036854776000". split; [reflexivity|]. split; [reflexivity|]. split; [discriminate|]. right. split; reflexivity.
      - exists "9223372036854776000". split; [exact HN|]. split; [apply PropsNumber.C100_json; [reflexivity|vm_compute; reflexivity]|].
        exists "", "9223372036854776000". split; [reflexivity|]. split; [reflexivity|]. split; [discriminate|]. left. split; reflexivity. }
    apply U in X. destruct (z <? 0); lia.
Qed.
