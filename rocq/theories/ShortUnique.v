(** The text of a double is determined by SpecShort. *)
From Coq Require Import Arith ZifyBool ZifyNat ZifyN QArith Qabs Qpower Qfield Lqa.
From Verif Require Import GoBase Json JsonText Float64 Float64Proofs SpecJson JsonGrammar SpecNumber FloatNear NearProofs NumberProofs ShortText ShortProofs SpecShort Xml ShortFound.
Open Scope string_scope.
Open Scope list_scope.
Local Open Scope Z_scope.

(** ** The value *)

Lemma same_parity A s A' s' j j' : Z.even A = true -> Z.even A' = true -> (s = 1 \/ s = -1) -> (s' = 1 \/ s' = -1) ->
  (decimal A j == decimal (A' + s') j')%Q -> (decimal (A + s) j == decimal A' j')%Q -> False.
Proof.
  intros HA HA' Hs Hs' E1 E2. apply Z.even_spec in HA as [x ->], HA' as [y ->].
  destruct (Z_le_gt_dec j j') as [L|L].
  - replace j' with (j + (j' - j)) in E2 by lia. rewrite <- decimal_shift in E2 by lia. apply decimal_eq_inv in E2.
    set (P := 10 ^ (j' - j)) in *. clearbody P. nia.
  - replace j with (j' + (j - j')) in E1 by lia. rewrite <- decimal_shift in E1 by lia. apply decimal_eq_inv in E1.
    set (P := 10 ^ (j - j')) in *. clearbody P. nia.
Qed.

Lemma closest_value m e s s' D k D' k' : closest m e s -> closest m e s' -> denotes s false D k -> denotes s' false D' k' -> (decimal D k == decimal D' k')%Q.
Proof.
  intros (T & _ & Mi & C) (T' & _ & Mi' & C') H H'. assert (significant s = significant s') as ES by (pose proof (Mi _ T'); pose proof (Mi' _ T); lia).
  destruct (C D k s' D' k' H T' H' (eq_sym ES)) as [C1 C2]. destruct (C' D' k' s D k H' T H ES) as [C1' C2'].
  pose proof (Qle_antisym _ _ C1 C1') as E. destruct (C2 E) as [K|(A & j & HA & E1 & E2)]; [symmetry; exact K|].
  destruct (C2' (Qeq_sym _ _ E)) as [K|(A' & j' & HA' & E1' & E2')]; [exact K|]. exfalso.
  assert (exists x, (x = 1 \/ x = -1) /\ (decimal D' k' == decimal (A + x) j)%Q) as (x & Hx & F) by (destruct E2; [exists 1|exists (-1)]; auto).
  assert (exists x, (x = 1 \/ x = -1) /\ (decimal D k == decimal (A' + x) j')%Q) as (x' & Hx' & F') by (destruct E2'; [exists 1|exists (-1)]; auto).
  apply (same_parity A x A' x' j j' HA HA' Hx Hx'); [rewrite <- E1; exact F'|rewrite <- F; exact E1'].
Qed.

(** ** Digits *)

Lemma dval_inj c c' : digit c = true -> digit c' = true -> dval c = dval c' -> c = c'.
Proof.
  destruct c as [[] [] [] [] [] [] [] []]; intros K; try discriminate K; destruct c' as [[] [] [] [] [] [] [] []]; intros K'; try discriminate K';
    intros E; try reflexivity; vm_compute in E; discriminate E.
Qed.
Lemma digits_inj s : forall s' acc acc', digits s -> digits s' -> 0 <= acc -> 0 <= acc' -> String.length s = String.length s' -> digits_val acc s = digits_val acc' s' -> s = s' /\ acc = acc'.
Proof.
  induction s as [|c s IH]; intros [|c' s'] acc acc' H H' Ha Ha' L E; try discriminate L; [split; [reflexivity|exact E]|].
  unfold digits in H, H'. cbn [str_forall] in H, H'. apply andb_true_iff in H as [H1 H2], H' as [H1' H2'].
  pose proof (dval_digit_bound c H1). pose proof (dval_digit_bound c' H1'). cbn [digits_val] in E. injection L as L.
  destruct (IH s' (10 * acc + dval c) (10 * acc' + dval c') H2 H2' ltac:(lia) ltac:(lia) L E) as [-> K].
  assert (acc = acc') by lia. assert (dval c = dval c') by lia. split; [f_equal; apply dval_inj; assumption|assumption].
Qed.
Lemma int_part_size i : int_part i -> i = "0" \/ (10 ^ (Z.of_nat (String.length i) - 1) <= digits_val 0 i < 10 ^ Z.of_nat (String.length i)).
Proof.
  intros [->|(c & d & -> & Hc & N & Hd)]; [now left|right]. pose proof (dval_digit_bound c Hc) as B.
  assert (dval c <> 0). { intros K. apply N. apply dval_inj; [exact Hc|reflexivity|exact K]. }
  cbn [digits_val String.length]. pose proof (digits_bound d (10 * 0 + dval c) Hd ltac:(lia)) as K.
  rewrite Nat2Z.inj_succ, Z.pow_succ_r by lia. replace (Z.succ (Z.of_nat (String.length d)) - 1) with (Z.of_nat (String.length d)) by lia.
  assert (0 < 10 ^ Z.of_nat (String.length d)) by (apply Z.pow_pos_nonneg; lia). nia.
Qed.
Lemma pow_between a b v : 0 <= a -> 0 <= b -> 10 ^ (a - 1) <= v < 10 ^ a -> 10 ^ (b - 1) <= v < 10 ^ b -> a = b.
Proof.
  intros Ha Hb [H1 H2] [H3 H4]. destruct (Z.lt_trichotomy a b) as [L|[L|L]]; [exfalso|exact L|exfalso].
  - assert (10 ^ a <= 10 ^ (b - 1)) by (apply Z.pow_le_mono_r; lia). lia.
  - assert (10 ^ b <= 10 ^ (a - 1)) by (apply Z.pow_le_mono_r; lia). lia.
Qed.
Lemma int_part_inj i i' : int_part i -> int_part i' -> digits_val 0 i = digits_val 0 i' -> i = i'.
Proof.
  intros H H' E. pose proof (int_part_digits i H) as Hd. pose proof (int_part_digits i' H') as Hd'.
  destruct (int_part_size i H) as [->|B], (int_part_size i' H') as [->|B'].
  - reflexivity.
  - exfalso. change (digits_val 0 "0") with 0 in E. destruct H' as [->|(c & d & -> & _)]; [change (digits_val 0 "0") with 0 in B'; change (10 ^ (Z.of_nat (String.length "0") - 1)) with 1 in B'; lia|].
    assert (0 < 10 ^ (Z.of_nat (String.length (String c d)) - 1)) by (apply Z.pow_pos_nonneg; cbn [String.length]; lia). lia.
  - exfalso. change (digits_val 0 "0") with 0 in E. destruct H as [->|(c & d & -> & _)]; [change (digits_val 0 "0") with 0 in B; change (10 ^ (Z.of_nat (String.length "0") - 1)) with 1 in B; lia|].
    assert (0 < 10 ^ (Z.of_nat (String.length (String c d)) - 1)) by (apply Z.pow_pos_nonneg; cbn [String.length]; lia). lia.
  - rewrite E in B. assert (Z.of_nat (String.length i) = Z.of_nat (String.length i')) as L by (apply (pow_between _ _ (digits_val 0 i')); lia).
    exact (proj1 (digits_inj i i' 0 0 Hd Hd' ltac:(lia) ltac:(lia) ltac:(lia) E)).
Qed.
Lemma fraction_digits f fd : fraction f fd -> digits fd.
Proof. intros [|d [_ H]]; [reflexivity|exact H]. Qed.
Lemma fraction_inj f f' fd : fraction f fd -> fraction f' fd -> f = f'.
Proof.
  assert (forall g x, fraction g x -> g = match x with EmptyString => "" | _ => "." +++ x end) as K.
  { intros g x [|d [N _]]; [reflexivity|]. destruct d; [congruence|reflexivity]. }
  intros H H'. rewrite (K _ _ H), (K _ _ H'). reflexivity.
Qed.
Lemma trailing_mod s acc : digits s -> 0 <= acc -> trailing s = s -> s <> "" -> digits_val acc s mod 10 <> 0.
Proof.
  intros H Ha T N. destruct (trailing_split s) as (_ & [K|(r & a & K & Na)]); [congruence|]. rewrite T in K. subst s.
  unfold digits in H. rewrite str_forall_app in H. apply andb_true_iff in H as [H1 H2]. cbn [str_forall str1] in H2. apply andb_true_iff in H2 as [H2 _].
  rewrite digits_val_app. cbn [str1 digits_val]. pose proof (dval_digit_bound a H2) as B.
  assert (dval a <> 0) by (intros K; apply Na; apply dval_inj; [exact H2|reflexivity|exact K]).
  rewrite Z.mul_comm, Z.add_comm, Z.mod_add by lia. rewrite Z.mod_small by lia. assumption.
Qed.

(** ** Plain texts *)

Lemma plain_unique s s' D k D' k' : plain_layout s -> plain_layout s' -> denotes s false D k -> denotes s' false D' k' -> (decimal D k == decimal D' k')%Q -> s = s'.
Proof.
  intros (i & f & fd & -> & Hi & Hf & T) (i' & f' & fd' & -> & Hi' & Hf' & T') H H' E.
  assert (denotes (i +++ f) false (digits_val 0 (i +++ fd)) (0 - Z.of_nat (String.length fd))) as G.
  { exists i, f, fd, "", 0. rewrite sapp_nil_r. repeat split; try assumption. constructor. }
  assert (denotes (i' +++ f') false (digits_val 0 (i' +++ fd')) (0 - Z.of_nat (String.length fd'))) as G'.
  { exists i', f', fd', "", 0. rewrite sapp_nil_r. repeat split; try assumption. constructor. }
  destruct (denotes_value _ _ _ _ _ _ H G) as [-> ->]. destruct (denotes_value _ _ _ _ _ _ H' G') as [-> ->].
  pose proof (int_part_digits i Hi) as Di. pose proof (int_part_digits i' Hi') as Di'.
  pose proof (fraction_digits _ _ Hf) as Df. pose proof (fraction_digits _ _ Hf') as Df'.
  assert (digits_nonneg : forall x, digits x -> 0 <= digits_val 0 x).
  { intros x Hx. pose proof (digits_bound x 0 Hx ltac:(lia)). lia. }
  rewrite !digits_val_app in E.
  assert (NOT : forall a b c x y, 0 <= c -> (decimal (digits_val a x) (- y) == decimal b (- (y - c)))%Q -> digits_val a x = b * 10 ^ c).
  { intros a b c x y Hc K. apply (decimal_eq_inv _ _ (- y)). rewrite K, decimal_shift by exact Hc. replace (- y + c) with (- (y - c)) by lia. reflexivity. }
  assert (LL : Z.of_nat (String.length fd) = Z.of_nat (String.length fd')).
  { destruct (Z.lt_trichotomy (Z.of_nat (String.length fd)) (Z.of_nat (String.length fd'))) as [L|[L|L]]; [exfalso|exact L|exfalso].
    - set (c := Z.of_nat (String.length fd') - Z.of_nat (String.length fd)).
      assert (K : digits_val (digits_val 0 i') fd' = digits_val (digits_val 0 i) fd * 10 ^ c).
      { apply (NOT _ _ c _ (Z.of_nat (String.length fd'))); [lia|]. replace (Z.of_nat (String.length fd') - c) with (Z.of_nat (String.length fd)) by lia.
        rewrite !Z.sub_0_l in E. symmetry. exact E. }
      apply (trailing_mod fd' (digits_val 0 i') Df' (digits_nonneg _ Di') T'); [intros ->; cbn in L; lia|].
      rewrite K. replace c with (1 + (c - 1)) by lia. rewrite Z.pow_add_r by lia. change (10 ^ 1) with 10.
      replace (digits_val (digits_val 0 i) fd * (10 * 10 ^ (c - 1))) with (digits_val (digits_val 0 i) fd * 10 ^ (c - 1) * 10) by ring. apply Z.mod_mul. lia.
    - set (c := Z.of_nat (String.length fd) - Z.of_nat (String.length fd')).
      assert (K : digits_val (digits_val 0 i) fd = digits_val (digits_val 0 i') fd' * 10 ^ c).
      { apply (NOT _ _ c _ (Z.of_nat (String.length fd))); [lia|]. replace (Z.of_nat (String.length fd) - c) with (Z.of_nat (String.length fd')) by lia.
        rewrite !Z.sub_0_l in E. exact E. }
      apply (trailing_mod fd (digits_val 0 i) Df (digits_nonneg _ Di) T); [intros ->; cbn in L; lia|].
      rewrite K. replace c with (1 + (c - 1)) by lia. rewrite Z.pow_add_r by lia. change (10 ^ 1) with 10.
      replace (digits_val (digits_val 0 i') fd' * (10 * 10 ^ (c - 1))) with (digits_val (digits_val 0 i') fd' * 10 ^ (c - 1) * 10) by ring. apply Z.mod_mul. lia. }
  rewrite LL in E. apply decimal_eq_inv in E.
  destruct (digits_inj fd fd' _ _ Df Df' (digits_nonneg _ Di) (digits_nonneg _ Di') ltac:(lia) E) as [<- EI].
  rewrite (int_part_inj i i' Hi Hi' EI). rewrite (fraction_inj _ _ _ Hf Hf'). reflexivity.
Qed.

(** ** Texts with an exponent *)

Definition certain (ok : string -> Prop) : Prop := forall n, ok n -> some_digits n /\ forall n', ok n' -> digits_val 0 n = digits_val 0 n' -> n = n'.

Lemma some_int n : int_part n -> some_digits n.
Proof. intros H. split; [|apply int_part_digits; exact H]. destruct H as [->|(c & d & -> & _)]; discriminate. Qed.
Lemma bare_certain : certain bare.
Proof. intros n H. split; [apply some_int; exact H|]. intros n' H' E. exact (int_part_inj n n' H H' E). Qed.
Lemma padded_certain : certain padded.
Proof.
  intros n (S1 & L & H). split; [exact S1|]. intros n' (S1' & L' & H') E.
  assert (BIG : forall a b, some_digits a -> String.length a = 2%nat -> (2 < String.length b)%nat -> int_part b -> digits_val 0 a = digits_val 0 b -> False).
  { intros a b [_ Ha] La Lb Hb K. pose proof (digits_bound a 0 Ha ltac:(lia)) as B. rewrite La in B. change (10 ^ Z.of_nat 2) with 100 in B.
    destruct (int_part_size b Hb) as [->|B']; [cbn in Lb; lia|]. assert (10 ^ 2 <= 10 ^ (Z.of_nat (String.length b) - 1)) by (apply Z.pow_le_mono_r; lia).
    change (10 ^ 2) with 100 in *. lia. }
  destruct (Nat.eq_dec (String.length n) 2) as [E2|N2], (Nat.eq_dec (String.length n') 2) as [E2'|N2'].
  - exact (proj1 (digits_inj n n' 0 0 (proj2 S1) (proj2 S1') ltac:(lia) ltac:(lia) ltac:(lia) E)).
  - exfalso. apply (BIG n n' S1 E2 ltac:(lia) (H' ltac:(lia)) E).
  - exfalso. apply (BIG n' n S1' E2' ltac:(lia) (H ltac:(lia)) (eq_sym E)).
  - exact (int_part_inj n n' (H ltac:(lia)) (H' ltac:(lia)) E).
Qed.

Lemma exp_value sg n : In sg ["+"; "-"] -> some_digits n -> exponent ("e" +++ sg +++ n) (if String.eqb sg "-" then - digits_val 0 n else digits_val 0 n).
Proof.
  intros [<-|[<-|[]]] H; cbn [String.eqb Ascii.eqb Bool.eqb].
  - apply (ex_plus "e" "+" n); [now left|right; now left|exact H].
  - apply (ex_minus "e" n); [now left|exact H].
Qed.

(** One digit, not zero, then digits without a zero at the end. *)
Lemma mant_facts d fd : String.length d = 1%nat -> d <> "0" -> int_part d -> digits fd -> trailing fd = fd ->
  let D := digits_val 0 (d +++ fd) in let a := Z.of_nat (String.length fd) in 10 ^ a <= D < 10 ^ (a + 1) /\ (0 < a -> D mod 10 <> 0).
Proof.
  intros L N H Hf T. cbv zeta. pose proof (int_part_digits d H) as Dd. destruct (int_part_size d H) as [|B]; [congruence|]. rewrite L in B.
  change (10 ^ (Z.of_nat 1 - 1)) with 1 in B. change (10 ^ Z.of_nat 1) with 10 in B. rewrite digits_val_app.
  pose proof (digits_bound fd (digits_val 0 d) Hf ltac:(lia)) as K. assert (0 < 10 ^ Z.of_nat (String.length fd)) by (apply Z.pow_pos_nonneg; lia).
  split; [rewrite Z.pow_add_r by lia; change (10 ^ 1) with 10; nia|]. intros P. apply trailing_mod; [exact Hf|lia|exact T|]. intros ->. cbn in P. lia.
Qed.

Lemma mant_same D k D' k' a a' : 0 <= a -> 0 <= a' -> 10 ^ a <= D < 10 ^ (a + 1) -> (0 < a -> D mod 10 <> 0) -> 10 ^ a' <= D' ->
  k < k' -> (decimal D k == decimal D' k')%Q -> False.
Proof.
  intros Ha Ha' HB HM HB' L E. replace k' with (k + (k' - k)) in E by lia. rewrite <- decimal_shift in E by lia. apply decimal_eq_inv in E.
  assert (0 < 10 ^ a') by (apply Z.pow_pos_nonneg; lia). assert (0 < 10 ^ (k' - k - 1)) by (apply Z.pow_pos_nonneg; lia).
  assert (E10 : D = D' * 10 ^ (k' - k - 1) * 10).
  { rewrite E. replace (k' - k) with (k' - k - 1 + 1) at 1 by lia. rewrite Z.pow_add_r by lia. change (10 ^ 1) with 10. ring. }
  destruct (Z.eq_dec a 0) as [->|N].
  - change (10 ^ (0 + 1)) with 10 in HB. nia.
  - apply HM; [lia|]. rewrite E10. apply Z.mod_mul. lia.
Qed.

Lemma exp_unique ok s s' D k D' k' : certain ok -> exp_layout ok s -> exp_layout ok s' -> denotes s false D k -> denotes s' false D' k' -> (decimal D k == decimal D' k')%Q -> s = s'.
Proof.
  intros OK (d & f & fd & sg & n & -> & L & N & Hd & Hf & T & Hsg & Hn & Hz) (d' & f' & fd' & sg' & n' & -> & L' & N' & Hd' & Hf' & T' & Hsg' & Hn' & Hz') H H' E.
  destruct (OK n Hn) as [Sn Un]. destruct (OK n' Hn') as [Sn' _].
  pose proof (exp_value sg n Hsg Sn) as X. pose proof (exp_value sg' n' Hsg' Sn') as X'.
  set (ev := if String.eqb sg "-" then - digits_val 0 n else digits_val 0 n) in *. set (ev' := if String.eqb sg' "-" then - digits_val 0 n' else digits_val 0 n') in *.
  assert (denotes (d +++ f +++ "e" +++ sg +++ n) false (digits_val 0 (d +++ fd)) (ev - Z.of_nat (String.length fd))) as G.
  { exists d, f, fd, ("e" +++ sg +++ n), ev. repeat split; assumption. }
  assert (denotes (d' +++ f' +++ "e" +++ sg' +++ n') false (digits_val 0 (d' +++ fd')) (ev' - Z.of_nat (String.length fd'))) as G'.
  { exists d', f', fd', ("e" +++ sg' +++ n'), ev'. repeat split; assumption. }
  destruct (denotes_value _ _ _ _ _ _ H G) as [-> ->]. destruct (denotes_value _ _ _ _ _ _ H' G') as [-> ->].
  pose proof (fraction_digits _ _ Hf) as Df. pose proof (fraction_digits _ _ Hf') as Df'.
  destruct (mant_facts d fd L N Hd Df T) as [B M]. destruct (mant_facts d' fd' L' N' Hd' Df' T') as [B' M'].
  set (a := Z.of_nat (String.length fd)) in *. set (a' := Z.of_nat (String.length fd')) in *.
  assert (KK : ev - a = ev' - a').
  { destruct (Z.lt_trichotomy (ev - a) (ev' - a')) as [K|[K|K]]; [exfalso|exact K|exfalso].
    - exact (mant_same _ _ _ _ a a' ltac:(lia) ltac:(lia) B M (proj1 B') K E).
    - exact (mant_same _ _ _ _ a' a ltac:(lia) ltac:(lia) B' M' (proj1 B) K (Qeq_sym _ _ E)). }
  rewrite KK in E. apply decimal_eq_inv in E. rewrite E in B.
  assert (AA : a + 1 = a' + 1) by (apply (pow_between _ _ (digits_val 0 (d' +++ fd'))); [lia|lia| |]; rewrite Z.add_simpl_r; assumption).
  assert (EV : ev = ev') by lia.
  rewrite !digits_val_app in E.
  assert (P0 : 0 <= digits_val 0 d) by (pose proof (digits_bound d 0 (int_part_digits d Hd) ltac:(lia)); lia).
  assert (P0' : 0 <= digits_val 0 d') by (pose proof (digits_bound d' 0 (int_part_digits d' Hd') ltac:(lia)); lia).
  destruct (digits_inj fd fd' _ _ Df Df' P0 P0' ltac:(lia) E) as [<- EI].
  rewrite (int_part_inj d d' Hd Hd' EI), (fraction_inj _ _ _ Hf Hf').
  pose proof (digits_bound n 0 (proj2 Sn) ltac:(lia)) as Bn. pose proof (digits_bound n' 0 (proj2 Sn') ltac:(lia)) as Bn'.
  assert (sg = sg' /\ digits_val 0 n = digits_val 0 n') as [-> En].
  { unfold ev, ev' in EV. destruct Hsg as [<-|[<-|[]]], Hsg' as [<-|[<-|[]]]; cbn [String.eqb Ascii.eqb Bool.eqb] in EV; split; try reflexivity; lia. }
  rewrite (Un n' Hn' En). reflexivity.
Qed.

(** ** Uniqueness *)

Lemma closest_denotes m e s : closest m e s -> exists D k, denotes s false D k.
Proof. intros ((neg & D & k & m' & e' & H & E & _) & _). injection E as <- _ _. eauto. Qed.

Lemma json_unique x s s' : json_number x s -> json_number x s' -> s = s'.
Proof.
  intros (neg & m & e & b & -> & -> & H) (neg' & m' & e' & b' & E & -> & H'). injection E as <- <- <-. f_equal.
  destruct H as [[-> ->]|(Pm & C & La)], H' as [[E0 ->]|(Pm' & C' & La')]; [reflexivity|lia|lia|].
  destruct (closest_denotes _ _ _ C) as (D & k & Hd). destruct (closest_denotes _ _ _ C') as (D' & k' & Hd').
  pose proof (closest_value _ _ _ _ _ _ _ _ C C' Hd Hd') as V.
  assert (nearest (decimal 1 (-6)) 4722366482869645 (-72)) as N6.
  { assert (denotes "1e-6" false 1 (-6)) as H1.
    { exists "1", "", "", "e-6", (-6). split; [reflexivity|]. split; [right; exists "1"%char, ""; repeat split; discriminate|].
      split; [constructor|]. split; [apply (ex_minus "e" "6"); [now left|split; [discriminate|reflexivity]]|]. split; reflexivity. }
    pose proof (parse_taken _ _ _ _ H1) as P. assert (parse_float "1e-6" = Some (FFin false 4722366482869645 (-72))) as E by (vm_compute; reflexivity).
    rewrite E in P. destruct P as (m0 & e0 & E2 & P & _). injection E2 as <- <-. exact P. }
  destruct (La _ _ N6) as [L1 L2]. destruct (La' _ _ N6) as [L1' L2'].
  destruct (Qlt_le_dec (double m e) (double 4722366482869645 (-72))) as [K|K].
  - exact (exp_unique bare _ _ _ _ _ _ bare_certain (L1 (or_introl K)) (L1' (or_introl K)) Hd Hd' V).
  - destruct (Qlt_le_dec (double m e) (decimal 1 21)) as [K2|K2].
    + exact (plain_unique _ _ _ _ _ _ (L2 (conj K K2)) (L2' (conj K K2)) Hd Hd' V).
    + exact (exp_unique bare _ _ _ _ _ _ bare_certain (L1 (or_intror K2)) (L1' (or_intror K2)) Hd Hd' V).
Qed.

Lemma soap_unique x s s' : soap_number x s -> soap_number x s' -> s = s'.
Proof.
  destruct x as [neg m e|neg|]; cbn [soap_number]; [|congruence|congruence].
  intros (b & -> & H) (b' & -> & H'). f_equal.
  destruct H as [[-> ->]|(Pm & C & La)], H' as [[E0 ->]|(Pm' & C' & La')]; [reflexivity|lia|lia|].
  destruct (closest_denotes _ _ _ C) as (D & k & Hd). destruct (closest_denotes _ _ _ C') as (D' & k' & Hd').
  pose proof (closest_value _ _ _ _ _ _ _ _ C C' Hd Hd') as V.
  destruct (La _ _ Hd) as [L1 L2]. destruct (La' _ _ Hd') as [L1' L2']. rewrite <- V in L1', L2'.
  destruct (Qlt_le_dec (decimal D k) (decimal 1 (-4))) as [K|K].
  - exact (exp_unique padded _ _ _ _ _ _ padded_certain (L1 (or_introl K)) (L1' (or_introl K)) Hd Hd' V).
  - destruct (Qlt_le_dec (decimal D k) (decimal 1 6)) as [K2|K2].
    + exact (plain_unique _ _ _ _ _ _ (L2 (conj K K2)) (L2' (conj K K2)) Hd Hd' V).
    + exact (exp_unique padded _ _ _ _ _ _ padded_certain (L1 (or_intror K2)) (L1' (or_intror K2)) Hd Hd' V).
Qed.
