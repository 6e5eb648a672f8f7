(** The texts the JSON and the SOAP writers choose for doubles are the ones of SpecShort. *)
From Coq Require Import Arith ZifyBool ZifyNat ZifyN QArith Qabs Qpower Qfield Lqa.
From Verif Require Import GoBase Json JsonText Float64 Float64Proofs SpecJson JsonGrammar SpecNumber FloatNear NearProofs NumberProofs ShortText ShortProofs SpecShort Xml.
Open Scope string_scope.
Open Scope list_scope.
Local Open Scope Z_scope.

(** ** The renderings are faithful *)

Lemma strip0_dec D j D' j' : 0 < D -> strip0 20 D j = (D', j') ->
  0 < D' /\ (decimal D' j' == decimal D j)%Q /\ Z.of_nat (String.length (dec D')) + j' = Z.of_nat (String.length (dec D)) + j /\ (D < 10 ^ 20 -> D' mod 10 <> 0).
Proof.
  intros HD H. destruct (strip0_val 20 D j D' j' HD H) as (A & B & C & F). change (10 ^ Z.of_nat 20) with (10 ^ 20) in F.
  split; [exact A|]. split; [|split; [|exact F]].
  - rewrite C, decimal_shift by lia. replace (j + (j' - j)) with j' by lia. reflexivity.
  - assert (dec D = dec D' +++ zeros (Z.to_nat (j' - j))) as ->.
    { rewrite dec_zeros by lia. rewrite Z2Nat.id by lia. rewrite <- C. reflexivity. }
    rewrite sapp_length, zeros_length. lia.
Qed.

Lemma render_faithful num den : faithful (render num den).
Proof.
  intros D j HD. unfold render. destruct (strip0 20 D j) as [D' j'] eqn:E. destruct (strip0_dec D j D' j' HD E) as (A & B & _).
  destruct (use_e num den).
  - exists D', j'. split; [|exact B]. unfold render_e. apply (exp_ok D' j' _ _ A (exp_text _) eq_refl).
  - destruct (render_f_ok D' j' A) as [(D2 & k2 & H1 & H2) _]. exists D2, k2. split; [exact H1|]. rewrite H2. exact B.
Qed.
Lemma render_g_faithful : faithful render_g.
Proof.
  intros D j HD. unfold render_g. destruct (strip0 20 D j) as [D' j'] eqn:E. destruct (strip0_dec D j D' j' HD E) as (A & B & _).
  match goal with |- context [if ?c then _ else _] => destruct c end.
  - exists D', j'. split; [|exact B]. unfold render_e2. apply (exp_ok D' j' _ _ A (exp2_text _) eq_refl).
  - destruct (render_f_ok D' j' A) as [(D2 & k2 & H1 & H2) _]. exists D2, k2. split; [exact H1|]. rewrite H2. exact B.
Qed.
Lemma shortest_g_search f : forall p m e, shortest_g f p m e = search render_g f p m e.
Proof. induction f as [|f IH]; intros p m e; [reflexivity|]. cbn [shortest_g search]. rewrite IH. reflexivity. Qed.

(** ** The text found is the closest *)

Lemma taken_good l m e : taken_as l (FFin false m e) -> exists D k, denotes l false D k /\ good m e (decimal D k).
Proof.
  intros (neg & D & k & m' & e' & H & E & N & L). injection E as <- <- <-. exists D, k. split; [exact H|]. split; assumption.
Qed.
Lemma good_pos m e D k : 0 < m -> 0 <= D -> good m e (decimal D k) -> 0 < D.
Proof.
  intros Hm HD [HN _]. destruct (Z.eq_dec D 0) as [->|]; [exfalso|lia].
  assert (E : (decimal 0 k == 0)%Q) by (unfold decimal; change (inject_Z 0) with 0%Q; ring).
  apply (nearest_eq _ _ _ _ E) in HN.
  assert (Z0 : nearest 0 0 (-1074)).
  { assert (K : (double 0 (-1074) == 0)%Q) by (unfold double; change (inject_Z 0) with 0%Q; ring). apply (nearest_eq _ _ _ _ K). apply nearest_self. reflexivity. }
  destruct (nearest_unique _ _ _ _ _ HN Z0). lia.
Qed.
Lemma denotes_value l neg D k D' k' : denotes l neg D k -> denotes l neg D' k' -> D = D' /\ k = k'.
Proof. intros H H'. destruct (denotes_unique _ _ _ _ _ _ _ H H') as (_ & E). exact E. Qed.

Lemma found_closest m e s R : faithful R -> 0 < m -> canon (FFin false m e) = true -> found m e 1 s R -> closest m e s.
Proof.
  intros HR Hm HC (p & D & HF). cbv zeta in HF. set (j := dexp (fnum m e) (fden e) - p) in *.
  destruct HF as (Hp & Es & HB & HG & HS & HN).
  assert (PD : 0 < D) by (assert (0 < 10 ^ (p - 1)) by (apply Z.pow_pos_nonneg; lia); lia).
  destruct (HR D j PD) as (Ds & ks & Hs & Ev). rewrite <- Es in Hs.
  pose proof (good_eq _ _ _ _ (Qeq_sym _ _ Ev) HG) as HG'.
  pose proof (good_pos _ _ _ _ Hm (denotes_nonneg _ _ _ _ Hs) HG') as PDs.
  assert (SL : Z.of_nat (significant s) <= p) by (apply (significant_least s false Ds ks D j p Hs PDs Ev); lia).
  assert (OTH : forall l D' k', denotes l false D' k' -> good m e (decimal D' k') ->
     exists D0 k0, (decimal D' k' == decimal D0 k0)%Q /\ 0 < D0 < 10 ^ Z.of_nat (significant l) /\ 1 <= Z.of_nat (significant l)).
  { intros l D' k' Hl Gl. pose proof (good_pos _ _ _ _ Hm (denotes_nonneg _ _ _ _ Hl) Gl) as P.
    destruct (significant_value l false D' k' Hl P) as (D0 & c & Hc & E & B & _ & Hn). cbv zeta in *. exists D0, (k' + c).
    split; [rewrite E; apply decimal_shift; exact Hc|]. assert (0 < 10 ^ (Z.of_nat (significant l) - 1)) by (apply Z.pow_pos_nonneg; lia). lia. }
  split; [|split; [lia|split]].
  - destruct HG' as [N1 N2]. exists false, Ds, ks, m, e. repeat split; try assumption; try reflexivity; apply N1; assumption.
  - intros l Hl. apply taken_good in Hl as (D' & k' & Hl & Gl). destruct (OTH l D' k' Hl Gl) as (D0 & k0 & E0 & B0 & N0).
    destruct (le_lt_dec (significant s) (significant l)) as [|LT]; [assumption|exfalso].
    apply (HS ltac:(lia) D0 k0); [|exact (good_eq _ _ _ _ E0 Gl)].
    assert (10 ^ Z.of_nat (significant l) <= 10 ^ (p - 1)) by (apply Z.pow_le_mono_r; lia). lia.
  - intros Ds2 ks2 l D1 k1 Hs2 Hl H1 ESG. destruct (denotes_value _ _ _ _ _ _ Hs Hs2) as [<- <-].
    apply taken_good in Hl as (D' & k' & Hl & Gl). destruct (denotes_value _ _ _ _ _ _ H1 Hl) as [-> ->].
    destruct (OTH l D' k' Hl Gl) as (D0 & k0 & E0 & B0 & N0).
    assert (10 ^ Z.of_nat (significant l) <= 10 ^ p) by (apply Z.pow_le_mono_r; lia).
    destruct (HN D0 k0 ltac:(lia) (good_eq _ _ _ _ E0 Gl)) as [C1 C2]. rewrite Ev, E0. split; [exact C1|].
    intros K. destruct (C2 K) as [K1|[K1 K2]]; [left; rewrite K1; reflexivity|]. right. exists D, j. split; [exact K1|]. split; [exact Ev|]. rewrite E0. exact K2.
Qed.

(** ** Layout *)

Lemma double_quot m e : (double m e == inject_Z (fnum m e) / inject_Z (fden e))%Q /\ 0 < fden e.
Proof.
  split; [|apply up_pos]. unfold double, fnum, fden, Float64.up. rewrite inject_Z_mult. change 2%Q with (inject_Z 2).
  destruct (Z_le_gt_dec 0 e) as [H|H].
  - rewrite (Z.max_l e 0), (Z.max_r (- e) 0) by lia. rewrite qpow_nat by lia. change (inject_Z (2 ^ 0)) with 1%Q. field.
  - rewrite (Z.max_r e 0), (Z.max_l (- e) 0) by lia. rewrite <- (qpow_nat 2 (- e)), (qpow_neg 2 e) by lia. change (inject_Z (2 ^ 0)) with 1%Q.
    pose proof (qpow_pos 2 e ltac:(lia)) as P. set (x := Qpower (inject_Z 2) e) in *. clearbody x. field. intros K. rewrite K in P. exact (Qlt_irrefl _ P).
Qed.

Lemma use_e_spec m e : use_e (fnum m e) (fden e) = true <-> (double m e < double 4722366482869645 (-72))%Q \/ (decimal 1 21 <= double m e)%Q.
Proof.
  destruct (double_quot m e) as [E P]. unfold use_e. rewrite orb_true_iff, Z.ltb_lt, Z.leb_le.
  assert (E6 : (double 4722366482869645 (-72) == inject_Z 4722366482869645 / inject_Z (2 ^ 72))%Q) by reflexivity.
  assert (E21 : (decimal 1 21 == inject_Z (10 ^ 21) / inject_Z 1)%Q) by reflexivity.
  rewrite E, E6, E21. pose proof (quot_lt (fnum m e) (fden e) 4722366482869645 (2 ^ 72) P ltac:(reflexivity)) as K1.
  pose proof (quot_le (10 ^ 21) 1 (fnum m e) (fden e) ltac:(reflexivity) P) as K2. rewrite Z.mul_1_r in K2. rewrite K1, K2. reflexivity.
Qed.

Lemma nearest_micro m6 e6 : nearest (decimal 1 (-6)) m6 e6 -> m6 = 4722366482869645 /\ e6 = -72.
Proof.
  intros H. assert (denotes "1e-6" false 1 (-6)) as Hd.
  { exists "1", "", "", "e-6", (-6). split; [reflexivity|]. split; [right; exists "1"%char, ""; repeat split; discriminate|].
    split; [constructor|]. split; [apply (ex_minus "e" "6"); [now left|split; [discriminate|reflexivity]]|]. split; reflexivity. }
  pose proof (parse_taken _ _ _ _ Hd) as P. assert (parse_float "1e-6" = Some (FFin false 4722366482869645 (-72))) as E by (vm_compute; reflexivity).
  rewrite E in P. destruct P as (m & e & E2 & P & _). injection E2 as <- <-. destruct (nearest_unique _ _ _ _ _ H P). split; assumption.
Qed.

Lemma exp_layout_intro s x ok : exp_form s x -> (exists sg n, x = "e" +++ sg +++ n /\ In sg ["+"; "-"] /\ ok n /\ digits_val 0 n <> 0) -> exp_layout ok s.
Proof.
  intros (d & f & fd & E & H1 & H2 & H3 & H4 & H5) (sg & n & -> & H6 & H7 & H8). exists d, f, fd, sg, n. repeat split; assumption.
Qed.

(** The size of the text found. *)
Lemma found_size m e s R : 0 < m -> canon (FFin false m e) = true -> found m e 1 s R ->
  exists D j, s = R D j /\ 0 < D < 10 ^ 20 /\ good m e (decimal D j) /\ let ex := Z.of_nat (String.length (dec D)) + j - 1 in
    (decimal 1 ex <= decimal D j)%Q /\ (decimal D j < decimal 1 (ex + 1))%Q /\
    (forall n, (decimal 1 n <= double m e)%Q -> n <= ex) /\ (forall n, (double m e < decimal 1 n)%Q -> ex <= n).
Proof.
  intros Hm HC (p & D & HF). cbv zeta in HF. set (j := dexp (fnum m e) (fden e) - p) in *.
  destruct HF as (Hp & Es & HB & HG & _ & _). exists D, j. split; [exact Es|].
  assert (PD : 0 < D) by (assert (0 < 10 ^ (p - 1)) by (apply Z.pow_pos_nonneg; lia); lia).
  split. { split; [exact PD|]. apply (Z.le_lt_trans _ (10 ^ 17)); [|reflexivity]. apply (Z.le_trans _ (10 ^ p)); [lia|]. apply Z.pow_le_mono_r; lia. }
  split; [exact HG|]. cbv zeta. pose proof (dec_len D PD) as DL. pose proof (dec_length_pos D ltac:(lia)) as L1. set (L := Z.of_nat (String.length (dec D))) in *.
  destruct (candidates m e p Hm HC ltac:(lia)) as (D1 & D2 & _). set (dx := dexp (fnum m e) (fden e)) in *.
  assert (Hmono : forall a b, (decimal 1 a < decimal 1 b)%Q -> a < b).
  { intros a b K. destruct (Z_lt_ge_dec a b) as [|G]; [assumption|exfalso]. apply (Qlt_not_le _ _ K).
    replace a with (b + (a - b)) by lia. rewrite <- decimal_shift by lia. apply decimal_le. assert (0 < 10 ^ (a - b)) by (apply Z.pow_pos_nonneg; lia). lia. }
  split.
  { replace (L + j - 1) with (j + (L - 1)) by lia. rewrite <- decimal_shift by lia. apply decimal_le. lia. }
  split.
  { replace (L + j - 1 + 1) with (j + L) by lia. rewrite <- decimal_shift by lia. apply decimal_lt. lia. }
  assert (p <= L) as LP.
  { destruct (Z_le_gt_dec p L) as [|G]; [assumption|exfalso]. assert (10 ^ L <= 10 ^ (p - 1)) by (apply Z.pow_le_mono_r; lia). lia. }
  assert (L <= p + 1) as LQ.
  { destruct (Z_le_gt_dec L (p + 1)) as [|G]; [assumption|exfalso]. assert (10 ^ (p + 1) <= 10 ^ (L - 1)) by (apply Z.pow_le_mono_r; lia).
    assert (10 ^ p < 10 ^ (p + 1)) by (apply Z.pow_lt_mono_r; lia). lia. }
  split.
  - intros n Hn. assert (n < dx) by (apply Hmono; lra). unfold j. lia.
  - intros n Hn. assert (dx - 1 < n) by (apply Hmono; lra). unfold j. lia.
Qed.

Lemma render_layout m e s : 0 < m -> canon (FFin false m e) = true -> found m e 1 s (render (fnum m e) (fden e)) -> json_layout m e s.
Proof.
  intros Hm HC HF m6 e6 H6. apply nearest_micro in H6 as [-> ->]. destruct (found_size m e s _ Hm HC HF) as (D & j & -> & HD & _ & HX).
  cbv zeta in HX. destruct HX as (_ & _ & X1 & X2). unfold render. destruct (strip0 20 D j) as [D' j'] eqn:E.
  destruct (strip0_dec D j D' j' ltac:(lia) E) as (A & _ & EL & M). specialize (M ltac:(lia)). rewrite <- EL in X1, X2. pose proof (use_e_spec m e) as U. split.
  - intros K. rewrite (proj2 U K). unfold render_e. set (ex := Z.of_nat (String.length (dec D')) + j' - 1) in *.
    refine (exp_layout_intro _ _ bare (proj2 (exp_ok D' j' _ _ A (exp_text ex) eq_refl) M) _).
    destruct K as [K|K].
    + assert (ex <= -5) as LE.
      { apply X2. apply (Qlt_trans _ _ _ K). reflexivity. }
      assert ((ex <? 0) = true) as -> by lia. exists "-", (dec (- ex)). split; [reflexivity|]. split; [right; now left|]. split; [apply dec_int_part; lia|rewrite dec_val; lia].
    + assert (21 <= ex) as LE by (apply X1; exact K).
      assert ((ex <? 0) = false) as -> by lia. assert ((ex <? 10) = false) as -> by lia.
      exists "+", (dec ex). split; [reflexivity|]. split; [now left|]. split; [apply dec_int_part; lia|rewrite dec_val; lia].
  - intros [K1 K2]. assert (use_e (fnum m e) (fden e) = false) as ->.
    { destruct (use_e (fnum m e) (fden e)); [exfalso|reflexivity]. destruct (proj1 U eq_refl) as [K|K]; lra. }
    apply (render_f_ok D' j' A). exact M.
Qed.

Lemma padded_text a : 0 <= a -> padded (if a <? 10 then "0" +++ dec a else dec a).
Proof.
  intros H. pose proof (dec_digits a H) as Dd. pose proof (dec_length_pos a H) as L. destruct (a <? 10) eqn:E.
  - assert (String.length (dec a) = 1)%nat as L1. { rewrite dec_unfold, E by exact H. reflexivity. }
    split; [apply some_digits_is; [discriminate|cbn [str_forall String.append]; exact Dd]|]. cbn [String.length String.append]. rewrite L1. split; lia.
  - split; [apply some_digits_is; [apply dec_ne; exact H|exact Dd]|]. split; [|intros _; apply dec_int_part; exact H].
    pose proof (dec_len a ltac:(lia)) as DL. destruct (Z.eq_dec (Z.of_nat (String.length (dec a))) 1) as [K|]; [rewrite K in DL; change (10 ^ 1) with 10 in DL; lia|lia].
Qed.

Lemma render_g_layout m e s : 0 < m -> canon (FFin false m e) = true -> found m e 1 s render_g -> soap_layout s.
Proof.
  intros Hm HC HF Ds ks Hs. destruct (found_size m e s _ Hm HC HF) as (D & j & -> & HD & _ & HX).
  cbv zeta in HX. destruct HX as (V1 & V2 & _ & _).
  destruct (render_g_faithful D j ltac:(lia)) as (D2 & k2 & H2 & E2). destruct (denotes_value _ _ _ _ _ _ Hs H2) as [-> ->]. rewrite E2. clear E2.
  unfold render_g. destruct (strip0 20 D j) as [D' j'] eqn:E.
  destruct (strip0_dec D j D' j' ltac:(lia) E) as (A & _ & EL & M). specialize (M ltac:(lia)). rewrite <- EL in V1, V2.
  set (ex := Z.of_nat (String.length (dec D')) + j' - 1) in *.
  assert (Hmono : forall a b, (decimal 1 a < decimal 1 b)%Q -> a < b).
  { intros a b K. destruct (Z_lt_ge_dec a b) as [|G]; [assumption|exfalso]. apply (Qlt_not_le _ _ K).
    replace a with (b + (a - b)) by lia. rewrite <- decimal_shift by lia. apply decimal_le. assert (0 < 10 ^ (a - b)) by (apply Z.pow_pos_nonneg; lia). lia. }
  split.
  - intros K. assert ((ex <? -4) || (6 <=? ex) = true) as EX.
    { destruct K as [K|K].
      - assert (ex < -4) by (apply Hmono; lra). lia.
      - assert (6 < ex + 1) by (apply Hmono; lra). lia. }
    rewrite EX. unfold render_e2. fold ex. refine (exp_layout_intro _ _ padded (proj2 (exp_ok D' j' _ _ A (exp2_text ex) eq_refl) M) _).
    exists (if ex <? 0 then "-" else "+"), (if Z.abs ex <? 10 then "0" +++ dec (Z.abs ex) else dec (Z.abs ex)).
    split; [destruct (ex <? 0); reflexivity|]. split; [destruct (ex <? 0); [right; now left|now left]|]. split; [apply padded_text; lia|].
    destruct (Z.abs ex <? 10); [rewrite digits_val_app; change (digits_val 0 "0") with 0|]; rewrite dec_val by lia; lia.
  - intros [K1 K2]. assert ((ex <? -4) || (6 <=? ex) = false) as ->.
    { assert (-4 < ex + 1) by (apply Hmono; lra). assert (ex < 6) by (apply Hmono; lra). lia. }
    apply (render_f_ok D' j' A). exact M.
Qed.

(** ** Both writers *)

Lemma canon_pos neg m e : canon (FFin neg m e) = true -> canon (FFin false m e) = true /\ 0 <= m.
Proof. intros H. split; [exact H|]. apply canon_cases in H. lia. Qed.

Opaque shortest shortest_g.

Lemma fmt_json x s : canon x = true -> fmt_float x = Some s -> json_number x s.
Proof.
  intros H K. destruct x as [neg m e| |]; cbn [fmt_float] in K; try discriminate K.
  injection K as <-. destruct (canon_pos _ _ _ H) as [HC Hm].
  exists neg, m, e, (if m =? 0 then "0" else shortest 17 1 m e). split; [reflexivity|]. split; [destruct neg; reflexivity|].
  destruct (Z.eqb_spec m 0) as [->|N]; [left; split; reflexivity|right]. split; [lia|].
  rewrite shortest_search. pose proof (search_found _ (render_faithful (fnum m e) (fden e)) 17 1 m e ltac:(lia) HC ltac:(lia) ltac:(lia) eq_refl) as F.
  split; [exact (found_closest m e _ _ (render_faithful _ _) ltac:(lia) HC F)|exact (render_layout m e _ ltac:(lia) HC F)].
Qed.

Lemma fmt_g_soap x : canon x = true -> soap_number x (fmt_g x).
Proof.
  intros H. destruct x as [neg m e|[]|]; cbn [fmt_g soap_number]; try reflexivity. destruct (canon_pos _ _ _ H) as [HC Hm].
  exists (if m =? 0 then "0" else shortest_g 17 1 m e). split; [destruct neg; reflexivity|].
  destruct (Z.eqb_spec m 0) as [->|N]; [left; split; reflexivity|right]. split; [lia|].
  rewrite shortest_g_search. pose proof (search_found _ render_g_faithful 17 1 m e ltac:(lia) HC ltac:(lia) ltac:(lia) eq_refl) as F.
  split; [exact (found_closest m e _ _ render_g_faithful ltac:(lia) HC F)|exact (render_g_layout m e _ ltac:(lia) HC F)].
Qed.
