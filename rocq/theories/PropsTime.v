(** Property theorems C70: timestamps. *)
From Coq Require Import ZifyBool ZifyNat ZifyN.
From Verif Require Import GoBase Json JsonProofs Float64 Float64Proofs GoTime GoTimeProofs DecTyped SpecTime.
From Verif Require Import Any AnyProofs Lang Codec EncProofs RoundTrip SpecCodec Registry Leaves Frame FrameRead Soap PropsSoap.
Ltac Zify.zify_post_hook ::= Z.div_mod_to_equations.
Open Scope string_scope.
Local Open Scope Z_scope.

(** *** The calendar *)

Lemma leap_spec y : leap y = true <-> leap_year y.
Proof.
  unfold leap, leap_year. rewrite <- !Z.mod_divide by lia. lia.
Qed.
Lemma day_spec y m d : 1 <= m <= 12 /\ 1 <= d <= days_in m y <-> real_day y m d.
Proof.
  unfold real_day. pose proof (leap_spec y) as L. cbn [In]. unfold days_in.
  destruct (m =? 2) eqn:E2.
  - assert (m = 2) as -> by lia. split.
    + intros H. split; [lia|]. right. right. split; [reflexivity|]. destruct (leap y); [|left; lia].
      destruct (Z.eq_dec d 29); [right; split; [assumption|apply L; reflexivity]|left; lia].
    + intros [H [K|[K|[_ [K|[K K']]]]]]; try lia; [destruct (leap y); lia|]. apply L in K'. rewrite K'. lia.
  - split; intros H.
    + split; [lia|]. destruct ((m =? 4) || (m =? 6) || (m =? 9) || (m =? 11)) eqn:E4; [right; left|left]; split; lia.
    + destruct H as [H [K|[K|K]]]; [| |lia]; destruct ((m =? 4) || (m =? 6) || (m =? 9) || (m =? 11)) eqn:E4; lia.
Qed.
(** The library's notion of a valid time is the calendar's. *)
Theorem C70_calendar : forall t, time_valid t = true <-> real_time t.
Proof.
  intros t. rewrite time_valid_spec. unfold real_time. rewrite <- day_spec. change (10 ^ 9) with 1000000000. lia.
Qed.

(** *** Reading *)

Lemma getyear_iff s y r : getyear s = Some (y, r) <-> exists a, s = a +++ r /\ number 4 a y.
Proof.
  split.
  - destruct s as [|a [|b [|c [|d r']]]]; try discriminate. cbn [getyear]. unfold is_dig. intros H.
    destruct (is_digit a && is_digit b && is_digit c && is_digit d) eqn:E; [|discriminate H].
    assert (r' = r) as -> by congruence. assert (y = digits_val 0 (String a (String b (String c (String d ""))))) as -> by congruence.
    exists (String a (String b (String c (String d "")))). split; [reflexivity|]. split; [reflexivity|]. split; [|reflexivity].
    cbn [str_forall]. rewrite !andb_true_iff in *. tauto.
  - intros (a & -> & HL & HD & HV). destruct a as [|a [|b [|c [|d [|]]]]]; try discriminate HL.
    cbn [str_forall] in HD. rewrite !andb_true_iff in HD. destruct HD as (Ha & Hb & Hc & Hd & _).
    cbn [String.append getyear]. unfold is_dig. rewrite Ha, Hb, Hc, Hd. cbn [andb]. rewrite <- HV. reflexivity.
Qed.
Lemma getnum_two f a n r : number 2 a n -> getnum f (a +++ r) = Some (n, r).
Proof.
  intros (HL & HD & HV). destruct a as [|a [|b [|]]]; try discriminate HL.
  cbn [str_forall] in HD. rewrite !andb_true_iff in HD. destruct HD as (Ha & Hb & _).
  cbn [String.append getnum]. unfold is_dig. rewrite Ha, Hb. cbn [digits_val] in HV. repeat f_equal. lia.
Qed.
Lemma getnum_iff s n r : getnum true s = Some (n, r) <-> exists a, s = a +++ r /\ number 2 a n.
Proof.
  split.
  - destruct s as [|a [|b r']]; try discriminate; cbn [getnum]; unfold is_dig; intros H; destruct (is_digit a) eqn:Ea; try discriminate H.
    destruct (is_digit b) eqn:Eb; [|discriminate H]. assert (r' = r) as -> by congruence. assert (n = 10 * dval a + dval b) as -> by congruence.
    exists (String a (String b "")). split; [reflexivity|]. split; [reflexivity|]. cbn [str_forall digits_val]. rewrite Ea, Eb. split; [reflexivity|lia].
  - intros (a & -> & H). apply getnum_two. exact H.
Qed.
Lemma getnum_hour s n r : getnum false s = Some (n, r) -> exists a, s = a +++ r /\ lenient_hour a n.
Proof.
  destruct s as [|a r']; [discriminate|]. cbn [getnum]. unfold is_dig. intros H. destruct (is_digit a) eqn:Ea; [|discriminate H].
  assert (forall r'', Some (dval a, r'') = Some (n, r) -> r' = r'' -> exists a0, String a r' = a0 +++ r /\ lenient_hour a0 n) as one.
  { intros r'' E ->. assert (r'' = r) as -> by congruence. assert (n = dval a) as -> by congruence. exists (String a ""). split; [reflexivity|]. right.
    split; [reflexivity|]. cbn [str_forall digits_val]. rewrite Ea. split; [reflexivity|lia]. }
  destruct r' as [|b r']; [exact (one _ H eq_refl)|]. destruct (is_digit b) eqn:Eb; [|exact (one _ H eq_refl)].
  assert (r' = r) as -> by congruence. assert (n = 10 * dval a + dval b) as -> by congruence.
  exists (String a (String b "")). split; [reflexivity|]. left. split; [reflexivity|]. cbn [str_forall digits_val]. rewrite Ea, Eb. split; [reflexivity|lia].
Qed.
Lemma hour_getnum a n c r : lenient_hour a n -> is_digit c = false -> getnum false (a +++ String c r) = Some (n, String c r).
Proof.
  intros [H|(HL & HD & HV)] HC; [apply getnum_two; exact H|]. destruct a as [|a [|]]; try discriminate HL.
  cbn [str_forall] in HD. rewrite andb_true_iff in HD. destruct HD as (Ha & _). cbn [String.append getnum]. unfold is_dig. rewrite Ha, HC.
  cbn [digits_val] in HV. repeat f_equal. lia.
Qed.
Lemma expect_iff c s r : expect c s = Some r <-> s = String c r.
Proof.
  split; [|intros ->; apply expect_eq]. destruct s as [|d s]; [discriminate|]. cbn [expect]. destruct (Ascii.eqb_spec c d) as [->|]; [|discriminate]. congruence.
Qed.
Lemma span_digits_spec s : let '(d, r) := span_digits s in s = d +++ r /\ str_forall is_digit d = true.
Proof.
  induction s as [|c s IH]; [split; reflexivity|]. cbn [span_digits]. destruct (is_digit c) eqn:E; [|split; reflexivity].
  destruct (span_digits s) as [d r]. destruct IH as [-> IH]. split; [reflexivity|]. cbn [str_forall]. rewrite E, IH. reflexivity.
Qed.
Lemma getfrac_reads s ns r : getfrac s = Some (ns, r) -> exists a, s = a +++ r /\ lenient_fraction a ns.
Proof.
  assert (Some (0, s) = Some (ns, r) -> exists a, s = a +++ r /\ lenient_fraction a ns) as none.
  { intros E. exists "". split; [cbn; congruence|]. left. split; congruence. }
  destruct s as [|c [|d s']]; cbn [getfrac]; try exact none. unfold is_dig.
  destruct (Ascii.eqb_spec c "."%char) as [->|]; [|exact none]. destruct (is_digit d) eqn:Ed; [|exact none]. cbn [andb].
  pose proof (span_digits_spec (String d s')) as HS. destruct (span_digits (String d s')) as [ds r'] eqn:E. destruct HS as [HS HD].
  destruct (digits_val 0 ds <? 1000000000) eqn:EN; [|discriminate]. intros H. assert (r' = r) as -> by congruence.
  assert (ns = digits_val 0 ds * 10 ^ Z.max 0 (9 - Z.of_nat (String.length ds))) as -> by congruence. clear H none.
  exists ("." +++ ds). split; [rewrite HS; reflexivity|]. right. exists (String.length ds), ds, (digits_val 0 ds).
  split; [reflexivity|]. split; [split; [reflexivity|split; [exact HD|reflexivity]]|]. split; [|split; [change (10 ^ 9) with 1000000000; lia|reflexivity]].
  destruct ds; [|cbn; lia]. exfalso. cbn [String.append] in HS. subst r. cbn [span_digits] in E. rewrite Ed in E. destruct (span_digits s'). discriminate E.
Qed.
Lemma frac_getfrac a ns c r : lenient_fraction a ns -> is_digit c = false -> Ascii.eqb c "."%char = false ->
  getfrac (a +++ String c r) = Some (ns, String c r).
Proof.
  intros [[-> ->]|(k & ds & n & -> & (HL & HD & HV) & Hk & Hn & ->)] HC HP.
  - cbn [String.append getfrac]. destruct r; [reflexivity|]. rewrite HP. reflexivity.
  - destruct ds as [|d ds]; [cbn in HL; lia|]. pose proof HD as HD0. cbn [str_forall] in HD. apply andb_true_iff in HD. destruct HD as [Hd _].
    cbn [String.append getfrac]. unfold is_dig. rewrite Hd. change (Ascii.eqb "." ".") with true. cbn [andb].
    change (String d (ds +++ String c r)) with (String d ds +++ String c r). rewrite span_digits_stop by eauto. rewrite HV, HL.
    change (10 ^ 9) with 1000000000 in Hn. replace (n <? 1000000000) with true by lia. reflexivity.
Qed.
Lemma signed_iff a b n : atoi2 a b = Some n <-> signed (String a (String b "")) n.
Proof.
  unfold atoi2, is_dig, signed. split.
  - destruct (is_digit a) eqn:Ea, (is_digit b) eqn:Eb; cbn [andb]; intros H.
    + left. split; [reflexivity|]. cbn [str_forall digits_val]. rewrite Ea, Eb. split; [reflexivity|]. assert (n = 10 * dval a + dval b) by congruence. lia.
    + rewrite !andb_false_r in H. discriminate H.
    + right. rewrite !andb_true_r in H. exists (String b ""), (dval b). split; [split; [reflexivity|]; cbn [str_forall digits_val]; rewrite Eb; split; [reflexivity|lia]|].
      destruct (Ascii.eqb_spec a "-"%char) as [->|]; [left; split; [reflexivity|congruence]|].
      destruct (Ascii.eqb_spec a "+"%char) as [->|]; [right; split; [reflexivity|congruence]|discriminate H].
    + rewrite !andb_false_r in H. discriminate H.
  - intros [(HL & HD & HV)|(ds & k & (HL & HD & HV) & H)].
    + cbn [str_forall] in HD. rewrite !andb_true_iff in HD. destruct HD as (-> & -> & _). cbn [andb]. cbn [digits_val] in HV. f_equal. lia.
    + destruct ds as [|d [|]]; try discriminate HL. cbn [str_forall] in HD. rewrite andb_true_iff in HD. destruct HD as (Hd & _). cbn [digits_val] in HV.
      destruct H as [[E ->]|[E ->]]; injection E as -> <-; rewrite Hd; cbn [andb];
        [change (is_digit "-") with false|change (is_digit "+") with false]; cbn [andb];
        [change (Ascii.eqb "-" "-") with true|change (Ascii.eqb "+" "-") with false; change (Ascii.eqb "+" "+") with true]; cbn [andb]; f_equal; lia.
Qed.
Lemma getzone_reads s off r : getzone s = Some (off, r) -> exists a, s = a +++ r /\ lenient_offset a off.
Proof.
  destruct s as [|z s]; [discriminate|]. cbn [getzone]. destruct (Ascii.eqb_spec z "Z"%char) as [->|NZ].
  - intros H. exists "Z". split; [cbn; congruence|]. left. split; congruence.
  - destruct s as [|h1 [|h2 [|c [|m1 [|m2 r']]]]]; try discriminate. destruct (Ascii.eqb_spec c ":"%char) as [->|]; [|discriminate].
    destruct (atoi2 h1 h2) as [h|] eqn:EH; [|discriminate]. destruct (atoi2 m1 m2) as [m|] eqn:EM; [|discriminate].
    apply signed_iff in EH. apply signed_iff in EM. intros H. exists (String z (String h1 (String h2 (String ":" (String m1 (String m2 "")))))).
    destruct (Ascii.eqb_spec z "+"%char) as [->|].
    + split; [cbn; congruence|]. right. exists "+", (String h1 (String h2 "")), (String m1 (String m2 "")), h, m.
      split; [reflexivity|]. split; [exact EH|]. split; [exact EM|]. left. split; [reflexivity|congruence].
    + destruct (Ascii.eqb_spec z "-"%char) as [->|]; [|discriminate H].
      split; [cbn; congruence|]. right. exists "-", (String h1 (String h2 "")), (String m1 (String m2 "")), h, m.
      split; [reflexivity|]. split; [exact EH|]. split; [exact EM|]. right. split; [reflexivity|congruence].
Qed.
Lemma signed_len s n : signed s n -> exists a b, s = String a (String b "").
Proof.
  intros [(HL & _)|(ds & k & (HL & _) & H)].
  - destruct s as [|a [|b [|]]]; try discriminate HL. eauto.
  - destruct ds as [|d [|]]; try discriminate HL. destruct H as [[-> _]|[-> _]]; cbn [String.append]; eauto.
Qed.
Lemma zone_getzone a off : lenient_offset a off -> getzone a = Some (off, "") /\ exists c r, a = String c r /\ is_digit c = false /\ Ascii.eqb c "."%char = false.
Proof.
  intros [[-> ->]|(sg & h & m & x & y & -> & Hh & Hm & H)].
  - split; [reflexivity|]. exists "Z"%char, "". repeat split; reflexivity.
  - destruct (signed_len _ _ Hh) as (h1 & h2 & ->). destruct (signed_len _ _ Hm) as (m1 & m2 & ->). apply signed_iff in Hh. apply signed_iff in Hm.
    destruct H as [[-> ->]|[-> ->]]; cbn [String.append getzone]; (split; [|eexists _, _; split; [reflexivity|split; reflexivity]]);
      repeat match goal with |- context [Ascii.eqb ?a ?b] => change (Ascii.eqb a b) with true || change (Ascii.eqb a b) with false end; cbv iota;
      rewrite Hh, Hm; reflexivity.
Qed.

Lemma two_nonneg s n : number 2 s n -> 0 <= n.
Proof. intros (_ & HD & <-). apply digits_val_nonneg; [lia|exact HD]. Qed.
Lemma hour_nonneg s n : lenient_hour s n -> 0 <= n.
Proof. intros [(_ & HD & <-)|(_ & HD & <-)]; (apply digits_val_nonneg; [lia|exact HD]). Qed.

(** Exactly the texts of the lenient grammar that denote an existing time are
    accepted, with the time they denote. *)
Theorem C70_accepted_iff : forall s t, parse_rfc3339 s = Some t <-> go_time s t /\ real_time t.
Proof.
  intros s t. rewrite <- C70_calendar, time_valid_spec. split.
  - unfold parse_rfc3339, obind. intros H.
    destruct (getyear s) as [[y s1]|] eqn:E1; [|discriminate H]. apply getyear_iff in E1. destruct E1 as (ys & -> & Ny).
    destruct (expect "-" s1) as [s2|] eqn:E2; [|discriminate H]. apply expect_iff in E2. subst s1.
    destruct (getnum true s2) as [[mo s3]|] eqn:E3; [|discriminate H]. apply getnum_iff in E3. destruct E3 as (ms & -> & Nm). unfold in_range in H at 1.
    destruct ((1 <=? mo) && (mo <=? 12)) eqn:B1; [|discriminate H].
    destruct (expect "-" s3) as [s4|] eqn:E4; [|discriminate H]. apply expect_iff in E4. subst s3.
    destruct (getnum true s4) as [[d s5]|] eqn:E5; [|discriminate H]. apply getnum_iff in E5. destruct E5 as (dd & -> & Nd).
    destruct (expect "T" s5) as [s6|] eqn:E6; [|discriminate H]. apply expect_iff in E6. subst s5.
    destruct (getnum false s6) as [[h s7]|] eqn:E7; [|discriminate H]. apply getnum_hour in E7. destruct E7 as (hs & -> & Nh). unfold in_range in H at 1.
    destruct ((0 <=? h) && (h <=? 23)) eqn:B2; [|discriminate H].
    destruct (expect ":" s7) as [s8|] eqn:E8; [|discriminate H]. apply expect_iff in E8. subst s7.
    destruct (getnum true s8) as [[mi s9]|] eqn:E9; [|discriminate H]. apply getnum_iff in E9. destruct E9 as (mis & -> & Nmi). unfold in_range in H at 1.
    destruct ((0 <=? mi) && (mi <=? 59)) eqn:B3; [|discriminate H].
    destruct (expect ":" s9) as [s10|] eqn:E10; [|discriminate H]. apply expect_iff in E10. subst s9.
    destruct (getnum true s10) as [[se s11]|] eqn:E11; [|discriminate H]. apply getnum_iff in E11. destruct E11 as (ses & -> & Nse). unfold in_range in H.
    destruct ((0 <=? se) && (se <=? 59)) eqn:B4; [|discriminate H].
    destruct (getfrac s11) as [[ns s12]|] eqn:E12; [|discriminate H]. apply getfrac_reads in E12. destruct E12 as (fs & -> & Nf).
    destruct (getzone s12) as [[off s13]|] eqn:E13; [|discriminate H]. apply getzone_reads in E13. destruct E13 as (zs & -> & Nz).
    destruct s13; [|discriminate H]. destruct ((1 <=? d) && (d <=? days_in mo y)) eqn:B5; [|discriminate H]. injection H as <-.
    cbn [t_year t_month t_day t_hour t_min t_sec t_nsec t_off]. split.
    + exists ys, ms, dd, hs, mis, ses, fs, zs. cbn [t_year t_month t_day t_hour t_min t_sec t_nsec t_off]. split; [|tauto].
      assert (zs +++ "" = zs) as -> by apply sapp_nil_r. reflexivity.
    + assert (0 <= ns < 1000000000) as HN; [|lia]. destruct Nf as [[_ ->]|(k & ds & n & _ & (HL & HD & HV) & Hk & Hn & ->)]; [lia|].
      assert (0 <= n) as N0 by (rewrite <- HV; apply digits_val_nonneg; [lia|exact HD]). change (10 ^ 9) with 1000000000 in Hn.
      destruct (Z.le_gt_cases 9 (Z.of_nat k)) as [K|K]; [replace (Z.max 0 (9 - Z.of_nat k)) with 0 by lia; change (10 ^ 0) with 1; lia|].
      replace (Z.max 0 (9 - Z.of_nat k)) with (9 - Z.of_nat k) by lia.
      assert (n < 10 ^ Z.of_nat k) as NB by (pose proof (digits_val_bound ds HD 0 ltac:(lia)) as K0; rewrite HV, HL in K0; lia).
      assert (10 ^ Z.of_nat k * 10 ^ (9 - Z.of_nat k) = 1000000000) as P by (rewrite <- Z.pow_add_r by lia; replace (Z.of_nat k + (9 - Z.of_nat k)) with 9 by lia; reflexivity).
      assert (0 < 10 ^ (9 - Z.of_nat k)) by (apply Z.pow_pos_nonneg; lia).
      rewrite <- P. clear P Ny Nm Nd Nh Nmi Nse Nz Hn B1 B2 B3 B4 B5. split; [apply Z.mul_nonneg_nonneg; lia|]. apply Z.mul_lt_mono_pos_r; lia.
  - intros [(ys & ms & dd & hs & mis & ses & fs & zs & -> & Ny & Nm & Nd & Nh & Nmi & Nse & Nf & Nz) V].
    destruct (zone_getzone _ _ Nz) as (Z1 & c & r & Z2 & Z3 & Z4).
    unfold parse_rfc3339.
    rewrite (proj2 (getyear_iff _ (t_year t) _) (ex_intro _ ys (conj eq_refl Ny))). cbn [obind String.append]. rewrite expect_eq. cbn [obind].
    rewrite (getnum_two _ _ _ _ Nm). unfold in_range at 1. replace ((1 <=? t_month t) && (t_month t <=? 12)) with true by lia.
    cbn [obind String.append]. rewrite expect_eq. cbn [obind]. rewrite (getnum_two _ _ _ _ Nd). cbn [obind String.append]. rewrite expect_eq. cbn [obind].
    rewrite (hour_getnum _ _ ":"%char _ Nh eq_refl). unfold in_range at 1. replace ((0 <=? t_hour t) && (t_hour t <=? 23)) with true by lia.
    cbn [obind]. rewrite expect_eq. cbn [obind]. rewrite (getnum_two _ _ _ _ Nmi). unfold in_range at 1.
    replace ((0 <=? t_min t) && (t_min t <=? 59)) with true by lia.
    cbn [obind String.append]. rewrite expect_eq. cbn [obind]. rewrite (getnum_two _ _ _ _ Nse). unfold in_range.
    replace ((0 <=? t_sec t) && (t_sec t <=? 59)) with true by lia. cbn [obind].
    rewrite Z2 at 1. rewrite (frac_getfrac _ _ _ _ Nf Z3 Z4). cbn [obind]. rewrite <- Z2, Z1. cbn [obind].
    replace ((1 <=? t_day t) && (t_day t <=? days_in (t_month t) (t_year t))) with true by lia. destruct t; reflexivity.
Qed.
(** In particular every text of RFC 3339 (with upper case T and Z, at most nine
    digits of fraction, not a leap second) of an existing time. *)
Theorem C70_rfc3339_accepted : forall s t, rfc3339 s t -> real_time t -> parse_rfc3339 s = Some t.
Proof.
  intros s t (ys & ms & dd & hs & mis & ses & fs & zs & E & Ny & Nm & Nd & Nh & Nmi & Nse & Nf & Nz) R. apply C70_accepted_iff. split; [|exact R].
  exists ys, ms, dd, hs, mis, ses, fs, zs. split; [exact E|]. split; [exact Ny|]. split; [exact Nm|]. split; [exact Nd|]. split; [left; exact Nh|].
  split; [exact Nmi|]. split; [exact Nse|]. split.
  - destruct Nf as [N|(k & ds & n & E1 & E2 & E3 & E4)]; [left; exact N|]. right. exists k, ds, n. split; [exact E1|]. split; [exact E2|]. split; [lia|].
    split; [|rewrite E4; do 2 f_equal; lia]. destruct E2 as (HL & HD & HV). pose proof (digits_val_bound ds HD 0 ltac:(lia)) as K. rewrite HV, HL in K.
    assert (10 ^ Z.of_nat k <= 10 ^ 9) by (apply Z.pow_le_mono_r; lia). lia.
  - destruct Nz as [N|(sg & h & m & a & b & E1 & E2 & E3 & _ & _ & E4)]; [left; exact N|]. right. exists sg, h, m, a, b.
    split; [exact E1|]. split; [left; exact E2|]. split; [left; exact E3|exact E4].
Qed.
(** Go's library accepts more: hours of one digit, offsets that no place has. *)
Theorem C70_only_rfc3339_refuted : exists t u v,
  parse_rfc3339 "2020-02-29T1:00:00Z" = Some t /\ ~ rfc3339 "2020-02-29T1:00:00Z" t /\
  parse_rfc3339 "2020-02-29T01:00:00+99:99" = Some u /\ t_off u = 362340 /\
  parse_rfc3339 "2020-02-29T01:00:00+-1:00" = Some v /\ t_off v = -3600.
Proof.
  do 3 eexists. split; [vm_compute; reflexivity|]. split; [|split; [vm_compute; reflexivity|split; [reflexivity|split; [vm_compute; reflexivity|reflexivity]]]].
  intros (ys & ms & dd & hs & mis & ses & fs & zs & E & (L1 & _) & (L2 & _) & (L3 & _) & (L4 & D4 & _) & _).
  destruct ys as [|? [|? [|? [|? [|]]]]]; try discriminate L1. destruct ms as [|? [|? [|]]]; try discriminate L2.
  destruct dd as [|? [|? [|]]]; try discriminate L3. destruct hs as [|? [|? [|]]]; try discriminate L4. cbn [String.append] in E.
  injection E; intros; subst. discriminate D4.
Qed.

(** *** Writing *)

Lemma number_pad w n : (0 < w)%nat -> 0 <= n < 10 ^ Z.of_nat w -> number w (pad w n) n.
Proof. intros H0 H. destruct (pad_spec w n H0 H) as (A & B & C). split; [exact A|]. split; [exact C|exact B]. Qed.
Lemma zone_text off : off mod 60 = 0 -> Z.abs off < 86400 -> offset (fmt_zone off) off.
Proof.
  intros HM HA. unfold fmt_zone. destruct (off =? 0) eqn:E0; [left; split; [reflexivity|lia]|]. right. cbn zeta.
  assert (Z.quot off 60 = off / 60) as Q.
  { assert (off = 60 * (off / 60)) as E by lia. rewrite E at 1. rewrite Z.mul_comm, Z.quot_mul by lia. reflexivity. }
  rewrite Q. set (a := Z.abs (off / 60)). exists (if off / 60 <? 0 then "-" else "+"), (pad 2 (a / 60)), (pad 2 (a mod 60)), (a / 60), (a mod 60).
  split; [reflexivity|]. split; [apply number_pad; [lia|change (10 ^ Z.of_nat 2) with 100; lia]|].
  split; [apply number_pad; [lia|change (10 ^ Z.of_nat 2) with 100; lia]|]. split; [lia|]. split; [lia|].
  destruct (off / 60 <? 0) eqn:E1; [right|left]; (split; [reflexivity|]); lia.
Qed.
Lemma frac_text ns : 0 <= ns < 1000000000 -> fraction (fmt_frac ns) ns.
Proof.
  intros H. unfold fmt_frac. destruct (ns =? 0) eqn:E0; [left; split; [reflexivity|lia]|]. right.
  destruct (strip_zeros 9 ns 9) as [n w] eqn:E.
  destruct (strip_zeros_spec 9 ns 9 n w) as (A & B & C); [change (10 ^ Z.of_nat 9) with 1000000000; lia|exact E|].
  assert (Hw : (0 < w)%nat) by (destruct w; [change (10 ^ Z.of_nat 0) with 1 in A; lia|lia]).
  exists w, (pad w n), n. split; [reflexivity|]. split; [apply number_pad; lia|]. split; [lia|]. rewrite C. do 2 f_equal. lia.
Qed.
Lemma civil_text t fr ns z : real_time t -> 0 <= t_year t <= 9999 -> fraction fr ns -> offset z (t_off t) ->
  rfc3339 (fmt_civil t +++ fr +++ z) (MkTime (t_year t) (t_month t) (t_day t) (t_hour t) (t_min t) (t_sec t) ns (t_off t)).
Proof.
  intros R HY HF HZ. apply C70_calendar, time_valid_spec in R. pose proof (days_in_bound (t_month t) (t_year t)).
  exists (pad_int 4 (t_year t)), (pad 2 (t_month t)), (pad 2 (t_day t)), (pad 2 (t_hour t)), (pad 2 (t_min t)), (pad 2 (t_sec t)), fr, z.
  cbn [t_year t_month t_day t_hour t_min t_sec t_nsec t_off]. split; [unfold fmt_civil; rewrite !sapp_assoc; reflexivity|].
  split. { unfold pad_int. replace (t_year t <? 0) with false by lia. apply number_pad; [lia|change (10 ^ Z.of_nat 4) with 10000; lia]. }
  change (10 ^ Z.of_nat 2) with 100. repeat (split; [apply number_pad; [lia|change (10 ^ Z.of_nat 2) with 100; lia]|]). split; [exact HF|exact HZ].
Qed.
(** The texts written are of RFC 3339, for existing times of the years 0 to 9999 with
    an offset of whole minutes and less than a day: in JSON messages with the
    time cut to whole seconds, in XML (and in JSON payloads without encoder of
    their own) with all of it. *)
Theorem C70_written : forall t, real_time t -> 0 <= t_year t <= 9999 -> (60 | t_off t) -> Z.abs (t_off t) < 24 * 3600 ->
  rfc3339 (format_rfc3339 t) (MkTime (t_year t) (t_month t) (t_day t) (t_hour t) (t_min t) (t_sec t) 0 (t_off t)) /\
  rfc3339 (format_nano t) t.
Proof.
  intros t R HY HO HA. apply Z.mod_divide in HO; [|lia]. pose proof (zone_text _ HO HA) as HZ. split.
  - unfold format_rfc3339. exact (civil_text t "" 0 _ R HY (or_introl (conj eq_refl eq_refl)) HZ).
  - unfold format_nano. pose proof (civil_text t (fmt_frac (t_nsec t)) (t_nsec t) (fmt_zone (t_off t)) R HY) as K. destruct t. apply K; [|exact HZ]. apply frac_text.
    destruct R as (_ & _ & _ & _ & R). change (10 ^ 9) with 1000000000 in R. exact R.
Qed.
(** Beyond that: a year of five digits and seconds of the offset. *)
Theorem C70_written_beyond_refuted :
  (real_time (MkTime 10000 1 1 0 0 0 0 0) /\ format_rfc3339 (MkTime 10000 1 1 0 0 0 0 0) = "10000-01-01T00:00:00Z" /\ parse_rfc3339 "10000-01-01T00:00:00Z" = None) /\
  (format_rfc3339 (MkTime 1880 1 1 0 0 0 0 1172) = "1880-01-01T00:00:00+00:19").
Proof.
  split; [|vm_compute; reflexivity]. split; [apply C70_calendar; reflexivity|]. split; vm_compute; reflexivity.
Qed.

(** *** Messages *)

Lemma held_times v : forall t, has_type v t = true -> Forall real_time (times v).
Proof.
  induction v as [s|z|x|b|x| |v IH|l IH|fs IH] using gval_ind'; intros t HT; try (constructor; fail).
  - destruct t; try discriminate HT. constructor; [apply C70_calendar; exact HT|constructor].
  - destruct t; try discriminate HT. exact (IH t HT).
  - destruct t; try discriminate HT. cbn [has_type] in HT. rewrite forallb_forall in HT. unfold times. cbn [leaves].
    apply Forall_flat_map. apply Forall_forall. intros v Hv. rewrite Forall_forall in IH. exact (IH v Hv t (HT v Hv)).
  - destruct t; try discriminate HT. apply has_type_struct in HT. destruct HT as (d & _ & HT). unfold times. cbn [leaves].
    apply Forall_flat_map. clear -IH HT. induction HT as [|kv f fs ds [_ HK] HT IHT]; [constructor|].
    inversion IH; subst. constructor; [eauto|apply IHT; assumption].
Qed.
(** Every timestamp in a message that the library hands to the application exists. *)
Theorem C70_request_times : forall action payload m, wf_any payload -> call_to_request action payload = inl m -> Forall real_time (times (m_val m)).
Proof.
  intros a p m HW HC. pose proof (call_fate a p HW) as K. destruct (req_from_action a) as [ty|]; [|rewrite K in HC; discriminate HC].
  destruct K as [(v & K & HM)|K]; rewrite K in HC; [|discriminate HC]. injection HC as <-. exact (held_times _ _ HM).
Qed.
Theorem C70_response_times : forall ty action payload m, action_of ty = Some action -> wf_any payload -> result_to_response action payload = Ok (inl m) ->
  Forall real_time (times (m_val m)).
Proof.
  intros q a p m HA HW HC. pose proof (result_fate q a p HA HW) as K. destruct (is_dt q); [rewrite K in HC; discriminate HC|].
  destruct K as (r & _ & [(v & K & HM)|K]); rewrite K in HC; [|discriminate HC]. injection HC as <-. exact (held_times _ _ HM).
Qed.
Theorem C70_soap_times : forall doc e m, dec_envelope doc = Some e -> e_content e = Some m -> Forall real_time (times (m_val m)).
Proof.
  intros [doc|] e m HD HC; [|discriminate HD]. exact (held_times _ _ (C50_typed doc e m HD HC)).
Qed.
(** ... and the last day of February is a day exactly in leap years. *)
Lemma february : forall y, real_day y 2 29 <-> leap_year y.
Proof.
  intros y. unfold real_day. cbn [In]. split; [|intros H; split; [lia|]; right; right; auto]. intros [_ [K|[K|[_ [K|[_ K]]]]]]; try lia. exact K.
Qed.
Example C70_ex :
  rfc3339 "2000-02-29T23:59:59.25-05:30" (MkTime 2000 2 29 23 59 59 250000000 (-19800)) /\ real_time (MkTime 2000 2 29 23 59 59 250000000 (-19800)) /\
  leap_year 2000 /\ leap_year 2024 /\ ~ leap_year 1900 /\ ~ leap_year 2023 /\
  format_nano (MkTime 2000 2 29 23 59 59 250000000 (-19800)) = "2000-02-29T23:59:59.25-05:30" /\ (60 | -19800).
Proof.
  split.
  { exists "2000", "02", "29", "23", "59", "59", ".25", "-05:30". split; [reflexivity|]. repeat (split; [split; [reflexivity|split; reflexivity]|]). split.
    - right. exists 2%nat, "25", 25. split; [reflexivity|]. split; [split; [reflexivity|split; reflexivity]|]. split; [lia|reflexivity].
    - right. exists "-", "05", "30", 5, 30. split; [reflexivity|]. split; [split; [reflexivity|split; reflexivity]|]. split; [split; [reflexivity|split; reflexivity]|].
      split; [lia|]. split; [lia|]. right. split; reflexivity. }
  split; [apply C70_calendar; reflexivity|]. rewrite <- !leap_spec. split; [reflexivity|]. split; [reflexivity|]. split; [discriminate|]. split; [discriminate|].
  split; [vm_compute; reflexivity|]. exists (-330). reflexivity.
Qed.
