(** What decoded messages mean. *)
From Coq Require Import ZifyBool Sorting.Permutation.
From Verif Require Import GoBase Utf8 Json JsonProofs Float64 Float64Proofs GoTime GoTimeProofs
  Lang Types Codec EncProofs Any AnyProofs DecProofs SpecCodec RoundTrip NumTotal DecTyped Tables Registry Frame FrameProofs
  SpecEnc EncTotal Schemas SpecSchema FloatInt SchemaProofs SpecTime SpecReads PropsTime.
Open Scope string_scope.
Open Scope list_scope.
Local Open Scope Z_scope.

(** ** Names *)

Lemma lower_same a b : lower a = lower b <-> same_letter a b.
Proof.
  unfold same_letter, lower, between.
  pose proof (code_bound a) as Ba. pose proof (code_bound b) as Bb.
  assert (I : forall x y : ascii, code x = code y -> x = y).
  { intros x y E. rewrite <- (chr_code x), <- (chr_code y), E. reflexivity. }
  assert (C : forall n, (n < 256)%N -> code (chr n) = n) by (intros n Hn; apply code_chr; exact Hn).
  destruct ((65 <=? code a) && (code a <=? 90))%N eqn:Ea, ((65 <=? code b) && (code b <=? 90))%N eqn:Eb.
  - split.
    + intros E. left. apply I. apply (f_equal code) in E. rewrite !C in E by lia. lia.
    + intros [->|[H|H]]; [reflexivity|lia|lia].
  - split.
    + intros E. apply (f_equal code) in E. rewrite C in E by lia. right. right. lia.
    + intros [->|[H|H]]; [congruence|lia|]. apply I. rewrite C by lia. lia.
  - split.
    + intros E. apply (f_equal code) in E. rewrite C in E by lia. right. left. lia.
    + intros [->|[H|H]]; [congruence| |lia]. apply I. rewrite C by lia. lia.
  - split; [intros ->; left; reflexivity|]. intros [->|[H|H]]; [reflexivity|lia|lia].
Qed.

Lemma fold_ascii a n : is_ascii a = true -> fold_key (String a n) = String (lower a) (fold_key n).
Proof.
  intros Ha. unfold is_ascii in Ha. cbn [fold_key]. destruct n as [|b n]; [reflexivity|].
  destruct (N.eqb_spec (code a) 197) as [E|_]; [lia|]. destruct (N.eqb_spec (code a) 226) as [E|_]; [lia|].
  cbn [andb]. destruct n; reflexivity.
Qed.

Lemma lower_s b : lower b = "s"%char <-> b = "s"%char \/ b = "S"%char.
Proof.
  change "s"%char with (lower "s"%char) at 1. rewrite lower_same. unfold same_letter.
  change (code "s"%char) with 115%N. pose proof (code_bound b).
  assert (I : forall x y : ascii, code x = code y -> x = y).
  { intros x y E. rewrite <- (chr_code x), <- (chr_code y), E. reflexivity. }
  split.
  - intros [->|[H1|H1]]; [left; reflexivity|lia|]. right. apply I. change (code "S"%char) with 83%N. lia.
  - intros [->| ->]; [left; reflexivity|]. right. right. change (code "S"%char) with 83%N. lia.
Qed.
Lemma lower_k b : lower b = "k"%char <-> b = "k"%char \/ b = "K"%char.
Proof.
  change "k"%char with (lower "k"%char) at 1. rewrite lower_same. unfold same_letter.
  change (code "k"%char) with 107%N. pose proof (code_bound b).
  assert (I : forall x y : ascii, code x = code y -> x = y).
  { intros x y E. rewrite <- (chr_code x), <- (chr_code y), E. reflexivity. }
  split.
  - intros [->|[H1|H1]]; [left; reflexivity|lia|]. right. apply I. change (code "K"%char) with 75%N. lia.
  - intros [->| ->]; [left; reflexivity|]. right. right. change (code "K"%char) with 75%N. lia.
Qed.

Lemma code_inj (x : ascii) n : code x = n -> x = chr n.
Proof. intros <-. symmetry. apply chr_code. Qed.

Lemma alike_fold k n : str_forall is_ascii n = true -> alike k n -> fold_key n = fold_key k.
Proof.
  intros HA H. induction H as [|a b k n HS H IH|b k n HB H IH|b k n HB H IH]; [reflexivity|..];
    cbn [str_forall] in HA; apply andb_true_iff in HA; destruct HA as [A1 A2]; specialize (IH A2);
    rewrite (fold_ascii b n A1), IH.
  - assert (A3 : is_ascii a = true).
    { unfold is_ascii in *. destruct HS as [->|[HS|HS]]; lia. }
    rewrite (fold_ascii a k A3). apply lower_same in HS. congruence.
  - apply lower_s in HB. rewrite HB. reflexivity.
  - apply lower_k in HB. rewrite HB. reflexivity.
Qed.

Lemma fold_alike n : forall k, str_forall is_ascii n = true -> fold_key n = fold_key k -> alike k n.
Proof.
  induction n as [|b n IH]; intros k HA H.
  - destruct k as [|a k]; [constructor|]. exfalso. cbn [fold_key] in H.
    destruct k as [|a1 k]; [discriminate|]. destruct (_ && _); [discriminate|]. destruct k; [discriminate|].
    destruct (_ && _); discriminate.
  - cbn [str_forall] in HA. apply andb_true_iff in HA. destruct HA as [A1 A2].
    rewrite (fold_ascii b n A1) in H. destruct k as [|a k]; [discriminate|].
    assert (G : forall c r, String (lower b) (fold_key n) = String c (fold_key r) -> lower b = c /\ alike r n).
    { intros c r E. injection E as E1 E2. split; [exact E1|]. apply IH; assumption. }
    cbn [fold_key] in H. destruct k as [|a1 k].
    { change (String (lower a) EmptyString) with (String (lower a) (fold_key EmptyString)) in H. apply G in H. destruct H as [H1 H2].
      constructor; [|exact H2]. apply lower_same. congruence. }
    destruct (N.eqb_spec (code a) 197) as [E1|E1]; cbn [andb] in H;
      [destruct (N.eqb_spec (code a1) 191) as [E2|E2]|].
    + apply G in H. destruct H as [H1 H2]. rewrite (code_inj _ _ E1), (code_inj _ _ E2). apply al_s; [apply lower_s; exact H1|exact H2].
    + destruct k as [|a2 k]; [|destruct (_ && _) eqn:E3 in H; [lia|]]; apply G in H; destruct H as [H1 H2];
        (constructor; [apply lower_same; congruence|exact H2]).
    + destruct k as [|a2 k]; [|destruct (_ && _) eqn:E3 in H]; apply G in H; destruct H as [H1 H2].
      * constructor; [apply lower_same; congruence|exact H2].
      * apply andb_true_iff in E3. destruct E3 as [E3 E5]. apply andb_true_iff in E3. destruct E3 as [E3 E4].
        apply N.eqb_eq in E3, E4, E5. rewrite (code_inj _ _ E3), (code_inj _ _ E4), (code_inj _ _ E5).
        apply al_k; [apply lower_k; exact H1|exact H2].
      * constructor; [apply lower_same; congruence|exact H2].
Qed.

(** ** Which member goes where *)

Definition names_ok (d : decl) : bool :=
  match d_dec d with
  | DTable _ cases _ _ =>
    negb (reflective (d_name d)) &&
    forallb (fun c => match find_field d (c_field c) with
                      | Some fd => String.eqb (f_json fd) (c_key c) && negb (lost (d_name d) (f_name fd))
                      | None => false end) cases &&
    forallb (fun fd => lost (d_name d) (f_name fd) ||
      existsb (fun c => String.eqb (c_key c) (f_json fd) && String.eqb (c_field c) (f_name fd)) cases) (d_fields d)
  | DDefault =>
    reflective (d_name d) && forallb (fun fd => str_forall is_ascii (f_json fd) && negb (lost (d_name d) (f_name fd))) (d_fields d)
  end.
Lemma all_names_ok : forallb names_ok all_decls = true.
Proof. vm_compute. reflexivity. Qed.

Lemma names_distinct d : In d all_decls -> NoDup (map f_name (d_fields d)).
Proof. intros HI. pose proof (dec_ok_in d HI) as H. unfold dec_ok in H. apply andb_true_iff in H. destruct H as [H _]. apply nodupb_spec in H. exact H. Qed.

Lemma find_field_of d fd : NoDup (map f_name (d_fields d)) -> In fd (d_fields d) -> find_field d (f_name fd) = Some fd.
Proof.
  intros HN HI. unfold find_field. destruct (find _ (d_fields d)) as [g|] eqn:E.
  - apply find_some in E. destruct E as [E1 E2]. apply String.eqb_eq in E2. f_equal. eapply find_nodup; eauto.
  - apply (find_none _ _ E) in HI. rewrite String.eqb_refl in HI. discriminate.
Qed.

Lemma target_named d fd k t : In d all_decls -> In fd (d_fields d) -> field_target d k = Some (f_name fd, t) ->
  t = f_ty fd /\ named d fd k /\ lost (d_name d) (f_name fd) = false.
Proof.
  intros HI HF H. pose proof all_names_ok as HA. rewrite forallb_forall in HA. specialize (HA d HI). unfold names_ok in HA.
  pose proof (names_distinct d HI) as HN. unfold field_target in H. destruct (d_dec d) as [fl cases st ck|] eqn:ED.
  - apply andb_true_iff in HA. destruct HA as [HA _]. apply andb_true_iff in HA. destruct HA as [_ HC].
    unfold table_target in H. destruct (case_of cases k) as [c|] eqn:EC; [|discriminate]. apply case_of_spec in EC.
    destruct EC as [C1 C2]. rewrite forallb_forall in HC. specialize (HC c C1).
    destruct (find_field d (c_field c)) as [g|] eqn:EF; [|discriminate]. injection H as H1 H2.
    rewrite H1, (find_field_of d fd HN HF) in EF. assert (g = fd) as -> by congruence.
    apply andb_true_iff in HC. destruct HC as [J1 J2]. apply String.eqb_eq in J1.
    split; [congruence|]. split; [left; congruence|]. destruct (lost _ _); [discriminate|reflexivity].
  - apply andb_true_iff in HA. destruct HA as [R HC]. rewrite forallb_forall in HC. specialize (HC fd HF).
    apply andb_true_iff in HC. destruct HC as [A1 A2].
    unfold default_tgt in H. destruct (default_target d k) as [g|] eqn:ET; [|discriminate]. injection H as H1 H2.
    unfold default_target in ET.
    assert (X : forall p, find p (d_fields d) = Some g -> g = fd).
    { intros p E. apply find_some in E. eapply find_nodup; [exact HN|apply E|exact HF|exact H1]. }
    split; [|split; [|destruct (lost _ _); [discriminate|reflexivity]]].
    + destruct (find _ (d_fields d)) as [g'|] eqn:E1 in ET.
      * assert (g' = g) as -> by congruence. apply X in E1. congruence.
      * apply X in ET. congruence.
    + destruct (find _ (d_fields d)) as [g'|] eqn:E1 in ET.
      * assert (g' = g) as -> by congruence. pose proof (X _ E1) as ->. apply find_some in E1. left. apply String.eqb_eq. apply E1.
      * pose proof (X _ ET) as ->. apply find_some in ET. destruct ET as [_ ET]. apply String.eqb_eq in ET.
        right. split; [exact R|]. split; [|apply fold_alike; assumption].
        intros fd' HF' E. apply (find_none _ _ E1) in HF'. rewrite E, String.eqb_refl in HF'. discriminate.
Qed.

Lemma named_target d fd k : In d all_decls -> In fd (d_fields d) -> named d fd k -> lost (d_name d) (f_name fd) = false ->
  field_target d k = Some (f_name fd, f_ty fd).
Proof.
  intros HI HF HM HL. pose proof all_names_ok as HA. rewrite forallb_forall in HA. specialize (HA d HI). unfold names_ok in HA.
  pose proof (names_distinct d HI) as HN. pose proof (dec_ok_in d HI) as HD. unfold dec_ok in HD. apply andb_true_iff in HD. destruct HD as [_ HD].
  unfold field_target. destruct (d_dec d) as [fl cases st ck|] eqn:ED.
  - apply andb_true_iff in HA. destruct HA as [HA HE]. apply andb_true_iff in HA. destruct HA as [HR HC].
    destruct HM as [HM|[HM _]]; [|rewrite HM in HR; discriminate].
    rewrite forallb_forall in HE. specialize (HE fd HF). rewrite HL in HE. cbn [orb] in HE.
    apply existsb_exists in HE. destruct HE as (c & C1 & C2). apply andb_true_iff in C2. destruct C2 as [C2 C3].
    apply String.eqb_eq in C2, C3. unfold table_target.
    assert (case_of cases k = Some c) as ->.
    { unfold case_of. destruct (find _ cases) as [c'|] eqn:E.
      - apply find_some in E. destruct E as [E1 E2]. apply String.eqb_eq in E2. f_equal.
        apply andb_true_iff in HD. destruct HD as [HD _]. apply andb_true_iff in HD. destruct HD as [HD _]. apply nodupb_spec in HD.
        eapply find_nodup; [exact HD|exact E1|exact C1|congruence].
      - apply (find_none _ _ E) in C1. rewrite C2, HM, String.eqb_refl in C1. discriminate. }
    rewrite C3, (find_field_of d fd HN HF). reflexivity.
  - apply andb_true_iff in HA. destruct HA as [R HC]. rewrite forallb_forall in HC. specialize (HC fd HF).
    apply andb_true_iff in HC. destruct HC as [A1 A2]. apply nodupb_spec in HD.
    unfold default_tgt, default_target.
    assert (X : forall g, In g (d_fields d) -> fold_key (f_json g) = fold_key (f_json fd) -> g = fd).
    { intros g G1 G2. eapply (find_nodup (fun f => fold_key (f_json f))); eauto. }
    destruct HM as [HM|(_ & HM1 & HM2)].
    + destruct (find _ (d_fields d)) as [g|] eqn:E.
      * apply find_some in E. destruct E as [E1 E2]. apply String.eqb_eq in E2. rewrite (X g E1) by congruence. reflexivity.
      * apply (find_none _ _ E) in HF. rewrite HM, String.eqb_refl in HF. discriminate.
    + destruct (find (fun f => String.eqb (f_json f) k) (d_fields d)) as [g|] eqn:E.
      * apply find_some in E. destruct E as [E1 E2]. apply String.eqb_eq in E2. exfalso. eapply HM1; eauto.
      * pose proof (alike_fold k _ A1 HM2) as HF2.
        destruct (find (fun f => String.eqb (fold_key (f_json f)) (fold_key k)) (d_fields d)) as [g|] eqn:E'.
        -- apply find_some in E'. destruct E' as [E1 E2]. apply String.eqb_eq in E2. rewrite (X g E1) by congruence. reflexivity.
        -- apply (find_none _ _ E') in HF. rewrite HF2, String.eqb_refl in HF. discriminate.
Qed.

(** ** The decoding loop *)

Lemma gturns_untouched tg strict l : forall fs fs', gturns tg strict l fs = Some fs' ->
  map fst fs' = map fst fs /\
  forall f, (forall k dl t, In (k, dl) l -> tg k <> Some (f, t)) -> lookup f fs' = lookup f fs.
Proof.
  induction l as [|[k dl] l IH]; intros fs fs' H; cbn [gturns] in H.
  { injection H as ->. split; [reflexivity|intros; reflexivity]. }
  destruct (tg k) as [[f t]|] eqn:ET.
  - destruct (lookup f fs) as [cur|]; [|discriminate]. destruct (dl t cur) as [v|]; [|discriminate].
    apply IH in H. destruct H as [H1 H2]. rewrite set_field_keys in H1. split; [exact H1|].
    intros g Hg. rewrite (H2 g) by (intros k' dl' t' HI; apply (Hg k' dl'); right; exact HI).
    rewrite set_field_lookup. destruct (String.eqb_spec g f) as [->|]; [|reflexivity].
    exfalso. apply (Hg k dl t); [left; reflexivity|exact ET].
  - destruct strict; [discriminate|]. apply IH in H. destruct H as [H1 H2]. split; [exact H1|].
    intros g Hg. apply H2. intros k' dl' t' HI. apply (Hg k' dl'). right. exact HI.
Qed.

Lemma gturns_touched tg strict l : NoDup (map fst l) -> forall fs fs', gturns tg strict l fs = Some fs' ->
  forall k dl f t, In (k, dl) l -> tg k = Some (f, t) ->
  (forall k' dl' t', In (k', dl') l -> tg k' = Some (f, t') -> k' = k) ->
  exists c v, lookup f fs = Some c /\ dl t c = Some v /\ lookup f fs' = Some v.
Proof.
  induction l as [|[k0 dl0] l IH]; intros HN fs fs' H k dl f t HI HT HU; [destruct HI|].
  cbn [map fst] in HN. inversion HN as [|? ? N1 N2]; subst. cbn [gturns] in H.
  destruct HI as [E|HI].
  - injection E as -> ->. rewrite HT in H. destruct (lookup f fs) as [cur|] eqn:EL; [|discriminate].
    destruct (dl t cur) as [v|] eqn:EV; [|discriminate]. exists cur, v. split; [reflexivity|]. split; [exact EV|].
    apply gturns_untouched in H. destruct H as [_ H]. rewrite H.
    + rewrite set_field_lookup, String.eqb_refl, EL. reflexivity.
    + intros k' dl' t' HI' HT'. assert (k' = k) as -> by (eapply HU; [right; exact HI'|exact HT']).
      apply N1. apply in_map_iff. exists (k, dl'). auto.
  - assert (k0 <> k) as NE. { intros ->. apply N1. apply in_map_iff. exists (k, dl). auto. }
    destruct (tg k0) as [[f0 t0]|] eqn:ET0.
    + destruct (lookup f0 fs) as [cur|] eqn:EL; [|discriminate]. destruct (dl0 t0 cur) as [v|]; [|discriminate].
      destruct (IH N2 _ _ H k dl f t HI HT) as (c & v' & L1 & L2 & L3).
      { intros k' dl' t' HI' HT'. eapply HU; [right; exact HI'|exact HT']. }
      exists c, v'. split; [|auto]. rewrite set_field_lookup in L1. destruct (String.eqb_spec f f0) as [->|]; [|exact L1].
      exfalso. apply NE. eapply HU; [left; reflexivity|exact ET0].
    + destruct strict; [discriminate|]. apply (IH N2 _ _ H k dl f t HI HT).
      intros k' dl' t' HI' HT'. eapply HU; [right; exact HI'|exact HT'].
Qed.

(** ** Numbers *)

Lemma round_close n m e : 2 ^ 53 <= n -> round_pos n 1 = Some (m, e) -> 0 < e /\ 2 ^ 52 <= m /\ 2 * Z.abs (n - m * 2 ^ e) <= 2 ^ e.
Proof.
  intros Hn HR. destruct (round_big n m e Hn HR) as [B1 B2]. split; [exact B1|]. split; [exact B2|].
  unfold round_pos in HR. set (E := Z.max (flog2 n 1 - 52) (-1074)) in *.
  assert (HE : 0 <= E).
  { match type of HR with context [if ?x =? 2 ^ 53 then _ else _] => set (M := x) in * end.
    destruct (M =? 2 ^ 53); (destruct (971 <? _) in HR; [discriminate|]);
      [assert (e = E + 1) by congruence|assert (e = E) by congruence]; lia. }
  assert (U1 : up (- E) = 1) by (unfold up; rewrite Z.max_r by lia; reflexivity).
  assert (U2 : up E = 2 ^ E) by (unfold up; rewrite Z.max_l by lia; reflexivity).
  rewrite U1, U2, Z.mul_1_r, Z.mul_1_l in HR.
  assert (P : 0 < 2 ^ E) by (apply Z.pow_pos_nonneg; lia).
  pose proof (Z.div_mod n (2 ^ E) ltac:(lia)) as DM. pose proof (Z.mod_pos_bound n (2 ^ E) P) as MB.
  set (q := n / 2 ^ E) in *. set (r := n mod 2 ^ E) in *. set (B := 2 ^ E) in *.
  match type of HR with context [if ?x =? 2 ^ 53 then _ else _] => set (M := x) in * end.
  assert (CL : 2 * Z.abs (n - M * B) <= B).
  { unfold M. destruct (2 * r <? B) eqn:C1; [nia|]. destruct (B <? 2 * r) eqn:C2; [nia|]. destruct (Z.even q); nia. }
  destruct (M =? 2 ^ 53) eqn:EM.
  - destruct (971 <? E + 1); [discriminate|]. assert (m = 2 ^ 52) as -> by congruence. assert (e = E + 1) as -> by congruence.
    apply Z.eqb_eq in EM. rewrite Z.pow_add_r by lia. fold B. change (2 ^ 1) with 2.
    replace (2 ^ 52 * (B * 2)) with (M * B) by (rewrite EM; change (2 ^ 53) with (2 ^ 52 * 2); ring). lia.
  - destruct (971 <? E); [discriminate|]. assert (m = M) as -> by congruence. assert (e = E) as -> by congruence. exact CL.
Qed.

Lemma rounded_stands neg D x : 0 <= D ->
  (if D =? 0 then Some (FFin neg 0 (-1074))
   else match round_pos D 1 with Some (m, e) => Some (FFin neg m e) | None => None end) = Some x ->
  stands_for x (if neg then - D else D).
Proof.
  intros HD H. destruct (D =? 0) eqn:E0.
  { assert (x = FFin neg 0 (-1074)) as -> by congruence. apply Z.eqb_eq in E0. subst D.
    exists 0. split; [destruct neg; reflexivity|]. destruct neg; cbn; lia. }
  destruct (round_pos D 1) as [[m e]|] eqn:R; [|discriminate]. assert (x = FFin neg m e) as -> by congruence.
  destruct (Z_lt_le_dec D (2 ^ 53)) as [L|L].
  - destruct (round_small D ltac:(lia)) as (m' & e' & R' & A1 & A2 & _). rewrite R in R'.
    assert (m' = m /\ e' = e) as [-> ->] by (split; congruence).
    exists (if neg then - D else D). split; [|rewrite Z.sub_diag; cbn [Z.abs]; rewrite Z.mul_0_r; apply Z.abs_nonneg].
    cbn [f64_toZ]. destruct (0 <=? e) eqn:Ee.
    + assert (e = 0) as -> by lia. change (2 ^ (- 0)) with 1 in A2. change (2 ^ 0) with 1. f_equal. destruct neg; lia.
    + assert (P : 0 < 2 ^ (- e)) by (apply Z.pow_pos_nonneg; lia).
      replace (if neg then - m else m) with ((if neg then - D else D) * 2 ^ (- e)) by (destruct neg; lia).
      rewrite Z_mod_mult, Z.eqb_refl, Z.div_mul by lia. reflexivity.
  - destruct (round_close D m e L R) as (C1 & C2 & C3).
    exists ((if neg then - m else m) * 2 ^ e). split; [cbn [f64_toZ]; destruct (0 <=? e) eqn:Ee; [reflexivity|lia]|].
    assert (P : 0 < 2 ^ e) by (apply Z.pow_pos_nonneg; lia).
    replace (Z.abs ((if neg then - D else D) - (if neg then - m else m) * 2 ^ e)) with (Z.abs (D - m * 2 ^ e)) by (destruct neg; lia).
    replace (Z.abs ((if neg then - m else m) * 2 ^ e)) with (m * 2 ^ e) by (destruct neg; nia).
    change (2 ^ 53) with (2 ^ 52 * 2). nia.
Qed.

Lemma span_join s d t : span_digits s = (d, t) -> s = (d +++ t)%string.
Proof.
  revert d t. induction s as [|c r IH]; intros d t H; cbn [span_digits] in H; [injection H as <- <-; reflexivity|].
  destruct (is_digit c); [|injection H as <- <-; reflexivity].
  destruct (span_digits r) as [d' t'] eqn:Es. injection H as <- <-. cbn [String.append]. rewrite <- (IH _ _ eq_refl). reflexivity.
Qed.
Lemma pint_join s i t : pint s = Some (i, t) -> s = (i +++ t)%string.
Proof.
  destruct s as [|c r]; [discriminate|]. cbn [pint]. destruct (Ascii.eqb_spec c "0"%char) as [->|].
  { intros E. injection E as <- <-. reflexivity. }
  destruct (is_digit c); [|discriminate]. destruct (span_digits r) as [d t'] eqn:Es. intros E. injection E as <- <-.
  cbn [String.append]. rewrite <- (span_join _ _ _ Es). reflexivity.
Qed.

Theorem parse_int_stands b s z x : parse_int b s = Some z -> parse_float s = Some x ->
  stands_for x z /\ - 2 ^ (b - 1) <= z < 2 ^ (b - 1).
Proof.
  intros HI HF. unfold parse_float in HF. destruct (lit_parts s) as [[[neg D] k]|] eqn:EL; [|discriminate].
  pose proof (lit_parts_nonneg _ _ _ _ EL) as HD.
  assert (k = 0 /\ z = (if neg then - D else D) /\ - 2 ^ (b - 1) <= z < 2 ^ (b - 1)) as (-> & -> & HR).
  { unfold lit_parts, parse_int in *.
    assert (X : forall s1 (n1 : bool),
      match pint s1 with
      | None => None
      | Some (i, s2) => match pfrac s2 with
        | None => None
        | Some (f, s3) => match pexp s3 with
          | Some (e, EmptyString) => let fr := drop1 f in
            let ex := match drop1 e with
              | String c r => if Ascii.eqb c "-"%char then - digits_val 0 r else if Ascii.eqb c "+"%char then digits_val 0 r else digits_val 0 (String c r)
              | EmptyString => 0 end in
            Some (n1, digits_val 0 (i +++ fr)%string, ex - Z.of_nat (String.length fr))
          | _ => None end end end = Some (neg, D, k) -> str_forall is_digit s1 = true -> n1 = neg /\ k = 0 /\ D = digits_val 0 s1).
    { intros s1 n1 H HD1. destruct (pint s1) as [[i s2]|] eqn:EP; [|discriminate].
      pose proof (digits_parts s1 HD1 i s2 EP) as H2. pose proof (pint_join _ _ _ EP) as HJ. destruct s2 as [|c r].
      - cbn [pfrac pexp drop1 String.length] in H. cbv zeta in H. rewrite !sapp_nil_r in *. subst i.
        injection H as H1 H3 H4. split; [exact H1|]. split; [lia|congruence].
      - cbn [str_forall] in H2. apply andb_true_iff in H2. destruct H2 as [H2 _]. destruct (digit_not_sym c H2) as (D1 & D2 & D3).
        cbn [pfrac] in H. rewrite D1 in H. cbn [pexp] in H. rewrite D2, D3 in H. cbn [orb] in H. discriminate. }
    destruct s as [|c r]; [discriminate|]. destruct (Ascii.eqb c "-"%char).
    - destruct (str_forall is_digit r) eqn:ED; [|discriminate]. destruct (X r true EL ED) as (<- & -> & ->).
      destruct (_ && negb _) in HI; [|discriminate]. cbv zeta in HI. destruct (_ && _) eqn:ER in HI; [|discriminate].
      assert (z = - digits_val 0 r) by congruence. split; [reflexivity|]. split; [assumption|]. lia.
    - destruct (str_forall is_digit (String c r)) eqn:ED; [|discriminate]. destruct (X (String c r) false EL ED) as (<- & -> & ->).
      destruct (_ && negb _) in HI; [|discriminate]. cbv zeta in HI. destruct (_ && _) eqn:ER in HI; [|discriminate].
      assert (z = digits_val 0 (String c r)) by congruence. split; [reflexivity|]. split; [assumption|]. lia. }
  split; [|exact HR]. change (0 <=? 0) with true in HF. cbv iota in HF. rewrite Z.pow_0_r, Z.mul_1_r in HF.
  exact (rounded_stands neg D x HD HF).
Qed.

(** ** Whole values *)

Lemma reads_fields n d ms m fs' : find_decl n = Some d ->
  Forall2 (fun (kv : string * any) (kj : string * json) => omap (pair (fst kv)) (of_any (snd kv)) = Some kj) m ms ->
  NoDup (map fst m) -> Forall (fun kv => wf_any (snd kv)) m ->
  Forall (fun kv => forall j, wf_any (snd kv) -> of_any (snd kv) = Some j -> forall t v, tyok t = true ->
     dec j t (zero t) = Some v -> reads t (snd kv) v) m ->
  gturns (field_target d) (dec_strict d) (map (fun kv => (fst kv, dec (snd kv))) ms)
    (map (fun f => (f_name f, zero0 (f_ty f))) (d_fields d)) = Some fs' ->
  reads (TStruct n) (AObj m) (VStruct fs').
Proof.
  intros Hd EO HN HW IH HG. destruct (find_decl_in n d Hd) as [HI Hnm]. pose proof (names_distinct d HI) as HD.
  assert (EK : map fst ms = map fst m).
  { clear -EO. induction EO as [|[k a] [k' j] m ms E _ IHE]; [reflexivity|]. cbn [map fst].
    cbn [fst snd omap] in E. destruct (of_any a); [|discriminate]. injection E as -> _. rewrite IHE. reflexivity. }
  assert (EM : map fst (map (fun kv : string * json => (fst kv, dec (snd kv))) ms) = map fst m) by (rewrite map_map, <- EK; reflexivity).
  destruct (gturns_untouched _ _ _ _ _ HG) as [HK HU]. rewrite map_map in HK. cbn [fst] in HK.
  assert (NK : NoDup (map fst fs')) by (rewrite HK; exact HD).
  apply (rd_struct n d m fs' Hd).
  assert (HL : forall fd v, In fd (d_fields d) -> lookup (f_name fd) fs' = Some v ->
    (forall k a, In (k, a) m -> named d fd k -> lost n (f_name fd) = false ->
       (forall k', In k' (map fst m) -> named d fd k' -> k' = k) -> reads (f_ty fd) a v) /\
    ((forall k, In k (map fst m) -> named d fd k -> lost n (f_name fd) = true) -> v = zero (f_ty fd))).
  { intros fd v HF HV. pose proof (find_field_of d fd HD HF) as FF. destruct (field_tyok d _ _ HI FF) as [T1 T2].
    pose proof (zero_lookup d _ _ FF) as ZL. rewrite (zero_zero0 _ T2). split.
    - intros k a Ha HM HLo HUq. rewrite <- Hnm in HLo.
      pose proof (named_target d fd k HI HF HM HLo) as HT.
      assert (exists j, In (k, j) ms /\ of_any a = Some j) as (j & J1 & J2).
      { clear -EO Ha. induction EO as [|[k0 a0] [k1 j0] m ms E _ IHE]; [destruct Ha|].
        cbn [fst snd omap] in *. destruct (of_any a0) as [j|] eqn:E0; [|discriminate]. injection E as <- <-.
        destruct Ha as [Ha|Ha].
        - injection Ha as -> ->. exists j. split; [left; reflexivity|auto].
        - destruct IHE as (j' & J1 & J2); try assumption. exists j'. split; [right; exact J1|exact J2]. }
      destruct (gturns_touched _ _ _ ltac:(rewrite EM; exact HN) _ _ HG k (dec j) (f_name fd) (f_ty fd)) as (c & v' & L1 & L2 & L3).
      + apply in_map_iff. exists (k, j). auto.
      + exact HT.
      + intros k' dl' t' HI' HT'. apply HUq.
        * rewrite <- EM. apply in_map_iff. exists (k', dl'). auto.
        * apply (target_named d fd k' t' HI HF HT').
      + rewrite ZL in L1. injection L1 as <-. rewrite HV in L3. injection L3 as <-.
        rewrite Forall_forall in IH, HW. specialize (IH _ Ha j (HW _ Ha) J2 (f_ty fd) v T1). apply IH.
        rewrite (zero_zero0 _ T2). exact L2.
    - intros HNo. rewrite (HU (f_name fd)) in HV; [rewrite ZL in HV; congruence|].
      intros k dl t Hk HT. destruct (target_named d fd k t HI HF HT) as (_ & HM & HLo).
      rewrite Hnm in HLo. rewrite (HNo k) in HLo; [discriminate| |exact HM].
      rewrite <- EM. apply in_map_iff. exists (k, dl). auto. }
  clear HG HU IH EO EK EM HN HW.
  assert (HL' : forall fd, In fd (d_fields d) -> In fd (d_fields d)) by auto. revert HL' NK HK HL.
  generalize (d_fields d) at 1 3 5. intros ds. revert fs'. induction ds as [|fd ds IHd]; intros fs' HL' NK HK HL.
  - destruct fs'; [constructor|discriminate].
  - destruct fs' as [|[f v] fs']; [discriminate|]. cbn [map fst] in HK, NK. inversion NK as [|? ? N1 N2]; subst.
    injection HK as HK1 HK2. constructor.
    + cbn [fst snd]. split; [exact HK1|]. apply HL; [apply HL'; left; reflexivity|]. cbn [lookup]. rewrite HK1, String.eqb_refl. reflexivity.
    + apply IHd; [intros g Hg; apply HL'; right; exact Hg|exact N2|exact HK2|].
      intros g w Hg Hw. apply HL; [exact Hg|]. cbn [lookup]. destruct (String.eqb_spec (f_name g) f) as [E|]; [|exact Hw].
      exfalso. apply N1. rewrite <- E. clear -Hw. induction fs' as [|[x y] l IH]; [discriminate|]. cbn [lookup map fst] in *.
      destruct (String.eqb_spec (f_name g) x); [left; congruence|right; auto].
Qed.

Lemma dec_ptr_zero j t v : j <> JNull -> dec j (TPtr t) (zero (TPtr t)) = Some v ->
  exists w, v = VPtr w /\ dec j t (zero t) = Some w.
Proof.
  intros HJ H. rewrite dec_ptr in H by exact HJ. change (zero (TPtr t)) with VNil in H. cbv iota in H. unfold omap in H.
  destruct (dec j t (zero t)) as [w|]; [|discriminate]. injection H as <-. exists w. auto.
Qed.

Theorem decoded_reads a : forall j, wf_any a -> of_any a = Some j -> forall t v, tyok t = true ->
  dec j t (zero t) = Some v -> reads t a v.
Proof.
  induction a as [|b|x|s|l IH|m IH] using any_ind'; intros j HW HJ t; cbn [of_any] in HJ; unfold omap in HJ.
  - (* null *)
    injection HJ as <-. intros v HT H. assert (v = zero t) as ->; [|constructor].
    destruct t as [|b| | | |t|t|n]; cbn [dec at_ty] in H; try (injection H as <-; reflexivity).
    unfold zero in H |- *. destruct (find_decl n) as [d|]; [|discriminate].
    unfold zero_struct in *. unfold unmarshal_struct in H. destruct (d_dec d).
    + unfold run_table in H. cbn [turns] in H. destruct (forallb _ checks); [|discriminate]. injection H as <-. reflexivity.
    + injection H as <-. reflexivity.
  - injection HJ as <-. induction t as [|bits| | | |t IHt|t IHt|n]; intros v HT H; try discriminate.
    + injection H as <-. constructor.
    + apply dec_ptr_zero in H; [|discriminate]. destruct H as (w & -> & H). constructor; [discriminate|]. apply IHt; assumption.
    + cbn [dec at_ty] in H. destruct (find_decl n); [|discriminate]. destruct (zero (TStruct n)); discriminate.
  - destruct HW as [W1 W2]. destruct (fmt_parse x W1 W2) as (s & Es & _ & Hp). rewrite Es in HJ. injection HJ as <-.
    induction t as [|bits| | | |t IHt|t IHt|n]; intros v HT H; try discriminate.
    + cbn [dec at_ty] in H. unfold omap in H. destruct (parse_int bits s) as [z|] eqn:EI; [|discriminate]. injection H as <-.
      destruct (parse_int_stands bits s z x EI Hp). constructor; assumption.
    + cbn [dec at_ty] in H. rewrite Hp in H. injection H as <-. constructor.
    + apply dec_ptr_zero in H; [|discriminate]. destruct H as (w & -> & H). constructor; [discriminate|]. apply IHt; assumption.
    + cbn [dec at_ty] in H. destruct (find_decl n); [|discriminate]. destruct (zero (TStruct n)); discriminate.
  - injection HJ as <-. induction t as [|bits| | | |t IHt|t IHt|n]; intros v HT H; try discriminate.
    + injection H as <-. constructor.
    + cbn [dec at_ty] in H. unfold omap in H. destruct (parse_rfc3339 s) as [tm|] eqn:EP; [|discriminate]. injection H as <-.
      apply C70_accepted_iff in EP. destruct EP. constructor; assumption.
    + apply dec_ptr_zero in H; [|discriminate]. destruct H as (w & -> & H). constructor; [discriminate|]. apply IHt; assumption.
    + cbn [dec at_ty] in H. destruct (find_decl n); [|discriminate]. destruct (zero (TStruct n)); discriminate.
  - destruct (oall (map of_any l)) as [js|] eqn:EO; [|discriminate]. injection HJ as <-. apply oall_map in EO. apply wf_any_arr in HW.
    induction t as [|bits| | | |t IHt|t IHt|n]; intros v HT H; try discriminate.
    + apply dec_ptr_zero in H; [|discriminate]. destruct H as (w & -> & H). constructor; [discriminate|]. apply IHt; assumption.
    + clear IHt. cbn [dec at_ty] in H. change (zero (TSlice t)) with VNil in H. cbv iota in H. unfold omap in H.
      destruct (elems _ _ _ _) as [vs|] eqn:EE; [|discriminate]. injection H as <-. constructor. cbn [tyok] in HT.
      revert vs EE. induction EO as [|a j l js E _ IHE]; intros vs EE; cbn [map elems hd tl] in EE; [injection EE as <-; constructor|].
      inversion HW as [|? ? W1 W2]; inversion IH as [|? ? I1 I2]; subst.
      destruct (dec j t (zero t)) as [w|] eqn:Ew; [|discriminate]. destruct (elems _ _ _ _) as [ws|] eqn:EE' in EE; [|discriminate].
      injection EE as <-. constructor; [eapply I1; eauto|]. apply IHE; assumption.
    + cbn [dec at_ty] in H. destruct (find_decl n); [|discriminate]. destruct (zero (TStruct n)); discriminate.
  - match type of HJ with match ?x with _ => _ end = _ => destruct x as [ms|] eqn:EO; [|discriminate] end.
    injection HJ as <-. apply oall_map in EO. apply wf_any_obj in HW. destruct HW as (W1 & _ & W2).
    induction t as [|bits| | | |t IHt|t IHt|n]; intros v HT H; try discriminate.
    + apply dec_ptr_zero in H; [|discriminate]. destruct H as (w & -> & H). constructor; [discriminate|]. apply IHt; assumption.
    + cbn [tyok] in HT. destruct (find_decl n) as [d|] eqn:Hd; [|discriminate].
      assert (HZ : zero (TStruct n) = VStruct (map (fun f => (f_name f, zero0 (f_ty f))) (d_fields d))).
      { unfold zero. rewrite Hd. reflexivity. }
      rewrite HZ in H.
      assert (EK : map fst ms = map fst m).
      { clear -EO. induction EO as [|[k a] [k' j] m ms E _ IHE]; [reflexivity|]. cbn [map fst].
        cbn [fst snd] in E. destruct (of_any a); [|discriminate]. injection E as -> _. rewrite IHE. reflexivity. }
      rewrite (dec_struct_obj n d ms _ Hd) in H by (rewrite EK; exact W1).
      unfold omap in H. match type of H with match ?x with _ => _ end = _ => destruct x as [fs'|] eqn:EV; [|discriminate] end.
      injection H as <-.
      assert (EG : gturns (field_target d) (dec_strict d) (map (fun kv => (fst kv, dec (snd kv))) ms)
        (map (fun f => (f_name f, zero0 (f_ty f))) (d_fields d)) = Some fs').
      { destruct (d_dec d); [destruct (forallb _ checks); [exact EV|discriminate]|exact EV]. }
      apply (reads_fields n d ms m fs' Hd EO W1); [|exact IH|exact EG].
      eapply Forall_impl; [|exact W2]. intros kv K. apply K.
Qed.

Theorem unmarshal_reads ty a text v : wf_any a -> marshal_any a = Ok text -> unmarshal_msg ty text = Some v ->
  reads (TStruct ty) a v.
Proof.
  intros HW HM HV. destruct (of_any_ok a HW) as (j & Ej & [C1 C2] & _). unfold marshal_any in HM. rewrite Ej in HM.
  assert (text = print j) as -> by congruence. unfold unmarshal_msg in HV. rewrite (parse_print j C1), C2 in HV.
  apply (decoded_reads a j HW Ej); [|exact HV]. cbn [tyok]. destruct (find_decl ty) as [d|] eqn:E; [reflexivity|].
  destruct j; cbn [dec at_ty] in HV; rewrite E in HV; discriminate.
Qed.
