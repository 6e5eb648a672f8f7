(** Every text the XML writer produces is made of XML characters, and how
    numbers are written. *)
From Coq Require Import ZifyBool.
From Verif Require Import GoBase Utf8 Json JsonText JsonProofs Float64 Float64Proofs GoTime GoTimeProofs
  Lang Types Codec EncProofs SpecCodec SpecEnc SpecSchema RoundTrip NumTotal FloatInt Tables Registry Leaves Xml XmlProofs XmlTyped SpecXmlText XmlText Soap SpecSoap.
Open Scope string_scope.
Open Scope list_scope.

Definition plain (c : ascii) : bool := ((32 <=? code c) && (code c <? 128))%N.

Lemma plain_text s : str_forall plain s = true -> xml_text s.
Proof.
  induction s as [|c r IH]; [intros _; apply xml_text_nil|]. cbn [str_forall]. intros H. apply andb_true_iff in H. destruct H as [H1 H2].
  unfold plain in H1. assert (String c r = utf8_encode (code c) +++ r) as -> by (rewrite enc1; [reflexivity|lia]).
  apply xml_text_cons; [|auto]. unfold xml_char. lia.
Qed.

Lemma str_forall_imp (p q : ascii -> bool) s : (forall c, p c = true -> q c = true) -> str_forall p s = true -> str_forall q s = true.
Proof.
  intros H. induction s as [|c r IH]; [reflexivity|]. cbn [str_forall]. intros K. apply andb_true_iff in K. destruct K as [K1 K2].
  rewrite (H c K1), (IH K2). reflexivity.
Qed.

Lemma digit_plain c : is_digit c = true -> plain c = true.
Proof. unfold is_digit, between, plain. lia. Qed.

Lemma numchar_plain c : numchar c = true -> plain c = true.
Proof.
  unfold numchar. intros H. rewrite !orb_true_iff in H.
  decompose [or] H; match goal with
  | K : is_digit c = true |- _ => exact (digit_plain c K)
  | K : Ascii.eqb _ _ = true |- _ => apply Ascii.eqb_eq in K; subst c; reflexivity
  end.
Qed.

Lemma num_plain s : is_num s = true -> str_forall plain s = true.
Proof. intros H. apply is_num_spec in H. apply (str_forall_imp numchar); [exact numchar_plain|]. exact (pnum_chars _ _ _ H). Qed.

Lemma dec_int_plain z : str_forall plain (dec_int z) = true.
Proof.
  unfold dec_int. destruct (z <? 0)%Z eqn:E.
  - cbn [String.append str_forall]. apply andb_true_iff. split; [reflexivity|].
    apply (str_forall_imp is_digit); [exact digit_plain|]. apply dec_digits. lia.
  - apply (str_forall_imp is_digit); [exact digit_plain|]. apply dec_digits. lia.
Qed.

Lemma fmt_g_plain x : canon x = true -> str_forall plain (fmt_g x) = true.
Proof.
  intros Hc. destruct x as [neg m e|[]|]; [|reflexivity..]. cbn [fmt_g].
  assert (str_forall plain (if (m =? 0)%Z then "0" else shortest_g 17 1 m e) = true) as K.
  { destruct (m =? 0)%Z eqn:E; [reflexivity|].
    assert (canon (FFin false m e) = true) as Hc' by exact Hc.
    assert (0 < m)%Z as Hm by (cbn [canon] in Hc; lia).
    pose proof (shortest_g_ok 17 1 m e Hm Hc') as R. apply reads_as_spec in R. destruct R as [R1 _]. apply num_plain, R1. }
  destruct neg; [cbn [str_forall String.append]; exact K|exact K].
Qed.

Lemma pad_plain w n : (0 <= n)%Z -> str_forall plain (pad w n) = true.
Proof. intros H. apply (str_forall_imp is_digit); [exact digit_plain|]. unfold pad. apply zpad_digits, dec_digits, H. Qed.

Lemma strip_zeros_nonneg f : forall n w, (0 <= n)%Z -> (0 <= fst (strip_zeros f n w))%Z.
Proof.
  induction f as [|f IH]; intros n w H; cbn [strip_zeros]; [exact H|]. destruct (_ =? 0)%Z; [|exact H]. apply IH. apply Z.div_pos; lia.
Qed.

Lemma nano_plain t : time_valid t = true -> (0 <= t_year t)%Z -> str_forall plain (format_nano t) = true.
Proof.
  intros H HY. apply time_valid_spec in H. unfold format_nano. rewrite !str_forall_app, !andb_true_iff. repeat split.
  - unfold fmt_civil, pad_int. assert ((t_year t <? 0)%Z = false) as -> by lia.
    rewrite !str_forall_app, !pad_plain by lia. reflexivity.
  - unfold fmt_frac. destruct (t_nsec t =? 0)%Z; [reflexivity|]. destruct (strip_zeros 9 (t_nsec t) 9) as [n w] eqn:E.
    pose proof (strip_zeros_nonneg 9 (t_nsec t) 9 ltac:(lia)) as K. rewrite E in K. cbn [fst] in K.
    rewrite str_forall_app, pad_plain by exact K. reflexivity.
  - unfold fmt_zone. destruct (t_off t =? 0)%Z; [reflexivity|]. rewrite !str_forall_app.
    rewrite !pad_plain; [destruct (_ <? 0)%Z; reflexivity| |].
    + apply Z.mod_pos_bound. lia.
    + apply Z.div_pos; lia.
Qed.

(** ** Trees *)

Definition written (x : xml) : Prop := Forall xml_text (texts x).

Lemma written_text s : xml_text s -> Forall written (xtext s).
Proof.
  intros H. unfold xtext. destruct (String.eqb s ""); constructor; [|constructor]. unfold written. cbn [texts]. constructor; [exact H|constructor].
Qed.
Lemma written_elem ns nm at_ ks : Forall (fun a => xml_text (snd a)) at_ -> Forall written ks -> written (XE ns nm at_ ks).
Proof.
  intros H1 H2. unfold written. cbn [texts]. apply Forall_app. split.
  - induction H1; cbn [map]; constructor; assumption.
  - induction H2; cbn [flat_map]; [constructor|]. apply Forall_app. split; assumption.
Qed.
Lemma written_simple ns nm s l : xml_text s -> simple ns nm s = Some l -> Forall written l.
Proof.
  intros H E. unfold simple in E. injection E as <-. constructor; [|constructor]. apply written_elem; [constructor|apply written_text, H].
Qed.

Lemma omapl_Forall {A B} (f : A -> option B) (P : B -> Prop) l : forall ys, Forall (fun x => forall y, f x = Some y -> P y) l -> omapl f l = Some ys -> Forall P ys.
Proof.
  induction l as [|x l IH]; intros ys H E; [injection E as <-; constructor|].
  change (omapl f (x :: l)) with (match f x with None => None | Some y => match omapl f l with None => None | Some ys => Some (y :: ys) end end) in E.
  destruct (f x) as [y|] eqn:E1; [|discriminate E]. destruct (omapl f l) as [ys'|]; [|discriminate E].
  injection E as <-. inversion H; subst. constructor; auto.
Qed.

Lemma concat_Forall {A} (P : A -> Prop) ls : Forall (Forall P) ls -> Forall P (concat ls).
Proof. induction 1; cbn [concat]; [constructor|]. apply Forall_app. split; assumption. Qed.

Lemma nodup_val {A} (k : string) (a b : A) l : NoDup (map fst l) -> In (k, a) l -> In (k, b) l -> a = b.
Proof.
  induction l as [|[k' x] l IH]; [intros _ []|]. cbn [map fst]. intros ND H1 H2. inversion ND; subst.
  destruct H1 as [H1|H1], H2 as [H2|H2].
  - congruence.
  - injection H1 as -> ->. exfalso. apply H3. change k with (fst (k, b)). apply in_map. exact H2.
  - injection H2 as -> ->. exfalso. apply H3. change k with (fst (k, a)). apply in_map. exact H1.
  - auto.
Qed.

Theorem xenc_written v : forall inh tag omit t l, has_type v t = true -> xenc inh tag omit t v = Some l -> Forall written l.
Proof.
  induction v as [s|z|x|b|x| |v IH|vs IH|fs IH] using gval_ind'; intros inh tag omit t l HT HE.
  all: cbn [xenc] in HE; destruct (omit && is_empty _); [injection HE as <-; constructor|].
  all: destruct t as [|bits| | | |t|t|n]; try discriminate HE; try discriminate HT.
  - exact (written_simple _ _ _ _ (clean_text s) HE).
  - exact (written_simple _ _ _ _ (plain_text _ (dec_int_plain z)) HE).
  - cbn [has_type] in HT. exact (written_simple _ _ _ _ (plain_text _ (fmt_g_plain x HT)) HE).
  - refine (written_simple _ _ _ _ _ HE). apply plain_text. destruct b; reflexivity.
  - destruct ((0 <=? t_year x)%Z && (t_year x <=? 9999)%Z) eqn:E; [|discriminate HE]. cbn [has_type] in HT.
    refine (written_simple _ _ _ _ _ HE). apply plain_text, nano_plain; [exact HT|lia].
  - injection HE as <-. constructor.
  - injection HE as <-. constructor.
  - exact (IH _ _ _ _ _ HT HE).
  - cbn [has_type] in HT. destruct (omapl _ vs) as [ls|] eqn:E; [|discriminate HE]. cbn [omap] in HE. injection HE as <-.
    apply concat_Forall. revert E. apply omapl_Forall. rewrite forallb_forall in HT. rewrite Forall_forall in *.
    intros x Hx y Hy. exact (IH x Hx _ _ _ _ _ (HT x Hx) Hy).
  - apply has_type_struct in HT. destruct HT as (d & Ed & HT). rewrite Ed in HE.
    destruct (omapl _ fs) as [ls|] eqn:E; [|discriminate HE]. injection HE as <-. constructor; [|constructor].
    assert (Forall (fun p => Forall (fun a => xml_text (snd a)) (fst p) /\ Forall written (snd p)) ls) as K.
    { revert E. apply omapl_Forall. rewrite Forall_forall in *. intros kv Hkv y Hy.
      destruct (find_field d (fst kv)) as [f|] eqn:Ef; [|discriminate Hy].
      destruct (typed_lookup fs (d_fields d) (fst kv) f HT Ef) as (v' & Lv & Tv & Iv).
      pose proof (find_decl_in n d Ed) as [HD _]. pose proof (names_nodup d HD) as ND.
      assert (snd kv = v') as Ev.
      { pose proof (typed_keys _ _ HT) as TK. rewrite <- TK in ND. destruct kv as [k w]. cbn [fst snd] in *. exact (nodup_val _ _ _ _ ND Hkv Iv). }
      destruct (x_kind (f_xml f)).
      - destruct (xenc _ _ _ _ (snd kv)) as [ks|] eqn:Ex; [|discriminate Hy]. cbn [omap] in Hy. injection Hy as <-. cbn [fst snd].
        split; [constructor|]. rewrite Ev in *. refine (IH kv Hkv _ _ _ (f_ty f) ks _ _); rewrite Ev; [exact Tv|exact Ex].
      - unfold xattr in Hy. destruct (x_omit (f_xml f) && is_empty (snd kv)).
        + cbn [omap] in Hy. injection Hy as <-. split; constructor.
        + destruct (snd kv) as [s| | | | | | | |]; try discriminate Hy. cbn [omap] in Hy. injection Hy as <-. cbn [fst snd]. split; [|constructor].
          constructor; [apply clean_text|constructor].
      - destruct (snd kv) as [s| | | | | | | |]; try discriminate Hy. injection Hy as <-. split; [constructor|]. apply written_text, clean_text.
      - injection Hy as <-. split; constructor. }
    apply written_elem; apply concat_Forall; apply Forall_map; (eapply Forall_impl; [|exact K]); intros p [P1 P2]; assumption.
Qed.

Lemma content_written m l : msg_ok m = true -> content m = Some l -> Forall written l.
Proof. intros HM HC. exact (xenc_written (VPtr (m_val m)) _ _ _ (TPtr (TStruct (m_ty m))) l HM HC). Qed.

Lemma leaf_written ns nm s : written (leaf ns nm s).
Proof. apply written_elem; [constructor|apply written_text, clean_text]. Qed.

Ltac wr := repeat first [apply leaf_written | apply written_elem | apply Forall_nil | apply Forall_cons].

Lemma reply_written r err x : (forall m, r = Some m -> msg_ok m = true) -> marshal_reply r err = Some x -> written x.
Proof.
  intros HM HX. unfold marshal_reply in HX.
  destruct (match r with Some m0 => content m0 | None => Some [] end) as [c|] eqn:EC; [|discriminate HX]. injection HX as <-.
  assert (Forall written c) as HC.
  { destruct r as [m|]; [exact (content_written m c (HM m eq_refl) EC)|injection EC as <-; constructor]. }
  wr. apply Forall_app. split; [exact HC|]. destruct err as [e|]; [|constructor]. unfold fault. wr. destruct (String.eqb e ""); wr.
Qed.

Lemma request_written_xml url a mid from id m x : msg_ok m = true -> request_envelope url a mid from id m = Some x -> written x.
Proof.
  intros HM HX. unfold request_envelope in HX. destruct (content m) as [c|] eqn:EC; [|discriminate HX]. injection HX as <-.
  pose proof (content_written m c HM EC) as HC. wr. exact HC.
Qed.

(** ** Whole numbers *)

Local Open Scope Z_scope.

Lemma strip0_len f : forall D j D' j', 0 < D -> 0 <= j -> strip0 f D j = (D', j') ->
  Z.of_nat (String.length (Float64.dec D')) + j' = Z.of_nat (String.length (Float64.dec D)) + j.
Proof.
  induction f as [|f IH]; intros D j D' j' HD Hj; cbn [strip0]; [intros H; injection H as <- <-; reflexivity|].
  destruct ((D =? 0) || negb (D mod 10 =? 0)) eqn:E; [intros H; injection H as <- <-; reflexivity|].
  intros H. apply IH in H; [|lia|lia]. rewrite H. rewrite (dec_unfold D) by lia. destruct (D <? 10) eqn:E1; [lia|].
  rewrite sapp_length. cbn [str1 String.length]. lia.
Qed.

Lemma dec_len_mul D j : 0 < D -> 0 <= j -> Z.of_nat (String.length (Float64.dec (D * 10 ^ j))) = Z.of_nat (String.length (Float64.dec D)) + j.
Proof.
  intros HD Hj. pose proof (dec_zeros (Z.to_nat j) D HD) as K. rewrite Z2Nat.id in K by lia. rewrite <- K, sapp_length.
  assert (forall k, String.length (zeros k) = k) as Z0 by (induction k; cbn; auto). rewrite Z0. lia.
Qed.

Lemma render_g_small D j : 0 < D -> 0 <= j -> D * 10 ^ j < 10 ^ 6 -> render_g D j = Float64.dec (D * 10 ^ j).
Proof.
  intros HD Hj HB. unfold render_g. destruct (strip0 20 D j) as [D' j'] eqn:E.
  pose proof (strip0_len _ _ _ _ _ HD Hj E) as L. pose proof (dec_len_mul D j HD Hj) as L2.
  apply strip0_spec in E as (A & B & C); [|auto|auto].
  pose proof (dec_len (D * 10 ^ j)) as L3. assert (0 < 10 ^ j) by (apply Z.pow_pos_nonneg; lia).
  specialize (L3 ltac:(nia)). rewrite L2 in L3.
  pose proof (dec_ne D' ltac:(lia)) as Hne.
  assert (0 < Z.of_nat (String.length (Float64.dec D'))) as HL.
  { destruct (Float64.dec D'); [congruence|]. cbn [String.length]. lia. }
  assert (Z.of_nat (String.length (Float64.dec D')) + j' - 1 < 6) as B6.
  { destruct (Z_lt_le_dec (Z.of_nat (String.length (Float64.dec D')) + j' - 1) 6) as [|G]; [assumption|exfalso].
    rewrite L in G. assert (10 ^ 6 <= 10 ^ (Z.of_nat (String.length (Float64.dec D)) + j - 1)) by (apply Z.pow_le_mono_r; lia). lia. }
  destruct (_ || _) eqn:E1; [lia|].
  unfold render_f. destruct (Z.of_nat (String.length (Float64.dec D')) + j' <=? 0) eqn:E2; [lia|].
  destruct (Z.of_nat (String.length (Float64.dec D')) + j' <? Z.of_nat (String.length (Float64.dec D'))) eqn:E3; [lia|].
  rewrite dec_zeros by auto. rewrite Z2Nat.id by lia. rewrite C. reflexivity.
Qed.

(** The one larger candidate: a million. *)
Lemma render_g_million D j : 0 < D -> 0 <= j -> D * 10 ^ j = 10 ^ 6 -> render_g D j = "1e+06"%string.
Proof.
  intros HD Hj H. assert (j <= 6).
  { destruct (Z_le_gt_dec j 6); [assumption|exfalso]. assert (10 ^ 7 <= 10 ^ j) by (apply Z.pow_le_mono_r; lia).
    change (10 ^ 7) with 10000000 in *. change (10 ^ 6) with 1000000 in H. nia. }
  assert (D = 10 ^ (6 - j)) as ->.
  { apply (Z.mul_reg_r _ _ (10 ^ j)); [apply Z.pow_nonzero; lia|]. rewrite <- Z.pow_add_r by lia. rewrite H. f_equal. lia. }
  assert (j = 0 \/ j = 1 \/ j = 2 \/ j = 3 \/ j = 4 \/ j = 5 \/ j = 6) as K by lia.
  decompose [or] K; subst j; vm_compute; reflexivity.
Qed.

Lemma million_bits : parse_float "1e+06" = Some (FFin false 8589934592000000 (-33)) /\ round_pos 1000000 1 = Some (8589934592000000, -33).
Proof. split; vm_compute; reflexivity. Qed.
Lemma million n m e : 0 < n < 10 ^ 6 -> round_pos n 1 = Some (m, e) -> parse_float "1e+06" <> Some (FFin false m e).
Proof.
  change (10 ^ 6) with 1000000. intros Hn HR HP. destruct million_bits as [B1 B2]. rewrite B1 in HP.
  assert (m = 8589934592000000 /\ e = -33) as [-> ->] by (split; congruence).
  pose proof (round_inj n 1000000 _ _ ltac:(change (2 ^ 53) with 9007199254740992; lia) ltac:(lia) HR B2). lia.
Qed.

Lemma shortest_g_int f : forall p n m e,
  0 < n < 10 ^ 6 -> round_pos n 1 = Some (m, e) -> 1 <= p ->
  p <= Z.of_nat (String.length (Float64.dec n)) -> Z.of_nat (String.length (Float64.dec n)) < p + Z.of_nat f ->
  shortest_g f p m e = Float64.dec n.
Proof.
  induction f as [|f IH]; intros p n m e Hn0 HR Hp1 Hp2 Hf; [lia|].
  assert (0 < n < 2 ^ 53) as Hn by (change (10 ^ 6) with 1000000 in Hn0; change (2 ^ 53) with 9007199254740992; lia).
  destruct (round_small n Hn) as (m1 & e1 & R1 & A1 & A2 & A3 & A4).
  rewrite HR in R1. injection R1 as <- <-.
  assert (0 < 2 ^ (- e)) as P2 by (apply Z.pow_pos_nonneg; lia).
  assert (fnum m e = m) as Fn.
  { unfold fnum, up. rewrite (Z.max_r e 0) by lia. change (2 ^ 0) with 1. lia. }
  assert (fden e = 2 ^ (- e)) as Fd.
  { unfold fden, up. rewrite (Z.max_l (- e) 0) by lia. reflexivity. }
  assert (dexp m (2 ^ (- e)) = Z.of_nat (String.length (Float64.dec n))) as Dx.
  { unfold dexp. destruct (2 ^ (- e) <=? m) eqn:E; [|nia].
    rewrite A2, Z.div_mul by lia. reflexivity. }
  cbn [shortest_g]. rewrite Fn, Fd, Dx.
  pose proof (dec_len n ltac:(lia)) as DL.
  set (len := Z.of_nat (String.length (Float64.dec n))) in *.
  set (j := len - p). assert (j = len - p) as Hj by reflexivity. clearbody j.
  destruct (0 <=? j) eqn:Ej; [|lia].
  assert (0 < 10 ^ j) as P10 by (apply Z.pow_pos_nonneg; lia).
  assert (m / (2 ^ (- e) * 10 ^ j) = n / 10 ^ j) as Hdiv.
  { rewrite A2, (Z.mul_comm n). apply Z.div_mul_cancel_l; lia. }
  assert (0 < n / 10 ^ j) as Hlo.
  { apply Z.div_str_pos. split; [lia|]. eapply Z.le_trans; [|apply DL]. apply Z.pow_le_mono_r; lia. }
  rewrite Hdiv.
  assert (len <= 6) as HL6.
  { destruct (Z_le_gt_dec len 6); [assumption|exfalso]. assert (10 ^ 6 <= 10 ^ (len - 1)) by (apply Z.pow_le_mono_r; lia). lia. }
  set (lo := n / 10 ^ j) in *.
  assert (lo < 10 ^ p) as Hlop.
  { unfold lo. apply Z.div_lt_upper_bound; [lia|]. rewrite <- Z.pow_add_r by lia. replace (j + p) with len by lia. lia. }
  assert (forall D, 0 < D -> D <= lo + 1 -> reads_as m e (render_g D j) = true -> render_g D j = Float64.dec n) as Hacc.
  { intros D HD HD2 Hr.
    assert (D * 10 ^ j <= 10 ^ 6) as HB.
    { apply (Z.le_trans _ (10 ^ p * 10 ^ j)); [apply Z.mul_le_mono_nonneg_r; lia|]. rewrite <- Z.pow_add_r by lia. apply Z.pow_le_mono_r; lia. }
    destruct (Z.eq_dec (D * 10 ^ j) (10 ^ 6)) as [EM|NM].
    - rewrite render_g_million in Hr by (auto; lia). apply reads_as_spec in Hr as [_ Hr].
      exfalso. exact (million n m e Hn0 HR Hr).
    - rewrite render_g_small in * by (auto; lia).
      apply reads_as_spec in Hr as [_ Hr]. rewrite parse_float_dec in Hr by nia.
      destruct (round_pos (D * 10 ^ j) 1) as [[m' e']|] eqn:E'; [|discriminate]. injection Hr as -> ->.
      f_equal. eapply round_inj; eauto. nia. }
  set (cond := rounds_up lo (m mod (2 ^ (- e) * 10 ^ j)) (2 ^ (- e) * 10 ^ j)).
  match goal with |- context [if reads_as m e ?x then _ else _] => destruct (reads_as m e x) eqn:E1 end.
  { apply Hacc; [destruct cond; lia|destruct cond; lia|exact E1]. }
  match goal with |- context [if reads_as m e ?x then _ else _] => destruct (reads_as m e x) eqn:E2 end.
  { apply Hacc; [destruct cond; lia|destruct cond; lia|exact E2]. }
  destruct (Z.eq_dec p len) as [->|Hne].
  - exfalso. assert (j = 0) as Hj0 by lia.
    assert (cond = false) as Hcond.
    { unfold cond, rounds_up. rewrite Hj0. change (10 ^ 0) with 1. rewrite Z.mul_1_r, A2, Z.mod_mul by lia.
      apply orb_false_iff. split; [lia|]. apply andb_false_iff. left. lia. }
    rewrite Hcond in E1. unfold lo in E1. rewrite Hj0 in E1. change (10 ^ 0) with 1 in E1. rewrite Z.div_1_r in E1.
    rewrite render_g_small in E1; [|lia|lia|change (10 ^ 0) with 1; lia]. change (10 ^ 0) with 1 in E1. rewrite Z.mul_1_r in E1.
    unfold reads_as in E1. rewrite dec_is_num, parse_float_dec, HR in E1 by lia.
    rewrite !Z.eqb_refl in E1. discriminate.
  - apply (IH (p + 1)); auto; lia.
Qed.

(** A double whose value is an integer below a million is written as that integer. *)
Theorem fmt_g_integral x z : canon x = true -> f64_toZ x = Some z -> 0 < Z.abs z < 10 ^ 6 -> fmt_g x = dec_int z.
Proof.
  intros HC HZ HB. destruct x as [neg m e| |]; try discriminate.
  assert (Hm : 0 <= m /\ -1074 <= e) by (cbn [canon] in HC; lia). destruct Hm as [Hm He].
  pose proof (toZ_scaled neg m e z Hm He HZ) as HS.
  assert (P : 0 < 2 ^ (e + 1074)) by (apply Z.pow_pos_nonneg; lia).
  assert (P' : 0 < 2 ^ 1074) by (apply Z.pow_pos_nonneg; lia).
  assert (m <> 0) as Hm0 by (intros ->; destruct neg; nia).
  set (n := Z.abs z) in *.
  assert (0 < n < 2 ^ 53) as Hn by (change (10 ^ 6) with 1000000 in HB; change (2 ^ 53) with 9007199254740992; lia).
  assert (m * 2 ^ (e + 1074) = n * 2 ^ 1074) as HS' by (unfold n; destruct neg; nia).
  destruct (round_small n Hn) as (m1 & e1 & R1 & A1 & A2 & A3 & A4).
  assert (-1074 <= e1) by (cbn [canon] in A4; lia).
  assert (m1 * 2 ^ (e1 + 1074) = n * 2 ^ 1074) as HS1.
  { rewrite A2, <- Z.mul_assoc, <- Z.pow_add_r by lia. f_equal. f_equal. lia. }
  destruct (canon_unique m e m1 e1) as [-> ->]; try lia; [exact HC|exact A4|].
  pose proof (dec_len n ltac:(lia)) as DL.
  assert (1 <= Z.of_nat (String.length (Float64.dec n))) as HL1.
  { pose proof (dec_ne n ltac:(lia)). destruct (Float64.dec n); [congruence|]. cbn [String.length]. lia. }
  assert (Z.of_nat (String.length (Float64.dec n)) <= 6) as HL6.
  { destruct (Z_le_gt_dec (Z.of_nat (String.length (Float64.dec n))) 6); [assumption|exfalso].
    assert (10 ^ 6 <= 10 ^ (Z.of_nat (String.length (Float64.dec n)) - 1)) by (apply Z.pow_le_mono_r; lia). lia. }
  pose proof (shortest_g_int 17 1 n m1 e1 HB R1 ltac:(lia) HL1 ltac:(lia)) as F.
  cbn [fmt_g]. destruct (m1 =? 0) eqn:E0; [lia|]. rewrite F. unfold dec_int. destruct neg.
  - destruct (z <? 0) eqn:Ez; [unfold n; rewrite Z.abs_neq by lia; reflexivity|nia].
  - destruct (z <? 0) eqn:Ez; [nia|unfold n; rewrite Z.abs_eq by lia; reflexivity].
Qed.
