(** Texts of doubles in XML: which double they stand for. *)
From Coq Require Import Arith ZifyBool ZifyNat ZifyN QArith Qabs Qpower Qfield Lqa.
From Verif Require Import GoBase Utf8 Json JsonProofs JsonText Float64 Float64Proofs SpecJson JsonGrammar SpecNumber FloatNear NearProofs NumberProofs ShortText.
From Verif Require Import Lang Types Codec Xml XmlProofs XmlTyped SpecDouble.
Open Scope string_scope.
Open Scope list_scope.
Local Open Scope Z_scope.

(** ** Underscores *)

Lemma ungroup_spec s t : without_underscores s t <-> ungroup s = t.
Proof.
  split.
  - induction 1 as [|s t _ IH|c s t N _ IH]; [reflexivity|exact IH|]. cbn [ungroup].
    destruct (Ascii.eqb_spec c "_") as [E|_]; [destruct (N E)|]. rewrite IH. reflexivity.
  - intros <-. induction s as [|c s IH]; [constructor|]. cbn [ungroup]. destruct (Ascii.eqb_spec c "_") as [->|N]; constructor; assumption.
Qed.

Lemma grouped_from_spec hex (dg : ascii -> Prop) : (forall c, is_digit c || hex && is_hex c = true <-> dg c) -> forall s prev,
  grouped_from hex prev s = true <->
  (prev = 2%nat -> exists c s', s = String c s' /\ dg c) /\
  (forall a b, s = a +++ String "_" b ->
    ((a = "" /\ prev = 1%nat) \/ exists a' c, a = a' +++ str1 c /\ dg c) /\ exists c b', b = String c b' /\ dg c).
Proof.
  intros HD. assert (HU : ~ dg "_"%char) by (intros K; apply HD in K; destruct hex; discriminate K).
  induction s as [|c r IH]; intros prev; cbn [grouped_from].
  - rewrite negb_true_iff, Nat.eqb_neq. split.
    + intros N. split; [congruence|]. intros a b K. destruct a; discriminate K.
    + intros [K _] E. destruct (K E) as (c & s' & K' & _). discriminate K'.
  - destruct (is_digit c || hex && is_hex c) eqn:ED.
    + apply HD in ED. rewrite IH. split.
      * intros [_ K]. split; [intros _; eauto|]. intros a b E. destruct a as [|c' a].
        { cbn in E. injection E as -> _. destruct (HU ED). }
        cbn in E. injection E as <- E. destruct (K a b E) as [[[-> _]|(a' & c' & -> & H)] K2]; (split; [right|exact K2]).
        -- exists "", c. split; [reflexivity|exact ED].
        -- exists (String c a'), c'. split; [reflexivity|exact H].
      * intros [_ K]. split; [intros N; discriminate N|]. intros a b E. destruct (K (String c a) b) as [K1 K2]; [cbn; rewrite E; reflexivity|].
        split; [|exact K2]. destruct K1 as [[N _]|(a' & c' & E' & H)]; [discriminate N|]. destruct a' as [|c2 a'].
        -- cbn in E'. injection E' as _ ->. left. split; reflexivity.
        -- cbn in E'. injection E' as _ ->. right. eauto.
    + assert (ND : ~ dg c) by (intros K; apply HD in K; congruence).
      destruct (Ascii.eqb_spec c "_") as [->|NU].
      * rewrite andb_true_iff, Nat.eqb_eq, IH. split.
        -- intros [-> [K1 K2]]. split; [intros N; discriminate N|]. intros a b E. destruct a as [|c' a].
           ++ cbn in E. injection E as <-. split; [left; split; reflexivity|]. destruct (K1 eq_refl) as (c & s' & -> & H). eauto.
           ++ cbn in E. injection E as <- E. destruct (K2 a b E) as [[[_ N]|(a' & c' & -> & H)] K3]; [discriminate N|]. split; [right|exact K3].
              exists (String "_" a'), c'. split; [reflexivity|exact H].
        -- intros [K1 K2]. destruct (K2 "" r eq_refl) as [K3 K4].
           assert (prev = 1%nat) as -> by (destruct K3 as [[_ K3]|(a' & c' & K3 & _)]; [exact K3|destruct a'; discriminate K3]).
           split; [reflexivity|]. split; [intros _; destruct K4 as (c & b' & -> & H); eauto|].
           intros a b E. destruct (K2 (String "_" a) b) as [K5 K6]; [cbn; rewrite E; reflexivity|]. split; [|exact K6].
           destruct K5 as [[N _]|(a' & c' & E' & H)]; [discriminate N|]. destruct a' as [|c2 a'].
           ++ cbn in E'. injection E' as <- _. destruct (HU H).
           ++ cbn in E'. injection E' as _ ->. right. eauto.
      * rewrite andb_true_iff, negb_true_iff, Nat.eqb_neq, IH. split.
        -- intros [N [_ K]]. split; [congruence|]. intros a b E. destruct a as [|c' a]; [cbn in E; injection E as -> _; destruct (NU eq_refl)|].
           cbn in E. injection E as <- E. destruct (K a b E) as [[[_ N']|(a' & c' & -> & H)] K3]; [discriminate N'|]. split; [right|exact K3].
           exists (String c a'), c'. split; [reflexivity|exact H].
        -- intros [K1 K2]. split.
           { intros E. destruct (K1 E) as (c' & s' & E' & H). injection E' as <- _. exact (ND H). }
           split; [intros N; discriminate N|]. intros a b E. destruct (K2 (String c a) b) as [K5 K6]; [cbn; rewrite E; reflexivity|]. split; [|exact K6].
           destruct K5 as [[N _]|(a' & c' & E' & H)]; [discriminate N|]. destruct a' as [|c2 a'].
           ++ cbn in E'. injection E' as <- _. destruct (ND H).
           ++ cbn in E'. injection E' as _ ->. right. eauto.
Qed.

Lemma dec_grouped s t : grouped dec_char false s t <-> grouped_from false 0 s = true /\ ungroup s = t.
Proof.
  unfold grouped. rewrite ungroup_spec, (grouped_from_spec false dec_char).
  2: { intros c. cbn [andb]. rewrite orb_false_r, <- digit_is. reflexivity. }
  split.
  - intros [K1 K2]. split; [|exact K1]. split; [intros N; discriminate N|]. intros a b E. destruct (K2 a b E) as [[[_ N]|K] K3]; [discriminate N|auto].
  - intros [[_ K2] K1]. split; [exact K1|]. intros a b E. destruct (K2 a b E) as [[[_ N]|K] K3]; [discriminate N|auto].
Qed.
Lemma is_hex_char c : is_hex c = true <-> hex_char c.
Proof.
  unfold is_hex, hex_char. destruct (hexval c) as [n|] eqn:E; split; intros H; try discriminate; try reflexivity.
  - exists n. apply hexval_digit. exact E.
  - destruct H as [n H]. apply hexval_digit in H. congruence.
Qed.
Lemma digit_is_hex c : is_digit c = true -> is_hex c = true.
Proof.
  unfold is_digit, between, is_hex, hexval. rewrite andb_true_iff. intros [A B]. rewrite A, B. reflexivity.
Qed.
Lemma hex_grouped s t : grouped hex_char true s t <-> grouped_from true 1 s = true /\ ungroup s = t.
Proof.
  unfold grouped. rewrite ungroup_spec, (grouped_from_spec true hex_char).
  2: { intros c. cbn [andb]. rewrite <- is_hex_char. destruct (is_digit c) eqn:E; [rewrite (digit_is_hex c E)|]; reflexivity. }
  split.
  - intros [K1 K2]. split; [|exact K1]. split; [intros N; discriminate N|]. intros a b E. destruct (K2 a b E) as [[[K _]|K] K3]; auto.
  - intros [[_ K2] K1]. split; [exact K1|]. intros a b E. destruct (K2 a b E) as [[[K _]|K] K3]; auto.
Qed.

(** ** Exponents *)

Lemma exp_part_exponent e : exp_part e -> exists ev, exponent e ev.
Proof.
  intros [->|(x & g & d & -> & Hx & Hg & Hd)]; [exists 0; constructor|].
  destruct Hg as [<-|[<-|[<-|[]]]].
  - exists (digits_val 0 d). apply (ex_plus x "" d Hx); [now left|exact Hd].
  - exists (digits_val 0 d). apply (ex_plus x "+" d Hx); [right; now left|exact Hd].
  - exists (- digits_val 0 d). apply (ex_minus x d Hx Hd).
Qed.
Lemma pexp_exponent s e : pexp s = Some (e, "") -> s = e /\ exists ev, exponent e ev.
Proof.
  intros H. pose proof (pexp_cat _ _ _ H) as E. rewrite sapp_nil_r in E. split; [exact E|]. subst s. apply exp_part_exponent.
  destruct e as [|c r]; [now left|]. cbn [pexp] in H. destruct (Ascii.eqb c "e" || Ascii.eqb c "E")%char eqn:Ec; [|discriminate H].
  assert (In (str1 c) ["e"; "E"]) as Hc.
  { apply orb_true_iff in Ec as [Q|Q]; apply eqb_char in Q; subst c; cbn; tauto. }
  assert (exists g r1, In g [""; "+"; "-"] /\
    match span_digits r1 with ("", _) => None | (d, t) => Some (String c (g +++ d), t) end = Some (String c r, "")) as (g & r1 & Hg & K).
  { destruct r as [|d r']; [discriminate H|].
    destruct (Ascii.eqb d "+" || Ascii.eqb d "-")%char eqn:Eg.
    - exists (str1 d), r'. split; [|exact H]. apply orb_true_iff in Eg as [Q|Q]; apply eqb_char in Q; subst d; cbn; tauto.
    - exists "", (String d r'). split; [now left|exact H]. }
  destruct (span_digits r1) as [d t] eqn:Er. destruct d as [|x d]; [discriminate K|]. injection K as <- _.
  right. exists (str1 c), g, (String x d). split; [reflexivity|]. split; [exact Hc|]. split; [exact Hg|].
  split; [discriminate|]. eapply span_digits_digits, Er.
Qed.

(** ** Decimal forms *)

Lemma mantissa_lit M K : 0 <= M -> denotes (Float64.dec M +++ "e" +++ dec_int K) false M K.
Proof.
  intros HM. exists (Float64.dec M), "", "", ("e" +++ dec_int K), K. split; [reflexivity|]. split; [apply dec_int_part; exact HM|]. split; [constructor|].
  split; [|split; [rewrite sapp_nil_r, dec_val by exact HM; reflexivity|cbn; lia]].
  unfold dec_int. destruct (K <? 0) eqn:E.
  - pose proof (ex_minus "e" (Float64.dec (- K))) as X. rewrite dec_val in X by lia. rewrite Z.opp_involutive in X. apply X; [now left|].
    apply some_digits_is; [pose proof (dec_length_pos (- K)); destruct (Float64.dec (- K)); cbn in *; [lia|discriminate]|apply dec_digits; lia].
  - pose proof (ex_plus "e" "" (Float64.dec K)) as X. rewrite dec_val in X by lia. apply X; [now left|now left|].
    apply some_digits_is; [pose proof (dec_length_pos K); destruct (Float64.dec K); cbn in *; [lia|discriminate]|apply dec_digits; lia].
Qed.

Definition dec_form (s : string) (x : f64) : Prop :=
  exists p i fd e ev m xe, s = p +++ e /\ pointed p i fd /\ digits i /\ digits fd /\ exponent e ev /\ x = FFin false m xe /\
    let v := decimal (digits_val 0 (i +++ fd)) (ev - Z.of_nat (String.length fd)) in nearest v m xe /\ ~ too_large v.

Lemma digits_cat a b : digits a -> digits b -> digits (a +++ b).
Proof. unfold digits. intros A B. rewrite str_forall_app, A, B. reflexivity. Qed.

Lemma dec_float_spec s x : dec_float s = Some x <-> dec_form s x.
Proof.
  unfold dec_float. split.
  - destruct (span_digits s) as [ip r] eqn:E1.
    destruct (if starts "."%char r then span_digits (drop1 r) else ("", r)) as [fp r1] eqn:E2.
    destruct (String.eqb ip "" && String.eqb fp "") eqn:E3; [intros H; discriminate H|].
    destruct (pexp r1) as [[e [|? ?]]|] eqn:E4; intros H; try discriminate H.
    pose proof (span_digits_cat _ _ _ E1) as C1. pose proof (span_digits_digits _ _ _ E1) as D1.
    apply pexp_exponent in E4. destruct E4 as [-> [ev EV]]. rewrite (exponent_value _ _ EV) in H.
    assert (exists p, s = p +++ e /\ (p = ip /\ fp = "" \/ p = ip +++ "." +++ fp) /\ digits fp) as (p & Es & P & D2).
    { destruct (starts "."%char r) eqn:ES.
      - destruct r as [|c r]; [discriminate ES|]. cbn [starts] in ES. apply Ascii.eqb_eq in ES. subst c. cbn [drop1] in E2.
        exists (ip +++ "." +++ fp). rewrite (span_digits_cat _ _ _ E2) in C1. split; [rewrite C1, !sapp_assoc; reflexivity|].
        split; [right; reflexivity|]. eapply span_digits_digits, E2.
      - injection E2 as <- <-. exists ip. split; [exact C1|]. split; [left; split; reflexivity|reflexivity]. }
    assert (NE : ip +++ fp <> "").
    { intros N. destruct ip; [|discriminate N]. cbn in N. subst fp. discriminate E3. }
    assert (P2 : 0 <= digits_val 0 (ip +++ fp)) by (apply digits_val_nonneg; [lia|apply digits_is, digits_cat; assumption]).
    pose proof (parse_taken _ _ _ _ (mantissa_lit (digits_val 0 (ip +++ fp)) (ev - Z.of_nat (String.length fp)) P2)) as T. rewrite H in T.
    destruct T as (m & xe & -> & T1 & T2). exists p, ip, fp, e, ev, m, xe. split; [exact Es|]. split; [split; assumption|]. split; [exact D1|]. split; [exact D2|]. split; [exact EV|]. split; [reflexivity|]. exact (conj T1 T2).
  - intros (p & i & fd & e & ev & m & xe & -> & [P NE] & D1 & D2 & EV & -> & T1 & T2).
    pose proof (exponent_part _ _ EV) as EP. pose proof (exp_read e EP) as (R1 & R2 & R3).
    assert (span_digits (p +++ e) = (i, if String.eqb p i then e else String "." (fd +++ e)) /\ (p = i -> fd = "") /\ (p <> i -> p = i +++ "." +++ fd)) as (A & B & C).
    { destruct (String.eqb_spec p i) as [->|N].
      - split; [apply span_digits_take; assumption|]. split; [|congruence]. intros _. destruct P as [[_ P]|P]; [exact P|].
        exfalso. apply (f_equal String.length) in P. rewrite sapp_length in P. cbn in P. lia.
      - destruct P as [[P _]|P]; [destruct (N P)|]. rewrite P, !sapp_assoc. split; [|split; [congruence|reflexivity]].
        apply span_digits_take; [exact D1|reflexivity]. }
    rewrite A. destruct (String.eqb_spec p i) as [->|N].
    + rewrite (B eq_refl) in *. clear A B C. rewrite sapp_nil_r in NE.
      assert (starts "."%char e = false) as ->.
      { destruct e as [|c e]; [reflexivity|]. cbn [starts]. destruct (Ascii.eqb_spec "." c) as [<-|_]; [destruct R3|reflexivity]. }
      destruct (String.eqb_spec i "") as [->|_]; [destruct (NE eq_refl)|]. cbn [andb]. rewrite R1, (exponent_value _ _ EV).
      assert (P2 : 0 <= digits_val 0 (i +++ "")) by (apply digits_val_nonneg; [lia|apply digits_is, digits_cat; assumption]).
      pose proof (parse_taken _ _ _ _ (mantissa_lit (digits_val 0 (i +++ "")) (ev - Z.of_nat (String.length "")) P2)) as T.
      destruct (parse_float _) as [y|]; [|destruct (T2 T)]. destruct T as (m' & e' & -> & T3 & T4).
      destruct (nearest_unique _ _ _ _ _ T1 T3) as [-> ->]. reflexivity.
    + cbn [starts drop1]. change (Ascii.eqb "." ".") with true. cbv iota. rewrite (span_digits_take fd e D2 R2).
      assert (String.eqb i "" && String.eqb fd "" = false) as ->.
      { destruct (String.eqb_spec i "") as [->|_]; [|reflexivity]. destruct (String.eqb_spec fd "") as [->|_]; [destruct (NE eq_refl)|reflexivity]. }
      rewrite R1, (exponent_value _ _ EV).
      assert (P2 : 0 <= digits_val 0 (i +++ fd)) by (apply digits_val_nonneg; [lia|apply digits_is, digits_cat; assumption]).
      pose proof (parse_taken _ _ _ _ (mantissa_lit (digits_val 0 (i +++ fd)) (ev - Z.of_nat (String.length fd)) P2)) as T.
      destruct (parse_float _) as [y|]; [|destruct (T2 T)]. destruct T as (m' & e' & -> & T3 & T4).
      destruct (nearest_unique _ _ _ _ _ T1 T3) as [-> ->]. reflexivity.
Qed.

(** ** Hexadecimal forms *)

Definition hexes (s : string) : Prop := str_forall is_hex s = true.
Definition nohex (s : string) : bool := match s with String c _ => negb (is_hex c) | _ => true end.

Lemma span_hex_spec s d t : span_hex s = (d, t) -> s = d +++ t /\ hexes d.
Proof.
  revert d t. induction s as [|c s IH]; intros d t; cbn [span_hex].
  - intros H. injection H as <- <-. split; reflexivity.
  - destruct (is_hex c) eqn:E; [|intros H; injection H as <- <-; split; reflexivity].
    destruct (span_hex s) as [d' t'] eqn:ES. intros H. injection H as <- <-. destruct (IH _ _ eq_refl) as [-> H].
    split; [reflexivity|]. unfold hexes. cbn [str_forall]. rewrite E. exact H.
Qed.
Lemma span_hex_take d r : hexes d -> nohex r = true -> span_hex (d +++ r) = (d, r).
Proof.
  unfold hexes. induction d as [|c d IH]; cbn [str_forall String.append]; intros H R.
  - destruct r as [|c r]; [reflexivity|]. cbn [nohex] in R. apply negb_true_iff in R. cbn [span_hex]. rewrite R. reflexivity.
  - apply andb_true_iff in H as [H1 H2]. cbn [span_hex]. rewrite H1, (IH H2 R). reflexivity.
Qed.
Lemma hex_digits_app a b : forall acc, hex_digits_val acc (a +++ b) = hex_digits_val (hex_digits_val acc a) b.
Proof. induction a as [|c a IH]; intros acc; [reflexivity|]. cbn [String.append hex_digits_val]. apply IH. Qed.
Lemma hex_number_spec s v : hex_number s v <-> hexes s /\ hex_digits_val 0 s = v.
Proof.
  split.
  - induction 1 as [|s v c n _ [IH1 IH2] HD]; [split; reflexivity|]. unfold hexes in *. rewrite str_forall_app, IH1, hex_digits_app, IH2.
    apply hexval_digit in HD. cbn [str1 str_forall hex_digits_val]. unfold is_hex. rewrite HD. split; reflexivity.
  - intros [H <-]. assert (G : forall s p v, hex_number p v -> hexes s -> hex_number (p +++ s) (hex_digits_val v s)).
    { clear. induction s as [|c s IH]; intros p v HP HS; [rewrite sapp_nil_r; exact HP|].
      unfold hexes in HS. cbn [str_forall] in HS. apply andb_true_iff in HS as [H1 H2]. cbn [hex_digits_val].
      apply is_hex_char in H1. destruct H1 as [n Hn]. pose proof (hn_more p v c n HP Hn) as K. apply hexval_digit in Hn. rewrite Hn.
      pose proof (IH _ _ K H2) as R. rewrite sapp_assoc in R. exact R. }
    exact (G s "" 0 hn_none H).
Qed.

Lemma double_quotient h k : (double h k == inject_Z (if 0 <=? k then h * 2 ^ k else h) / inject_Z (if 0 <=? k then 1 else 2 ^ (- k)))%Q.
Proof.
  unfold double. destruct (0 <=? k) eqn:E.
  - change 2%Q with (inject_Z 2). rewrite qpow_nat by lia. rewrite inject_Z_mult. field.
  - change 2%Q with (inject_Z 2). replace k with (- (- k)) at 1 by lia. rewrite qpow_neg by lia. rewrite qpow_nat by lia. field.
    intros K. assert (0 < 2 ^ (- k)) as P by (apply Z.pow_pos_nonneg; lia). apply inject_pos in P. rewrite K in P. exact (Qlt_irrefl _ P).
Qed.
Lemma double_zero k : (double 0 k == decimal 0 k)%Q.
Proof. unfold double, decimal. ring. Qed.
Lemma hex_value_spec h k : 0 <= h ->
  match hex_value h k with
  | Some x => exists m e, x = FFin false m e /\ nearest (double h k) m e /\ ~ too_large (double h k)
  | None => too_large (double h k)
  end.
Proof.
  intros Hh. unfold hex_value. destruct (h =? 0) eqn:E0.
  - apply Z.eqb_eq in E0. subst h. exists 0, (-1074). split; [reflexivity|].
    split; [eapply nearest_eq; [symmetry; apply double_zero|apply nearest_zero]|].
    intros L. apply (large_eq _ _ (double_zero k)) in L. exact (small_zero k L).
  - apply Z.eqb_neq in E0.
    assert (0 < (if 0 <=? k then h * 2 ^ k else h)) as Pn.
    { destruct (0 <=? k) eqn:E; [|lia]. assert (0 < 2 ^ k) by (apply Z.pow_pos_nonneg; lia). nia. }
    assert (0 < (if 0 <=? k then 1 else 2 ^ (- k))) as Pd.
    { destruct (0 <=? k) eqn:E; [lia|]. apply Z.pow_pos_nonneg; lia. }
    pose proof (round_nearest _ _ Pn Pd) as R. pose proof (double_quotient h k) as Q.
    destruct (round_pos _ _) as [[m e]|].
    + destruct R as [R1 R2]. exists m, e. split; [reflexivity|]. split; [eapply nearest_eq; [symmetry; exact Q|exact R1]|].
      intros L. apply R2. exact (proj1 (large_eq _ _ Q) L).
    + exact (proj2 (large_eq _ _ Q) R).
Qed.

Definition hex_form (s : string) (x : f64) : Prop :=
  exists p i fd h (minus : bool) sg ds m xe, s = p +++ sg +++ ds /\ pointed p i fd /\ hex_number (i +++ fd) h /\
    In sg (if minus then ["p-"; "P-"] else ["p"; "P"; "p+"; "P+"]) /\ some_digits ds /\ x = FFin false m xe /\
    let k := (if minus then - digits_val 0 ds else digits_val 0 ds) - 4 * Z.of_nat (String.length fd) in
    nearest (double h k) m xe /\ ~ too_large (double h k).

Lemma hexes_cat a b : hexes (a +++ b) <-> hexes a /\ hexes b.
Proof. unfold hexes. rewrite str_forall_app, andb_true_iff. reflexivity. Qed.

Lemma hex_float_spec s x : hex_float s = Some x <-> hex_form s x.
Proof.
  unfold hex_float. split.
  - destruct (span_hex s) as [ip r] eqn:E1.
    destruct (if starts "."%char r then span_hex (drop1 r) else ("", r)) as [fp r1] eqn:E2.
    destruct (String.eqb ip "" && String.eqb fp "") eqn:E3; [intros H; discriminate H|].
    destruct (starts "p"%char r1 || starts "P"%char r1) eqn:E4; [|intros H; discriminate H]. cbv zeta.
    destruct (if starts "-"%char (drop1 r1) then (true, drop1 (drop1 r1)) else if starts "+"%char (drop1 r1) then (false, drop1 (drop1 r1)) else (false, drop1 r1)) as [neg r3] eqn:E5.
    destruct (str_forall is_digit r3 && negb (String.eqb r3 "")) eqn:E6; [|intros H; discriminate H]. intros H.
    pose proof (span_hex_spec _ _ _ E1) as [C1 D1].
    assert (exists p, s = p +++ r1 /\ (p = ip /\ fp = "" \/ p = ip +++ "." +++ fp) /\ hexes fp) as (p & Es & P & D2).
    { destruct (starts "."%char r) eqn:ES.
      - destruct r as [|c r]; [discriminate ES|]. cbn [starts] in ES. apply Ascii.eqb_eq in ES. subst c. cbn [drop1] in E2.
        destruct (span_hex_spec _ _ _ E2) as [C2 D2]. exists (ip +++ "." +++ fp). rewrite C2 in C1. split; [rewrite C1, !sapp_assoc; reflexivity|].
        split; [right; reflexivity|exact D2].
      - injection E2 as <- <-. exists ip. split; [exact C1|]. split; [left; split; reflexivity|reflexivity]. }
    assert (NE : ip +++ fp <> "").
    { intros N. destruct ip; [|discriminate N]. cbn in N. subst fp. discriminate E3. }
    assert (exists sg, r1 = sg +++ r3 /\ In sg (if neg then ["p-"; "P-"] else ["p"; "P"; "p+"; "P+"])) as (sg & Er & Sg).
    { destruct r1 as [|c r1]; [discriminate E4|]. cbn [drop1] in E5.
      assert (c = "p"%char \/ c = "P"%char) as Hc.
      { cbn [starts] in E4. apply orb_true_iff in E4 as [Q|Q]; apply Ascii.eqb_eq in Q; auto. }
      destruct (starts "-"%char r1) eqn:EM.
      - destruct r1 as [|d r1]; [discriminate EM|]. cbn [starts] in EM. apply Ascii.eqb_eq in EM. subst d. cbn [drop1] in E5. injection E5 as <- <-.
        exists (String c "-"). split; [reflexivity|]. destruct Hc as [->| ->]; cbn; tauto.
      - destruct (starts "+"%char r1) eqn:EP.
        + destruct r1 as [|d r1]; [discriminate EP|]. cbn [starts] in EP. apply Ascii.eqb_eq in EP. subst d. cbn [drop1] in E5. injection E5 as <- <-.
          exists (String c "+"). split; [reflexivity|]. destruct Hc as [->| ->]; cbn; tauto.
        + injection E5 as <- <-. exists (str1 c). split; [reflexivity|]. destruct Hc as [->| ->]; cbn; tauto. }
    apply andb_true_iff in E6 as [D3 N3]. apply negb_true_iff in N3. apply String.eqb_neq in N3.
    set (k := ((if neg then - digits_val 0 r3 else digits_val 0 r3) - 4 * Z.of_nat (String.length fp))) in *.
    pose proof (hex_value_spec (hex_digits_val 0 (ip +++ fp)) k (hex_digits_nonneg _ 0 ltac:(lia))) as T. rewrite H in T.
    destruct T as (m & xe & -> & T1 & T2). exists p, ip, fp, (hex_digits_val 0 (ip +++ fp)), neg, sg, r3, m, xe.
    split; [rewrite Es, Er; reflexivity|]. split; [split; assumption|]. split; [apply hex_number_spec; split; [apply hexes_cat; auto|reflexivity]|].
    split; [exact Sg|]. split; [apply some_digits_is; assumption|]. split; [reflexivity|]. exact (conj T1 T2).
  - intros (p & i & fd & h & minus & sg & ds & m & xe & -> & [P NE] & HN & Sg & SD & -> & T1 & T2).
    apply hex_number_spec in HN. destruct HN as [HX HV]. apply hexes_cat in HX. destruct HX as [D1 D2].
    set (e := sg +++ ds) in *.
    assert (exists c e', e = String c e' /\ (c = "p"%char \/ c = "P"%char) /\
      (if starts "-"%char e' then (true, drop1 e') else if starts "+"%char e' then (false, drop1 e') else (false, e')) = (minus, ds)) as (c & e' & Ee & Hc & Hs).
    { destruct SD as [N SD]. destruct ds as [|d ds]; [destruct (N eq_refl)|]. destruct (head_digit _ d ds (conj N SD) eq_refl) as [M1 M2].
      assert (Ascii.eqb "-" d = false /\ Ascii.eqb "+" d = false) as [M3 M4] by (rewrite !(Ascii.eqb_sym _ d); auto). unfold e.
      destruct minus; [destruct Sg as [<-|[<-|[]]]|destruct Sg as [<-|[<-|[<-|[<-|[]]]]]]; eexists _, _; (split; [reflexivity|]); (split; [tauto|]);
        cbn [String.append starts drop1]; rewrite ?M3, ?M4; reflexivity. }
    assert (nohex e = true /\ starts "."%char e = false /\ (starts "p"%char e || starts "P"%char e) = true) as (N1 & N2 & N3).
    { rewrite Ee. destruct Hc as [->| ->]; repeat split. }
    assert (span_hex (p +++ e) = (i, if String.eqb p i then e else String "." (fd +++ e)) /\ (p = i -> fd = "") /\ (p <> i -> p = i +++ "." +++ fd)) as (A & B & C).
    { destruct (String.eqb_spec p i) as [->|N].
      - split; [apply span_hex_take; assumption|]. split; [|congruence]. intros _. destruct P as [[_ P]|P]; [exact P|].
        exfalso. apply (f_equal String.length) in P. rewrite sapp_length in P. cbn in P. lia.
      - destruct P as [[P _]|P]; [destruct (N P)|]. rewrite P, !sapp_assoc. split; [|split; [congruence|reflexivity]].
        apply span_hex_take; [exact D1|reflexivity]. }
    assert (HH : 0 <= h) by (rewrite <- HV; apply hex_digits_nonneg; lia).
    assert (SD' : str_forall is_digit ds && negb (String.eqb ds "") = true).
    { destruct SD as [N SD]. apply digits_is in SD. rewrite SD. destruct (String.eqb_spec ds "") as [E|_]; [destruct (N E)|reflexivity]. }
    assert (R : (if starts "."%char (if String.eqb p i then e else String "." (fd +++ e)) then span_hex (drop1 (if String.eqb p i then e else String "." (fd +++ e))) else ("", if String.eqb p i then e else String "." (fd +++ e))) = (fd, e)).
    { destruct (String.eqb_spec p i) as [E|N]; [rewrite N2, (B E); reflexivity|]. cbn [starts drop1]. change (Ascii.eqb "." ".") with true. cbv iota.
      apply span_hex_take; assumption. }
    rewrite A, R.
    assert (String.eqb i "" && String.eqb fd "" = false) as ->.
    { destruct (String.eqb_spec i "") as [->|_]; [|reflexivity]. destruct (String.eqb_spec fd "") as [->|_]; [destruct (NE eq_refl)|reflexivity]. }
    rewrite N3. cbv zeta. rewrite Ee. cbn [drop1]. rewrite Hs, SD', HV.
    pose proof (hex_value_spec h ((if minus then - digits_val 0 ds else digits_val 0 ds) - 4 * Z.of_nat (String.length fd)) HH) as T.
    destruct (hex_value _ _) as [y|]; [|destruct (T2 T)]. destruct T as (m' & e2 & -> & T3 & T4).
    destruct (nearest_unique _ _ _ _ _ T1 T3) as [-> ->]. reflexivity.
Qed.

(** ** Letters *)

Lemma lower_spec a b : Codec.lower b = b -> (Codec.lower a = b <-> a = b \/ (65 <= code a <= 90)%N /\ (code a + 32 = code b)%N).
Proof.
  intros Hb. assert (B : ~ (65 <= code b <= 90)%N).
  { intros K. unfold Codec.lower in Hb. unfold between in Hb. assert (((65 <=? code b) && (code b <=? 90))%N = true) as R by (rewrite andb_true_iff, !N.leb_le; lia).
    rewrite R in Hb. apply (f_equal code) in Hb. pose proof (code_chr (code b + 32) ltac:(lia)) as Q. rewrite Q in Hb. lia. }
  unfold Codec.lower, between. destruct ((65 <=? code a) && (code a <=? 90))%N eqn:E.
  - apply andb_true_iff in E as [E1 E2]. apply N.leb_le in E1, E2. split.
    + intros <-. right. split; [lia|]. pose proof (code_chr (code a + 32) ltac:(lia)) as Q. rewrite Q. reflexivity.
    + intros [->|[_ K]]; [lia|]. rewrite K. apply chr_code.
  - split; [auto|]. intros [K|[K _]]; [exact K|]. exfalso. assert (((65 <=? code a) && (code a <=? 90))%N = true) by (rewrite andb_true_iff, !N.leb_le; lia). congruence.
Qed.
Fixpoint small (t : string) : Prop := match t with EmptyString => True | String b u => Codec.lower b = b /\ small u end.
Lemma any_case_spec t : small t -> forall s, any_case s t <-> lower_all s = t.
Proof.
  induction t as [|b t IH]; intros H s.
  - destruct s as [|a s]; cbn [any_case lower_all]; [tauto|]. split; [tauto|intros K; discriminate K].
  - destruct s as [|a s]; cbn [any_case lower_all]; [split; [tauto|intros K; discriminate K]|].
    destruct H as [Hb Ht]. rewrite (IH Ht), <- (lower_spec a b Hb). split; [intros [-> ->]; reflexivity|]. intros E. injection E as E1 E2. auto.
Qed.
Lemma is_nan s : any_case s "nan" <-> lower_all s = "nan".
Proof. apply any_case_spec. cbn. repeat split. Qed.
Lemma is_inf s : any_case s "inf" \/ any_case s "infinity" <-> (String.eqb (lower_all s) "inf" || String.eqb (lower_all s) "infinity") = true.
Proof. rewrite orb_true_iff, !String.eqb_eq, !any_case_spec by (cbn; repeat split). reflexivity. Qed.

(** ** Without a sign *)

(** A digit or a point begins every number in digits. *)
Definition leads (c : ascii) : bool := is_digit c || Ascii.eqb c "."%char.
Lemma dec_float_head s x : dec_float s = Some x -> exists c r, s = String c r /\ leads c = true.
Proof.
  intros H. apply dec_float_spec in H. destruct H as (p & i & fd & e & ev & m & xe & -> & [P NE] & D1 & _). unfold leads.
  destruct i as [|c i].
  - destruct P as [[-> ->]| ->]; [destruct (NE eq_refl)|]. eexists _, _. split; [reflexivity|reflexivity].
  - apply digits_is in D1. cbn [str_forall] in D1. apply andb_true_iff in D1 as [D1 _].
    destruct P as [[-> ->]| ->]; eexists _, _; (split; [reflexivity|]); rewrite D1; reflexivity.
Qed.
Lemma leads_not c s : leads c = true -> lower_all (String c s) <> "inf" /\ lower_all (String c s) <> "infinity" /\ lower_all (String c s) <> "nan" /\
  starts "-"%char (String c s) = false /\ starts "+"%char (String c s) = false.
Proof.
  intros H. cbn [lower_all starts]. destruct c as [[] [] [] [] [] [] [] []]; try discriminate H; repeat split; try reflexivity; intros K; discriminate K.
Qed.
Lemma grouped_head c r t prev : grouped_from false prev (String c r) = true -> prev <> 1%nat -> ungroup (String c r) = t -> exists r', t = String c r'.
Proof.
  cbn [grouped_from ungroup]. intros G N <-. destruct (Ascii.eqb_spec c "_") as [->|_]; [|eauto].
  exfalso. cbn in G. destruct prev as [|[|prev]]; [discriminate G|congruence|discriminate G].
Qed.
Lemma ungroup_head2 c d r : c <> "_"%char -> d <> "_"%char -> ungroup (String c (String d r)) = String c (String d (ungroup r)).
Proof. intros A B. cbn [ungroup]. destruct (Ascii.eqb_spec c "_"); [congruence|]. destruct (Ascii.eqb_spec d "_"); [congruence|reflexivity]. Qed.
Lemma hex_prefix_inv s : hex_prefix s = true <-> exists zx q, s = zx +++ q /\ In zx ["0x"; "0X"].
Proof.
  unfold hex_prefix. split.
  - intros H. apply andb_true_iff in H as [H1 H2]. destruct s as [|c s]; [discriminate H1|]. cbn [starts] in H1. apply Ascii.eqb_eq in H1. subst c.
    cbn [drop1] in H2. destruct s as [|c s]; [discriminate H2|]. cbn [starts] in H2. apply orb_true_iff in H2 as [Q|Q]; apply Ascii.eqb_eq in Q; subst c.
    + exists "0x", s. cbn. tauto.
    + exists "0X", s. cbn. tauto.
  - intros (zx & q & -> & [<-|[<-|[]]]); reflexivity.
Qed.
Lemma dec_not_hex s x : dec_float (ungroup s) = Some x -> hex_prefix s = false.
Proof.
  intros H. destruct (hex_prefix s) eqn:E; [|reflexivity]. exfalso. apply hex_prefix_inv in E. destruct E as (zx & q & -> & [<-|[<-|[]]]); discriminate H.
Qed.

Theorem ext_unsigned_spec s x : ext_unsigned s = Some x <-> any_case s "nan" /\ x = FNaN \/ unsigned_double s x.
Proof.
  unfold ext_unsigned. cbv zeta. split.
  - destruct (String.eqb (lower_all s) "inf" || String.eqb (lower_all s) "infinity") eqn:EI.
    { intros H. assert (x = FInf false) as -> by congruence. right. apply ud_inf. apply is_inf. exact EI. }
    destruct (String.eqb_spec (lower_all s) "nan") as [EN|EN].
    { intros H. assert (x = FNaN) as -> by congruence. left. split; [apply is_nan; exact EN|reflexivity]. }
    destruct (hex_prefix s) eqn:EH.
    + apply hex_prefix_inv in EH. destruct EH as (zx & q & -> & HZ).
      assert (drop1 (drop1 (zx +++ q)) = q) as -> by (destruct HZ as [<-|[<-|[]]]; reflexivity).
      destruct (grouped_from true 1 q) eqn:EG; [|intros H; discriminate H]. intros H. right.
      apply hex_float_spec in H. destruct H as (p & i & fd & h & minus & sg & ds & m & xe & EQ & A1 & A2 & A3 & A4 & -> & A5 & A6).
      eapply ud_hex; [exact HZ|apply hex_grouped; split; [exact EG|exact EQ]|exact A1|exact A2|exact A3|exact A4|exact A5|exact A6].
    + destruct (grouped_from false 0 s) eqn:EG; [|intros H; discriminate H]. intros H. right.
      apply dec_float_spec in H. destruct H as (p & i & fd & e & ev & m & xe & EQ & A1 & A2 & A3 & A4 & -> & A5 & A6).
      eapply ud_dec; [apply dec_grouped; split; [exact EG|exact EQ]|exact A1|exact A2|exact A3|exact A4|exact A5|exact A6].
  - intros [[H ->]|H].
    + apply is_nan in H. rewrite H. reflexivity.
    + destruct H as [s H|s p i fd e ev m xe G P D1 D2 EV v T1 T2|zx q p i fd h minus sg ds m xe HZ G P HN Sg SD k T1 T2].
      * apply is_inf in H. rewrite H. reflexivity.
      * apply dec_grouped in G. destruct G as [G1 G2].
        assert (HD : dec_float (ungroup s) = Some (FFin false m xe)).
        { apply dec_float_spec. rewrite G2. exists p, i, fd, e, ev, m, xe. exact (conj eq_refl (conj P (conj D1 (conj D2 (conj EV (conj eq_refl (conj T1 T2))))))). }
        rewrite (dec_not_hex s _ HD), G1. destruct (dec_float_head _ _ HD) as (c & r & E & Hc).
        destruct s as [|c0 s]; [discriminate E|]. destruct (grouped_head c0 s _ 0 G1 ltac:(lia) E) as (r' & E'). assert (c0 = c) as -> by congruence.
        destruct (leads_not c s Hc) as (L1 & L2 & L3 & _).
        apply String.eqb_neq in L1, L2, L3. rewrite L1, L2, L3. exact HD.
      * apply hex_grouped in G. destruct G as [G1 G2].
        assert (HD : hex_float (ungroup q) = Some (FFin false m xe)).
        { apply hex_float_spec. rewrite G2. exists p, i, fd, h, minus, sg, ds, m, xe. exact (conj eq_refl (conj P (conj HN (conj Sg (conj SD (conj eq_refl (conj T1 T2))))))). }
        destruct HZ as [<-|[<-|[]]]; cbn [String.append]; destruct (leads_not "0" (String "x" q) eq_refl) as (L1 & L2 & L3 & _);
          destruct (leads_not "0" (String "X" q) eq_refl) as (L1' & L2' & L3' & _);
          apply String.eqb_neq in L1, L2, L3, L1', L2', L3'; rewrite ?L1, ?L2, ?L3, ?L1', ?L2', ?L3'; cbn [orb];
          match goal with |- context [hex_prefix ?w] => change (hex_prefix w) with true end; cbv iota; cbn [drop1]; rewrite G1; exact HD.
Qed.

(** ** Graphic texts *)

Lemma any_case_graphic t : str_forall graphic t = true -> forall s, any_case s t -> str_forall graphic s = true.
Proof.
  induction t as [|b t IH]; intros H s; destruct s as [|a s]; cbn [any_case]; try tauto. cbn [str_forall] in *. apply andb_true_iff in H as [H1 H2].
  intros [K1 K2]. rewrite (IH H2 s K2), andb_true_r. destruct K1 as [->|[K1 _]]; [exact H1|]. unfold graphic. rewrite andb_true_iff, N.leb_le, N.ltb_lt. lia.
Qed.
Lemma without_graphic s t : without_underscores s t -> str_forall graphic t = true -> str_forall graphic s = true.
Proof.
  induction 1 as [|s t _ IH|c s t _ _ IH]; intros H; [reflexivity|cbn [str_forall]; rewrite (IH H); reflexivity|].
  cbn [str_forall] in *. apply andb_true_iff in H as [H1 H2]. rewrite H1, (IH H2). reflexivity.
Qed.
Lemma without_nil s : without_underscores s "" -> s = "" \/ exists r, s = String "_" r.
Proof. intros H. inversion H; eauto. Qed.
Lemma sforall_imp (p q : ascii -> bool) s : (forall c, p c = true -> q c = true) -> str_forall p s = true -> str_forall q s = true.
Proof.
  intros H. induction s as [|c s IH]; [reflexivity|]. cbn [str_forall]. rewrite !andb_true_iff. intros [A B]. split; [exact (H c A)|exact (IH B)].
Qed.
Lemma digit_graphic c : is_digit c = true -> graphic c = true.
Proof. unfold is_digit, between, graphic. rewrite !andb_true_iff, !N.leb_le, N.ltb_lt. lia. Qed.
Lemma is_hex_graphic c : is_hex c = true -> graphic c = true.
Proof.
  unfold is_hex, hexval, graphic. intros H. destruct ((48 <=? code c) && (code c <=? 57))%N eqn:E1; [rewrite andb_true_iff, N.leb_le, N.ltb_lt; lia|].
  destruct ((97 <=? code c) && (code c <=? 102))%N eqn:E2; [rewrite andb_true_iff, N.leb_le, N.ltb_lt; lia|].
  destruct ((65 <=? code c) && (code c <=? 70))%N eqn:E3; [rewrite andb_true_iff, N.leb_le, N.ltb_lt; lia|discriminate H].
Qed.
Lemma digits_graphic d : digits d -> str_forall graphic d = true.
Proof. intros H. apply digits_is in H. exact (sforall_imp _ _ d digit_graphic H). Qed.
Lemma pointed_graphic p i fd : pointed p i fd -> str_forall graphic (i +++ fd) = true -> str_forall graphic p = true.
Proof.
  intros [P _] H. rewrite str_forall_app in H. apply andb_true_iff in H as [H1 H2]. destruct P as [[-> _]| ->]; [exact H1|].
  rewrite !str_forall_app, H1, H2. reflexivity.
Qed.
Lemma exponent_graphic e ev : exponent e ev -> str_forall graphic e = true.
Proof.
  intros [|x sg d H1 H2 [_ H3]|x d H1 [_ H3]]; [reflexivity| |]; apply digits_graphic in H3; rewrite !str_forall_app, H3, !andb_true_r.
  - destruct H1 as [<-|[<-|[]]]; destruct H2 as [<-|[<-|[]]]; reflexivity.
  - destruct H1 as [<-|[<-|[]]]; reflexivity.
Qed.
Lemma unsigned_graphic s x : unsigned_double s x -> str_forall graphic s = true.
Proof.
  intros [u H|u p i fd e ev m xe G P D1 D2 EV v T1 T2|zx q p i fd h minus sg ds m xe HZ G P HN Sg SD k T1 T2].
  - destruct H as [H|H]; revert H; apply any_case_graphic; reflexivity.
  - apply (without_graphic _ _ (proj1 G)). rewrite str_forall_app, (exponent_graphic _ _ EV), andb_true_r.
    apply (pointed_graphic _ _ _ P). apply digits_graphic, digits_cat; assumption.
  - rewrite str_forall_app. apply andb_true_iff. split; [destruct HZ as [<-|[<-|[]]]; reflexivity|].
    apply (without_graphic _ _ (proj1 G)). rewrite !str_forall_app, (digits_graphic ds (proj2 SD)), andb_true_r. apply andb_true_iff. split.
    + apply (pointed_graphic _ _ _ P). apply hex_number_spec in HN. exact (sforall_imp _ _ _ is_hex_graphic (proj1 HN)).
    + destruct minus; cbn in Sg; repeat (destruct Sg as [<-|Sg]; [reflexivity|]); destruct Sg.
Qed.
(** What an unsigned text does not look like. *)
Lemma unsigned_plain s x : unsigned_double s x -> s <> "" /\ starts "-"%char s = false /\ starts "+"%char s = false /\ lower_all s <> "nan".
Proof.
  intros H. pose proof H as [u HI|u p i fd e ev m xe G P D1 D2 EV v T1 T2|zx q p i fd h minus sg ds m xe HZ G P HN Sg SD k T1 T2].
  - destruct u as [|a u]; [destruct HI as [[]|[]]|]. split; [intros K; discriminate K|].
    assert (a = "i"%char \/ a = "I"%char) as K.
    { assert (a = "i"%char \/ (65 <= code a <= 90)%N /\ (code a + 32 = 105)%N) as [->|[K1 K2]] by (destruct HI as [[HI _]|[HI _]]; exact HI); [auto|].
      right. assert (code a = 73%N) as K by lia. rewrite <- (chr_code a), K. reflexivity. }
    destruct K as [->| ->]; repeat split; intros K; discriminate K.
  - apply dec_grouped in G. destruct G as [G1 G2].
    assert (HD : dec_float (ungroup u) = Some (FFin false m xe)).
    { apply dec_float_spec. rewrite G2. exists p, i, fd, e, ev, m, xe. exact (conj eq_refl (conj P (conj D1 (conj D2 (conj EV (conj eq_refl (conj T1 T2))))))). }
    destruct (dec_float_head _ _ HD) as (c & r & E & Hc). destruct u as [|c0 u]; [discriminate E|].
    destruct (grouped_head c0 u _ 0 G1 ltac:(lia) E) as (r' & E'). assert (c0 = c) as -> by congruence.
    destruct (leads_not c u Hc) as (_ & _ & L3 & L4 & L5). split; [intros K; discriminate K|]. auto.
  - destruct HZ as [<-|[<-|[]]]; repeat split; intros K; discriminate K.
Qed.

(** ** Signs *)

Theorem ext_float_spec t x : ext_float t = Some x <->
  (any_case t "nan" /\ x = FNaN) \/ (exists sg u, In sg [""; "+"] /\ t = sg +++ u /\ unsigned_double u x) \/
  (exists u y, t = "-" +++ u /\ unsigned_double u y /\ x = negated y).
Proof.
  assert (N : forall u y, lower_all u <> "nan" -> ext_unsigned u = Some y -> unsigned_double u y).
  { intros u y HN H. apply ext_unsigned_spec in H. destruct H as [[H _]|H]; [|exact H]. apply is_nan in H. destruct (HN H). }
  assert (F : forall y, fneg y = negated y) by (intros [| |]; reflexivity).
  unfold ext_float. split.
  - destruct (starts "-"%char t) eqn:EM.
    + destruct t as [|c t]; [discriminate EM|]. cbn [starts] in EM. apply Ascii.eqb_eq in EM. subst c. cbn [drop1].
      destruct (String.eqb_spec (lower_all t) "nan") as [|HN]; [intros H; discriminate H|]. unfold omap. destruct (ext_unsigned t) as [y|] eqn:EY; [|intros H; discriminate H].
      intros H. right. right. exists t, y. split; [reflexivity|]. split; [exact (N _ _ HN EY)|]. rewrite <- F. congruence.
    + destruct (starts "+"%char t) eqn:EP.
      * destruct t as [|c t]; [discriminate EP|]. cbn [starts] in EP. apply Ascii.eqb_eq in EP. subst c. cbn [drop1].
        destruct (String.eqb_spec (lower_all t) "nan") as [|HN]; [intros H; discriminate H|]. intros H.
        right. left. exists "+", t. split; [cbn; tauto|]. split; [reflexivity|exact (N _ _ HN H)].
      * intros H. apply ext_unsigned_spec in H. destruct H as [H|H]; [left; exact H|]. right. left. exists "", t. split; [cbn; tauto|]. split; [reflexivity|exact H].
  - intros [[H ->]|[(sg & u & HS & -> & H)|(u & y & -> & H & ->)]].
    + pose proof H as H'. apply is_nan in H. destruct t as [|c t]; [discriminate H|].
      assert (starts "-"%char (String c t) = false /\ starts "+"%char (String c t) = false) as [-> ->].
      { cbn [starts]. split; [destruct (Ascii.eqb_spec "-" c) as [<-|_]; [discriminate H|reflexivity]|destruct (Ascii.eqb_spec "+" c) as [<-|_]; [discriminate H|reflexivity]]. }
      apply ext_unsigned_spec. left. split; [exact H'|reflexivity].
    + destruct (unsigned_plain _ _ H) as (_ & P1 & P2 & P3). destruct HS as [<-|[<-|[]]].
      * change ("" +++ u) with u. rewrite P1, P2. apply ext_unsigned_spec. right. exact H.
      * change (starts "-" ("+" +++ u)) with false. change (starts "+" ("+" +++ u)) with true. cbv iota. change (drop1 ("+" +++ u)) with u.
        apply String.eqb_neq in P3. rewrite P3. apply ext_unsigned_spec. right. exact H.
    + destruct (unsigned_plain _ _ H) as (_ & P1 & P2 & P3). change (starts "-" ("-" +++ u)) with true. cbv iota. change (drop1 ("-" +++ u)) with u.
      apply String.eqb_neq in P3. rewrite P3. assert (ext_unsigned u = Some y) as -> by (apply ext_unsigned_spec; right; exact H). cbn [omap]. rewrite F. reflexivity.
Qed.

(** ** JSON literals are among them *)

Lemma lit_number l z : lit_parts l = Some z -> number l.
Proof.
  intros H. apply number_read. apply is_num_spec. unfold is_num, pnum. unfold lit_parts in H. destruct l as [|c r].
  - discriminate H.
  - destruct (Ascii.eqb c "-"%char).
    + destruct (pint r) as [[i s2]|]; [|discriminate H]. destruct (pfrac s2) as [[f s3]|]; [|discriminate H].
      destruct (pexp s3) as [[e [|? ?]]|]; try discriminate H. reflexivity.
    + destruct (pint (String c r)) as [[i s2]|]; [|discriminate H]. destruct (pfrac s2) as [[f s3]|]; [|discriminate H].
      destruct (pexp s3) as [[e [|? ?]]|]; try discriminate H. reflexivity.
Qed.
Lemma plain_grouped s : (forall a b, s <> a +++ String "_" b) -> ungroup s = s /\ forall k, (k < 2)%nat -> grouped_from false k s = true.
Proof.
  induction s as [|c s IH]; intros H; [split; [reflexivity|intros [|[|k]] K; [reflexivity|reflexivity|lia]]|].
  assert (N : c <> "_"%char) by (intros ->; exact (H "" s eq_refl)).
  destruct IH as [I1 I2]. { intros a b ->. exact (H (String c a) b eq_refl). }
  cbn [ungroup grouped_from]. destruct (Ascii.eqb_spec c "_") as [E|_]; [destruct (N E)|]. rewrite I1. split; [reflexivity|].
  intros k K. destruct (is_digit c || false && is_hex c); [apply I2; lia|]. rewrite I2 by lia. destruct k as [|[|k]]; [reflexivity|reflexivity|lia].
Qed.
Lemma number_plain s : number s -> forall a b, s <> a +++ String "_" b.
Proof.
  intros H a b ->. apply number_read in H. apply pnum_chars in H. rewrite str_forall_app in H. apply andb_true_iff in H as [_ H]. discriminate H.
Qed.
Lemma parse_ext t x : parse_float t = Some x -> ext_float t = Some x.
Proof.
  intros H. assert (HN : number t) by (unfold parse_float in H; destruct (lit_parts t) as [z|] eqn:E; [exact (lit_number _ _ E)|discriminate H]).
  destruct (number_denotes _ HN) as (neg & D & k & HD). pose proof (parse_taken _ _ _ _ HD) as T. rewrite H in T. destruct T as (m & e & -> & T1 & T2).
  destruct HD as (i & f & fd & ex & ev & -> & Hi & Hf & He & -> & ->).
  assert (U : unsigned_double (i +++ f +++ ex) (FFin false m e)).
  { pose proof (exponent_part _ _ He) as He'. destruct (fraction_part _ _ Hf) as [Hf' _].
    assert (number (i +++ f +++ ex)) as HU by (exists "", i, f, ex; repeat split; try assumption; cbn; tauto).
    destruct (plain_grouped _ (number_plain _ HU)) as [G1 G2].
    assert (pointed (i +++ f) i fd /\ digits fd) as [P D2].
    { assert (NI : i <> "") by (destruct Hi as [->|(c & d & -> & _)]; intros K; discriminate K).
      assert (NE : i +++ fd <> "") by (intros K; destruct i; [exact (NI eq_refl)|discriminate K]).
      destruct Hf as [|d [Hd1 Hd2]].
      - split; [split; [left; split; [apply sapp_nil_r|reflexivity]|exact NE]|reflexivity].
      - split; [split; [right; reflexivity|exact NE]|exact Hd2]. }
    eapply ud_dec; [apply dec_grouped; split; [apply G2; lia|rewrite G1; symmetry; apply sapp_assoc]|exact P|apply int_part_digits; exact Hi|exact D2|exact He|exact T1|exact T2]. }
  apply ext_float_spec. destruct neg.
  - right. right. exists (i +++ f +++ ex), (FFin false m e). split; [reflexivity|]. split; [exact U|reflexivity].
  - right. left. exists "", (i +++ f +++ ex). split; [cbn; tauto|]. split; [reflexivity|exact U].
Qed.

(** ** White space *)

Lemma white_ends n u : white n -> utf8_of n u -> (exists c r, u = String c r /\ graphic c = false) /\ (exists r c, u = r +++ str1 c /\ graphic c = false).
Proof.
  assert (G : forall k, (k < 256)%N -> (k < 33 \/ 128 <= k)%N -> graphic (chr k) = false).
  { intros k H K. unfold graphic. rewrite code_chr by exact H. rewrite andb_false_iff, N.leb_gt, N.ltb_ge. lia. }
  intros W U. unfold white in W. destruct U as [n Hn|n Hn|n Hn Hs|n Hn]; cbn [bytes].
  - split; [exists (chr n), ""|exists "", (chr n)]; (split; [reflexivity|apply G; lia]).
  - split; [exists (chr (192 + n / 64)), (bytes [128 + n mod 64])%N|exists (bytes [192 + n / 64])%N, (chr (128 + n mod 64))]; (split; [reflexivity|]).
    + assert (n / 64 < 32)%N by (apply N.div_lt_upper_bound; lia). apply G; lia.
    + pose proof (N.mod_lt n 64 ltac:(lia)). apply G; lia.
  - split; [exists (chr (224 + n / 4096)), (bytes [128 + n / 64 mod 64; 128 + n mod 64])%N|exists (bytes [224 + n / 4096; 128 + n / 64 mod 64])%N, (chr (128 + n mod 64))]; (split; [reflexivity|]).
    + assert (n / 4096 < 16)%N by (apply N.div_lt_upper_bound; lia). apply G; lia.
    + pose proof (N.mod_lt n 64 ltac:(lia)). apply G; lia.
  - lia.
Qed.
Lemma graphic_end s r c : str_forall graphic s = true -> s = r +++ str1 c -> graphic c = true.
Proof. intros H ->. rewrite str_forall_app in H. apply andb_true_iff in H as [_ H]. cbn in H. rewrite andb_true_r in H. exact H. Qed.
Lemma trim_whites l s r : whites l -> whites r -> str_forall graphic s = true -> trim (l +++ s +++ r) = s.
Proof.
  intros L R G. unfold trim. symmetry. apply cut_off_unique. exists l, r. split; [reflexivity|]. split; [exact L|]. split; [exact R|]. split.
  - intros n u t W U ->. destruct (white_ends n u W U) as [(c & u' & -> & K) _]. cbn [String.append str_forall] in G. rewrite K in G. discriminate G.
  - intros n u t W U ->. destruct (white_ends n u W U) as [_ (u' & c & -> & K)].
    rewrite (graphic_end _ (t +++ u') c G) in K by (symmetry; apply sapp_assoc). discriminate K.
Qed.
Lemma trim_split s : exists l r, s = l +++ trim s +++ r /\ whites l /\ whites r.
Proof. destruct (trim_cut s) as (x & y & E & X & Y & _). exists x, y. auto. Qed.

(** ** Whole texts *)

Theorem xml_float_spec s x : xml_float s = Some x <-> double_text s x.
Proof.
  unfold xml_float. cbv zeta. split.
  - destruct (String.eqb_spec s "") as [->|NE]; [intros H; assert (x = FFin false 0 (-1074)) as -> by congruence; exact dt_empty|]. intros H.
    assert (HE : ext_float (trim s) = Some x).
    { destruct (parse_float (trim s)) as [y|] eqn:E; [|exact H]. assert (y = x) as -> by congruence. exact (parse_ext _ _ E). }
    destruct (trim_split s) as (l & r & E & L & R). rewrite E. apply ext_float_spec in HE. destruct HE as [[HE ->]|[(sg & u & HS & EU & HE)|(u & y & EU & HE & ->)]].
    + apply dt_nan; assumption.
    + rewrite EU, sapp_assoc. apply dt_plus; assumption.
    + rewrite EU. change (("-" +++ u) +++ r) with ("-" +++ u +++ r). apply dt_minus; assumption.
  - intros H.
    assert (G : forall l t r y, whites l -> whites r -> str_forall graphic t = true -> t <> "" -> ext_float t = Some y ->
      (if String.eqb (l +++ t +++ r) "" then Some (FFin false 0 (-1074))
       else match parse_float (trim (l +++ t +++ r)) with Some z => Some z | None => ext_float (trim (l +++ t +++ r)) end) = Some y).
    { intros l t r y L R GT NT E. assert (String.eqb (l +++ t +++ r) "" = false) as ->.
      { destruct l; [|reflexivity]. destruct t; [destruct (NT eq_refl)|reflexivity]. }
      rewrite trim_whites by assumption. destruct (parse_float t) as [z|] eqn:EP; [|exact E]. apply parse_ext in EP. congruence. }
    destruct H as [|l u r L R H|l sg u r y L R HS H|l u r y L R H].
    + reflexivity.
    + apply G; [exact L|exact R|revert H; apply any_case_graphic; reflexivity|intros ->; exact H|]. apply ext_float_spec. left. auto.
    + assert (l +++ sg +++ u +++ r = l +++ (sg +++ u) +++ r) as -> by (rewrite !sapp_assoc; reflexivity).
      pose proof (unsigned_graphic _ _ H) as GU. destruct (unsigned_plain _ _ H) as [NU _].
      apply G; [exact L|exact R| | |apply ext_float_spec; right; left; eauto].
      * rewrite str_forall_app, GU, andb_true_r. destruct HS as [<-|[<-|[]]]; reflexivity.
      * destruct HS as [<-|[<-|[]]]; [exact NU|intros K; discriminate K].
    + change ("-" +++ u +++ r) with (("-" +++ u) +++ r). pose proof (unsigned_graphic _ _ H) as GU.
      apply G; [exact L|exact R|cbn [String.append str_forall]; rewrite GU; reflexivity|intros K; discriminate K|apply ext_float_spec; right; right; eauto].
Qed.

Theorem double_text_certain s x y : double_text s x -> double_text s y -> x = y.
Proof. intros A B. apply xml_float_spec in A, B. congruence. Qed.
