(** The texts of floating point numbers: what they denote, how they look. *)
From Coq Require Import Arith ZifyBool ZifyNat ZifyN QArith Qabs Qpower Qfield Lqa.
From Verif Require Import GoBase Json JsonText Float64 Float64Proofs SpecJson JsonGrammar SpecNumber FloatNear NearProofs NumberProofs.
Open Scope string_scope.
Open Scope list_scope.
Local Open Scope Z_scope.

(** ** Decimals *)

Lemma decimal_shift D k c : 0 <= c -> (decimal (D * 10 ^ c) k == decimal D (k + c))%Q.
Proof.
  intros H. unfold decimal. change 10%Q with (inject_Z 10). rewrite inject_Z_mult, <- qpow_nat, qpow_plus by lia. ring.
Qed.
Lemma decimal_le D D' k : D <= D' -> (decimal D k <= decimal D' k)%Q.
Proof.
  intros H. unfold decimal. change 10%Q with (inject_Z 10). apply Qmult_le_compat_r; [rewrite <- Zle_Qle; exact H|].
  apply Qlt_le_weak, qpow_pos. lia.
Qed.
Lemma decimal_lt D D' k : D < D' -> (decimal D k < decimal D' k)%Q.
Proof.
  intros H. unfold decimal. change 10%Q with (inject_Z 10). apply Qmult_lt_compat_r; [apply qpow_pos; lia|rewrite <- Zlt_Qlt; exact H].
Qed.
Lemma decimal_le_inv D D' k : (decimal D k <= decimal D' k)%Q -> D <= D'.
Proof. intros H. destruct (Z_le_gt_dec D D') as [|G]; [assumption|exfalso]. apply (Qlt_not_le _ _ (decimal_lt D' D k ltac:(lia))). exact H. Qed.
Lemma decimal_eq_inv D D' k : (decimal D k == decimal D' k)%Q -> D = D'.
Proof. intros H. apply Z.le_antisymm; apply (decimal_le_inv _ _ k); rewrite H; apply Qle_refl. Qed.

(** ** Dropping zeros *)

Lemma strip0_val f : forall D j D' j', 0 < D -> strip0 f D j = (D', j') ->
  0 < D' /\ j <= j' /\ D = D' * 10 ^ (j' - j) /\ (D < 10 ^ Z.of_nat f -> D' mod 10 <> 0).
Proof.
  induction f as [|f IH]; intros D j D' j' HD; cbn [strip0].
  - intros H. injection H as <- <-. replace (j - j) with 0 by lia. change (10 ^ 0) with 1. change (10 ^ Z.of_nat 0) with 1. repeat split; lia.
  - destruct (D =? 0) eqn:E0; [lia|]. cbn [orb]. destruct (D mod 10 =? 0) eqn:E1; cbn [negb].
    + intros H. assert (0 < D / 10) as HD' by lia. apply IH in H as (A & B & C & F); [|exact HD'].
      split; [exact A|]. split; [lia|]. split.
      * replace (j' - j) with (1 + (j' - (j + 1))) by lia. rewrite Z.pow_add_r by lia. change (10 ^ 1) with 10. nia.
      * intros HB. apply F. rewrite Nat2Z.inj_succ, Z.pow_succ_r in HB by lia. lia.
    + intros H. injection H as <- <-. replace (j - j) with 0 by lia. change (10 ^ 0) with 1. repeat split; lia.
Qed.

(** ** Pieces of strings *)

Lemma sub_all s : substring 0 (String.length s) s = s.
Proof. induction s as [|c s IH]; cbn; [reflexivity|now rewrite IH]. Qed.
Lemma sub_split n : forall s, (n <= String.length s)%nat -> substring 0 n s +++ substring n (String.length s - n) s = s.
Proof.
  induction n as [|n IH]; intros s H.
  - rewrite Nat.sub_0_r. destruct s as [|c s]; [reflexivity|]. exact (sub_all (String c s)).
  - destruct s as [|c s]; [cbn in H; lia|]. cbn [String.length] in *. cbn [substring String.append]. f_equal.
    replace (S (String.length s) - S n)%nat with (String.length s - n)%nat by lia. apply IH. lia.
Qed.
Lemma sub_length n : forall s, (n <= String.length s)%nat -> String.length (substring 0 n s) = n.
Proof. induction n as [|n IH]; intros s H; destruct s as [|c s]; cbn in *; try lia. rewrite IH; lia. Qed.
Lemma str_forall_sub p n : forall s, str_forall p s = true -> (n <= String.length s)%nat ->
  str_forall p (substring 0 n s) = true /\ str_forall p (substring n (String.length s - n) s) = true.
Proof.
  intros s H L. rewrite <- (sub_split n s L) in H. rewrite str_forall_app in H. apply andb_true_iff in H. exact H.
Qed.
Lemma zeros_digits k : str_forall is_digit (zeros k) = true.
Proof. induction k as [|k IH]; [reflexivity|exact IH]. Qed.
Lemma zeros_length k : String.length (zeros k) = k.
Proof. induction k as [|k IH]; cbn; [reflexivity|now rewrite IH]. Qed.

(** ** What the renderings denote *)

Lemma dec_int_part n : 0 <= n -> int_part (dec n).
Proof.
  intros H. destruct (Z.eq_dec n 0) as [->|N]; [now left|]. destruct (dec_head n ltac:(lia)) as (c & r & E & Hc & H0).
  right. exists c, r. pose proof (dec_digits n H) as D. rewrite E in D. cbn in D. apply andb_true_iff in D as [_ D].
  rewrite digit_is. split; [exact E|]. split; [exact Hc|]. split; [|apply digits_is; exact D].
  intros ->. discriminate H0.
Qed.
Lemma int_part_prefix i r : int_part (i +++ r) -> i <> "" -> (r = "" \/ i +++ r <> "0") -> int_part i.
Proof.
  intros [H|(c & d & E & Hc & Hz & Hd)] N K.
  - destruct i as [|c i]; [congruence|]. destruct K as [->|K]; [rewrite sapp_nil_r in H; left; exact H|congruence].
  - destruct i as [|c' i]; [congruence|]. cbn in E. injection E as -> <-. right. exists c, i. repeat split; try assumption.
    unfold digits in *. rewrite str_forall_app in Hd. apply andb_true_iff in Hd. apply Hd.
Qed.
Lemma some_digits_is d : d <> "" -> str_forall is_digit d = true -> some_digits d.
Proof. intros H K. split; [exact H|]. apply digits_is. exact K. Qed.

Lemma dec_length_pos n : 0 <= n -> (1 <= String.length (dec n))%nat.
Proof. intros H. pose proof (dec_ne n H). destruct (dec n); [congruence|cbn; lia]. Qed.

(** The last digit is the number modulo ten. *)
Lemma dec_last n : 0 <= n -> exists r, dec n = r +++ str1 (Float64.digit (n mod 10)).
Proof.
  intros H. rewrite dec_unfold by exact H. destruct (n <? 10) eqn:E.
  - exists "". rewrite Z.mod_small by lia. reflexivity.
  - exists (dec (n / 10)). reflexivity.
Qed.
Lemma trailing_app_one s c : c <> "0"%char -> trailing (s +++ str1 c) = s +++ str1 c.
Proof.
  intros H. induction s as [|a s IH]; cbn [String.append str1 trailing].
  - destruct (Ascii.eqb_spec c "0"); [congruence|reflexivity].
  - rewrite IH. destruct s; reflexivity.
Qed.
Lemma digit_not0 d : 0 <= d < 10 -> d <> 0 -> Float64.digit d <> "0"%char.
Proof.
  intros H N E. apply (f_equal dval) in E. rewrite dval_digit in E by exact H. change (dval "0") with 0 in E. lia.
Qed.
Lemma trailing_dec n : 0 < n -> n mod 10 <> 0 -> trailing (dec n) = dec n.
Proof.
  intros H N. destruct (dec_last n ltac:(lia)) as [r ->]. apply trailing_app_one, digit_not0; [|exact N]. apply Z.mod_pos_bound. lia.
Qed.
(** A suffix of a text without zeros at its end has none. *)
Lemma trailing_suffix a b : trailing (a +++ b) = a +++ b -> trailing b = b.
Proof.
  revert b. induction a as [|c a IH]; intros b H; [exact H|]. cbn [String.append trailing] in H.
  destruct (trailing (a +++ b)) as [|x t] eqn:E.
  - destruct (Ascii.eqb c "0"); [discriminate H|]. injection H as H. symmetry in H.
    destruct a; cbn in H; [|discriminate H]. subst b. reflexivity.
  - injection H as H. apply IH. congruence.
Qed.

Definition plain_form (s : string) : Prop :=
  exists i f fd, s = i +++ f /\ int_part i /\ fraction f fd /\ trailing fd = fd.
Definition exp_form (s : string) (x : string) : Prop :=
  exists d f fd, s = d +++ f +++ x /\ String.length d = 1%nat /\ d <> "0" /\ int_part d /\ fraction f fd /\ trailing fd = fd.

Lemma render_f_ok D j : 0 < D -> 
  (exists D' k, denotes (render_f D j) false D' k /\ (decimal D' k == decimal D j)%Q) /\ (D mod 10 <> 0 -> plain_form (render_f D j)).
Proof.
  intros HD. pose proof (dec_length_pos D ltac:(lia)) as L1. pose proof (dec_digits D ltac:(lia)) as Dd.
  pose proof (dec_int_part D ltac:(lia)) as Di. unfold render_f. set (ds := dec D) in *.
  set (len := Z.of_nat (String.length ds)) in *.
  destruct (len + j <=? 0) eqn:E1.
  - apply Z.leb_le in E1. assert (some_digits (zeros (Z.to_nat (- (len + j))) +++ ds)) as SD.
    { apply some_digits_is; [|rewrite str_forall_app, zeros_digits; exact Dd].
      intros K. apply (f_equal String.length) in K. rewrite sapp_length in K. change (String.length "") with 0%nat in K. lia. }
    split.
    + exists D, j. split; [|reflexivity]. exists "0", ("." +++ zeros (Z.to_nat (- (len + j))) +++ ds), (zeros (Z.to_nat (- (len + j))) +++ ds), "", 0.
      split; [cbn [String.append]; rewrite sapp_nil_r; reflexivity|]. split; [now left|]. split; [constructor; exact SD|]. split; [constructor|].
      rewrite !digits_val_app, zeros_val. change (digits_val 0 "0") with 0. rewrite Z.mul_0_l. unfold ds at 1. rewrite dec_val by lia.
      split; [reflexivity|]. rewrite sapp_length, zeros_length. lia.
    + intros HM. exists "0", ("." +++ zeros (Z.to_nat (- (len + j))) +++ ds), (zeros (Z.to_nat (- (len + j))) +++ ds).
      split; [reflexivity|]. split; [now left|]. split; [constructor; exact SD|].
      unfold ds. destruct (dec_last D ltac:(lia)) as [r Er]. rewrite Er, <- sapp_assoc. apply trailing_app_one, digit_not0; [|exact HM]. apply Z.mod_pos_bound. lia.
  - apply Z.leb_gt in E1. destruct (len + j <? len) eqn:E2.
    + apply Z.ltb_lt in E2. set (n := Z.to_nat (len + j)). assert (n < String.length ds)%nat as Hn by lia. assert (1 <= n)%nat as Hn1 by lia.
      replace (Z.to_nat (len - (len + j))) with (String.length ds - n)%nat by lia.
      set (i := substring 0 n ds). set (fd := substring n (String.length ds - n) ds).
      assert (i +++ fd = ds) as EI by (apply sub_split; lia).
      assert (String.length i = n) as LI by (apply sub_length; lia).
      assert (String.length fd = (String.length ds - n)%nat) as LF.
      { apply (f_equal String.length) in EI. rewrite sapp_length in EI. lia. }
      assert (int_part i) as Hi.
      { apply (int_part_prefix i fd); [rewrite EI; exact Di|intros K; rewrite K in LI; discriminate LI || (change (String.length "") with 0%nat in LI; lia)|].
        right. rewrite EI. intros K. apply (f_equal String.length) in K. change (String.length "0") with 1%nat in K. lia. }
      assert (some_digits fd) as SD.
      { apply some_digits_is; [intros K; rewrite K in LF; change (String.length "") with 0%nat in LF; lia|]. apply (str_forall_sub is_digit n ds Dd). lia. }
      split.
      * exists D, j. split; [|reflexivity]. exists i, ("." +++ fd), fd, "", 0.
        split; [rewrite sapp_nil_r; reflexivity|]. split; [exact Hi|]. split; [constructor; exact SD|]. split; [constructor|].
        rewrite EI. unfold ds. rewrite dec_val by lia. split; [reflexivity|]. lia.
      * intros HM. exists i, ("." +++ fd), fd. split; [reflexivity|]. split; [exact Hi|]. split; [constructor; exact SD|].
        apply (trailing_suffix i). rewrite EI. apply trailing_dec; assumption.
    + apply Z.ltb_ge in E2. unfold ds. rewrite dec_zeros by lia. rewrite Z2Nat.id by lia.
      assert (0 < 10 ^ j) by (apply Z.pow_pos_nonneg; lia).
      split.
      * exists (D * 10 ^ j), 0. split; [|rewrite decimal_shift by lia; reflexivity].
        exists (dec (D * 10 ^ j)), "", "", "", 0. split; [rewrite sapp_nil_r; reflexivity|]. split; [apply dec_int_part; nia|].
        split; [constructor|]. split; [constructor|]. rewrite sapp_nil_r, dec_val by nia. split; reflexivity.
      * intros _. exists (dec (D * 10 ^ j)), "", "". rewrite sapp_nil_r. split; [reflexivity|]. split; [apply dec_int_part; nia|]. split; [constructor|reflexivity].
Qed.

(** Exponent form, for any exponent text. *)
Lemma mant_ok D : 0 < D -> let ds := dec D in
  exists d f fd, (if Z.of_nat (String.length ds) =? 1 then ds else substring 0 1 ds +++ "." +++ substring 1 (String.length ds - 1) ds) = d +++ f /\
    String.length d = 1%nat /\ d <> "0" /\ int_part d /\ fraction f fd /\ digits_val 0 (d +++ fd) = D /\
    Z.of_nat (String.length fd) = Z.of_nat (String.length ds) - 1 /\ (D mod 10 <> 0 -> trailing fd = fd).
Proof.
  intros HD. cbv zeta. pose proof (dec_length_pos D ltac:(lia)) as L1. pose proof (dec_digits D ltac:(lia)) as Dd.
  pose proof (dec_int_part D ltac:(lia)) as Di. pose proof (dec_val D ltac:(lia)) as Dv. destruct (dec_head D HD) as (c0 & r0 & E0 & _ & N0).
  pose proof (trailing_dec D HD) as DT. set (ds := dec D) in *.
  destruct (Z.of_nat (String.length ds) =? 1) eqn:E.
  - exists ds, "", "". rewrite sapp_nil_r. split; [reflexivity|]. split; [lia|]. split; [intros K; rewrite K in E0; injection E0 as <- _; discriminate N0|].
    split; [exact Di|]. split; [constructor|]. split; [exact Dv|]. split; [change (String.length "") with 0%nat; lia|reflexivity].
  - set (i := substring 0 1 ds). set (fd := substring 1 (String.length ds - 1) ds).
    assert (i +++ fd = ds) as EI by (apply sub_split; lia).
    assert (String.length i = 1%nat) as LI by (apply sub_length; lia).
    assert (String.length fd = (String.length ds - 1)%nat) as LF.
    { apply (f_equal String.length) in EI. rewrite sapp_length in EI. lia. }
    exists i, ("." +++ fd), fd. split; [reflexivity|]. split; [exact LI|]. split.
    { intros K. rewrite K in EI. rewrite <- EI in E0. cbn in E0. injection E0 as <- _. discriminate N0. }
    split.
    { apply (int_part_prefix i fd); [rewrite EI; exact Di|intros K; rewrite K in LI; discriminate LI || (change (String.length "") with 0%nat in LI; lia)|].
      right. rewrite EI. intros K. apply (f_equal String.length) in K. change (String.length "0") with 1%nat in K. lia. }
    split.
    { constructor. apply some_digits_is; [intros K; rewrite K in LF; change (String.length "") with 0%nat in LF; lia|]. apply (str_forall_sub is_digit 1 ds Dd). lia. }
    split; [rewrite EI; exact Dv|]. split; [lia|]. intros HM. apply (trailing_suffix i). rewrite EI. exact (DT HM).
Qed.

Lemma exp_ok D j x ev : 0 < D -> let ds := dec D in let ex := Z.of_nat (String.length ds) + j - 1 in
  exponent x ev -> ev = ex ->
  let s := (if Z.of_nat (String.length ds) =? 1 then ds else substring 0 1 ds +++ "." +++ substring 1 (String.length ds - 1) ds) +++ x in
  denotes s false D j /\ (D mod 10 <> 0 -> exp_form s x).
Proof.
  intros HD ds ex Hx Hev s. subst s. destruct (mant_ok D HD) as (d & f & fd & E & L & N & I & F & V & LF & T). fold ds in E, LF. rewrite E. split.
  - exists d, f, fd, x, ev. split; [cbn [String.append]; rewrite sapp_assoc; reflexivity|]. repeat split; try assumption; [symmetry; exact V|]. unfold ex in Hev. lia.
  - intros HM. exists d, f, fd. rewrite sapp_assoc. repeat split; auto.
Qed.

Lemma exp_text ex : exponent (if ex <? 0 then "e-" +++ dec (- ex) else "e+" +++ (if ex <? 10 then "0" +++ dec ex else dec ex)) ex.
Proof.
  destruct (ex <? 0) eqn:E.
  - replace ex with (- digits_val 0 (dec (- ex))) at 2 by (rewrite dec_val by lia; lia). apply (ex_minus "e" (dec (- ex))); [now left|].
    apply some_digits_is; [apply dec_ne|apply dec_digits]; lia.
  - destruct (ex <? 10) eqn:E1.
    + replace ex with (digits_val 0 ("0" +++ dec ex)) at 2 by (rewrite digits_val_app; change (digits_val 0 "0") with 0; apply dec_val; lia).
      apply (ex_plus "e" "+" ("0" +++ dec ex)); [now left|right; now left|]. apply some_digits_is; [discriminate|].
      cbn [str_forall String.append]. apply dec_digits. lia.
    + replace ex with (digits_val 0 (dec ex)) at 2 by (apply dec_val; lia).
      apply (ex_plus "e" "+" (dec ex)); [now left|right; now left|]. apply some_digits_is; [apply dec_ne|apply dec_digits]; lia.
Qed.
Lemma exp2_text ex : exponent ((if ex <? 0 then "e-" else "e+") +++ (if Z.abs ex <? 10 then "0" +++ dec (Z.abs ex) else dec (Z.abs ex))) ex.
Proof.
  assert (exists d, (if Z.abs ex <? 10 then "0" +++ dec (Z.abs ex) else dec (Z.abs ex)) = d /\ some_digits d /\ digits_val 0 d = Z.abs ex) as (d & -> & Hd & Hv).
  { destruct (Z.abs ex <? 10).
    - eexists. split; [reflexivity|]. split; [|rewrite digits_val_app; change (digits_val 0 "0") with 0; apply dec_val; lia].
      apply some_digits_is; [discriminate|]. cbn [str_forall String.append]. apply dec_digits. lia.
    - eexists. split; [reflexivity|]. split; [|apply dec_val; lia]. apply some_digits_is; [apply dec_ne|apply dec_digits]; lia. }
  destruct (ex <? 0) eqn:E.
  - replace ex with (- digits_val 0 d) by lia. apply (ex_minus "e" d); [now left|exact Hd].
  - replace ex with (digits_val 0 d) by lia. apply (ex_plus "e" "+" d); [now left|right; now left|exact Hd].
Qed.

(** ** Significant digits *)

Lemma mantissa_digits d r : digits d -> mantissa (d +++ r) = d +++ mantissa r.
Proof.
  induction d as [|c d IH]; [reflexivity|]. intros H. unfold digits in H. cbn [str_forall] in H. apply andb_true_iff in H as [H1 H2].
  cbn [String.append mantissa]. rewrite H1, IH by exact H2.
  assert (Ascii.eqb c "e" || Ascii.eqb c "E" = false) as ->; [|reflexivity].
  revert H1. clear. destruct c as [[] [] [] [] [] [] [] []]; intros K; try discriminate K; reflexivity.
Qed.
Lemma int_part_digits i : int_part i -> digits i.
Proof. intros [->|(c & d & -> & H1 & _ & H2)]; [reflexivity|]. unfold digits. cbn [str_forall]. rewrite H1. exact H2. Qed.
Lemma mantissa_denotes i f fd e ev (neg : bool) : int_part i -> fraction f fd -> exponent e ev ->
  mantissa ((if neg then "-" else "") +++ i +++ f +++ e) = i +++ fd /\ digits (i +++ fd).
Proof.
  intros Hi Hf He. assert (mantissa e = "") as Me.
  { destruct He as [|x sg d [<-|[<-|[]]] _ _|x d [<-|[<-|[]]] _]; reflexivity. }
  assert (mantissa (f +++ e) = fd /\ digits fd) as [Mf Df].
  { destruct Hf as [|d [_ Hd]]; [split; [exact Me|reflexivity]|]. split; [|exact Hd]. cbn [String.append mantissa].
    change (Ascii.eqb "." "e" || Ascii.eqb "." "E") with false. change (digit "."%char) with false. cbv iota. rewrite mantissa_digits, Me by exact Hd. apply sapp_nil_r. }
  apply int_part_digits in Hi. split.
  - destruct neg; cbn [String.append mantissa]; [change (Ascii.eqb "-" "e" || Ascii.eqb "-" "E") with false; change (digit "-"%char) with false; cbv iota|];
      rewrite mantissa_digits, Mf by exact Hi; reflexivity.
  - unfold digits in *. rewrite str_forall_app, Hi, Df. reflexivity.
Qed.

Lemma leading_val s : digits s -> digits_val 0 (leading s) = digits_val 0 s /\ digits (leading s) /\
  (leading s = "" \/ exists c r, leading s = String c r /\ c <> "0"%char).
Proof.
  induction s as [|c s IH]; intros H; [repeat split; now left|]. unfold digits in *. cbn [str_forall] in H. apply andb_true_iff in H as [H1 H2].
  cbn [leading]. destruct (Ascii.eqb_spec c "0") as [->|N].
  - destruct (IH H2) as (A & B & C). split; [rewrite A; reflexivity|]. split; assumption.
  - split; [reflexivity|]. split; [cbn [str_forall]; rewrite H1; exact H2|]. right. eauto.
Qed.
Lemma trailing_split s : (exists c, s = trailing s +++ zeros c) /\ (trailing s = "" \/ exists r a, trailing s = r +++ str1 a /\ a <> "0"%char).
Proof.
  induction s as [|a s [[c IH] IH2]]; [split; [exists O; reflexivity|now left]|]. cbn [trailing].
  destruct (trailing s) as [|b t] eqn:E.
  - cbn [String.append] in IH. destruct (Ascii.eqb_spec a "0") as [->|N].
    + split; [exists (S c); cbn [zeros String.append]; now rewrite IH|now left].
    + split; [exists c; cbn [String.append]; now rewrite IH|]. right. exists "", a. split; [reflexivity|exact N].
  - split; [exists c; cbn [String.append]; rewrite IH at 1; reflexivity|]. right. destruct IH2 as [K|(r & x & K & N)]; [discriminate K|].
    exists (String a r), x. split; [cbn [String.append]; now rewrite K|exact N].
Qed.
Lemma dval_digit_bound c : digit c = true -> 0 <= dval c < 10.
Proof. destruct c as [[] [] [] [] [] [] [] []]; intros K; try discriminate K; cbn; lia. Qed.
Lemma digits_bound s : forall acc, digits s -> 0 <= acc ->
  acc * 10 ^ Z.of_nat (String.length s) <= digits_val acc s < (acc + 1) * 10 ^ Z.of_nat (String.length s).
Proof.
  induction s as [|c s IH]; intros acc H Ha.
  - cbn [digits_val String.length]. change (10 ^ Z.of_nat 0) with 1. lia.
  - unfold digits in H. cbn [str_forall] in H. apply andb_true_iff in H as [H1 H2]. apply dval_digit_bound in H1.
    cbn [digits_val String.length]. rewrite Nat2Z.inj_succ, Z.pow_succ_r by lia. specialize (IH (10 * acc + dval c) H2 ltac:(lia)).
    assert (0 < 10 ^ Z.of_nat (String.length s)) by (apply Z.pow_pos_nonneg; lia). nia.
Qed.

Lemma significant_value l neg D k : denotes l neg D k -> 0 < D -> let n := Z.of_nat (significant l) in
  exists D0 c, 0 <= c /\ D = D0 * 10 ^ c /\ 10 ^ (n - 1) <= D0 < 10 ^ n /\ D0 mod 10 <> 0 /\ 1 <= n.
Proof.
  intros (i & f & fd & e & ev & -> & Hi & Hf & He & EV & _) HD. cbv zeta.
  destruct (mantissa_denotes i f fd e ev neg Hi Hf He) as [Mm Md]. unfold significant. rewrite Mm.
  destruct (leading_val _ Md) as (LV & LD & LH). set (w := leading (i +++ fd)) in *. rewrite <- LV in EV. clearbody w.
  destruct (trailing_split w) as ([c EC] & TE). set (t := trailing w) in *.
  assert (D = digits_val 0 t * 10 ^ Z.of_nat c) as ED by (rewrite EV, EC, digits_val_app; apply zeros_val).
  assert (digits t) as Dt.
  { rewrite EC in LD. unfold digits in *. rewrite str_forall_app in LD. apply andb_true_iff in LD. apply LD. }
  destruct TE as [TE|(r & a & TE & Na)].
  { exfalso. rewrite TE in ED. cbn in ED. lia. }
  exists (digits_val 0 t), (Z.of_nat c). split; [lia|]. split; [exact ED|].
  assert (exists b u, t = String b u /\ b <> "0"%char) as (b & u & Et & Nb).
  { destruct LH as [LH|(b & u & LH & Nb)]; [exfalso; rewrite LH in EV; cbn in EV; lia|].
    destruct t as [|b' u'] eqn:E; [destruct r; discriminate TE|]. exists b', u'. split; [reflexivity|]. rewrite EC in LH. cbn in LH. injection LH as -> _. exact Nb. }
  assert (forall x, digit x = true -> x <> "0"%char -> 1 <= dval x) as NZ.
  { clear. intros x. destruct x as [[] [] [] [] [] [] [] []]; intros K N; try discriminate K; try (cbn; lia). congruence. }
  split; [|split].
  - pose proof Dt as Dt'. rewrite Et in Dt'. unfold digits in Dt'. cbn [str_forall] in Dt'. apply andb_true_iff in Dt' as [B1 B2].
    pose proof (digits_bound u (dval b) B2 ltac:(pose proof (dval_digit_bound b B1); lia)) as BB. pose proof (dval_digit_bound b B1). specialize (NZ b B1 Nb).
    rewrite Et. cbn [digits_val String.length]. rewrite Nat2Z.inj_succ. replace (Z.succ (Z.of_nat (String.length u)) - 1) with (Z.of_nat (String.length u)) by lia.
    rewrite Z.pow_succ_r by lia. change (10 * 0 + dval b) with (dval b). assert (0 < 10 ^ Z.of_nat (String.length u)) by (apply Z.pow_pos_nonneg; lia). nia.
  - rewrite TE in Dt. unfold digits in Dt. rewrite str_forall_app in Dt. apply andb_true_iff in Dt as [_ Da]. cbn in Da. rewrite andb_true_r in Da.
    pose proof (dval_digit_bound a Da). specialize (NZ a Da Na).
    rewrite TE, digits_val_app. cbn [str1 digits_val]. set (x := digits_val 0 r). intros K. clear - K H NZ. lia.
  - rewrite Et. cbn [String.length]. lia.
Qed.

(** The significant digits are as few as the value allows. *)
Lemma significant_least l neg D k D1 j p : denotes l neg D k -> 0 < D -> (decimal D k == decimal D1 j)%Q -> 0 < D1 <= 10 ^ p -> 1 <= p ->
  Z.of_nat (significant l) <= p.
Proof.
  intros H HD EV HB Hp. destruct (significant_value l neg D k H HD) as (D0 & c & Hc & ED & B & M & Hn). cbv zeta in *. set (n := Z.of_nat (significant l)) in *.
  rewrite ED, decimal_shift in EV by exact Hc.
  assert (0 < D0) as P0 by (assert (0 < 10 ^ (n - 1)) by (apply Z.pow_pos_nonneg; lia); lia).
  assert (j <= k + c) as HJ.
  { destruct (Z_le_gt_dec j (k + c)) as [|G]; [assumption|exfalso].
    assert (D0 = D1 * 10 ^ (j - (k + c))) as E1.
    { apply (decimal_eq_inv _ _ (k + c)). rewrite EV, decimal_shift by lia. replace (k + c + (j - (k + c))) with j by lia. reflexivity. }
    apply M. rewrite E1. replace (j - (k + c)) with (j - (k + c) - 1 + 1) by lia. rewrite Z.pow_add_r by lia. change (10 ^ 1) with 10. rewrite Z.mul_assoc. apply Z.mod_mul. lia. }
  assert (D1 = D0 * 10 ^ (k + c - j)) as E1.
  { apply (decimal_eq_inv _ _ j). rewrite <- EV, decimal_shift by lia. replace (j + (k + c - j)) with (k + c) by lia. reflexivity. }
  destruct (Z_le_gt_dec n p) as [|G]; [assumption|exfalso].
  assert (0 < 10 ^ (k + c - j)) as P1 by (apply Z.pow_pos_nonneg; lia).
  assert (10 ^ p <= 10 ^ (n - 1)) as P2 by (apply Z.pow_le_mono_r; lia).
  assert (D0 = 10 ^ p) as E2 by nia. apply M. rewrite E2. replace p with (p - 1 + 1) by lia. rewrite Z.pow_add_r by lia. change (10 ^ 1) with 10. apply Z.mod_mul. lia.
Qed.
