(** The reader of JSON texts accepts exactly the grammar of [SpecJson]. *)
From Coq Require Import Arith ZifyBool ZifyNat ZifyN.
From Verif Require Import GoBase Utf8 Json JsonProofs JsonText SpecJson.
Open Scope string_scope.
Local Open Scope N_scope.

(** ** UTF-8 *)

Lemma of_encode n u : utf8_of n u -> u = utf8_encode n /\ n < 1114112 /\ is_surrogate n = false.
Proof.
  intros H. unfold utf8_encode, is_surrogate.
  destruct H as [n H|n H|n H K|n H]; (split; [|lia]);
    repeat (match goal with |- context [if ?b then _ else _] => destruct b eqn:?; try (exfalso; lia) end);
    reflexivity.
Qed.

Lemma encode_of n : n < 1114112 -> is_surrogate n = false -> utf8_of n (utf8_encode n).
Proof.
  unfold is_surrogate, utf8_encode. intros H S.
  destruct (n <? 128) eqn:E1; [apply of_1; lia|].
  destruct (n <? 2048) eqn:E2; [apply of_2; lia|].
  destruct (n <? 65536) eqn:E3; [apply of_3; lia|]. apply of_4; lia.
Qed.

Lemma of_size n u r : utf8_of n u -> utf8_size (u +++ r) = String.length u.
Proof.
  intros H. destruct H as [r0 H|r0 H|r0 H K|r0 H]; cbn [bytes String.append String.length]; unfold utf8_size, between; rewrite !code_chr by lia.
  - destruct (r0 <? 128) eqn:?; [reflexivity|lia].
  - destruct (192 + r0 / 64 <? 128)%N eqn:?; [lia|].
    destruct ((194 <=? 192 + r0 / 64) && (192 + r0 / 64 <=? 223))%N eqn:?; [|lia].
    destruct ((128 <=? 128 + r0 mod 64) && (128 + r0 mod 64 <=? 191))%N eqn:?; [|lia]. reflexivity.
  - destruct (224 + r0 / 4096 <? 128)%N eqn:?; [lia|].
    destruct ((194 <=? 224 + r0 / 4096) && (224 + r0 / 4096 <=? 223))%N eqn:?; [lia|].
    destruct ((224 <=? 224 + r0 / 4096) && (224 + r0 / 4096 <=? 239))%N eqn:?; [|lia].
    destruct (224 + r0 / 4096 =? 224)%N eqn:?; destruct (224 + r0 / 4096 =? 237)%N eqn:?; cbv iota;
    match goal with |- (if ?b then _ else _) = _ => destruct b eqn:?; [reflexivity|exfalso; lia] end.
  - destruct (240 + r0 / 262144 <? 128)%N eqn:?; [lia|].
    destruct ((194 <=? 240 + r0 / 262144) && (240 + r0 / 262144 <=? 223))%N eqn:?; [lia|].
    destruct ((224 <=? 240 + r0 / 262144) && (240 + r0 / 262144 <=? 239))%N eqn:?; [lia|].
    destruct ((240 <=? 240 + r0 / 262144) && (240 + r0 / 262144 <=? 244))%N eqn:?; [|lia].
    destruct (240 + r0 / 262144 =? 240)%N eqn:?; destruct (240 + r0 / 262144 =? 244)%N eqn:?; cbv iota;
    match goal with |- (if ?b then _ else _) = _ => destruct b eqn:?; [reflexivity|exfalso; lia] end.
Qed.

Lemma chr_eq a n : n = code a -> chr n = a.
Proof. intros ->. apply chr_code. Qed.

(** What the decoder takes for a character is the encoding of one. *)
Lemma size_1_of a : code a < 128 -> utf8_of (code a) (str1 a).
Proof. intros H. replace (str1 a) with (bytes [code a]); [now apply of_1|]. cbn. now rewrite chr_code. Qed.

Lemma size_2_of a b : utf8_size (String a (String b "")) = 2%nat ->
  utf8_of (64 * (code a - 192) + (code b - 128)) (String a (str1 b)).
Proof.
  unfold utf8_size, between. intros H.
  destruct (code a <? 128) eqn:E1; [discriminate|].
  destruct ((194 <=? code a) && (code a <=? 223)) eqn:E2.
  2:{ destruct ((224 <=? code a) && (code a <=? 239)); [discriminate|].
      destruct ((240 <=? code a) && (code a <=? 244)); discriminate. }
  destruct ((128 <=? code b) && (code b <=? 191)) eqn:E3; [|discriminate].
  replace (String a (str1 b)) with
    (bytes [192 + (64 * (code a - 192) + (code b - 128)) / 64; 128 + (64 * (code a - 192) + (code b - 128)) mod 64]);
    [apply of_2; lia|].
  cbn [bytes]. unfold str1. rewrite (chr_eq a), (chr_eq b) by lia. reflexivity.
Qed.

Lemma size_3_of a b c : utf8_size (String a (String b (String c ""))) = 3%nat ->
  utf8_of (4096 * (code a - 224) + 64 * (code b - 128) + (code c - 128)) (String a (String b (str1 c))).
Proof.
  unfold utf8_size, between. intros H.
  destruct (code a <? 128) eqn:E1; [discriminate|].
  destruct ((194 <=? code a) && (code a <=? 223)) eqn:E2.
  { destruct ((128 <=? code b) && (code b <=? 191)); discriminate. }
  destruct ((224 <=? code a) && (code a <=? 239)) eqn:E3.
  2:{ destruct ((240 <=? code a) && (code a <=? 244)); discriminate. }
  set (n := 4096 * (code a - 224) + 64 * (code b - 128) + (code c - 128)).
  assert (128 <= code b <= 191 /\ 128 <= code c <= 191 /\ 2048 <= n < 65536 /\ ~ 55296 <= n < 57344) as (Hb & Hc & Hn & Hs).
  { unfold n. destruct (code a =? 224) eqn:E4; destruct (code a =? 237) eqn:E5; cbv iota in H;
      match type of H with (if ?b then _ else _) = _ => destruct b eqn:E6; [|discriminate] end; lia. }
  replace (String a (String b (str1 c))) with (bytes [224 + n / 4096; 128 + n / 64 mod 64; 128 + n mod 64]);
    [now apply of_3|].
  cbn [bytes]. unfold str1. rewrite (chr_eq a), (chr_eq b), (chr_eq c) by (unfold n; lia). reflexivity.
Qed.

Lemma size_4_of a b c d : utf8_size (String a (String b (String c (String d "")))) = 4%nat ->
  utf8_of (262144 * (code a - 240) + 4096 * (code b - 128) + 64 * (code c - 128) + (code d - 128))
    (String a (String b (String c (str1 d)))).
Proof.
  unfold utf8_size, between. intros H.
  destruct (code a <? 128) eqn:E1; [discriminate|].
  destruct ((194 <=? code a) && (code a <=? 223)) eqn:E2.
  { destruct ((128 <=? code b) && (code b <=? 191)); discriminate. }
  destruct ((224 <=? code a) && (code a <=? 239)) eqn:E3.
  { repeat match type of H with (if ?b then _ else _) = _ => destruct b eqn:?; try discriminate H end. }
  destruct ((240 <=? code a) && (code a <=? 244)) eqn:E4; [|discriminate].
  set (n := 262144 * (code a - 240) + 4096 * (code b - 128) + 64 * (code c - 128) + (code d - 128)).
  assert (128 <= code b <= 191 /\ 128 <= code c <= 191 /\ 128 <= code d <= 191 /\ 65536 <= n < 1114112)
    as (Hb & Hc & Hd & Hn).
  { unfold n. destruct (code a =? 240) eqn:E5; destruct (code a =? 244) eqn:E6; cbv iota in H;
      match type of H with (if ?b then _ else _) = _ => destruct b eqn:E7; [|discriminate] end; lia. }
  replace (String a (String b (String c (str1 d))))
    with (bytes [240 + n / 262144; 128 + n / 4096 mod 64; 128 + n / 64 mod 64; 128 + n mod 64]);
    [now apply of_4|].
  cbn [bytes]. unfold str1. rewrite (chr_eq a), (chr_eq b), (chr_eq c), (chr_eq d) by (unfold n; lia). reflexivity.
Qed.

Lemma of_nonempty n u : utf8_of n u -> u <> "".
Proof. intros [ | | | ]; discriminate. Qed.

Lemma of_range n u : utf8_of n u -> match String.length u with 1%nat => True | 2%nat => 128 <= n | _ => 2048 <= n end.
Proof. intros [m H|m H|m H K|m H]; cbn; try lia; exact I. Qed.

Lemma garbled_size a r : garbled (String a r) <-> utf8_size (String a r) = 0%nat.
Proof.
  split.
  - generalize (String a r). clear a r. intros s G.
    destruct (uview_all s) as [|a r Ha H|a b r Ha Hb H|a b c r Ha Hb Hc H|a b c d r Ha Hb Hc Hd H|a r Ha H];
      [reflexivity| | | | |exact H]; exfalso.
    + apply (G _ (str1 a) r (size_1_of a ltac:(lia))). reflexivity.
    + apply (G _ _ r (size_2_of a b (H ""))). reflexivity.
    + apply (G _ _ r (size_3_of a b c (H ""))). reflexivity.
    + apply (G _ _ r (size_4_of a b c d (H ""))). reflexivity.
  - intros H n u s' Hu E. rewrite E, (of_size n u s' Hu) in H. destruct u; [|discriminate H].
    now apply of_nonempty in Hu.
Qed.

Lemma repl_fffd : replacement = fffd.
Proof. reflexivity. Qed.

(** ** Hexadecimal digits and escapes *)

Lemma hexval_digit a x : hexval a = Some x <-> hex_digit a x.
Proof.
  split.
  - unfold hexval.
    destruct ((48 <=? code a) && (code a <=? 57)) eqn:E1.
    { intros H. injection H as <-. replace a with (chr (48 + (code a - 48))) at 1 by (apply chr_eq; lia). apply hx_dec. lia. }
    destruct ((97 <=? code a) && (code a <=? 102)) eqn:E2.
    { intros H. injection H as <-. replace a with (chr (97 + (code a - 87 - 10))) at 1 by (apply chr_eq; lia). apply hx_low. lia. }
    destruct ((65 <=? code a) && (code a <=? 70)) eqn:E3; [|discriminate].
    intros H. injection H as <-. replace a with (chr (65 + (code a - 55 - 10))) at 1 by (apply chr_eq; lia). apply hx_upp. lia.
  - intros [n H|n H|n H]; unfold hexval; rewrite code_chr by lia;
    repeat match goal with |- context [if ?b then _ else _] => destruct b eqn:?; try (exfalso; lia) end; f_equal; lia.
Qed.

Lemma hex4_four a b c d x : hex4 a b c d = Some x <-> hex_four (String a (String b (String c (str1 d)))) x.
Proof.
  unfold hex4. split.
  - destruct (hexval a) as [w|] eqn:Ea; [|discriminate]. destruct (hexval b) as [p|] eqn:Eb; [|discriminate].
    destruct (hexval c) as [y|] eqn:Ec; [|discriminate]. destruct (hexval d) as [z|] eqn:Ed; [|discriminate].
    intros H. injection H as <-. constructor; now apply hexval_digit.
  - intros H. inversion H as [a' b' c' d' w p y z Ha Hb Hc Hd]; subst.
    apply hexval_digit in Ha, Hb, Hc, Hd. rewrite Ha, Hb, Hc, Hd. reflexivity.
Qed.

Lemma u_escape_inv s x : u_escape s x -> exists a b c d,
  s = String bsl (String "u" (String a (String b (String c (str1 d))))) /\ hex4 a b c d = Some x.
Proof.
  intros (h & -> & H). pose proof H as K. destruct H as [a b c d w p y z Ha Hb Hc Hd].
  exists a, b, c, d. split; [reflexivity|]. now apply hex4_four.
Qed.
Lemma u_escape_intro a b c d x : hex4 a b c d = Some x ->
  u_escape (String bsl (String "u" (String a (String b (String c (str1 d)))))) x.
Proof. intros H. exists (String a (String b (String c (str1 d)))). split; [reflexivity|]. now apply hex4_four. Qed.

Lemma simple_short e c : simple_escape e = Some c <-> In (code e, code c) short_escapes.
Proof.
  split.
  - destruct e as [[] [] [] [] [] [] [] []]; cbn; intros H; try discriminate H; injection H as <-; cbn; tauto.
  - intros H. assert (e = chr (code e) /\ c = chr (code c)) as [He Hc] by (now rewrite !chr_code).
    rewrite He, Hc. revert H. generalize (code e) (code c). intros m n. cbn.
    intros H. repeat (destruct H as [H|H]; [injection H as <- <-; reflexivity|]). exact (False_ind _ H).
Qed.
Lemma short_bounds m n : In (m, n) short_escapes -> m < 256 /\ n < 256.
Proof. cbn. intros H. repeat (destruct H as [H|H]; [injection H as <- <-; lia|]). exact (False_ind _ H). Qed.

(** The look-ahead for the second half of a surrogate pair. *)
Lemma look_some x t z r : look x t = Some (z, r) <->
  exists s2 lo, t = s2 +++ r /\ u_escape s2 lo /\ 55296 <= x < 56320 /\ 56320 <= lo < 57344 /\
    z = 65536 + 1024 * (x - 55296) + (lo - 56320).
Proof.
  split.
  - unfold look. destruct t as [|e1 [|e2 [|g1 [|g2 [|g3 [|g4 r3]]]]]]; try discriminate.
    destruct (Ascii.eqb e1 bsl && Ascii.eqb e2 "u"%char) eqn:E12; [|discriminate].
    destruct (hex4 g1 g2 g3 g4) as [y|] eqn:Eg; [|discriminate].
    destruct (surrogate_pair x y) as [z'|] eqn:Ez; [|discriminate]. intros H. injection H as -> ->.
    apply andb_true_iff in E12 as [Q1 Q2]. apply eqb_char in Q1, Q2. subst e1 e2.
    unfold surrogate_pair in Ez.
    match type of Ez with (if ?b then _ else _) = _ => destruct b eqn:Eb; [|discriminate] end.
    match type of Ez with Some ?e = _ => assert (z = e) by congruence end.
    exists (String bsl (String "u" (String g1 (String g2 (String g3 (str1 g4)))))), y.
    split; [reflexivity|]. split; [now apply u_escape_intro|]. lia.
  - intros (s2 & lo & -> & Hu & Hx & Hlo & ->). apply u_escape_inv in Hu as (a & b & c & d & -> & Hh).
    cbn [String.append str1 look]. change (Ascii.eqb bsl bsl && Ascii.eqb "u" "u") with true. cbv iota.
    rewrite Hh. unfold surrogate_pair.
    match goal with |- context [if ?b then _ else _] => destruct b eqn:?; [|exfalso; lia] end.
    f_equal. f_equal. lia.
Qed.

Lemma look_none x t : 55296 <= x < 57344 ->
  (look x t = None <-> (x < 56320 -> forall s2 lo t2, u_escape s2 lo -> 56320 <= lo < 57344 -> t <> s2 +++ t2)).
Proof.
  intros Hx. split.
  - intros H Hh s2 lo t2 Hu Hlo E.
    assert (look x t = Some (65536 + 1024 * (x - 55296) + (lo - 56320), t2)) as K.
    { apply look_some. exists s2, lo. split; [exact E|]. split; [exact Hu|]. lia. }
    rewrite H in K. discriminate K.
  - intros H. destruct (look x t) as [[z r]|] eqn:E; [|reflexivity]. exfalso.
    apply look_some in E as (s2 & lo & -> & Hu & Hx' & Hlo & _).
    apply (H ltac:(lia) s2 lo r Hu Hlo). reflexivity.
Qed.

(** ** String literals *)

Lemma pstr_char n u t : utf8_of n u -> 32 <= n -> n <> 34 -> n <> 92 ->
  pstr (u +++ t) = addl u (pstr t).
Proof.
  intros H H32 H34 H92. pose proof (of_size n u t H) as Hs.
  destruct H as [n H|n H|n H K|n H]; cbn [bytes String.append String.length] in *.
  - cbn [pstr].
    destruct (Ascii.eqb_spec (chr n) dq) as [E|_]; [apply (f_equal code) in E; rewrite code_chr in E by lia; cbn in E; lia|].
    destruct (Ascii.eqb_spec (chr n) bsl) as [E|_]; [apply (f_equal code) in E; rewrite code_chr in E by lia; cbn in E; lia|].
    destruct (code (chr n) <? 32) eqn:E; [rewrite code_chr in E by lia; lia|]. rewrite Hs. reflexivity.
  - apply pstr_2; [rewrite code_chr by lia; lia|exact Hs].
  - apply pstr_3; [rewrite code_chr by lia; lia|exact Hs].
  - apply pstr_4; [rewrite code_chr by lia; lia|exact Hs].
Qed.

Lemma pstr_bad b t : garbled (String b t) -> pstr (String b t) = addl fffd (pstr t).
Proof.
  intros G. apply garbled_size in G.
  assert (128 <= code b) as Hb.
  { unfold utf8_size in G. destruct (code b <? 128) eqn:E; [discriminate|lia]. }
  destruct (ge32_head b Hb) as (E1 & E2 & E3). cbn [pstr]. rewrite E1, E2, E3, G. reflexivity.
Qed.

Theorem in_quotes_read t v : in_quotes t v -> pstr t = Some (v, "").
Proof.
  intros H. induction H as [|n u t v Hu H32 H34 H92 _ IH|e c t v He _ IH|s n u t v Hs Hu _ IH
    |s1 s2 hi lo u t v Hs1 Hhi Hs2 Hlo Hu _ IH|s x t v Hs Hx Hno _ IH|b t v G _ IH].
  - reflexivity.
  - rewrite (pstr_char n u t) by assumption. rewrite IH. reflexivity.
  - pose proof (short_bounds e c He) as [B1 B2].
    assert (simple_escape (chr e) = Some (chr c)) as Es.
    { apply simple_short. now rewrite !code_chr by assumption. }
    cbn [pstr]. change (Ascii.eqb bsl dq) with false. change (Ascii.eqb bsl bsl) with true. cbv iota.
    rewrite Es, IH. reflexivity.
  - apply u_escape_inv in Hs as (h1 & h2 & h3 & h4 & -> & Hh). cbn [String.append str1].
    apply of_encode in Hu as (-> & Hn & Hsu). rewrite pstr_u, Hh, Hsu, IH. reflexivity.
  - apply u_escape_inv in Hs1 as (h1 & h2 & h3 & h4 & -> & Hh). cbn [String.append str1].
    apply of_encode in Hu as (-> & Hn & Hsu). rewrite pstr_u, Hh.
    destruct (is_surrogate hi) eqn:E; [|unfold is_surrogate in E; lia].
    rewrite (proj2 (look_some hi (s2 +++ t) _ t)) by (exists s2, lo; repeat split; try assumption; lia).
    rewrite IH. reflexivity.
  - apply u_escape_inv in Hs as (h1 & h2 & h3 & h4 & -> & Hh). cbn [String.append str1].
    rewrite pstr_u, Hh. destruct (is_surrogate x) eqn:E; [|unfold is_surrogate in E; lia].
    rewrite (proj2 (look_none x t Hx) Hno), IH. reflexivity.
  - rewrite pstr_bad by exact G. rewrite IH. reflexivity.
Qed.

Theorem read_in_quotes t v : pstr t = Some (v, "") -> in_quotes t v.
Proof.
  revert v. induction t as [s IH] using str_len_ind. intros v H.
  destruct (uview_all s) as [|a r Ha Hsz|a b r Ha Hb Hsz|a b c r Ha Hb Hc Hsz|a b c d r Ha Hb Hc Hd Hsz|a r Ha Hsz].
  - discriminate.
  - cbn [pstr] in H. destruct (Ascii.eqb a dq) eqn:E1.
    { apply Ascii.eqb_eq in E1. subst a. injection H as <- ->. apply q_end. }
    destruct (Ascii.eqb a bsl) eqn:E2.
    2:{ destruct (code a <? 32)%N eqn:E3; [discriminate|]. rewrite Hsz in H.
        apply addl_inv in H as (y & Hy & ->). apply IH in Hy; [|cbn; lia].
        apply (q_char (code a) (str1 a)); [apply size_1_of; lia|lia| | |exact Hy].
        - intros E. apply code_inj in E. subst a. discriminate E1.
        - intros E. apply code_inj in E. subst a. discriminate E2. }
    apply eqb_char in E2. subst a.
    destruct r as [|e r1]; [discriminate|].
    destruct (simple_escape e) as [c|] eqn:Ee.
    { apply addl_inv in H as (y & Hy & ->). apply IH in Hy; [|cbn; lia].
      rewrite <- (chr_code e), <- (chr_code c). cbn [String.append str1].
      apply q_short; [now apply simple_short|exact Hy]. }
    destruct (Ascii.eqb e "u"%char) eqn:Eu; [|discriminate]. apply eqb_char in Eu. subst e.
    destruct r1 as [|h1 [|h2 [|h3 [|h4 r2]]]]; try discriminate.
    destruct (hex4 h1 h2 h3 h4) as [n|] eqn:Eh; [|discriminate].
    pose proof (u_escape_intro _ _ _ _ _ Eh) as Ue.
    change (String bsl (String "u" (String h1 (String h2 (String h3 (String h4 r2))))))
      with (String bsl (String "u" (String h1 (String h2 (String h3 (str1 h4))))) +++ r2).
    destruct (is_surrogate n) eqn:En.
    2:{ apply addl_inv in H as (y & Hy & ->). apply IH in Hy; [|cbn; lia].
        apply (q_u _ n); [exact Ue| |exact Hy]. apply encode_of; [|exact En].
        apply hex4_bound in Eh. lia. }
    assert (55296 <= n < 57344) as Hn by (unfold is_surrogate in En; lia).
    rewrite look_eq in H.
    destruct (look n r2) as [[z r3]|] eqn:El.
    + apply addl_inv in H as (y & Hy & ->).
      apply look_some in El as (s2 & lo & -> & U2' & Hx & Hlo & ->).
      apply IH in Hy; [|cbn; rewrite sapp_length; lia].
      apply (q_pair _ s2 n lo); [exact Ue|lia|exact U2'|lia| |exact Hy].
      apply encode_of; [lia|]. unfold is_surrogate. lia.
    + apply addl_inv in H as (y & Hy & ->). apply IH in Hy; [|cbn; lia].
      rewrite <- repl_fffd. apply (q_lone _ n); [exact Ue|exact Hn| |exact Hy]. now apply look_none.
  - apply between_spec in Ha, Hb. rewrite pstr_2 in H by (auto; lia).
    apply addl_inv in H as (y & Hy & ->). apply IH in Hy; [|cbn; lia].
    apply (q_char _ (String a (str1 b)) r y (size_2_of a b (Hsz "")));
      [pose proof (size_2_of a b (Hsz "")) as K; lia|lia|lia|exact Hy].
  - apply between_spec in Ha, Hb, Hc. rewrite pstr_3 in H by (auto; lia).
    apply addl_inv in H as (y & Hy & ->). apply IH in Hy; [|cbn; lia].
    pose proof (size_3_of a b c (Hsz "")) as K.
    assert (2048 <= 4096 * (code a - 224) + 64 * (code b - 128) + (code c - 128)) as L
      by (apply of_range in K; exact K).
    apply (q_char _ (String a (String b (str1 c))) r y K); [lia|lia|lia|exact Hy].
  - apply between_spec in Ha, Hb, Hc, Hd. rewrite pstr_4 in H by (auto; lia).
    apply addl_inv in H as (y & Hy & ->). apply IH in Hy; [|cbn; lia].
    pose proof (size_4_of a b c d (Hsz "")) as K.
    assert (2048 <= 262144 * (code a - 240) + 4096 * (code b - 128) + 64 * (code c - 128) + (code d - 128)) as L
      by (apply of_range in K; exact K).
    apply (q_char _ (String a (String b (String c (str1 d)))) r y K); [lia|lia|lia|exact Hy].
  - assert (garbled (String a r)) as G by (now apply garbled_size).
    rewrite pstr_bad in H by exact G. apply addl_inv in H as (y & Hy & ->). apply IH in Hy; [|cbn; lia].
    rewrite <- repl_fffd. now apply q_garbled.
Qed.

(** ** Numbers *)

Lemma digit_is c : digit c = is_digit c.
Proof. destruct c as [[] [] [] [] [] [] [] []]; reflexivity. Qed.
Lemma digits_is d : digits d <-> str_forall is_digit d = true.
Proof.
  unfold digits. induction d as [|c d IH]; cbn [str_forall]; [split; reflexivity|]. rewrite digit_is, !andb_true_iff. tauto.
Qed.

Definition nodigit (s : string) : bool := match s with String c _ => negb (is_digit c) | _ => true end.

Lemma span_digits_take d r : digits d -> nodigit r = true -> span_digits (d +++ r) = (d, r).
Proof.
  rewrite digits_is. induction d as [|c d IH]; cbn [str_forall String.append].
  - intros _. destruct r as [|c r]; [reflexivity|]. cbn. destruct (is_digit c); [discriminate|reflexivity].
  - rewrite andb_true_iff. intros [H1 H2] Hr. cbn [span_digits]. rewrite H1, IH by assumption. reflexivity.
Qed.
Lemma span_digits_digits s d t : span_digits s = (d, t) -> digits d.
Proof. intros H. apply digits_is. eapply span_digits_chars, H. Qed.

Lemma exp_read e : exp_part e -> pexp e = Some (e, "") /\ nodigit e = true /\ match e with String "." _ => False | _ => True end.
Proof.
  intros [->|(x & sg & d & -> & He & Hg & Hd & Hdd)]; [repeat split|].
  assert (span_digits d = (d, "")) as Hs by (rewrite <- (sapp_nil_r d) at 1; now apply span_digits_take).
  assert (forall c d', d = String c d' -> (Ascii.eqb c "+" || Ascii.eqb c "-")%char = false) as Hh.
  { intros c d' ->. apply digits_is in Hdd. cbn in Hdd. apply andb_true_iff in Hdd as [K _]. revert K. clear.
    destruct c as [[] [] [] [] [] [] [] []]; intros K; try discriminate K; reflexivity. }
  destruct He as [<-|[<-|[]]]; destruct Hg as [<-|[<-|[<-|[]]]]; cbn [String.append]; (split; [|split; [reflexivity|exact I]]);
    cbn [pexp]; cbn [Ascii.eqb Bool.eqb orb]; 
    try (rewrite Hs; destruct d; [congruence|reflexivity]).
  - destruct d as [|c d']; [congruence|]. rewrite (Hh c d' eq_refl), Hs. reflexivity.
  - destruct d as [|c d']; [congruence|]. rewrite (Hh c d' eq_refl), Hs. reflexivity.
Qed.

Lemma frac_read f e : frac_part f -> exp_part e -> pfrac (f +++ e) = Some (f, e) /\ nodigit (f +++ e) = true.
Proof.
  intros Hf He. apply exp_read in He as (_ & Hn & Hdot). destruct Hf as [->|(d & -> & Hd & Hdd)].
  - cbn [String.append]. split; [|exact Hn]. destruct e as [|c e]; [reflexivity|]. cbn.
    destruct (Ascii.eqb_spec c ".") as [->|_]; [exact (False_ind _ Hdot)|reflexivity].
  - cbn [String.append]. split; [|reflexivity]. cbn [pfrac]. cbn [Ascii.eqb Bool.eqb].
    rewrite span_digits_take by assumption. destruct d; [congruence|reflexivity].
Qed.

Lemma int_read i r : int_part i -> nodigit r = true -> pint (i +++ r) = Some (i, r).
Proof.
  intros [->|(c & d & -> & Hc & Hz & Hd)] Hr; cbn [String.append].
  - reflexivity.
  - cbn. destruct (Ascii.eqb_spec c "0") as [->|_]; [congruence|]. rewrite <- digit_is, Hc.
    rewrite span_digits_take by assumption. reflexivity.
Qed.

Theorem number_read s : number s <-> pnum s = Some (s, "").
Proof.
  split.
  - intros (sg & i & f & e & -> & Hsg & Hi & Hf & He).
    pose proof (exp_read e He) as (E1 & E2 & _). pose proof (frac_read f e Hf He) as (F1 & F2).
    pose proof (int_read i (f +++ e) Hi F2) as I1.
    assert (forall c r, i +++ f +++ e = String c r -> Ascii.eqb c "-" = false) as Hm.
    { intros c r. destruct Hi as [->|(c' & d & -> & Hc & _)]; cbn [String.append].
      - intros H. injection H as <- _. reflexivity.
      - intros H. injection H as <- _. revert Hc. clear.
        destruct c' as [[] [] [] [] [] [] [] []]; intros K; try discriminate K; reflexivity. }
    unfold pnum. destruct Hsg as [<-|[<-|[]]]; cbn [String.append].
    + destruct (i +++ f +++ e) as [|c r].
      * discriminate I1.
      * rewrite (Hm c r eq_refl). rewrite I1, F1, E1. cbn [String.append]. now rewrite (pint_cat _ _ _ I1).
    + cbn [Ascii.eqb Bool.eqb]. rewrite I1, F1, E1. reflexivity.
  - intros H. unfold pnum in H.
    assert (exists sg s1, s = sg +++ s1 /\ In sg [""; "-"] /\
      match pint s1 with
      | None => None
      | Some (i, s2) =>
        match pfrac s2 with
        | None => None
        | Some (f, s3) => match pexp s3 with None => None | Some (e, s4) => Some (sg +++ i +++ f +++ e, s4) end
        end
      end = Some (s, "")) as (sg & s1 & Es & Hsg & H').
    { destruct s as [|c r]; [exists "", ""; repeat split; [now left|exact H]|].
      destruct (Ascii.eqb_spec c "-") as [->|_].
      - exists "-", r. repeat split; [right; now left|exact H].
      - exists "", (String c r). repeat split; [now left|exact H]. }
    clear H. destruct (pint s1) as [[i s2]|] eqn:Ei; [|discriminate].
    destruct (pfrac s2) as [[f s3]|] eqn:Ef; [|discriminate].
    destruct (pexp s3) as [[e s4]|] eqn:Ee; [|discriminate]. injection H' as Hs ->.
    exists sg, i, f, e. split; [now rewrite Hs|]. split; [exact Hsg|]. split; [|split].
    + destruct s1 as [|c r]; [discriminate|]. cbn in Ei.
      destruct (Ascii.eqb_spec c "0") as [->|Hc]; [injection Ei as <- _; now left|].
      destruct (is_digit c) eqn:Ed; [|discriminate]. destruct (span_digits r) as [d t] eqn:Er.
      injection Ei as <- _. right. exists c, d. rewrite digit_is. repeat split; [exact Ed|exact Hc|].
      eapply span_digits_digits, Er.
    + destruct s2 as [|c r]; cbn in Ef; [injection Ef as <- _; now left|].
      destruct (Ascii.eqb_spec c ".") as [->|_]; [|injection Ef as <- _; now left].
      destruct (span_digits r) as [d t] eqn:Er. destruct d as [|x d]; [discriminate|]. injection Ef as <- _.
      right. exists (String x d). split; [reflexivity|]. split; [discriminate|]. eapply span_digits_digits, Er.
    + destruct s3 as [|c r]; cbn [pexp] in Ee; [injection Ee as <-; now left|].
      destruct (Ascii.eqb c "e" || Ascii.eqb c "E")%char eqn:Ec; [|injection Ee as <-; now left].
      assert (In (str1 c) ["e"; "E"]) as Hc.
      { apply orb_true_iff in Ec as [Q|Q]; apply eqb_char in Q; subst c; cbn; tauto. }
      assert (exists g r1, In g [""; "+"; "-"] /\
        match span_digits r1 with ("", _) => None | (d, t) => Some (String c (g +++ d), t) end = Some (e, ""))
        as (g & r1 & Hg & K).
      { destruct r as [|d r']; [discriminate Ee|].
        destruct (Ascii.eqb d "+" || Ascii.eqb d "-")%char eqn:Eg.
        - exists (str1 d), r'. split; [|exact Ee].
          apply orb_true_iff in Eg as [Q|Q]; apply eqb_char in Q; subst d; cbn; tauto.
        - exists "", (String d r'). split; [now left|exact Ee]. }
      destruct (span_digits r1) as [d t] eqn:Er. destruct d as [|x d]; [discriminate|]. injection K as <- _.
      right. exists (str1 c), g, (String x d). split; [reflexivity|]. split; [exact Hc|]. split; [exact Hg|].
      split; [discriminate|]. eapply span_digits_digits, Er.
Qed.

(** ** White space *)

Lemma blank_ws w : blank w <-> str_forall is_ws w = true.
Proof.
  unfold blank. induction w as [|c w IH]; cbn [str_forall]; [reflexivity|]. rewrite !andb_true_iff, IH.
  replace (existsb (N.eqb (code c)) [32; 9; 10; 13]) with (is_ws c); [reflexivity|].
  unfold is_ws. cbn [existsb]. now rewrite orb_false_r, !orb_assoc.
Qed.

Lemma skip_blank w X : blank w -> skip_ws (w +++ X) = skip_ws X.
Proof.
  rewrite blank_ws. induction w as [|c w IH]; cbn [str_forall String.append]; [reflexivity|].
  rewrite andb_true_iff. intros [H1 H2]. cbn [skip_ws]. rewrite H1. auto.
Qed.

Lemma stop_blank w X : blank w -> stop X = true -> stop (w +++ X) = true.
Proof.
  intros Hw HX. apply blank_ws in Hw. destruct w as [|c w]; [exact HX|]. cbn in Hw.
  apply andb_true_iff in Hw as [Hc _]. cbn [String.append]. revert Hc. clear. unfold stop, is_ws.
  destruct c as [[] [] [] [] [] [] [] []]; intros H; try discriminate H; reflexivity.
Qed.

(** ** Strings inside a longer text *)

Lemma smap_id s : smap (fun c => c) s = s.
Proof. induction s as [|c s IH]; cbn; [reflexivity|now rewrite IH]. Qed.

Lemma quotes_then k key X : in_quotes k key -> pstr (k +++ X) = Some (key, X).
Proof.
  intros H. apply in_quotes_read, pstr_tail in H as (c & -> & Hf).
  specialize (Hf (fun c => c) X nlmap_id). rewrite smap_id in Hf. rewrite sapp_assoc. exact Hf.
Qed.

Lemma quotes_found s x t : pstr s = Some (x, t) -> exists u, s = u +++ t /\ in_quotes u x.
Proof.
  intros H. apply pstr_tail in H as (c & -> & Hf).
  specialize (Hf (fun c => c) "" nlmap_id). rewrite smap_id in Hf.
  exists (c +++ str1 dq). split; [now rewrite sapp_assoc|]. now apply read_in_quotes.
Qed.

(** ** Values: every text of the grammar is read *)

Scheme value_mind := Induction for value Sort Prop
  with elements_mind := Induction for elements Sort Prop
  with fields_mind := Induction for fields Sort Prop.
Combined Scheme value_mutual from value_mind, elements_mind, fields_mind.

Definition starter (c : ascii) : bool :=
  negb (is_ws c || Ascii.eqb c "]" || Ascii.eqb c "}")%char.

Lemma number_head s : number s -> exists c s', s = String c s' /\ starter c = true /\
  Ascii.eqb c dq = false /\ Ascii.eqb c "[" = false /\ Ascii.eqb c "{" = false /\
  Ascii.eqb c "n" = false /\ Ascii.eqb c "t" = false /\ Ascii.eqb c "f" = false.
Proof.
  intros (sg & i & f & e & -> & Hsg & Hi & _).
  destruct Hsg as [<-|[<-|[]]].
  - destruct Hi as [->|(c & d & -> & Hc & _)]; cbn [String.append].
    + eexists _, _. split; [reflexivity|]. repeat split.
    + eexists _, _. split; [reflexivity|]. revert Hc. clear.
      destruct c as [[] [] [] [] [] [] [] []]; intros K; try discriminate K; repeat split.
  - cbn [String.append]. eexists _, _. split; [reflexivity|]. repeat split.
Qed.

Lemma value_head t j : value t j -> exists c t', t = String c t' /\ starter c = true.
Proof.
  intros [| | |s H| | | | |]; try (eexists _, _; split; [reflexivity|reflexivity]).
  apply number_head in H as (c & s' & -> & H & _). eauto.
Qed.

Lemma skip_value w t j X : blank w -> value t j -> skip_ws (w +++ t +++ X) = t +++ X.
Proof.
  intros Hw Hv. rewrite skip_blank by exact Hw. apply value_head in Hv as (c & t' & -> & H).
  cbn [String.append]. apply skip_ws_nws. unfold starter in H. destruct (is_ws c); [discriminate|reflexivity].
Qed.

Lemma pval_blank n w X : blank w -> pval n (w +++ X) = pval n X.
Proof. intros H. rewrite pval_skip, (pval_skip n X). now rewrite skip_blank. Qed.

Lemma elements_head t l X : elements t l -> exists c r, skip_ws (t +++ X) = String c r /\ Ascii.eqb c "]" = false.
Proof.
  intros H. assert (exists w u j Y, t +++ X = w +++ u +++ Y /\ blank w /\ value u j) as (w & u & j & Y & -> & Hw & Hv).
  { destruct H as [w u w' j Hw Hv _|w u w' j s l Hw Hv _ _]; exists w, u, j; rewrite !sapp_assoc; eauto. }
  rewrite (skip_value w u j Y Hw Hv). apply value_head in Hv as (c & u' & -> & Hc). cbn [String.append].
  eexists _, _. split; [reflexivity|]. unfold starter in Hc. destruct (is_ws c); [discriminate|].
  destruct (Ascii.eqb c "]"); [discriminate|reflexivity].
Qed.

Lemma fields_head t l X : fields t l -> exists r, skip_ws (t +++ X) = String dq r.
Proof.
  intros H. assert (exists w Y, t +++ X = w +++ String dq Y /\ blank w) as (w & Y & -> & Hw).
  { destruct H; rewrite sapp_assoc; cbn [String.append]; eauto. }
  rewrite skip_blank by exact Hw. eexists. reflexivity.
Qed.

Theorem grammar_read :
  (forall t j, value t j -> forall X, stop X = true -> exists n, pval n (t +++ X) = Some (j, X)) /\
  (forall t l, elements t l -> forall X, exists n, pelems n (t +++ String "]" X) = Some (l, X)) /\
  (forall t l, fields t l -> forall X, exists n, pmembers n (t +++ String "}" X) = Some (l, X)).
Proof.
  apply value_mutual.
  - intros X _. exists 1%nat. reflexivity.
  - intros X _. exists 1%nat. reflexivity.
  - intros X _. exists 1%nat. reflexivity.
  - intros s H X HX. exists 1%nat. pose proof (number_head s H) as (c & s' & E & Hc & N1 & N2 & N3 & N4 & N5 & N6).
    apply number_read in H. pose proof (pnum_app _ _ _ X H HX) as K. rewrite E in K |- *. cbn [String.append] in *.
    rewrite pval_S, skip_ws_nws by (unfold starter in Hc; destruct (is_ws c); [discriminate|reflexivity]).
    rewrite N1, N2, N3, N4, N5, N6, K. reflexivity.
  - intros t v H X _. exists 1%nat. rewrite pval_S. cbn [String.append].
    change (skip_ws (String dq (t +++ X))) with (String dq (t +++ X)). cbv iota.
    change (Ascii.eqb dq dq) with true. cbv iota. now rewrite (quotes_then t v X H).
  - intros w Hw X _. exists 1%nat. rewrite pval_S. rewrite !sapp_assoc. cbn [String.append].
    rewrite skip_ws_nws by reflexivity.
    cbn [Ascii.eqb Bool.eqb]. rewrite skip_blank by exact Hw. reflexivity.
  - intros t l Ht IH X _. destruct (IH X) as (n & Hn). exists (S n). rewrite pval_S, !sapp_assoc. cbn [String.append].
    rewrite skip_ws_nws by reflexivity.
    destruct (elements_head t l (String "]" X) Ht) as (c & r & E & Hc). rewrite E, Hc, Hn. reflexivity.
  - intros w Hw X _. exists 1%nat. rewrite pval_S. rewrite !sapp_assoc. cbn [String.append].
    rewrite skip_ws_nws by reflexivity. rewrite skip_blank by exact Hw. reflexivity.
  - intros t l Ht IH X _. destruct (IH X) as (n & Hn). exists (S n). rewrite pval_S, !sapp_assoc. cbn [String.append].
    rewrite skip_ws_nws by reflexivity.
    destruct (fields_head t l (String "}" X) Ht) as (r & E). rewrite E, Hn. reflexivity.
  - intros w t w' j Hw Hv IH Hw' X.
    destruct (IH (w' +++ String "]" X) (ltac:(apply stop_blank; [exact Hw'|reflexivity]))) as (n & Hn).
    exists (S n). rewrite pelems_S, !sapp_assoc, pval_blank, Hn by exact Hw.
    rewrite skip_blank by exact Hw'. rewrite skip_ws_nws by reflexivity. reflexivity.
  - intros w t w' j s l Hw Hv IH Hw' Hs IHs X. rewrite !sapp_assoc. cbn [String.append].
    destruct (IH (w' +++ String "," (s +++ String "]" X)) (ltac:(apply stop_blank; [exact Hw'|reflexivity]))) as (n & Hn).
    destruct (IHs X) as (m & Hm).
    exists (S (n + m)). rewrite pelems_S, pval_blank, (pval_mono n (n + m) _ _ ltac:(lia) Hn) by exact Hw.
    rewrite skip_blank by exact Hw'. rewrite skip_ws_nws by reflexivity.
    rewrite (pelems_mono m (n + m) _ _ ltac:(lia) Hm). reflexivity.
  - intros w k key w1 w2 t w3 j Hw Hk Hw1 Hw2 Hv IH Hw3 X. rewrite !sapp_assoc. cbn [String.append]. rewrite !sapp_assoc.
    cbn [String.append].
    destruct (IH (w3 +++ String "}" X) (ltac:(apply stop_blank; [exact Hw3|reflexivity]))) as (n & Hn).
    exists (S n). rewrite pmembers_S, skip_blank, skip_ws_nws by (exact Hw || reflexivity).
    change (Ascii.eqb dq dq) with true. cbv iota. rewrite (quotes_then k key _ Hk).
    rewrite skip_blank by exact Hw1. rewrite skip_ws_nws by reflexivity.
    change (Ascii.eqb ":" ":") with true. cbv iota. rewrite !sapp_assoc, pval_blank, Hn by exact Hw2.
    rewrite skip_blank by exact Hw3. rewrite skip_ws_nws by reflexivity. reflexivity.
  - intros w k key w1 w2 t w3 j s l Hw Hk Hw1 Hw2 Hv IH Hw3 Hs IHs X.
    rewrite !sapp_assoc. cbn [String.append]. rewrite !sapp_assoc. cbn [String.append].
    destruct (IH (w3 +++ String "," (s +++ String "}" X)) (ltac:(apply stop_blank; [exact Hw3|reflexivity]))) as (n & Hn).
    destruct (IHs X) as (m & Hm).
    exists (S (n + m)). rewrite pmembers_S, skip_blank, skip_ws_nws by (exact Hw || reflexivity).
    change (Ascii.eqb dq dq) with true. cbv iota. rewrite (quotes_then k key _ Hk).
    rewrite skip_blank by exact Hw1. rewrite skip_ws_nws by reflexivity.
    change (Ascii.eqb ":" ":") with true. cbv iota. rewrite !sapp_assoc. cbn [String.append]. 
    rewrite ?sapp_assoc. cbn [String.append].
    rewrite pval_blank, (pval_mono n (n + m) _ _ ltac:(lia) Hn) by exact Hw2.
    rewrite skip_blank by exact Hw3. rewrite skip_ws_nws by reflexivity.
    rewrite (pmembers_mono m (n + m) _ _ ltac:(lia) Hm). reflexivity.
Qed.

(** ** Values: everything read is a text of the grammar *)

Theorem read_grammar n :
  (forall s j t, pval n s = Some (j, t) -> exists w u, s = w +++ u +++ t /\ blank w /\ value u j) /\
  (forall s l t, pelems n s = Some (l, t) -> exists u, s = u +++ String "]" t /\ elements u l) /\
  (forall s l t, pmembers n s = Some (l, t) -> exists u, s = u +++ String "}" t /\ fields u l).
Proof.
  induction n as [|n (IHv & IHe & IHm)]; [repeat split; discriminate|]. repeat split.
  - intros s0 j t H. rewrite pval_S in H. destruct (skip_ws_split s0) as (w & E & Hw). apply blank_ws in Hw.
    exists w. enough (exists u, skip_ws s0 = u +++ t /\ value u j) as (u & Eu & Hu).
    { exists u. split; [rewrite E at 1; now rewrite Eu|]. split; assumption. }
    clear E Hw w. revert H. generalize (skip_ws s0). intros s H.
    destruct s as [|a r]; [discriminate|].
    destruct (Ascii.eqb_spec a dq) as [->|_].
    { destruct (pstr r) as [[x y]|] eqn:E; [|discriminate]. injection H as <- ->.
      apply quotes_found in E as (u & -> & Hu). exists (String dq u). split; [reflexivity|]. now apply v_str. }
    destruct (Ascii.eqb_spec a "[") as [->|_].
    { destruct (skip_ws_split r) as (w & E & Hw). apply blank_ws in Hw.
      destruct (skip_ws r) as [|b r'] eqn:Er; [discriminate|].
      destruct (Ascii.eqb_spec b "]") as [->|_].
      - injection H as <- <-. exists ("[" +++ w +++ "]"). split; [rewrite E; cbn; now rewrite sapp_assoc|].
        now apply v_arr0.
      - destruct (pelems n r) as [[l y]|] eqn:El; [|discriminate]. injection H as <- ->.
        apply IHe in El as (u & Eu & Hu). exists ("[" +++ u +++ "]").
        split; [rewrite Eu; cbn; now rewrite sapp_assoc|]. now apply v_arr. }
    destruct (Ascii.eqb_spec a "{") as [->|_].
    { destruct (skip_ws_split r) as (w & E & Hw). apply blank_ws in Hw.
      destruct (skip_ws r) as [|b r'] eqn:Er; [discriminate|].
      destruct (Ascii.eqb_spec b "}") as [->|_].
      - injection H as <- <-. exists ("{" +++ w +++ "}"). split; [rewrite E; cbn; now rewrite sapp_assoc|].
        now apply v_obj0.
      - destruct (pmembers n r) as [[l y]|] eqn:El; [|discriminate]. injection H as <- ->.
        apply IHm in El as (u & Eu & Hu). exists ("{" +++ u +++ "}").
        split; [rewrite Eu; cbn; now rewrite sapp_assoc|]. now apply v_obj. }
    unfold plit in H.
    destruct (Ascii.eqb_spec a "n") as [->|_].
    { destruct (strip "ull" r) eqn:E; [|discriminate]. injection H as <- <-. apply strip_cat in E as ->.
      exists "null". split; [reflexivity|constructor]. }
    destruct (Ascii.eqb_spec a "t") as [->|_].
    { destruct (strip "rue" r) eqn:E; [|discriminate]. injection H as <- <-. apply strip_cat in E as ->.
      exists "true". split; [reflexivity|constructor]. }
    destruct (Ascii.eqb_spec a "f") as [->|_].
    { destruct (strip "alse" r) eqn:E; [|discriminate]. injection H as <- <-. apply strip_cat in E as ->.
      exists "false". split; [reflexivity|constructor]. }
    destruct (pnum (String a r)) as [[x y]|] eqn:E; [|discriminate]. injection H as <- ->.
    exists x. split; [now apply pnum_cat|]. apply v_num. apply number_read.
    apply pnum_self in E. unfold is_num in E. destruct (pnum x) as [[x' [|? ?]]|] eqn:Ex; try discriminate E.
    pose proof (pnum_cat _ _ _ Ex) as Q. rewrite sapp_nil_r in Q. now subst x'.
  - intros s l t H. rewrite pelems_S in H. destruct (pval n s) as [[j y]|] eqn:Ev; [|discriminate].
    apply IHv in Ev as (w & u & -> & Hw & Hu).
    destruct (skip_ws_split y) as (w' & E & Hw'). apply blank_ws in Hw'.
    destruct (skip_ws y) as [|c y'] eqn:Ey; [discriminate|].
    destruct (Ascii.eqb_spec c ",") as [->|_].
    { destruct (pelems n y') as [[l' z]|] eqn:El; [|discriminate]. injection H as <- ->.
      apply IHe in El as (v & -> & Hv). exists (w +++ u +++ w' +++ "," +++ v).
      split; [rewrite E, !sapp_assoc; reflexivity|]. now apply el_more. }
    destruct (Ascii.eqb_spec c "]") as [->|_]; [|discriminate]. injection H as <- ->.
    exists (w +++ u +++ w'). split; [rewrite E, !sapp_assoc; reflexivity|]. now apply el_one.
  - intros s l t H. rewrite pmembers_S in H.
    destruct (skip_ws_split s) as (w & E & Hw). apply blank_ws in Hw.
    destruct (skip_ws s) as [|a r] eqn:Es; [discriminate|]. subst s.
    destruct (Ascii.eqb_spec a dq) as [->|_]; [|discriminate].
    destruct (pstr r) as [[key y]|] eqn:Ek; [|discriminate]. apply quotes_found in Ek as (k & -> & Hk).
    destruct (skip_ws_split y) as (w1 & E1 & Hw1). apply blank_ws in Hw1.
    destruct (skip_ws y) as [|c y1] eqn:Ey; [discriminate|]. subst y.
    destruct (Ascii.eqb_spec c ":") as [->|_]; [|discriminate].
    destruct (pval n y1) as [[j y2]|] eqn:Ev; [|discriminate]. apply IHv in Ev as (w2 & u & -> & Hw2 & Hu).
    destruct (skip_ws_split y2) as (w3 & E3 & Hw3). apply blank_ws in Hw3.
    destruct (skip_ws y2) as [|d y3] eqn:Ey2; [discriminate|]. subst y2.
    destruct (Ascii.eqb_spec d ",") as [->|_].
    { destruct (pmembers n y3) as [[l' z]|] eqn:El; [|discriminate]. injection H as <- ->.
      apply IHm in El as (v & -> & Hv).
      exists (w +++ String dq (k +++ w1 +++ ":" +++ w2 +++ u +++ w3 +++ "," +++ v)). split; [|now apply fi_more].
      rewrite !sapp_assoc. cbn [String.append]. rewrite !sapp_assoc. cbn [String.append]. rewrite ?sapp_assoc. reflexivity. }
    destruct (Ascii.eqb_spec d "}") as [->|_]; [|discriminate]. injection H as <- ->.
    exists (w +++ String dq (k +++ w1 +++ ":" +++ w2 +++ u +++ w3)). split; [|now apply fi_one].
    rewrite !sapp_assoc. cbn [String.append]. rewrite !sapp_assoc. cbn [String.append]. rewrite ?sapp_assoc. reflexivity.
Qed.

(** ** Whole texts *)

Theorem parse_document s j : parse s = Some j <-> document s j.
Proof.
  split.
  - unfold parse. destruct (pval _ s) as [[k t]|] eqn:E; [|discriminate].
    destruct (skip_ws t) eqn:Et; [|discriminate]. intros H. injection H as ->.
    apply read_grammar in E as (w & u & -> & Hw & Hu). exists w, u, t. split; [reflexivity|].
    split; [exact Hw|]. split; [exact Hu|]. apply blank_ws. now apply skip_ws_all.
  - intros (w & t & w' & -> & Hw & Hv & Hw').
    destruct (proj1 grammar_read t j Hv w') as (n & Hn).
    { rewrite <- (sapp_nil_r w'). now apply stop_blank. }
    apply (parse_intro n _ j w').
    + now rewrite pval_blank.
    + rewrite <- (sapp_nil_r w'). now rewrite skip_blank.
Qed.

(** ** Trimming *)

Lemma white_size n u r : white n -> utf8_of n u -> space_size (u +++ r) = String.length u.
Proof.
  intros Hw Hu. apply of_encode in Hu as (-> & _ & _).
  assert (In n [9; 10; 11; 12; 13; 32; 133; 160; 5760; 8192; 8193; 8194; 8195; 8196; 8197; 8198; 8199; 8200; 8201; 8202;
                8232; 8233; 8239; 8287; 12288]) as Hn.
  { unfold white in Hw. cbn [In]. lia. }
  clear Hw. cbn [In] in Hn.
  repeat (destruct Hn as [<-|Hn]; [reflexivity|]). exact (False_ind _ Hn).
Qed.

Definition starts_white (s : string) : Prop := exists n u r, white n /\ utf8_of n u /\ s = u +++ r.

Lemma space_head s : match space_size s with
  | O => ~ starts_white s
  | S k => exists n u r, white n /\ utf8_of n u /\ s = u +++ r /\ String.length u = S k
  end.
Proof.
  destruct (space_size s) as [|k] eqn:E.
  - intros (n & u & r & Hn & Hu & ->). rewrite (white_size n u r Hn Hu) in E.
    destruct u; [now apply of_nonempty in Hu|discriminate E].
  - destruct s as [|a r]; [discriminate E|]. unfold space_size, between in E.
    destruct ((9 <=? code a) && (code a <=? 13) || (code a =? 32)) eqn:E1.
    { injection E as <-. exists (code a), (str1 a), r. split; [unfold white; lia|].
      split; [apply size_1_of; lia|]. split; reflexivity. }
    destruct r as [|b r1]; [discriminate E|].
    destruct ((code a =? 194) && ((code b =? 133) || (code b =? 160))) eqn:E2.
    { injection E as <-.
      assert (utf8_size (String a (String b "")) = 2%nat) as Hs.
      { apply andb_true_iff in E2 as [Ea Eb]. apply N.eqb_eq, code_inj in Ea.
        apply orb_true_iff in Eb as [Eb|Eb]; apply N.eqb_eq, code_inj in Eb; subst a b; reflexivity. }
      apply size_2_of in Hs. eexists _, _, r1. split; [|split; [exact Hs|split; reflexivity]]. unfold white. lia. }
    destruct r1 as [|c r2]; [discriminate E|].
    match type of E with (if ?x then _ else _) = _ => destruct x eqn:E3; [|discriminate E] end.
    injection E as <-.
    assert (utf8_size (String a (String b (String c ""))) = 3%nat) as Hs.
    { unfold utf8_size, between.
      destruct (code a <? 128) eqn:?; [lia|].
      destruct ((194 <=? code a) && (code a <=? 223)) eqn:?; [lia|].
      destruct ((224 <=? code a) && (code a <=? 239)) eqn:?; [|lia].
      destruct (code a =? 224) eqn:?; [lia|]. destruct (code a =? 237) eqn:?; [lia|].
      match goal with |- (if ?x then _ else _) = _ => destruct x eqn:?; [reflexivity|exfalso; lia] end. }
    apply size_3_of in Hs. eexists _, _, r2. split; [|split; [exact Hs|split; reflexivity]]. unfold white. lia.
Qed.

Lemma trim_left_white n u r : white n -> utf8_of n u -> trim_left (u +++ r) = trim_left r.
Proof.
  intros Hn Hu. pose proof (white_size n u r Hn Hu) as H.
  destruct u as [|a [|b [|c [|d u]]]].
  - now apply of_nonempty in Hu.
  - cbn [String.append trim_left] in *. now rewrite H.
  - cbn [String.append trim_left] in *. now rewrite H.
  - cbn [String.append trim_left] in *. now rewrite H.
  - exfalso. inversion Hu as [| | |m Hm E1 E2]; subst. unfold white in Hn. lia.
Qed.

Lemma trim_left_none s : ~ starts_white s -> trim_left s = s.
Proof.
  intros H. pose proof (space_head s) as K. destruct s as [|a r]; [reflexivity|]. cbn [trim_left].
  destruct (space_size (String a r)) as [|k]; [reflexivity|]. exfalso. apply H.
  destruct K as (n & u & r' & Hn & Hu & E & _). now exists n, u, r'.
Qed.

Lemma trim_left_spec s : exists x, s = x +++ trim_left s /\ whites x /\ ~ starts_white (trim_left s).
Proof.
  induction s as [s IH] using str_len_ind. pose proof (space_head s) as K.
  destruct (space_size s) as [|k].
  - exists "". rewrite trim_left_none by exact K. split; [reflexivity|]. split; [apply wh_none|exact K].
  - destruct K as (n & u & r & Hn & Hu & -> & Hk). rewrite (trim_left_white n u r Hn Hu).
    destruct (IH r) as (x & E & Hx & Hr); [rewrite sapp_length, Hk; lia|].
    exists (u +++ x). split; [now rewrite sapp_assoc, <- E|]. split; [now apply (wh_more n u)|exact Hr].
Qed.

Lemma all_space_whites s : all_space s = true <-> whites s.
Proof.
  unfold all_space. split.
  - destruct (trim_left_spec s) as (x & E & Hx & _). destruct (trim_left s); [|discriminate].
    intros _. rewrite sapp_nil_r in E. now subst x.
  - intros H. enough (trim_left s = "") as -> by reflexivity.
    induction H as [|n u s Hn Hu _ IH]; [reflexivity|]. now rewrite (trim_left_white n u s Hn Hu).
Qed.

(** [trim_right] cuts at the first place from which on all is white. *)
Lemma trim_right_spec s : exists y, s = trim_right s +++ y /\ whites y /\
  forall p q, trim_right s = p +++ q -> q <> "" -> ~ whites (q +++ y).
Proof.
  induction s as [|a s IH].
  - exists "". split; [reflexivity|]. split; [apply wh_none|]. intros p q E Hq. destruct p; [|discriminate E]. cbn in E. congruence.
  - cbn [trim_right]. destruct (all_space (String a s)) eqn:Ea.
    + exists (String a s). split; [reflexivity|]. split; [now apply all_space_whites|].
      intros p q E Hq. destruct p; [|discriminate E]. cbn in E. congruence.
    + destruct IH as (y & E & Hy & Hc). exists y. split; [cbn [String.append]; now rewrite <- E|]. split; [exact Hy|].
      intros p q Ep Hq. destruct p as [|b p].
      * cbn in Ep. subst q. cbn [String.append]. rewrite <- E. intros K. apply all_space_whites in K. congruence.
      * cbn in Ep. injection Ep as -> Ep. exact (Hc p q Ep Hq).
Qed.

Lemma trim_cut s : cut_off s (trim_space s).
Proof.
  unfold trim_space. destruct (trim_left_spec s) as (x & E & Hx & Hs).
  destruct (trim_right_spec (trim_left s)) as (y & E' & Hy & Hc).
  exists x, y. split; [now rewrite <- E'|]. split; [exact Hx|]. split; [exact Hy|]. split.
  - intros n u r Hn Hu K. apply Hs. exists n, u, (r +++ y). split; [exact Hn|]. split; [exact Hu|].
    rewrite E', K. now rewrite sapp_assoc.
  - intros n u r Hn Hu K. apply (Hc r u K); [now apply of_nonempty in Hu|]. now apply (wh_more n u).
Qed.

Lemma unlined_repl s t : unlined s t <-> t = smap repl_nl s.
Proof.
  split.
  - intros H. induction H as [|s t _ IH|c s t Hc _ IH]; cbn [smap]; [reflexivity|now rewrite IH|].
    unfold repl_nl at 1. destruct (code c =? 10) eqn:E; [lia|]. now rewrite IH.
  - intros ->. induction s as [|c s IH]; [apply un_end|]. cbn [smap]. unfold repl_nl at 1.
    destruct (code c =? 10) eqn:E.
    + apply N.eqb_eq, code_inj in E. subst c. now apply un_line.
    + apply un_keep; [lia|exact IH].
Qed.

Theorem received_normal s : received_as s (normalise s).
Proof. exists (smap repl_nl s). split; [now apply unlined_repl|]. apply trim_cut. Qed.

(** ... and nothing else. *)
Lemma app_split (a b c d : string) : a +++ b = c +++ d ->
  (exists z, c = a +++ z /\ b = z +++ d) \/ (exists z, z <> "" /\ a = c +++ z /\ d = z +++ b).
Proof.
  revert c. induction a as [|x a IH]; intros c H.
  - left. exists c. split; [reflexivity|exact H].
  - destruct c as [|y c].
    + right. exists (String x a). split; [discriminate|]. split; [reflexivity|]. now symmetry.
    + cbn in H. injection H as -> H. destruct (IH c H) as [(z & -> & ->)|(z & Hz & -> & ->)].
      * left. exists z. split; reflexivity.
      * right. exists z. split; [exact Hz|]. split; reflexivity.
Qed.

Lemma whites_app a b : whites a -> whites b -> whites (a +++ b).
Proof.
  intros Ha Hb. induction Ha as [|n u s Hn Hu _ IH]; [exact Hb|]. rewrite sapp_assoc. now apply (wh_more n u).
Qed.

Lemma whites_skip a b : whites a -> trim_left (a +++ b) = trim_left b.
Proof.
  intros H. induction H as [|n u s Hn Hu _ IH]; [reflexivity|]. rewrite sapp_assoc.
  now rewrite (trim_left_white n u _ Hn Hu).
Qed.


(** UTF-8 is self-synchronising. *)
Lemma of_head n u : utf8_of n u -> exists c u', u = String c u' /\ ~ 128 <= code c < 192.
Proof.
  intros [m H|m H|m H K|m H]; cbn [bytes]; eexists _, _; (split; [reflexivity|]); rewrite code_chr by lia; lia.
Qed.
Lemma of_tail n p q : utf8_of n (p +++ q) -> p <> "" -> q <> "" -> exists c q', q = String c q' /\ 128 <= code c < 192.
Proof.
  intros H Hp Hq. destruct p as [|a p]; [congruence|]. destruct q as [|c q']; [congruence|].
  exists c, q'. split; [reflexivity|].
  assert (str_forall (fun b => (128 <=? code b) && (code b <? 192))%N (p +++ String c q') = true -> 128 <= code c < 192) as F.
  { intros K. rewrite str_forall_app in K. apply andb_true_iff in K as [_ K]. cbn [str_forall] in K. lia. }
  remember (String a p +++ String c q') as u eqn:E. 
  assert (match u with String _ r => r | _ => "" end = p +++ String c q') as E' by (rewrite E; reflexivity). clear E.
  destruct H as [m Hm|m Hm|m Hm Hs|m Hm]; cbn [bytes] in E'.
  all: apply F; rewrite <- E'; cbn [str_forall]; rewrite ?code_chr by lia; lia.
Qed.

Lemma whites_head s : whites s -> s <> "" -> exists c s', s = String c s' /\ ~ 128 <= code c < 192.
Proof.
  intros [|n u r Hn Hu _] Hs; [congruence|]. apply of_head in Hu as (c & u' & -> & Hc). cbn [String.append]. eauto.
Qed.

(** A character cannot straddle a text and white space behind it. *)
Lemma no_straddle n t z r : utf8_of n (t +++ z) -> t <> "" -> z <> "" -> whites (z +++ r) -> False.
Proof.
  intros Hu Ht Hz Hy. apply of_tail in Hu as (c & z' & -> & Hc); [|exact Ht|exact Hz].
  apply whites_head in Hy as (c' & r' & E & Hc'); [|discriminate]. cbn in E. injection E as <- _. lia.
Qed.

Lemma whites_prefix z y : whites (z +++ y) -> whites y -> whites z.
Proof.
  intros H Hy. remember (z +++ y) as s eqn:E. revert z E. induction H as [|n u s Hn Hu Hs IH]; intros z E.
  - destruct z; [apply wh_none|discriminate E].
  - destruct (app_split u s z y E) as [(z' & -> & ->)|(z' & Hz' & -> & ->)].
    + apply (wh_more n u); [exact Hn|exact Hu|]. now apply IH.
    + destruct z as [|a z]; [apply wh_none|]. exfalso.
      apply (no_straddle n (String a z) z' s Hu); [discriminate|exact Hz'|exact Hy].
Qed.

Lemma whites_last z : whites z -> z <> "" -> exists n u r, white n /\ utf8_of n u /\ z = r +++ u.
Proof.
  intros H. induction H as [|n u s Hn Hu Hs IH]; intros Hz; [congruence|].
  destruct s as [|a s].
  - exists n, u, "". split; [exact Hn|]. split; [exact Hu|]. now rewrite sapp_nil_r.
  - destruct IH as (n' & u' & r & Hn' & Hu' & ->); [discriminate|]. exists n', u', (u +++ r).
    split; [exact Hn'|]. split; [exact Hu'|]. now rewrite sapp_assoc.
Qed.

Theorem cut_off_unique s t : cut_off s t -> t = trim_space s.
Proof.
  intros (x & y & -> & Hx & Hy & Hl & Hr). unfold trim_space. rewrite whites_skip by exact Hx.
  destruct t as [|a t0].
  - cbn [String.append]. apply all_space_whites in Hy. unfold all_space in Hy. destruct (trim_left y); [reflexivity|discriminate].
  - set (t := String a t0) in *.
    assert (trim_left (t +++ y) = t +++ y) as ->.
    { apply trim_left_none. intros (n & u & r & Hn & Hu & E). symmetry in E.
      destruct (app_split u r t y E) as [(z & Ez & _)|(z & Hz & -> & ->)].
      - exact (Hl n u z Hn Hu Ez).
      - apply (no_straddle n t z r Hu); [discriminate|exact Hz|exact Hy]. }
    destruct (trim_right_spec (t +++ y)) as (y2 & E & Hy2 & Hc). set (t2 := trim_right (t +++ y)) in *.
    destruct (app_split t y t2 y2 E) as [(z & Ez & Ey)|(z & Hz & Ez & Ey)].
    + destruct z as [|b z]; [rewrite sapp_nil_r in Ez; now symmetry|]. exfalso.
      apply (Hc t (String b z) Ez); [discriminate|]. now rewrite <- Ey.
    + exfalso. rewrite Ey in Hy2. pose proof (whites_prefix z y Hy2 Hy) as Hwz.
      destruct (whites_last z Hwz Hz) as (n & u & r & Hn & Hu & Eu).
      apply (Hr n u (t2 +++ r) Hn Hu). rewrite Ez, Eu. now rewrite sapp_assoc.
Qed.

Theorem received_as_normal s t : received_as s t <-> t = normalise s.
Proof.
  split.
  - intros (m & Hm & Ht). apply unlined_repl in Hm. subst m. now apply cut_off_unique.
  - intros ->. apply received_normal.
Qed.
