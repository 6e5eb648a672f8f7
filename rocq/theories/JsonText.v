(** More about the JSON text model: what parsing yields, what the received-text
    normalisation of ws/conn.go does to it. *)
From Coq Require Import Arith ZifyBool ZifyNat ZifyN.
From Verif Require Import GoBase Utf8 Json JsonProofs.
Ltac Zify.zify_post_hook ::= Z.div_mod_to_equations.

(** ** Parsed documents contain only valid UTF-8 and well-formed numbers *)

Lemma valid_app_enc r X : (r < 1114112)%N -> is_surrogate r = false ->
  utf8_valid (utf8_encode r +++ X) = utf8_valid X.
Proof.
  intros Hr Hs. unfold utf8_encode.
  destruct (r <? 128)%N eqn:E1.
  { cbn [String.append str1]. apply valid_1. apply size1_lt. rewrite code_chr; lia. }
  destruct (r <? 2048)%N eqn:E2.
  { cbn [String.append str1]. apply valid_2. unfold utf8_size, between. rewrite !code_chr by lia.
    destruct (192 + r / 64 <? 128)%N eqn:?; [lia|].
    destruct ((194 <=? 192 + r / 64) && (192 + r / 64 <=? 223))%N eqn:?; [|lia].
    destruct ((128 <=? 128 + r mod 64) && (128 + r mod 64 <=? 191))%N eqn:?; [|lia]. reflexivity. }
  unfold is_surrogate in Hs.
  destruct (r <? 65536)%N eqn:E3.
  { cbn [String.append str1]. apply valid_3. unfold utf8_size, between. rewrite !code_chr by lia.
    destruct (224 + r / 4096 <? 128)%N eqn:?; [lia|].
    destruct ((194 <=? 224 + r / 4096) && (224 + r / 4096 <=? 223))%N eqn:?; [lia|].
    destruct ((224 <=? 224 + r / 4096) && (224 + r / 4096 <=? 239))%N eqn:?; [|lia].
    destruct (224 + r / 4096 =? 224)%N eqn:?; destruct (224 + r / 4096 =? 237)%N eqn:?; cbv iota;
    match goal with |- (if ?b then _ else _) = _ => destruct b eqn:?; [reflexivity|exfalso; lia] end. }
  cbn [String.append str1]. apply valid_4. unfold utf8_size, between. rewrite !code_chr by lia.
  destruct (240 + r / 262144 <? 128)%N eqn:?; [lia|].
  destruct ((194 <=? 240 + r / 262144) && (240 + r / 262144 <=? 223))%N eqn:?; [lia|].
  destruct ((224 <=? 240 + r / 262144) && (240 + r / 262144 <=? 239))%N eqn:?; [lia|].
  destruct ((240 <=? 240 + r / 262144) && (240 + r / 262144 <=? 244))%N eqn:?; [|lia].
  destruct (240 + r / 262144 =? 240)%N eqn:?; destruct (240 + r / 262144 =? 244)%N eqn:?; cbv iota;
  match goal with |- (if ?b then _ else _) = _ => destruct b eqn:?; [reflexivity|exfalso; lia] end.
Qed.

Lemma valid_fffd X : utf8_valid (fffd +++ X) = utf8_valid X.
Proof. unfold fffd. cbn [String.append str1]. apply valid_3. reflexivity. Qed.

Lemma hexval_bound c n : hexval c = Some n -> (n < 16)%N.
Proof.
  unfold hexval. generalize (code c) as b. intros b.
  destruct ((48 <=? b) && (b <=? 57))%N eqn:E1; [intros H; assert (n = b - 48)%N by congruence; lia|].
  destruct ((97 <=? b) && (b <=? 102))%N eqn:E2; [intros H; assert (n = b - 87)%N by congruence; lia|].
  destruct ((65 <=? b) && (b <=? 70))%N eqn:E3; [intros H; assert (n = b - 55)%N by congruence; lia|].
  discriminate.
Qed.

Lemma hex4_bound a b c d n : hex4 a b c d = Some n -> (n < 65536)%N.
Proof.
  unfold hex4. destruct (hexval a) eqn:Ea; [|discriminate]. destruct (hexval b) eqn:Eb; [|discriminate].
  destruct (hexval c) eqn:Ec; [|discriminate]. destruct (hexval d) eqn:Ed; [|discriminate].
  apply hexval_bound in Ea, Eb, Ec, Ed. intros H.
  match type of H with Some ?e = _ => assert (n = e)%N by congruence end. lia.
Qed.

Lemma surrogate_pair_ok x y z : surrogate_pair x y = Some z -> (z < 1114112)%N /\ is_surrogate z = false.
Proof.
  unfold surrogate_pair, is_surrogate.
  match goal with |- context [if ?b then _ else _] => destruct b eqn:E; [|discriminate] end.
  intros H. match type of H with Some ?e = _ => assert (z = e)%N by congruence end. lia.
Qed.

Lemma simple_escape_ascii e c : simple_escape e = Some c -> (code c <? 128)%N = true.
Proof.
  unfold simple_escape.
  destruct e as [[] [] [] [] [] [] [] []]; cbn; intros H; try discriminate H;
    injection H as <-; reflexivity.
Qed.

Lemma pstr_valid s x t : pstr s = Some (x, t) -> utf8_valid x = true.
Proof.
  revert x t. induction s as [s IH] using str_len_ind. intros x t H.
  assert (forall p s', String.length s' < String.length s ->
            addl p (pstr s') = Some (x, t) ->
            (forall X, utf8_valid (p +++ X) = utf8_valid X) -> utf8_valid x = true) as K.
  { intros p s' Hl Ha Hp. apply addl_inv in Ha as (y & Hy & ->). rewrite Hp.
    eapply IH; eauto. }
  destruct (uview_all s) as [|a r Ha Hsz|a b r Ha _ Hsz|a b c r Ha _ _ Hsz|a b c d r Ha _ _ _ Hsz|a r Ha Hsz].
  - discriminate.
  - cbn [pstr] in H. destruct (Ascii.eqb a dq).
    { injection H as <- <-. reflexivity. }
    destruct (Ascii.eqb a bsl).
    2:{ destruct (code a <? 32)%N; [discriminate|]. rewrite Hsz in H.
        eapply K; [|exact H|]; [cbn; lia|]. intros X. cbn [String.append str1]. apply valid_1, size1_lt; auto. }
    destruct r as [|e r1]; [discriminate|].
    destruct (simple_escape e) as [c|] eqn:Ee.
    { eapply K; [|exact H|]; [cbn; lia|]. intros X. apply simple_escape_ascii in Ee.
      cbn [String.append str1]. apply valid_1, size1_lt; auto. }
    destruct (Ascii.eqb e "u"%char); [|discriminate].
    destruct r1 as [|h1 [|h2 [|h3 [|h4 r2]]]]; try discriminate.
    destruct (hex4 h1 h2 h3 h4) as [n|] eqn:Eh; [|discriminate].
    apply hex4_bound in Eh.
    destruct (is_surrogate n) eqn:En.
    2:{ eapply K; [|exact H|]; [cbn; lia|]. intros X. apply valid_app_enc; [lia|auto]. }
    assert (addl fffd (pstr r2) = Some (x, t) -> utf8_valid x = true) as Kf.
    { intros H'. eapply K; [|exact H'|]; [cbn; lia|]. apply valid_fffd. }
    destruct r2 as [|e1 [|e2 [|g1 [|g2 [|g3 [|g4 r3]]]]]]; try (apply Kf; exact H).
    destruct (Ascii.eqb e1 bsl && Ascii.eqb e2 "u"%char); [|apply Kf; exact H].
    destruct (hex4 g1 g2 g3 g4) as [y|]; [|apply Kf; exact H].
    destruct (surrogate_pair n y) as [z|] eqn:Ez; [|apply Kf; exact H].
    apply surrogate_pair_ok in Ez as [Ez1 Ez2].
    eapply K; [|exact H|]; [cbn; lia|]. intros X. apply valid_app_enc; auto.
  - apply between_spec in Ha. rewrite pstr_2 in H by (auto; lia).
    eapply K; [|exact H|]; [cbn; lia|]. intros X. cbn [String.append str1]. apply valid_2, Hsz.
  - apply between_spec in Ha. rewrite pstr_3 in H by (auto; lia).
    eapply K; [|exact H|]; [cbn; lia|]. intros X. cbn [String.append str1]. apply valid_3, Hsz.
  - apply between_spec in Ha. rewrite pstr_4 in H by (auto; lia).
    eapply K; [|exact H|]; [cbn; lia|]. intros X. cbn [String.append str1]. apply valid_4, Hsz.
  - cbn [pstr] in H. destruct (ge32_head a ltac:(lia)) as (E1 & E2 & E3).
    rewrite E1, E2, E3, Hsz in H.
    eapply K; [|exact H|]; [cbn; lia|]. apply valid_fffd.
Qed.

Lemma pnum_self s x t : pnum s = Some (x, t) -> is_num x = true.
Proof.
  intros H. unfold is_num.
  enough (pnum x = Some (x, EmptyString)) as -> by reflexivity.
  assert (forall s d t, span_digits s = (d, t) -> span_digits d = (d, EmptyString)) as SD.
  { clear. induction s as [|c s IH]; intros d t; cbn.
    - intros H; injection H as <- <-. reflexivity.
    - destruct (is_digit c) eqn:E.
      + destruct (span_digits s) as [d' t'] eqn:E'. intros H. injection H as <- <-.
        cbn. rewrite E. erewrite IH by eauto. reflexivity.
      + intros H; injection H as <- <-. reflexivity. }
  assert (forall s i t Y, pint s = Some (i, t) -> (exists c r, Y = String c r /\ is_digit c = false) \/ Y = EmptyString ->
            pint (i +++ Y) = Some (i, Y)) as PI.
  { clear -SD. intros s i t Y H HY. destruct s as [|c s]; [discriminate|]. cbn in H.
    destruct (Ascii.eqb c "0"%char) eqn:E0.
    - injection H as <- <-. reflexivity.
    - destruct (is_digit c) eqn:Ed; [|discriminate].
      destruct (span_digits s) as [d t'] eqn:E. injection H as <- <-.
      cbn. rewrite E0, Ed. apply SD in E.
      assert (span_digits (d +++ Y) = (d, Y)) as ->; [|reflexivity].
      clear -E HY. revert E. induction d as [|a d IH]; intros E.
      + cbn. destruct HY as [(c & r & -> & Hc)| ->]; cbn; [now rewrite Hc|reflexivity].
      + cbn in *. destruct (is_digit a); [|discriminate].
        destruct (span_digits d) as [d' t'] eqn:E'. injection E as E1 E2. subst.
        rewrite IH by reflexivity. reflexivity. }
  assert (forall s d t Y, span_digits s = (d, t) -> (exists c r, Y = String c r /\ is_digit c = false) \/ Y = EmptyString ->
            span_digits (d +++ Y) = (d, Y)) as SDY.
  { clear -SD. intros s d t Y E HY. apply SD in E. clear -E HY.
    revert E. induction d as [|a d IH]; intros E.
    + cbn. destruct HY as [(c & r & -> & Hc)| ->]; cbn; [now rewrite Hc|reflexivity].
    + cbn in *. destruct (is_digit a); [|discriminate].
      destruct (span_digits d) as [d' t'] eqn:E'. injection E as E1 E2. subst.
      rewrite IH by reflexivity. reflexivity. }
  assert (forall s f t Y, pfrac s = Some (f, t) ->
            (exists c r, Y = String c r /\ is_digit c = false /\ Ascii.eqb c "."%char = false) \/ Y = EmptyString ->
            pfrac (f +++ Y) = Some (f, Y)) as PF.
  { clear -SDY. intros s f t Y H HY. destruct s as [|c s]; cbn in H.
    - injection H as <- <-. cbn. destruct HY as [(c & r & -> & Hc & Hd)| ->]; cbn; [now rewrite Hd|reflexivity].
    - destruct (Ascii.eqb c "."%char) eqn:E.
      + destruct (span_digits s) as [d t'] eqn:E'. destruct d as [|a d]; [discriminate|].
        injection H as <- <-. cbn [String.append]. cbn [pfrac]. rewrite E.
        change (String a (d +++ Y)) with (String a d +++ Y).
        erewrite SDY; [reflexivity|eauto|].
        destruct HY as [(c' & r & -> & Hc & Hd)| ->]; [left; eauto|auto].
      + injection H as <- <-. cbn. destruct HY as [(c' & r & -> & Hc & Hd)| ->]; cbn; [now rewrite Hd|reflexivity]. }
  assert (forall s f t, pexp s = Some (f, t) -> pexp f = Some (f, EmptyString)) as PE.
  { clear -SD. intros s f t H. destruct s as [|c s]; cbn in H.
    - injection H as <- <-. reflexivity.
    - destruct (Ascii.eqb c "e"%char || Ascii.eqb c "E"%char) eqn:E.
      2:{ injection H as <- <-. reflexivity. }
      destruct s as [|d s].
      { discriminate H. }
      destruct (Ascii.eqb d "+"%char || Ascii.eqb d "-"%char) eqn:E1.
      + destruct (span_digits s) as [dd t'] eqn:E2. destruct dd as [|a dd]; [discriminate|].
        injection H as <- <-. cbn [String.append str1 pexp]. rewrite E, E1.
        erewrite SD by eauto. reflexivity.
      + destruct (span_digits (String d s)) as [dd t'] eqn:E2. destruct dd as [|a dd]; [discriminate|].
        injection H as <- <-. cbn [String.append pexp]. rewrite E.
        assert (a = d) as ->.
        { apply span_digits_cat in E2. cbn in E2. congruence. }
        rewrite E1. erewrite SD by eauto. reflexivity. }
  assert (forall s f t, pexp s = Some (f, t) ->
      (exists c r, f = String c r /\ is_digit c = false /\ Ascii.eqb c "."%char = false) \/ f = EmptyString) as HE.
  { clear. intros s f t H. destruct s as [|c s]; cbn in H.
    - injection H as <- <-. auto.
    - destruct (Ascii.eqb c "e"%char || Ascii.eqb c "E"%char) eqn:E.
      2:{ injection H as <- <-. auto. }
      left.
      assert (is_digit c = false /\ Ascii.eqb c "."%char = false) as [Q1 Q2].
      { apply orb_true_iff in E as [E|E]; apply Ascii.eqb_eq in E; subst; auto. }
      destruct (match s with
         | EmptyString => (EmptyString, s)
         | String d r' => if Ascii.eqb d "+"%char || Ascii.eqb d "-"%char then (str1 d, r') else (EmptyString, s)
         end) as [sg r1].
      destruct (span_digits r1) as [dd t']. destruct dd; [discriminate|]. injection H as <- <-. eauto. }
  assert (forall s f t, pfrac s = Some (f, t) ->
      (exists c r, f = String c r /\ is_digit c = false) \/ f = EmptyString) as HF.
  { clear. intros s f t H. destruct s as [|c s]; cbn in H.
    - injection H as <- <-. auto.
    - destruct (Ascii.eqb_spec c "."%char) as [E|E].
      2:{ injection H as <- <-. auto. }
      destruct (span_digits s) as [dd t']. destruct dd; [discriminate|]. injection H as <- <-.
      left. subst c. eexists _, _; split; reflexivity. }
  unfold pnum in H |- *. destruct s as [|c s]; [discriminate H|].
  destruct (Ascii.eqb c "-"%char) eqn:Ec.
  - destruct (pint s) as [[i s2]|] eqn:E1; [|discriminate].
    destruct (pfrac s2) as [[f s3]|] eqn:E2; [|discriminate].
    destruct (pexp s3) as [[e' s4]|] eqn:E3; [|discriminate].
    injection H as <- <-. cbn [String.append str1]. rewrite Ec.
    rewrite (PI _ _ _ (f +++ e') E1).
    2:{ destruct (HF _ _ _ E2) as [(c1 & r1 & -> & Hc1)| ->]; [left; eexists _, _; split; [reflexivity|auto]|].
        destruct (HE _ _ _ E3) as [(c1 & r1 & -> & Hc1 & _)| ->]; [left; eexists _, _; split; [reflexivity|auto]|auto]. }
    rewrite (PF _ _ _ _ E2 (HE _ _ _ E3)). rewrite (PE _ _ _ E3). reflexivity.
  - destruct (pint (String c s)) as [[i s2]|] eqn:E1; [|discriminate].
    destruct (pfrac s2) as [[f s3]|] eqn:E2; [|discriminate].
    destruct (pexp s3) as [[e' s4]|] eqn:E3; [|discriminate].
    injection H as <- <-. cbn [String.append].
    assert (exists i', i = String c i') as [i' Ei].
    { cbn in E1. destruct (Ascii.eqb_spec c "0"%char); [injection E1 as <- <-; subst; eexists; reflexivity|].
      destruct (is_digit c); [|discriminate]. destruct (span_digits s). injection E1 as <- <-. eauto. }
    rewrite Ei. cbn [String.append]. rewrite Ec. change (String c (i' +++ f +++ e')) with (String c i' +++ f +++ e').
    rewrite <- Ei.
    rewrite (PI _ _ _ (f +++ e') E1).
    2:{ destruct (HF _ _ _ E2) as [(c1 & r1 & -> & Hc1)| ->]; [left; eexists _, _; split; [reflexivity|auto]|].
        destruct (HE _ _ _ E3) as [(c1 & r1 & -> & Hc1 & _)| ->]; [left; eexists _, _; split; [reflexivity|auto]|auto]. }
    rewrite (PF _ _ _ _ E2 (HE _ _ _ E3)). rewrite (PE _ _ _ E3). reflexivity.
Qed.

Definition clean (j : json) : Prop := wf_json j = true /\ jsan j = j.

Lemma clean_arr l : clean (JArr l) <-> Forall clean l.
Proof.
  unfold clean. cbn. split.
  - intros [H1 H2]. injection H2 as H2. rewrite forallb_forall in H1. apply Forall_forall.
    intros x Hx. split; [auto|].
    clear H1. induction l as [|y l IH]; [destruct Hx|]. cbn in H2. injection H2 as H2 H3.
    destruct Hx as [<-|Hx]; auto.
  - intros H. split.
    + apply forallb_forall. intros x Hx. rewrite Forall_forall in H. now apply H.
    + f_equal. induction H as [|x l [Hx1 Hx2] H IH]; [reflexivity|]. cbn. now rewrite Hx2, IH.
Qed.

Lemma clean_obj l : clean (JObj l) <-> Forall (fun kv => sanitize (fst kv) = fst kv /\ clean (snd kv)) l.
Proof.
  unfold clean. cbn. split.
  - intros [H1 H2]. injection H2 as H2. rewrite forallb_forall in H1. apply Forall_forall.
    intros x Hx. pose proof (H1 x Hx) as H1'.
    clear H1. induction l as [|[k y] l IH]; [destruct Hx|]. cbn in H2. injection H2 as H2 H3 H4.
    destruct Hx as [<-|Hx]; auto.
  - intros H. split.
    + apply forallb_forall. intros x Hx. rewrite Forall_forall in H. apply (H x Hx).
    + f_equal. induction H as [|[k x] l (Hx1 & Hx2 & Hx3) H IH]; [reflexivity|]. cbn in *. now rewrite Hx1, Hx3, IH.
Qed.

Lemma parsed_clean n :
  (forall s j t, pval n s = Some (j, t) -> clean j) /\
  (forall s l t, pelems n s = Some (l, t) -> Forall clean l) /\
  (forall s l t, pmembers n s = Some (l, t) -> Forall (fun kv => sanitize (fst kv) = fst kv /\ clean (snd kv)) l).
Proof.
  induction n as [|n (IHv & IHe & IHm)].
  { split; [|split]; intros s j t H; cbn in H; discriminate. }
  split; [|split].
  - intros s j t H. rewrite pval_S in H.
    destruct (skip_ws s) as [|a r]; [discriminate|].
    destruct (Ascii.eqb a dq).
    { destruct (pstr r) as [[x u]|] eqn:E; [|discriminate]. injection H as <- <-.
      apply pstr_valid in E. split; [reflexivity|]. cbn. now rewrite sanitize_id. }
    destruct (Ascii.eqb a "["%char).
    { destruct (skip_ws r) as [|b r']; [discriminate|].
      destruct (Ascii.eqb b "]"%char); [injection H as <- <-; split; reflexivity|].
      destruct (pelems n r) as [[l u]|] eqn:E; [|discriminate]. injection H as <- <-.
      apply clean_arr. eauto. }
    destruct (Ascii.eqb a "{"%char).
    { destruct (skip_ws r) as [|b r']; [discriminate|].
      destruct (Ascii.eqb b "}"%char); [injection H as <- <-; split; reflexivity|].
      destruct (pmembers n r) as [[l u]|] eqn:E; [|discriminate]. injection H as <- <-.
      apply clean_obj. eauto. }
    unfold plit in H.
    destruct (Ascii.eqb a "n"%char); [destruct (strip _ _); [injection H as <- <-; split; reflexivity|discriminate]|].
    destruct (Ascii.eqb a "t"%char); [destruct (strip _ _); [injection H as <- <-; split; reflexivity|discriminate]|].
    destruct (Ascii.eqb a "f"%char); [destruct (strip _ _); [injection H as <- <-; split; reflexivity|discriminate]|].
    destruct (pnum (String a r)) as [[l u]|] eqn:E; [|discriminate]. injection H as <- <-.
    apply pnum_self in E. split; [exact E|reflexivity].
  - intros s l t H. rewrite pelems_S in H.
    destruct (pval n s) as [[k u]|] eqn:E; [|discriminate]. apply IHv in E.
    destruct (skip_ws u) as [|c u']; [discriminate|].
    destruct (Ascii.eqb c ","%char).
    + destruct (pelems n u') as [[l' v]|] eqn:E1; [|discriminate]. injection H as <- <-.
      constructor; eauto.
    + destruct (Ascii.eqb c "]"%char); [|discriminate]. injection H as <- <-. auto.
  - intros s l t H. rewrite pmembers_S in H.
    destruct (skip_ws s) as [|a r]; [discriminate|].
    destruct (Ascii.eqb a dq); [|discriminate].
    destruct (pstr r) as [[k u]|] eqn:E; [|discriminate]. apply pstr_valid, sanitize_id in E.
    destruct (skip_ws u) as [|c u1]; [discriminate|].
    destruct (Ascii.eqb c ":"%char); [|discriminate].
    destruct (pval n u1) as [[w u2]|] eqn:E1; [|discriminate]. apply IHv in E1.
    destruct (skip_ws u2) as [|d u3]; [discriminate|].
    destruct (Ascii.eqb d ","%char).
    + destruct (pmembers n u3) as [[l' v]|] eqn:E2; [|discriminate]. injection H as <- <-.
      constructor; eauto.
    + destruct (Ascii.eqb d "}"%char); [|discriminate]. injection H as <- <-. auto.
Qed.

Theorem parse_clean s j : parse s = Some j -> clean j.
Proof.
  unfold parse. destruct (pval _ s) as [[k t]|] eqn:E; [|discriminate].
  destruct (skip_ws t); [|discriminate]. intros H. injection H as <-.
  eapply (proj1 (parsed_clean _)); eauto.
Qed.

(** json.Marshal of a value whose MarshalJSON produced [s]: compact.  Parsing the
    result gives back the same document. *)
Theorem parse_compact s j : parse s = Some j -> parse (print j) = Some j.
Proof. intros H. apply parse_clean in H as [H1 H2]. now rewrite parse_print, H2. Qed.

(** ** The received-text normalisation (ws/conn.go:181)

    [messageBytes = bytes.TrimSpace(bytes.Replace(messageBytes, newline, space, -1))] *)

Lemma eqb_char (a b : ascii) : Ascii.eqb a b = true -> a = b.
Proof. apply Ascii.eqb_eq. Qed.

Definition repl_nl (c : ascii) : ascii := if (code c =? 10)%N then chr 32 else c.

Fixpoint smap (f : ascii -> ascii) (s : string) : string :=
  match s with EmptyString => EmptyString | String c r => String (f c) (smap f r) end.

(** bytes.TrimSpace: number of bytes of the white-space rune at the head
    (unicode.IsSpace: 09-0D, 20, U+0085, U+00A0, U+1680, U+2000-200A, U+2028,
    U+2029, U+202F, U+205F, U+3000); 0 when the head is not white space. *)
Definition space_size (s : string) : nat :=
  match s with
  | EmptyString => 0
  | String a r =>
    if (between 9 13 a || (code a =? 32)%N)%bool then 1
    else match r with
    | String b r1 =>
      if (code a =? 194)%N && ((code b =? 133)%N || (code b =? 160)%N) then 2
      else match r1 with
      | String c _ =>
        if ((code a =? 225)%N && (code b =? 154)%N && (code c =? 128)%N)
           || ((code a =? 226)%N && (code b =? 128)%N
               && (between 128 138 c || (code c =? 168)%N || (code c =? 169)%N || (code c =? 175)%N))
           || ((code a =? 226)%N && (code b =? 129)%N && (code c =? 159)%N)
           || ((code a =? 227)%N && (code b =? 128)%N && (code c =? 128)%N)
        then 3 else 0
      | EmptyString => 0
      end
    | EmptyString => 0
    end
  end.

Fixpoint trim_left (s : string) : string :=
  match s with
  | EmptyString => EmptyString
  | String a r =>
    match space_size s, r with
    | 1, _ => trim_left r
    | 2, String _ r1 => trim_left r1
    | 3, String _ (String _ r1) => trim_left r1
    | _, _ => s
    end
  end.

(** The whole string is a sequence of white-space runes. *)
Definition all_space (s : string) : bool :=
  match trim_left s with EmptyString => true | _ => false end.

(** Removes the longest suffix made of white-space runes.  (bytes.TrimSpace works
    from the end with utf8.DecodeLastRune; UTF-8 is self-synchronising, so a
    suffix that spells white-space runes is decoded as such.) *)
Fixpoint trim_right (s : string) : string :=
  match s with
  | EmptyString => EmptyString
  | String a r => if all_space s then EmptyString else String a (trim_right r)
  end.

Definition trim_space (s : string) : string := trim_right (trim_left s).

Definition normalise (s : string) : string := trim_space (smap repl_nl s).

Definition nlmap (f : ascii -> ascii) : Prop :=
  forall c, f c = c \/ (c = chr 10 /\ f c = chr 32).

(** Last byte of a nonempty string is an ASCII byte that is not white space. *)
Fixpoint ends_solid (s : string) : bool :=
  match s with
  | EmptyString => false
  | String c EmptyString => (code c <? 128)%N && (32 <? code c)%N
  | String _ r => ends_solid r
  end.

Lemma ends_solid_app a b : ends_solid b = true -> ends_solid (a +++ b) = true.
Proof.
  intros H. induction a as [|c a IH]; [exact H|]. cbn.
  destruct (a +++ b) eqn:E; [|exact IH].
  destruct a; [cbn in E; subst; discriminate|discriminate].
Qed.

Lemma smap_app f a b : smap f (a +++ b) = smap f a +++ smap f b.
Proof. induction a as [|c a IH]; cbn; [reflexivity|now rewrite IH]. Qed.

Lemma nlmap_id : nlmap (fun c => c).
Proof. intros c; auto. Qed.

Lemma nlmap_repl : nlmap repl_nl.
Proof.
  intros c. unfold repl_nl. destruct (code c =? 10)%N eqn:E; [|auto].
  right. apply N.eqb_eq, code_inj in E. auto.
Qed.

Lemma nlmap_solid f c : nlmap f -> is_ws c = false -> f c = c.
Proof. intros Hf Hc. destruct (Hf c) as [H|[-> _]]; [exact H|discriminate Hc]. Qed.

Lemma nlmap_32 f c : nlmap f -> (32 <= code c)%N -> f c = c.
Proof. intros Hf Hc. destruct (Hf c) as [H|[-> _]]; [exact H|cbn in Hc; lia]. Qed.

Lemma nlmap_ws f c : nlmap f -> is_ws (f c) = is_ws c.
Proof. intros Hf. destruct (Hf c) as [->|[-> ->]]; reflexivity. Qed.

(** White-space prefix. *)
Lemma skip_ws_split s : exists w, s = w +++ skip_ws s /\ str_forall is_ws w = true.
Proof.
  induction s as [|c s (w & E & Hw)]; cbn.
  - exists EmptyString. auto.
  - destruct (is_ws c) eqn:Ec.
    + exists (String c w). cbn. rewrite Ec. split; [now f_equal|exact Hw].
    + exists EmptyString. auto.
Qed.

Lemma skip_ws_app_ws f w X : nlmap f -> str_forall is_ws w = true -> skip_ws (smap f w +++ X) = skip_ws X.
Proof.
  intros Hf. induction w as [|c w IH]; cbn; [reflexivity|].
  rewrite andb_true_iff. intros [Hc Hw]. rewrite nlmap_ws, Hc by auto. auto.
Qed.

Lemma stop_ws_app f w X : nlmap f -> str_forall is_ws w = true -> stop X = true -> stop (smap f w +++ X) = true.
Proof.
  intros Hf Hw HX. destruct w as [|c w]; [exact HX|]. cbn in Hw. apply andb_true_iff in Hw as [Hc _].
  rewrite <- (nlmap_ws f c Hf) in Hc. cbn [smap String.append]. revert Hc. generalize (f c). intros a.
  unfold stop, is_ws. destruct a as [[] [] [] [] [] [] [] []]; intros H; try discriminate H; reflexivity.
Qed.

(** Tail replacement for string bodies. *)
Lemma utf8_size_map f s : nlmap f -> utf8_size (smap f s) = utf8_size s.
Proof.
  intros Hf. destruct s as [|a r]; [reflexivity|]. cbn [smap].
  destruct (Hf a) as [->|[-> ->]]; [|reflexivity].
  assert (forall lo hi c, (11 <= lo)%N -> (33 <= lo)%N -> between lo hi (f c) = between lo hi c) as B.
  { intros lo hi c Hl Hl'. destruct (Hf c) as [->|[-> ->]]; [reflexivity|]. unfold between.
    cbn [code]. change (code (chr 32)) with 32%N. change (code (chr 10)) with 10%N.
    destruct (lo <=? 32)%N eqn:?; [lia|]. destruct (lo <=? 10)%N eqn:?; [lia|]. reflexivity. }
  destruct r as [|b [|c [|d r]]]; cbn [smap utf8_size]; repeat rewrite B by (try destruct (_ =? _)%N; lia); reflexivity.
Qed.

Lemma between_map f lo hi c : nlmap f -> (33 <= lo)%N -> between lo hi (f c) = between lo hi c.
Proof.
  intros Hf Hl. destruct (Hf c) as [->|[-> ->]]; [reflexivity|]. unfold between.
  change (code (chr 32)) with 32%N. change (code (chr 10)) with 10%N.
  destruct (lo <=? 32)%N eqn:?; [lia|]. destruct (lo <=? 10)%N eqn:?; [lia|]. reflexivity.
Qed.

Lemma between_dq lo hi : (35 <= lo)%N -> between lo hi dq = false.
Proof.
  intros H. unfold between. change (code dq) with 34%N.
  destruct (lo <=? 34)%N eqn:?; [lia|]. reflexivity.
Qed.

Lemma utf8_size_tail f a c t t' : nlmap f ->
  utf8_size (String a (smap f c +++ String dq t')) = utf8_size (String a (c +++ String dq t)).
Proof.
  intros Hf. destruct c as [|x [|y [|z c]]]; cbn [smap String.append utf8_size];
  repeat rewrite (between_map f) by (auto; repeat destruct (_ =? _)%N; lia);
  repeat rewrite between_dq by (repeat destruct (_ =? _)%N; lia);
  rewrite ?andb_false_r; cbn [andb];
  try reflexivity.
  - destruct (code a <? 128)%N; [reflexivity|]. destruct (between 194 223 a); [reflexivity|].
    destruct t as [|? [|? ?]], t' as [|? [|? ?]]; reflexivity.
  - destruct (code a <? 128)%N; [reflexivity|]. destruct (between 194 223 a); [reflexivity|].
    destruct (between 224 239 a); [reflexivity|].
    destruct (between 240 244 a); [|reflexivity].
    destruct t as [|? ?], t' as [|? ?]; reflexivity.
Qed.

(** The surrogate look-ahead of [pstr], as a function. *)
Definition look (x : N) (r2 : string) : option (N * string) :=
  match r2 with
  | String e1 (String e2 (String g1 (String g2 (String g3 (String g4 r3))))) =>
    if Ascii.eqb e1 bsl && Ascii.eqb e2 "u"%char then
      match hex4 g1 g2 g3 g4 with
      | Some y => match surrogate_pair x y with Some z => Some (z, r3) | None => None end
      | None => None
      end
    else None
  | _ => None
  end.

Lemma look_eq x r2 :
  (match r2 with
   | String e1 (String e2 (String g1 (String g2 (String g3 (String g4 r3))))) =>
     if Ascii.eqb e1 bsl && Ascii.eqb e2 "u"%char then
       match hex4 g1 g2 g3 g4 with
       | Some y =>
         match surrogate_pair x y with
         | Some z => addl (utf8_encode z) (pstr r3)
         | None => addl fffd (pstr r2)
         end
       | None => addl fffd (pstr r2)
       end
     else addl fffd (pstr r2)
   | _ => addl fffd (pstr r2)
   end) =
  match look x r2 with
  | Some (z, r3) => addl (utf8_encode z) (pstr r3)
  | None => addl fffd (pstr r2)
  end.
Proof.
  unfold look. destruct r2 as [|e1 [|e2 [|g1 [|g2 [|g3 [|g4 r3]]]]]]; try reflexivity.
  destruct (Ascii.eqb e1 bsl && Ascii.eqb e2 "u"%char); [|reflexivity].
  destruct (hex4 g1 g2 g3 g4); [|reflexivity]. destruct (surrogate_pair x n); reflexivity.
Qed.

Lemma pstr_u h1 h2 h3 h4 r2 :
  pstr (String bsl (String "u"%char (String h1 (String h2 (String h3 (String h4 r2)))))) =
  match hex4 h1 h2 h3 h4 with
  | None => None
  | Some x =>
    if is_surrogate x then
      match look x r2 with
      | Some (z, r3) => addl (utf8_encode z) (pstr r3)
      | None => addl fffd (pstr r2)
      end
    else addl (utf8_encode x) (pstr r2)
  end.
Proof.
  transitivity (match hex4 h1 h2 h3 h4 with
  | None => None
  | Some x =>
    if is_surrogate x then
      match r2 with
      | String e1 (String e2 (String g1 (String g2 (String g3 (String g4 r3))))) =>
        if Ascii.eqb e1 bsl && Ascii.eqb e2 "u"%char then
          match hex4 g1 g2 g3 g4 with
          | Some y =>
            match surrogate_pair x y with
            | Some z => addl (utf8_encode z) (pstr r3)
            | None => addl fffd (pstr r2)
            end
          | None => addl fffd (pstr r2)
          end
        else addl fffd (pstr r2)
      | _ => addl fffd (pstr r2)
      end
    else addl (utf8_encode x) (pstr r2)
  end); [reflexivity|].
  destruct (hex4 h1 h2 h3 h4) as [x|]; [|reflexivity].
  destruct (is_surrogate x); [apply look_eq|reflexivity].
Qed.

Lemma hexval_map f c : nlmap f -> hexval (f c) = hexval c.
Proof. intros Hf. destruct (Hf c) as [->|[-> ->]]; reflexivity. Qed.

Lemma eqb_map f c d : nlmap f -> (32 < code d)%N -> Ascii.eqb (f c) d = Ascii.eqb c d.
Proof.
  intros Hf Hd. destruct (Hf c) as [->|[-> ->]]; [reflexivity|].
  destruct (Ascii.eqb_spec (chr 32) d) as [<-|_]; [cbn in Hd; lia|].
  destruct (Ascii.eqb_spec (chr 10) d) as [<-|_]; [cbn in Hd; lia|]. reflexivity.
Qed.

Lemma look_tail f x c t t' : nlmap f -> look x (c +++ String dq t) = None ->
  look x (smap f c +++ String dq t') = None.
Proof.
  intros Hf.
  destruct c as [|e1 [|e2 [|g1 [|g2 [|g3 [|g4 r3]]]]]]; cbn [smap String.append look].
  - intros _. destruct t' as [|? [|? [|? [|? [|? ?]]]]]; reflexivity.
  - intros _. rewrite andb_false_r. destruct t' as [|? [|? [|? [|? ?]]]]; reflexivity.
  - intros _. destruct t' as [|? [|? [|? ?]]]; try reflexivity.
    destruct (_ && _); reflexivity.
  - intros _. destruct t' as [|? [|? ?]]; try reflexivity.
    destruct (_ && _); [|reflexivity]. unfold hex4. change (hexval dq) with (@None N).
    destruct (hexval (f g1)); reflexivity.
  - intros _. destruct t' as [|? ?]; try reflexivity.
    destruct (_ && _); [|reflexivity]. unfold hex4. change (hexval dq) with (@None N).
    destruct (hexval (f g1)), (hexval (f g2)); reflexivity.
  - intros _.
    destruct (_ && _); [|reflexivity]. unfold hex4. change (hexval dq) with (@None N).
    destruct (hexval (f g1)), (hexval (f g2)), (hexval (f g3)); reflexivity.
  - unfold hex4. rewrite !hexval_map, !eqb_map by (auto; cbn; lia).
    destruct (_ && _); [|reflexivity].
    destruct (hexval g1), (hexval g2), (hexval g3), (hexval g4); try reflexivity.
    destruct (surrogate_pair _ _); [discriminate|reflexivity].
Qed.

Lemma hexval_32 c n : hexval c = Some n -> (32 <= code c)%N.
Proof.
  unfold hexval. intros H.
  destruct ((48 <=? code c) && (code c <=? 57))%N eqn:E1; [lia|].
  destruct ((97 <=? code c) && (code c <=? 102))%N eqn:E2; [lia|].
  destruct ((65 <=? code c) && (code c <=? 70))%N eqn:E3; [lia|discriminate].
Qed.

Lemma hex4_fix f a b c d n : nlmap f -> hex4 a b c d = Some n ->
  f a = a /\ f b = b /\ f c = c /\ f d = d.
Proof.
  intros Hf. unfold hex4.
  destruct (hexval a) eqn:Ea; [|discriminate]. destruct (hexval b) eqn:Eb; [|discriminate].
  destruct (hexval c) eqn:Ec; [|discriminate]. destruct (hexval d) eqn:Ed; [|discriminate].
  apply hexval_32 in Ea, Eb, Ec, Ed. intros _. repeat split; apply nlmap_32; auto.
Qed.

Lemma simple_escape_32 e c : simple_escape e = Some c -> (32 <= code e)%N.
Proof.
  unfold simple_escape.
  destruct e as [[] [] [] [] [] [] [] []]; cbn; intros H; try discriminate H; lia.
Qed.

Lemma pstr_tail s x t : pstr s = Some (x, t) ->
  exists c, s = c +++ String dq t /\
    forall f t', nlmap f -> pstr (smap f c +++ String dq t') = Some (x, t').
Proof.
  revert x t. induction s as [s IH] using str_len_ind. intros x t H.
  destruct (uview_all s) as [|a r Ha Hsz|a b r Ha Hb Hsz|a b c r Ha Hb Hc Hsz|a b c d r Ha Hb Hc Hd Hsz|a r Ha Hsz].
  - discriminate.
  - cbn [pstr] in H. destruct (Ascii.eqb a dq) eqn:E1.
    { apply Ascii.eqb_eq in E1. subst a. injection H as <- <-.
      exists EmptyString. split; [reflexivity|]. intros; reflexivity. }
    destruct (Ascii.eqb a bsl) eqn:E2.
    2:{ destruct (code a <? 32)%N eqn:E3; [discriminate|]. rewrite Hsz in H.
        apply addl_inv in H as (y & Hy & ->). destruct (IH r ltac:(cbn; lia) _ _ Hy) as (c & -> & Hf).
        exists (String a c). split; [reflexivity|]. intros f t' Hnl.
        cbn [smap]. rewrite nlmap_32 by (auto; lia). cbn [String.append pstr].
        rewrite E1, E2, E3, (utf8_size_tail f a c t t' Hnl), Hsz, Hf by auto. reflexivity. }
    destruct r as [|e r1]; [discriminate|].
    assert (forall f, nlmap f -> f a = a) as Fa.
    { intros f Hf. apply nlmap_32; auto. apply Ascii.eqb_eq in E2. subst. cbn. lia. }
    destruct (simple_escape e) as [c|] eqn:Ee.
    { apply addl_inv in H as (y & Hy & ->).
      destruct (IH r1 ltac:(cbn; lia) _ _ Hy) as (c0 & -> & Hf).
      exists (String a (String e c0)). split; [reflexivity|]. intros f t' Hnl.
      pose proof (simple_escape_32 _ _ Ee) as E32.
      cbn [smap]. rewrite Fa, (nlmap_32 f e) by auto. cbn [String.append pstr].
      rewrite E1, E2, Ee, Hf by auto. reflexivity. }
    destruct (Ascii.eqb e "u"%char) eqn:Eu; [|discriminate].
    assert (forall f, nlmap f -> f e = e) as Fe.
    { intros f Hf. apply nlmap_32; auto. apply Ascii.eqb_eq in Eu. subst. cbn. lia. }
    destruct r1 as [|h1 [|h2 [|h3 [|h4 r2]]]]; try discriminate.
    destruct (hex4 h1 h2 h3 h4) as [n|] eqn:Eh; [|discriminate].
    destruct (is_surrogate n) eqn:En.
    2:{ apply addl_inv in H as (y & Hy & ->).
        destruct (IH r2 ltac:(cbn; lia) _ _ Hy) as (c0 & -> & Hf).
        exists (String a (String e (String h1 (String h2 (String h3 (String h4 c0)))))).
        split; [reflexivity|]. intros f t' Hnl.
        destruct (hex4_fix f _ _ _ _ _ Hnl Eh) as (F1 & F2 & F3 & F4).
        cbn [smap]. rewrite Fa, Fe, F1, F2, F3, F4 by auto. cbn [String.append].
        apply eqb_char in E2, Eu. subst a e.
        rewrite pstr_u, Eh, En, Hf by auto. reflexivity. }
    rewrite look_eq in H.
    destruct (look n r2) as [[z r3]|] eqn:El.
    + unfold look in El.
      destruct r2 as [|e1 [|e2 [|g1 [|g2 [|g3 [|g4 r3']]]]]]; try discriminate.
      destruct (Ascii.eqb e1 bsl && Ascii.eqb e2 "u"%char) eqn:E12; [|discriminate].
      destruct (hex4 g1 g2 g3 g4) as [y0|] eqn:Eg; [|discriminate].
      destruct (surrogate_pair n y0) as [z'|] eqn:Ez; [|discriminate]. injection El as -> ->.
      apply addl_inv in H as (y & Hy & ->).
      destruct (IH r3 ltac:(cbn; lia) _ _ Hy) as (c0 & -> & Hf).
      exists (String a (String e (String h1 (String h2 (String h3 (String h4
               (String e1 (String e2 (String g1 (String g2 (String g3 (String g4 c0)))))))))))).
      split; [reflexivity|]. intros f t' Hnl.
      destruct (hex4_fix f _ _ _ _ _ Hnl Eh) as (F1 & F2 & F3 & F4).
      destruct (hex4_fix f _ _ _ _ _ Hnl Eg) as (G1 & G2 & G3 & G4).
      assert (f e1 = e1 /\ f e2 = e2) as [G5 G6].
      { apply andb_true_iff in E12 as [Q1 Q2]. apply Ascii.eqb_eq in Q1, Q2. subst.
        split; apply nlmap_32; auto; cbn; lia. }
      cbn [smap]. rewrite Fa, Fe, F1, F2, F3, F4, G1, G2, G3, G4, G5, G6 by auto.
      apply eqb_char in E2, Eu. subst a e. cbn [String.append].
      rewrite pstr_u, Eh, En. cbn [look]. rewrite E12, Eg, Ez, Hf by auto. reflexivity.
    + apply addl_inv in H as (y & Hy & ->).
      destruct (IH r2 ltac:(cbn; lia) _ _ Hy) as (c0 & -> & Hf).
      exists (String a (String e (String h1 (String h2 (String h3 (String h4 c0)))))).
      split; [reflexivity|]. intros f t' Hnl.
      destruct (hex4_fix f _ _ _ _ _ Hnl Eh) as (F1 & F2 & F3 & F4).
      cbn [smap]. rewrite Fa, Fe, F1, F2, F3, F4 by auto. cbn [String.append].
      apply eqb_char in E2, Eu. subst a e.
      rewrite pstr_u, Eh, En. rewrite (look_tail f n c0 t t' Hnl El), Hf by auto. reflexivity.
  - apply between_spec in Ha, Hb. rewrite pstr_2 in H by (auto; lia).
    apply addl_inv in H as (y & Hy & ->). destruct (IH r ltac:(cbn; lia) _ _ Hy) as (c0 & -> & Hf).
    exists (String a (String b c0)). split; [reflexivity|]. intros f t' Hnl.
    cbn [smap]. rewrite (nlmap_32 f a), (nlmap_32 f b) by (auto; lia).
    cbn [String.append]. rewrite pstr_2, Hf by (auto; lia). reflexivity.
  - apply between_spec in Ha, Hb, Hc. rewrite pstr_3 in H by (auto; lia).
    apply addl_inv in H as (y & Hy & ->). destruct (IH r ltac:(cbn; lia) _ _ Hy) as (c0 & -> & Hf).
    exists (String a (String b (String c c0))). split; [reflexivity|]. intros f t' Hnl.
    cbn [smap]. rewrite (nlmap_32 f a), (nlmap_32 f b), (nlmap_32 f c) by (auto; lia).
    cbn [String.append]. rewrite pstr_3, Hf by (auto; lia). reflexivity.
  - apply between_spec in Ha, Hb, Hc, Hd. rewrite pstr_4 in H by (auto; lia).
    apply addl_inv in H as (y & Hy & ->). destruct (IH r ltac:(cbn; lia) _ _ Hy) as (c0 & -> & Hf).
    exists (String a (String b (String c (String d c0)))). split; [reflexivity|]. intros f t' Hnl.
    cbn [smap]. rewrite (nlmap_32 f a), (nlmap_32 f b), (nlmap_32 f c), (nlmap_32 f d) by (auto; lia).
    cbn [String.append]. rewrite pstr_4, Hf by (auto; lia). reflexivity.
  - destruct (ge32_head a ltac:(lia)) as (E1 & E2 & E3).
    cbn [pstr] in H. rewrite E1, E2, E3, Hsz in H.
    apply addl_inv in H as (y & Hy & ->). destruct (IH r ltac:(cbn; lia) _ _ Hy) as (c0 & -> & Hf).
    exists (String a c0). split; [reflexivity|]. intros f t' Hnl.
    cbn [smap]. rewrite nlmap_32 by (auto; lia). cbn [String.append pstr].
    rewrite E1, E2, E3, (utf8_size_tail f a c0 t t' Hnl), Hsz, Hf by auto. reflexivity.
Qed.

(** Numbers and literals contain no white space. *)
Lemma smap_no_ws f s : nlmap f -> str_forall (fun c => negb (is_ws c)) s = true -> smap f s = s.
Proof.
  intros Hf. induction s as [|c s IH]; [reflexivity|]. cbn. rewrite andb_true_iff, negb_true_iff.
  intros [Hc Hs]. rewrite nlmap_solid, IH by auto. reflexivity.
Qed.

Definition numchar (c : ascii) : bool :=
  is_digit c || Ascii.eqb c "."%char || Ascii.eqb c "e"%char || Ascii.eqb c "E"%char
  || Ascii.eqb c "+"%char || Ascii.eqb c "-"%char.

Lemma span_digits_chars s d t : span_digits s = (d, t) -> str_forall is_digit d = true.
Proof.
  revert d t. induction s as [|c s IH]; intros d t; cbn.
  - intros H; injection H as <- <-. reflexivity.
  - destruct (is_digit c) eqn:E.
    + destruct (span_digits s) as [d' t'] eqn:E'. intros H; injection H as <- <-. cbn.
      rewrite E. eapply IH. reflexivity.
    + intros H; injection H as <- <-. reflexivity.
Qed.

Lemma digits_numchars d : str_forall is_digit d = true -> str_forall numchar d = true.
Proof.
  induction d as [|c d IH]; [reflexivity|]. cbn. rewrite !andb_true_iff. intros [H1 H2].
  unfold numchar. rewrite H1. auto.
Qed.

Lemma pnum_chars s x t : pnum s = Some (x, t) -> str_forall numchar x = true.
Proof.
  assert (forall s i t, pint s = Some (i, t) -> str_forall numchar i = true) as PI.
  { clear. intros s i t H. destruct s as [|c s]; [discriminate|]. cbn in H.
    destruct (Ascii.eqb c "0"%char); [injection H as <- <-; reflexivity|].
    destruct (is_digit c) eqn:Ed; [|discriminate]. destruct (span_digits s) as [d t'] eqn:E.
    injection H as <- <-. apply span_digits_chars, digits_numchars in E. cbn. unfold numchar at 1.
    rewrite Ed. exact E. }
  assert (forall s i t, pfrac s = Some (i, t) -> str_forall numchar i = true) as PF.
  { clear. intros s i t H. destruct s as [|c s]; cbn in H; [injection H as <- <-; reflexivity|].
    destruct (Ascii.eqb c "."%char) eqn:E0; [|injection H as <- <-; reflexivity].
    destruct (span_digits s) as [d t'] eqn:E. destruct d as [|c' d]; [discriminate|].
    injection H as <- <-. apply span_digits_chars, digits_numchars in E. cbn in *. unfold numchar at 1.
    rewrite E0. rewrite orb_true_r. exact E. }
  assert (forall s i t, pexp s = Some (i, t) -> str_forall numchar i = true) as PE.
  { clear. intros s i t H. destruct s as [|c s]; cbn in H; [injection H as <- <-; reflexivity|].
    destruct (Ascii.eqb c "e"%char || Ascii.eqb c "E"%char) eqn:E0; [|injection H as <- <-; reflexivity].
    destruct s as [|c1 s]; [discriminate|].
    assert (numchar c = true) as Nc.
    { unfold numchar. apply orb_true_iff in E0 as [E0|E0]; rewrite E0; rewrite ?orb_true_r; reflexivity. }
    destruct (Ascii.eqb c1 "+"%char || Ascii.eqb c1 "-"%char) eqn:E1.
    - destruct (span_digits s) as [d t'] eqn:E. destruct d as [|c' d]; [discriminate|].
      injection H as <- <-. apply span_digits_chars, digits_numchars in E.
      cbn [str_forall String.append str1]. rewrite Nc.
      assert (numchar c1 = true) as ->; [|exact E].
      unfold numchar. apply orb_true_iff in E1 as [E1|E1]; rewrite E1; rewrite ?orb_true_r; reflexivity.
    - destruct (span_digits (String c1 s)) as [d t'] eqn:E. destruct d as [|c' d]; [discriminate|].
      injection H as <- <-. apply span_digits_chars, digits_numchars in E.
      cbn [str_forall String.append]. rewrite Nc. exact E. }
  intros H. unfold pnum in H. destruct s as [|c s]; [discriminate H|].
  destruct (Ascii.eqb c "-"%char) eqn:Ec.
  - destruct (pint s) as [[i s2]|] eqn:E1; [|discriminate].
    destruct (pfrac s2) as [[f s3]|] eqn:E2; [|discriminate].
    destruct (pexp s3) as [[e' s4]|] eqn:E3; [|discriminate]. injection H as <- <-.
    cbn [str_forall String.append str1]. rewrite !str_forall_app, (PI _ _ _ E1), (PF _ _ _ E2), (PE _ _ _ E3).
    apply Ascii.eqb_eq in Ec. subst. reflexivity.
  - destruct (pint (String c s)) as [[i s2]|] eqn:E1; [|discriminate].
    destruct (pfrac s2) as [[f s3]|] eqn:E2; [|discriminate].
    destruct (pexp s3) as [[e' s4]|] eqn:E3; [|discriminate]. injection H as <- <-.
    rewrite !str_forall_app, (PI _ _ _ E1), (PF _ _ _ E2), (PE _ _ _ E3). reflexivity.
Qed.

Lemma numchars_no_ws s : str_forall numchar s = true -> str_forall (fun c => negb (is_ws c)) s = true.
Proof.
  induction s as [|c s IH]; [reflexivity|]. cbn [str_forall]. rewrite !andb_true_iff. intros [H1 H2].
  split; [|auto]. revert H1. clear. destruct c as [[] [] [] [] [] [] [] []]; intros H; try discriminate H; reflexivity.
Qed.

Lemma numchars_solid s : s <> EmptyString -> str_forall numchar s = true -> ends_solid s = true.
Proof.
  induction s as [|c s IH]; [congruence|]. intros _. cbn [str_forall]. rewrite !andb_true_iff.
  intros [H1 H2]. destruct s as [|d s].
  - revert H1. clear. cbn. destruct c as [[] [] [] [] [] [] [] []]; intros H; try discriminate H; reflexivity.
  - change (ends_solid (String c (String d s))) with (ends_solid (String d s)). apply IH; [discriminate|auto].
Qed.

Definition Tail {A} (p : string -> option (A * string)) (s : string) (x : A) (t : string) : Prop :=
  exists c, s = c +++ t /\ ends_solid c = true /\
    forall f t', nlmap f -> stop t' = true -> p (smap f c +++ t') = Some (x, t').

Lemma stop_dq t : stop (String dq t) = true.
Proof. reflexivity. Qed.

Lemma strip_cat p s t : strip p s = Some t -> s = p +++ t.
Proof.
  revert s. induction p as [|a p IH]; intros s; cbn.
  - intros H; injection H as <-. reflexivity.
  - destruct s as [|b s]; [discriminate|]. destruct (Ascii.eqb_spec a b) as [->|]; [|discriminate].
    intros H. f_equal. auto.
Qed.


Lemma tail_all n :
  (forall s j t, pval n s = Some (j, t) -> Tail (pval n) s j t) /\
  (forall s l t, pelems n s = Some (l, t) -> Tail (pelems n) s l t) /\
  (forall s l t, pmembers n s = Some (l, t) -> Tail (pmembers n) s l t).
Proof.
  induction n as [|n (IHv & IHe & IHm)].
  { split; [|split]; intros s j t H; cbn in H; discriminate. }
  split; [|split].
  - intros s j t H. rewrite pval_S in H.
    destruct (skip_ws_split s) as (w & Es & Hw).
    (* reduce to a tail after the white space *)
    assert (forall core, skip_ws s = core +++ t -> ends_solid core = true ->
       (forall f t', nlmap f -> stop t' = true ->
          pval (S n) (smap f core +++ t') = Some (j, t')) -> Tail (pval (S n)) s j t) as K.
    { intros core Ec Hs Hf. exists (w +++ core). rewrite sapp_assoc, <- Ec, <- Es.
      split; [reflexivity|]. split; [now apply ends_solid_app|].
      intros f t' Hnl Hst. rewrite smap_app, sapp_assoc.
      specialize (Hf f t' Hnl Hst). rewrite pval_S in *. rewrite skip_ws_app_ws by auto. exact Hf. }
    assert (forall s', is_ws (match s' with String c _ => c | _ => "x"%char end) = false -> skip_ws s' = s') as SK.
    { intros [|c r]; [reflexivity|]. apply skip_ws_nws. }
    destruct (skip_ws s) as [|a r] eqn:Esk; [discriminate|].
    destruct (Ascii.eqb a dq) eqn:Ea.
    { apply eqb_char in Ea. subst a.
      destruct (pstr r) as [[x u]|] eqn:E; [|discriminate]. injection H as <- <-.
      apply pstr_tail in E as (c & -> & Hf).
      apply (K (String dq (c +++ str1 dq))).
      - cbn. now rewrite sapp_assoc.
      - change (String dq (c +++ str1 dq)) with (String dq c +++ str1 dq). now apply ends_solid_app.
      - intros f t' Hnl Hst. cbn [smap]. rewrite nlmap_32 by (auto; cbn; lia).
        rewrite smap_app. cbn [smap str1]. rewrite (nlmap_32 f dq) by (auto; cbn; lia).
        cbn [String.append]. rewrite sapp_assoc. cbn [String.append].
        rewrite pval_S, skip_ws_nws by reflexivity. change (Ascii.eqb dq dq) with true. cbv iota.
        rewrite Hf by auto. reflexivity. }
    destruct (Ascii.eqb a "["%char) eqn:Eb.
    { apply eqb_char in Eb. subst a.
      destruct (skip_ws_split r) as (w1 & Er & Hw1).
      destruct (skip_ws r) as [|b r'] eqn:Esr; [discriminate|].
      destruct (Ascii.eqb b "]"%char) eqn:Eb.
      - apply eqb_char in Eb. subst b. injection H as <- <-. rewrite Er in K.
        apply (K (String "["%char (w1 +++ "]"))).
        + cbn. now rewrite sapp_assoc.
        + change (String "["%char (w1 +++ "]")) with (String "["%char w1 +++ "]"). now apply ends_solid_app.
        + intros f t' Hnl Hst. cbn [smap]. rewrite nlmap_32 by (auto; cbn; lia).
          rewrite smap_app. cbn [smap]. rewrite (nlmap_32 f "]"%char) by (auto; cbn; lia).
          cbn [String.append]. rewrite sapp_assoc. cbn [String.append].
          rewrite pval_S, skip_ws_nws by reflexivity.
          change (Ascii.eqb "[" dq) with false. change (Ascii.eqb "[" "[") with true. cbv iota.
          rewrite skip_ws_app_ws by auto. reflexivity.
      - destruct (pelems n r) as [[l u]|] eqn:E; [|discriminate]. injection H as <- <-.
        apply IHe in E as (c & Ec & Hsol & Hf).
        apply (K (String "["%char c)).
        + cbn. now f_equal.
        + destruct c; [discriminate Hsol|]. exact Hsol.
        + intros f t' Hnl Hst. cbn [smap]. rewrite nlmap_32 by (auto; cbn; lia).
          cbn [String.append].
          rewrite pval_S, skip_ws_nws by reflexivity.
          change (Ascii.eqb "[" dq) with false. change (Ascii.eqb "[" "[") with true. cbv iota.
          rewrite Hf by auto.
          (* the first non-space char is b again *)
          assert (exists r'', skip_ws (smap f c +++ t') = String b r'') as [r'' ->].
          { subst r. clear -Esr Hnl Hsol Er Hw1.
            assert (is_ws b = false) as Hb.
            { clear -Esr. revert Esr. generalize (c +++ u) as q. induction q as [|x q IH]; cbn; [discriminate|].
              destruct (is_ws x) eqn:E; [auto|]. intros H. injection H as -> _. exact E. }
            clear Er Hw1 w1. revert Esr Hsol. induction c as [|x c IH]; [discriminate|].
            intros Esr Hsol. cbn in Esr |- *. rewrite nlmap_ws by auto. destruct (is_ws x) eqn:Ex.
            - destruct c as [|y c].
              + exfalso. revert Hsol Ex. clear. cbn. unfold is_ws.
                intros H1 H2. apply andb_true_iff in H1 as [_ H1]. apply N.ltb_lt in H1. lia.
              + apply IH; auto.
            - injection Esr as -> _. rewrite nlmap_solid by auto. eauto. }
          rewrite Eb. reflexivity. }
    destruct (Ascii.eqb a "{"%char) eqn:Ec0.
    { apply eqb_char in Ec0. subst a. clear Eb.
      destruct (skip_ws_split r) as (w1 & Er & Hw1).
      destruct (skip_ws r) as [|b r'] eqn:Esr; [discriminate|].
      destruct (Ascii.eqb b "}"%char) eqn:Eb.
      - apply eqb_char in Eb. subst b. injection H as <- <-. rewrite Er in K.
        apply (K (String "{"%char (w1 +++ "}"))).
        + cbn. now rewrite sapp_assoc.
        + change (String "{"%char (w1 +++ "}")) with (String "{"%char w1 +++ "}"). now apply ends_solid_app.
        + intros f t' Hnl Hst. cbn [smap]. rewrite nlmap_32 by (auto; cbn; lia).
          rewrite smap_app. cbn [smap]. rewrite (nlmap_32 f "}"%char) by (auto; cbn; lia).
          cbn [String.append]. rewrite sapp_assoc. cbn [String.append].
          rewrite pval_S, skip_ws_nws by reflexivity.
          change (Ascii.eqb "{" dq) with false. change (Ascii.eqb "{" "[") with false.
          change (Ascii.eqb "{" "{") with true. cbv iota.
          rewrite skip_ws_app_ws by auto. reflexivity.
      - destruct (pmembers n r) as [[l u]|] eqn:E; [|discriminate]. injection H as <- <-.
        apply IHm in E as (c & Ec & Hsol & Hf).
        apply (K (String "{"%char c)).
        + cbn. now f_equal.
        + destruct c; [discriminate Hsol|]. exact Hsol.
        + intros f t' Hnl Hst. cbn [smap]. rewrite nlmap_32 by (auto; cbn; lia).
          cbn [String.append].
          rewrite pval_S, skip_ws_nws by reflexivity.
          change (Ascii.eqb "{" dq) with false. change (Ascii.eqb "{" "[") with false.
          change (Ascii.eqb "{" "{") with true. cbv iota.
          rewrite Hf by auto.
          assert (exists r'', skip_ws (smap f c +++ t') = String b r'') as [r'' ->].
          { subst r. clear -Esr Hnl Hsol Er Hw1.
            clear Er Hw1 w1. revert Esr Hsol. induction c as [|x c IH]; [discriminate|].
            intros Esr Hsol. cbn in Esr |- *. rewrite nlmap_ws by auto. destruct (is_ws x) eqn:Ex.
            - destruct c as [|y c].
              + exfalso. revert Hsol Ex. clear. cbn. unfold is_ws.
                intros H1 H2. apply andb_true_iff in H1 as [_ H1]. apply N.ltb_lt in H1. lia.
              + apply IH; auto.
            - injection Esr as -> _. rewrite nlmap_solid by auto. eauto. }
          rewrite Eb. reflexivity. }
    assert (forall c0 p jj, a = c0 -> (32 < code c0)%N -> (forall f, nlmap f -> smap f p = p) ->
              ends_solid (String c0 p) = true ->
              plit p jj r = Some (j, t) ->
              (forall X, pval (S n) (String c0 (p +++ X)) = Some (jj, X)) ->
              Tail (pval (S n)) s j t) as KL.
    { intros c0 p jj -> H32 Hp Hsol Hl HX. unfold plit in Hl.
      destruct (strip p r) as [u|] eqn:Er; [|discriminate]. injection Hl as <- <-.
      apply strip_cat in Er. subst r.
      apply (K (String c0 p)); [reflexivity|exact Hsol|].
      intros f t' Hnl Hst. cbn [smap]. rewrite nlmap_32, Hp by (auto; lia). apply HX. }
    destruct (Ascii.eqb a "n"%char) eqn:En.
    { apply eqb_char in En. eapply (KL "n"%char "ull"%string JNull); auto; [cbn; lia|].
      intros f Hnl. apply smap_no_ws; auto. }
    destruct (Ascii.eqb a "t"%char) eqn:Et.
    { apply eqb_char in Et. eapply (KL "t"%char "rue"%string (JBool true)); auto; [cbn; lia|].
      intros f Hnl. apply smap_no_ws; auto. }
    destruct (Ascii.eqb a "f"%char) eqn:Ef.
    { apply eqb_char in Ef. eapply (KL "f"%char "alse"%string (JBool false)); auto; [cbn; lia|].
      intros f Hnl. apply smap_no_ws; auto. }
    destruct (pnum (String a r)) as [[l u]|] eqn:E; [|discriminate]. injection H as <- <-.
    pose proof (pnum_cat _ _ _ E) as Ecat. pose proof (pnum_chars _ _ _ E) as Ech.
    pose proof (pnum_self _ _ _ E) as Eself.
    assert (l <> EmptyString) as Hne.
    { intros ->. discriminate Eself. }
    apply (K l); [exact Ecat|now apply numchars_solid|].
    intros f t' Hnl Hst. rewrite smap_no_ws by (auto; now apply numchars_no_ws).
    apply is_num_spec in Eself. pose proof (pnum_app _ _ _ t' Eself Hst) as Hp.
    destruct l as [|a' l]; [congruence|]. assert (a' = a) as -> by (cbn in Ecat; congruence).
    cbn [String.append] in *. rewrite pval_S, skip_ws_nws.
    2:{ apply pnum_head in E. apply numhead_neq. unfold numhead. now apply orb_true_iff. }
    rewrite Ea, Eb, Ec0, En, Et, Ef, Hp. reflexivity.
  - intros s l t H. rewrite pelems_S in H.
    destruct (pval n s) as [[k u]|] eqn:E; [|discriminate]. apply IHv in E as (c1 & -> & Hs1 & Hf1).
    destruct (skip_ws_split u) as (w & Eu & Hw).
    destruct (skip_ws u) as [|c u'] eqn:Esk; [discriminate|].
    destruct (Ascii.eqb c ","%char) eqn:Ec.
    + apply eqb_char in Ec. subst c.
      destruct (pelems n u') as [[l' v]|] eqn:E1; [|discriminate]. injection H as <- <-.
      apply IHe in E1 as (c2 & -> & Hs2 & Hf2). rewrite Eu.
      exists (c1 +++ w +++ String ","%char c2).
      split; [now rewrite !sapp_assoc|]. split.
      { apply ends_solid_app, ends_solid_app. destruct c2; [discriminate Hs2|exact Hs2]. }
      intros f t' Hnl Hst. rewrite !smap_app, !sapp_assoc. cbn [smap]. rewrite nlmap_32 by (auto; cbn; lia).
      cbn [String.append]. rewrite pelems_S, Hf1; auto.
      2:{ apply stop_ws_app; auto. }
      rewrite skip_ws_app_ws, skip_ws_nws by auto. change (Ascii.eqb "," ",") with true. cbv iota.
      rewrite Hf2 by auto. reflexivity.
    + destruct (Ascii.eqb c "]"%char) eqn:Ec2; [|discriminate]. injection H as <- <-.
      apply eqb_char in Ec2. subst c. rewrite Eu.
      exists (c1 +++ w +++ "]").
      split; [now rewrite !sapp_assoc|]. split.
      { apply ends_solid_app, ends_solid_app. reflexivity. }
      intros f t' Hnl Hst. rewrite !smap_app, !sapp_assoc. cbn [smap]. rewrite nlmap_32 by (auto; cbn; lia).
      cbn [String.append]. rewrite pelems_S, Hf1; auto.
      2:{ apply stop_ws_app; auto. }
      rewrite skip_ws_app_ws, skip_ws_nws by auto. reflexivity.
  - intros s l t H. rewrite pmembers_S in H.
    destruct (skip_ws_split s) as (w0 & Es & Hw0).
    destruct (skip_ws s) as [|a r] eqn:Esk; [discriminate|].
    destruct (Ascii.eqb a dq) eqn:Ea; [|discriminate]. apply eqb_char in Ea. subst a.
    destruct (pstr r) as [[k u]|] eqn:E; [|discriminate]. apply pstr_tail in E as (cs & -> & Hfs).
    destruct (skip_ws_split u) as (w1 & Eu & Hw1).
    destruct (skip_ws u) as [|c u1] eqn:Esk1; [discriminate|].
    destruct (Ascii.eqb c ":"%char) eqn:Ec; [|discriminate]. apply eqb_char in Ec. subst c.
    destruct (pval n u1) as [[v u2]|] eqn:E1; [|discriminate]. apply IHv in E1 as (c1 & -> & Hs1 & Hf1).
    destruct (skip_ws_split u2) as (w2 & Eu2 & Hw2).
    destruct (skip_ws u2) as [|d u3] eqn:Esk2; [discriminate|].
    rewrite Es, Eu, Eu2.
    destruct (Ascii.eqb d ","%char) eqn:Ed.
    + apply eqb_char in Ed. subst d.
      destruct (pmembers n u3) as [[l' v']|] eqn:E2; [|discriminate]. injection H as <- <-.
      apply IHm in E2 as (c2 & -> & Hs2 & Hf2).
      exists (w0 +++ String dq (cs +++ String dq (w1 +++ String ":"%char (c1 +++ w2 +++ String ","%char c2)))).
      split.
      { rewrite !sapp_assoc. cbn [String.append]. rewrite !sapp_assoc. cbn [String.append].
        rewrite !sapp_assoc. cbn [String.append]. rewrite !sapp_assoc. reflexivity. }
      split.
      { apply ends_solid_app.
        change (String dq (cs +++ String dq (w1 +++ String ":"%char (c1 +++ w2 +++ String ","%char c2))))
          with (String dq cs +++ String dq (w1 +++ String ":"%char (c1 +++ w2 +++ String ","%char c2))).
        apply ends_solid_app.
        change (String dq (w1 +++ String ":"%char (c1 +++ w2 +++ String ","%char c2)))
          with (String dq w1 +++ String ":"%char (c1 +++ w2 +++ String ","%char c2)).
        apply ends_solid_app.
        change (String ":"%char (c1 +++ w2 +++ String ","%char c2))
          with (String ":"%char c1 +++ w2 +++ String ","%char c2).
        apply ends_solid_app, ends_solid_app. destruct c2; [discriminate Hs2|exact Hs2]. }
      intros f t' Hnl Hst.
      repeat (rewrite !smap_app; cbn [smap]).
      rewrite (nlmap_32 f dq), (nlmap_32 f ":"%char), (nlmap_32 f ","%char) by (auto; cbn; lia).
      repeat (rewrite !sapp_assoc; cbn [String.append]).
      rewrite pmembers_S, skip_ws_app_ws, skip_ws_nws by auto.
      change (Ascii.eqb dq dq) with true. cbv iota. rewrite Hfs by auto.
      rewrite skip_ws_app_ws, skip_ws_nws by auto. change (Ascii.eqb ":" ":") with true. cbv iota.
      rewrite Hf1; auto.
      2:{ apply stop_ws_app; auto. }
      rewrite skip_ws_app_ws, skip_ws_nws by auto. change (Ascii.eqb "," ",") with true. cbv iota.
      rewrite Hf2 by auto. reflexivity.
    + destruct (Ascii.eqb d "}"%char) eqn:Ed2; [|discriminate]. injection H as <- <-.
      apply eqb_char in Ed2. subst d.
      exists (w0 +++ String dq (cs +++ String dq (w1 +++ String ":"%char (c1 +++ w2 +++ "}")))).
      split.
      { rewrite !sapp_assoc. cbn [String.append]. rewrite !sapp_assoc. cbn [String.append].
        rewrite !sapp_assoc. cbn [String.append]. rewrite !sapp_assoc. reflexivity. }
      split.
      { apply ends_solid_app.
        change (String dq (cs +++ String dq (w1 +++ String ":"%char (c1 +++ w2 +++ "}"))))
          with (String dq cs +++ String dq (w1 +++ String ":"%char (c1 +++ w2 +++ "}"))).
        apply ends_solid_app.
        change (String dq (w1 +++ String ":"%char (c1 +++ w2 +++ "}")))
          with (String dq w1 +++ String ":"%char (c1 +++ w2 +++ "}")).
        apply ends_solid_app.
        change (String ":"%char (c1 +++ w2 +++ "}"))
          with (String ":"%char c1 +++ w2 +++ "}").
        apply ends_solid_app, ends_solid_app. reflexivity. }
      intros f t' Hnl Hst.
      repeat (rewrite !smap_app; cbn [smap]).
      rewrite (nlmap_32 f dq), (nlmap_32 f ":"%char), (nlmap_32 f "}"%char) by (auto; cbn; lia).
      repeat (rewrite !sapp_assoc; cbn [String.append]).
      rewrite pmembers_S, skip_ws_app_ws, skip_ws_nws by auto.
      change (Ascii.eqb dq dq) with true. cbv iota. rewrite Hfs by auto.
      rewrite skip_ws_app_ws, skip_ws_nws by auto. change (Ascii.eqb ":" ":") with true. cbv iota.
      rewrite Hf1; auto.
      2:{ apply stop_ws_app; auto. }
      rewrite skip_ws_app_ws, skip_ws_nws by auto. reflexivity.
Qed.

(** Trimming. *)

Lemma space_size_ws c r : is_ws c = true -> space_size (String c r) = 1.
Proof.
  intros H. cbn. destruct (between 9 13 c || (code c =? 32)%N) eqn:E; [reflexivity|].
  exfalso. revert H E. clear. destruct c as [[] [] [] [] [] [] [] []]; intros H E; discriminate.
Qed.

Lemma trim_left_ws w X : str_forall is_ws w = true -> trim_left (w +++ X) = trim_left X.
Proof.
  induction w as [|c w IH]; [reflexivity|]. cbn [str_forall String.append]. rewrite andb_true_iff.
  intros [Hc Hw]. cbn [trim_left]. rewrite space_size_ws by auto. auto.
Qed.

Lemma space_size_solid c r : (32 < code c)%N -> (code c < 128)%N -> space_size (String c r) = 0.
Proof.
  intros H1 H2. unfold space_size, between.
  destruct ((9 <=? code c) && (code c <=? 13) || (code c =? 32))%N eqn:E; [lia|].
  destruct r as [|b r]; [reflexivity|].
  destruct ((code c =? 194) && ((code b =? 133) || (code b =? 160)))%N eqn:E2; [lia|].
  destruct r as [|d r]; [reflexivity|].
  match goal with |- (if ?b then _ else _) = _ => destruct b eqn:E3; [exfalso; lia|reflexivity] end.
Qed.

(** A string ending in a solid byte followed by white space is not all space. *)
Lemma trim_left_solid_nonempty c X : ends_solid c = true -> trim_left (c +++ X) <> EmptyString.
Proof.
  revert X. induction c as [c IH] using str_len_ind. intros X Hs.
  destruct c as [|a r]; [discriminate|].
  destruct r as [|b r].
  { cbn in Hs. apply andb_true_iff in Hs as [H1 H2]. cbn [String.append trim_left].
    rewrite space_size_solid by lia. destruct X as [|? [|? ?]]; discriminate. }
  assert (ends_solid (String b r) = true) as Hs1 by exact Hs.
  cbn [String.append]. cbn [trim_left].
  destruct (space_size (String a (String b (r +++ X)))) as [|[|[|[|k]]]] eqn:E; try discriminate.
  - apply (IH (String b r) ltac:(cbn; lia) X Hs1).
  - destruct r as [|d r].
    + exfalso. cbn in Hs1. unfold space_size in E. unfold between in E.
      destruct ((9 <=? code a) && (code a <=? 13) || (code a =? 32))%N; [discriminate|].
      destruct ((code a =? 194) && ((code b =? 133) || (code b =? 160)))%N eqn:E2; [lia|].
      destruct (EmptyString +++ X) as [|? ?]; [discriminate|].
      match type of E with (if ?b then _ else _) = _ => destruct b; discriminate end.
    + apply (IH (String d r) ltac:(cbn; lia) X Hs1).
  - destruct r as [|d r].
    { exfalso. cbn in Hs1. unfold space_size in E. unfold between in E.
      destruct ((9 <=? code a) && (code a <=? 13) || (code a =? 32))%N; [discriminate|].
      destruct ((code a =? 194) && ((code b =? 133) || (code b =? 160)))%N eqn:E2; [lia|].
      cbn [String.append] in E. destruct X as [|? ?]; [discriminate|].
      match type of E with (if ?b then _ else _) = _ => destruct b eqn:E3; [lia|discriminate] end. }
    cbn [String.append].
    destruct r as [|e r].
    { exfalso. cbn in Hs1. unfold space_size in E. unfold between in E. cbn [String.append] in E.
      destruct ((9 <=? code a) && (code a <=? 13) || (code a =? 32))%N; [discriminate|].
      destruct ((code a =? 194) && ((code b =? 133) || (code b =? 160)))%N eqn:E2; [lia|].
      match type of E with (if ?b then _ else _) = _ => destruct b eqn:E3; [lia|discriminate] end. }
    apply (IH (String e r) ltac:(cbn; lia) X Hs1).
Qed.

Lemma trim_right_solid c w : ends_solid c = true -> str_forall is_ws w = true -> trim_right (c +++ w) = c.
Proof.
  intros Hs Hw.
  assert (trim_right w = EmptyString) as Tw.
  { destruct w as [|x w]; [reflexivity|]. cbn [trim_right].
    unfold all_space. rewrite <- (sapp_nil_r (String x w)), trim_left_ws by auto. reflexivity. }
  induction c as [|a c IH]; [discriminate|]. cbn [String.append trim_right].
  unfold all_space. pose proof (trim_left_solid_nonempty (String a c) w Hs) as Hne. cbn [String.append] in Hne.
  destruct (trim_left (String a (c +++ w))) eqn:E; [congruence|]. f_equal.
  destruct c as [|b c]; [exact Tw|]. apply IH. exact Hs.
Qed.

Lemma pval_skip n s : pval n s = pval n (skip_ws s).
Proof.
  destruct n as [|n]; [reflexivity|]. rewrite !pval_S.
  replace (skip_ws (skip_ws s)) with (skip_ws s); [reflexivity|].
  induction s as [|c s IH]; [reflexivity|]. cbn. destruct (is_ws c) eqn:E; [exact IH|]. cbn. now rewrite E.
Qed.

Lemma skip_ws_all w : skip_ws w = EmptyString -> str_forall is_ws w = true.
Proof.
  induction w as [|c w IH]; [reflexivity|]. cbn. destruct (is_ws c); [auto|discriminate].
Qed.

Lemma smap_ws f w : nlmap f -> str_forall is_ws w = true -> str_forall is_ws (smap f w) = true.
Proof.
  intros Hf. induction w as [|c w IH]; [reflexivity|]. cbn. rewrite nlmap_ws, !andb_true_iff by auto. intuition.
Qed.

(** The first byte of a value is an ASCII, non-space byte. *)
Lemma pval_first n a r j t : is_ws a = false -> pval n (String a r) = Some (j, t) ->
  (32 < code a)%N /\ (code a < 128)%N.
Proof.
  intros Hw H. destruct n as [|n]; [discriminate|]. rewrite pval_S, skip_ws_nws in H by auto.
  destruct (Ascii.eqb_spec a dq); [subst; cbn; lia|].
  destruct (Ascii.eqb_spec a "["%char); [subst; cbn; lia|].
  destruct (Ascii.eqb_spec a "{"%char); [subst; cbn; lia|].
  destruct (Ascii.eqb_spec a "n"%char); [subst; cbn; lia|].
  destruct (Ascii.eqb_spec a "t"%char); [subst; cbn; lia|].
  destruct (Ascii.eqb_spec a "f"%char); [subst; cbn; lia|].
  destruct (pnum (String a r)) as [[? ?]|] eqn:E; [|discriminate].
  apply pnum_head in E as [E|E].
  - apply Ascii.eqb_eq in E. subst. cbn. lia.
  - apply between_spec in E. lia.
Qed.

Theorem normalise_parse s j : parse s = Some j -> parse (normalise s) = Some j.
Proof.
  unfold parse at 1. set (N := 2 * String.length s + 2). intros H.
  destruct (pval N s) as [[k t]|] eqn:E; [|discriminate].
  destruct (skip_ws t) as [|? ?] eqn:Et; [|discriminate]. injection H as ->.
  apply skip_ws_all in Et.
  rewrite pval_skip in E.
  destruct (skip_ws_split s) as (w & Es & Hw).
  pose proof (proj1 (tail_all N) _ _ _ E) as (c & Ec & Hsol & Hf).
  pose proof (Hf repl_nl EmptyString nlmap_repl eq_refl) as HN. rewrite sapp_nil_r in HN.
  assert (normalise s = smap repl_nl c) as ->.
  { unfold normalise, trim_space. rewrite Es, Ec, !smap_app.
    rewrite trim_left_ws by (apply smap_ws; [apply nlmap_repl|auto]).
    assert (ends_solid (smap repl_nl c) = true) as Hsol'.
    { clear -Hsol. induction c as [|a c IH]; [discriminate|]. destruct c as [|b c].
      - cbn in *. unfold repl_nl. destruct (code a =? 10)%N eqn:E; [lia|exact Hsol].
      - exact (IH Hsol). }
    assert (trim_left (smap repl_nl c +++ smap repl_nl t) = smap repl_nl c +++ smap repl_nl t) as ->.
    { destruct (smap repl_nl c) as [|a q] eqn:Eq; [discriminate|].
      destruct c as [|a0 c0]; [discriminate|]. cbn in Eq. injection Eq as Ea Eq.
      assert (is_ws a0 = false) as Ha0.
      { clear -Ec. assert (forall s a r, skip_ws s = String a r -> is_ws a = false) as X.
        { induction s0 as [|x q IH]; cbn; [discriminate|]. intros a r.
          destruct (is_ws x) eqn:E; [apply IH|]. intros H. injection H as -> _. exact E. }
        eapply X. exact Ec. }
      rewrite Ec in E. cbn [String.append] in E. apply pval_first in E as [E1 E2]; [|auto].
      assert (a = a0) as -> by (rewrite <- Ea; apply nlmap_32; [apply nlmap_repl|lia]).
      cbn [String.append trim_left]. rewrite space_size_solid by lia.
      destruct (q +++ smap repl_nl t) as [|? [|? ?]]; reflexivity. }
    apply trim_right_solid; [exact Hsol'|]. apply smap_ws; [apply nlmap_repl|exact Et]. }
  eapply parse_intro; [exact HN|reflexivity].
Qed.
