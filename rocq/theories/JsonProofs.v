(** Proofs about the UTF-8 and JSON text models. *)
From Coq Require Import Arith.
From Verif Require Import GoBase Utf8 Json.

(** ** UTF-8 *)

Lemma str_len_ind (P : string -> Prop) :
  (forall s, (forall t, String.length t < String.length s -> P t) -> P s) -> forall s, P s.
Proof.
  intros H s. remember (String.length s) as n eqn:E.
  revert s E. induction n as [n IH] using lt_wf_ind. intros s ->.
  apply H. intros t Ht. eapply IH; [exact Ht|reflexivity].
Qed.

Inductive uview : string -> Prop :=
| U0 : uview EmptyString
| U1 a r : (code a <? 128)%N = true -> utf8_size (String a r) = 1 -> uview (String a r)
| U2 a b r : between 194 223 a = true -> between 128 191 b = true ->
    (forall t, utf8_size (String a (String b t)) = 2) -> uview (String a (String b r))
| U3 a b c r : between 224 239 a = true -> between 128 191 b = true -> between 128 191 c = true ->
    (forall t, utf8_size (String a (String b (String c t))) = 3) -> uview (String a (String b (String c r)))
| U4 a b c d r : between 240 244 a = true -> between 128 191 b = true -> between 128 191 c = true ->
    between 128 191 d = true ->
    (forall t, utf8_size (String a (String b (String c (String d t)))) = 4) ->
    uview (String a (String b (String c (String d r))))
| Ubad a r : (code a <? 128)%N = false -> utf8_size (String a r) = 0 -> uview (String a r).

Lemma between_spec lo hi c : between lo hi c = true <-> (lo <= code c <= hi)%N.
Proof. unfold between. rewrite andb_true_iff, !N.leb_le. reflexivity. Qed.

Lemma uview_all s : uview s.
Proof.
  destruct s as [|a r]; [constructor|].
  destruct (code a <? 128)%N eqn:E1.
  { apply U1; [exact E1|]. cbn. now rewrite E1. }
  destruct (between 194 223 a) eqn:E2.
  { destruct r as [|b r].
    - apply Ubad; [exact E1|]. cbn. now rewrite E1, E2.
    - destruct (between 128 191 b) eqn:E3.
      + apply U2; auto. intros t. cbn. now rewrite E1, E2, E3.
      + apply Ubad; [exact E1|]. cbn. now rewrite E1, E2, E3. }
  destruct (between 224 239 a) eqn:E3.
  { destruct r as [|b [|c r]]; try (apply Ubad; [exact E1|]; cbn; now rewrite E1, E2, E3).
    destruct (between (if (code a =? 224)%N then 160 else 128)%N
                      (if (code a =? 237)%N then 159 else 191)%N b && between 128 191 c) eqn:E4.
    - apply andb_true_iff in E4 as [E4 E5]. apply U3; auto.
      + apply between_spec in E4. apply between_spec.
        destruct (code a =? 224)%N, (code a =? 237)%N; lia.
      + intros t. cbn. now rewrite E1, E2, E3, E4, E5.
    - apply Ubad; [exact E1|]. cbn. now rewrite E1, E2, E3, E4. }
  destruct (between 240 244 a) eqn:E4.
  { destruct r as [|b [|c [|d r]]]; try (apply Ubad; [exact E1|]; cbn; now rewrite E1, E2, E3, E4).
    destruct (between (if (code a =? 240)%N then 144 else 128)%N
                      (if (code a =? 244)%N then 143 else 191)%N b && between 128 191 c
                      && between 128 191 d) eqn:E5.
    - apply andb_true_iff in E5 as [E5 E6]. apply andb_true_iff in E5 as [E5 E7].
      apply U4; auto.
      + apply between_spec in E5. apply between_spec.
        destruct (code a =? 240)%N, (code a =? 244)%N; lia.
      + intros t. cbn. now rewrite E1, E2, E3, E4, E5, E6, E7.
    - apply Ubad; [exact E1|]. cbn. now rewrite E1, E2, E3, E4, E5. }
  apply Ubad; [exact E1|]. cbn. now rewrite E1, E2, E3, E4.
Qed.

(** unfolding equations *)
Lemma sanitize_1 a r : utf8_size (String a r) = 1 -> sanitize (String a r) = String a (sanitize r).
Proof. intros H. cbn [sanitize]. now rewrite H. Qed.
Lemma sanitize_2 a b r : utf8_size (String a (String b r)) = 2 ->
  sanitize (String a (String b r)) = String a (String b (sanitize r)).
Proof. intros H. cbn [sanitize]. now rewrite H. Qed.
Lemma sanitize_3 a b c r : utf8_size (String a (String b (String c r))) = 3 ->
  sanitize (String a (String b (String c r))) = String a (String b (String c (sanitize r))).
Proof. intros H. cbn [sanitize]. now rewrite H. Qed.
Lemma sanitize_4 a b c d r : utf8_size (String a (String b (String c (String d r)))) = 4 ->
  sanitize (String a (String b (String c (String d r)))) =
  String a (String b (String c (String d (sanitize r)))).
Proof. intros H. cbn [sanitize]. now rewrite H. Qed.
Lemma sanitize_0 a r : utf8_size (String a r) = 0 -> sanitize (String a r) = fffd +++ sanitize r.
Proof. intros H. cbn [sanitize]. now rewrite H. Qed.

Lemma qbody_1 a r : utf8_size (String a r) = 1 -> qbody (String a r) = qascii a +++ qbody r.
Proof. intros H. cbn [qbody]. now rewrite H. Qed.
Lemma qbody_2 a b r : utf8_size (String a (String b r)) = 2 ->
  qbody (String a (String b r)) = String a (String b (qbody r)).
Proof. intros H. cbn [qbody]. now rewrite H. Qed.
Lemma qbody_3 a b c r : utf8_size (String a (String b (String c r))) = 3 ->
  qbody (String a (String b (String c r))) = q3 a b c +++ qbody r.
Proof. intros H. cbn [qbody]. now rewrite H. Qed.
Lemma qbody_4 a b c d r : utf8_size (String a (String b (String c (String d r)))) = 4 ->
  qbody (String a (String b (String c (String d r)))) =
  String a (String b (String c (String d (qbody r)))).
Proof. intros H. cbn [qbody]. now rewrite H. Qed.
Lemma qbody_0 a r : utf8_size (String a r) = 0 ->
  qbody (String a r) = String bsl ("ufffd" +++ qbody r).
Proof. intros H. cbn [qbody]. now rewrite H. Qed.

Lemma valid_1 a r : utf8_size (String a r) = 1 -> utf8_valid (String a r) = utf8_valid r.
Proof. intros H. cbn [utf8_valid]. now rewrite H. Qed.
Lemma valid_2 a b r : utf8_size (String a (String b r)) = 2 ->
  utf8_valid (String a (String b r)) = utf8_valid r.
Proof. intros H. cbn [utf8_valid]. now rewrite H. Qed.
Lemma valid_3 a b c r : utf8_size (String a (String b (String c r))) = 3 ->
  utf8_valid (String a (String b (String c r))) = utf8_valid r.
Proof. intros H. cbn [utf8_valid]. now rewrite H. Qed.
Lemma valid_4 a b c d r : utf8_size (String a (String b (String c (String d r)))) = 4 ->
  utf8_valid (String a (String b (String c (String d r)))) = utf8_valid r.
Proof. intros H. cbn [utf8_valid]. now rewrite H. Qed.
Lemma valid_0 a r : utf8_size (String a r) = 0 -> utf8_valid (String a r) = false.
Proof. intros H. cbn [utf8_valid]. now rewrite H. Qed.

Lemma size1_lt a r : (code a <? 128)%N = true -> utf8_size (String a r) = 1.
Proof. intros H. cbn. now rewrite H. Qed.

Theorem sanitize_id s : utf8_valid s = true -> sanitize s = s.
Proof.
  induction s as [s IH] using str_len_ind.
  destruct (uview_all s) as [|a r _ H|a b r _ _ H|a b c r _ _ _ H|a b c d r _ _ _ _ H|a r _ H].
  - reflexivity.
  - rewrite valid_1, sanitize_1 by auto. intros V. rewrite IH; auto.
  - rewrite valid_2, sanitize_2 by auto. intros V. rewrite IH; auto. cbn; lia.
  - rewrite valid_3, sanitize_3 by auto. intros V. rewrite IH; auto. cbn; lia.
  - rewrite valid_4, sanitize_4 by auto. intros V. rewrite IH; auto. cbn; lia.
  - rewrite valid_0 by auto. discriminate.
Qed.

Theorem sanitize_valid s : utf8_valid (sanitize s) = true.
Proof.
  induction s as [s IH] using str_len_ind.
  destruct (uview_all s) as [|a r Ha H|a b r _ _ H|a b c r _ _ _ H|a b c d r _ _ _ _ H|a r _ H].
  - reflexivity.
  - rewrite sanitize_1 by auto. rewrite valid_1 by (apply size1_lt; auto). apply IH; cbn; lia.
  - rewrite sanitize_2 by auto. rewrite valid_2 by auto. apply IH; cbn; lia.
  - rewrite sanitize_3 by auto. rewrite valid_3 by auto. apply IH; cbn; lia.
  - rewrite sanitize_4 by auto. rewrite valid_4 by auto. apply IH; cbn; lia.
  - rewrite sanitize_0 by auto. unfold fffd. cbn [String.append str1].
    rewrite valid_3; [apply IH; cbn; lia|]. reflexivity.
Qed.

Lemma sanitize_idem s : sanitize (sanitize s) = sanitize s.
Proof. apply sanitize_id, sanitize_valid. Qed.

Lemma sanitize_id_iff s : sanitize s = s <-> utf8_valid s = true.
Proof.
  split; [|apply sanitize_id].
  intros H. rewrite <- H. apply sanitize_valid.
Qed.

(** ** Quoting and unquoting strings *)

Lemma addl_some p x r : addl p (Some (x, r)) = Some (p +++ x, r).
Proof. reflexivity. Qed.

Lemma pstr_qascii a X : (code a <? 128)%N = true ->
  pstr (qascii a +++ X) = addl (str1 a) (pstr X).
Proof.
  intros H.
  destruct a as [[] [] [] [] [] [] [] []]; try discriminate H; reflexivity.
Qed.

Lemma ge32_head a : (128 <= code a)%N ->
  Ascii.eqb a dq = false /\ Ascii.eqb a bsl = false /\ (code a <? 32)%N = false.
Proof.
  intros H. repeat split.
  - destruct (Ascii.eqb_spec a dq); [subst; cbn in H; lia|reflexivity].
  - destruct (Ascii.eqb_spec a bsl); [subst; cbn in H; lia|reflexivity].
  - apply N.ltb_ge. lia.
Qed.

Lemma pstr_2 a b X : (128 <= code a)%N -> utf8_size (String a (String b X)) = 2 ->
  pstr (String a (String b X)) = addl (String a (str1 b)) (pstr X).
Proof.
  intros Ha H. destruct (ge32_head a Ha) as (E1 & E2 & E3).
  cbn [pstr]. rewrite E1, E2, E3, H. reflexivity.
Qed.
Lemma pstr_3 a b c X : (128 <= code a)%N -> utf8_size (String a (String b (String c X))) = 3 ->
  pstr (String a (String b (String c X))) = addl (String a (String b (str1 c))) (pstr X).
Proof.
  intros Ha H. destruct (ge32_head a Ha) as (E1 & E2 & E3).
  cbn [pstr]. rewrite E1, E2, E3, H. reflexivity.
Qed.
Lemma pstr_4 a b c d X : (128 <= code a)%N ->
  utf8_size (String a (String b (String c (String d X)))) = 4 ->
  pstr (String a (String b (String c (String d X)))) =
  addl (String a (String b (String c (str1 d)))) (pstr X).
Proof.
  intros Ha H. destruct (ge32_head a Ha) as (E1 & E2 & E3).
  cbn [pstr]. rewrite E1, E2, E3, H. reflexivity.
Qed.

Lemma code_inj a n : code a = n -> a = chr n.
Proof. intros <-. now rewrite chr_code. Qed.

Lemma pstr_q3 a b c X : (128 <= code a)%N ->
  (forall t, utf8_size (String a (String b (String c t))) = 3) ->
  pstr (q3 a b c +++ X) = addl (String a (String b (str1 c))) (pstr X).
Proof.
  intros Ha H. unfold q3. destruct (is_line_sep a b c) eqn:E.
  - unfold is_line_sep in E. apply andb_true_iff in E as [E E3].
    apply andb_true_iff in E as [E1 E2]. apply N.eqb_eq in E1, E2.
    apply code_inj in E1, E2. subst a b.
    apply orb_true_iff in E3 as [E3|E3]; apply N.eqb_eq, code_inj in E3; subst c; reflexivity.
  - apply pstr_3; auto.
Qed.

Theorem pstr_qbody s rest : pstr (qbody s +++ String dq rest) = Some (sanitize s, rest).
Proof.
  induction s as [s IH] using str_len_ind.
  destruct (uview_all s) as [|a r Ha H|a b r Ha _ H|a b c r Ha _ _ H|a b c d r Ha _ _ _ H|a r _ H];
    try apply between_spec in Ha.
  - reflexivity.
  - rewrite qbody_1, sanitize_1, sapp_assoc, pstr_qascii, IH by (auto; cbn; lia). reflexivity.
  - rewrite qbody_2, sanitize_2 by auto. cbn [String.append].
    rewrite pstr_2, IH by (auto; cbn; lia). reflexivity.
  - rewrite qbody_3, sanitize_3, sapp_assoc, pstr_q3, IH by (auto; cbn; lia). reflexivity.
  - rewrite qbody_4, sanitize_4 by auto. cbn [String.append].
    rewrite pstr_4, IH by (auto; cbn; lia). reflexivity.
  - rewrite qbody_0, sanitize_0 by auto.
    change (String bsl ("ufffd" +++ qbody r) +++ String dq rest)
      with (String bsl ("ufffd" +++ (qbody r +++ String dq rest))).
    change (pstr (String bsl ("ufffd" +++ (qbody r +++ String dq rest))))
      with (addl fffd (pstr (qbody r +++ String dq rest))).
    rewrite IH by (cbn; lia). reflexivity.
Qed.

(** ** Numbers *)

(** [stop r]: [r] cannot extend a number literal. *)
Definition stop (r : string) : bool :=
  match r with
  | EmptyString => true
  | String c _ => negb (is_digit c || Ascii.eqb c "."%char || Ascii.eqb c "e"%char || Ascii.eqb c "E"%char
                        || Ascii.eqb c "+"%char || Ascii.eqb c "-"%char)
  end.

Lemma span_digits_app s d t rest :
  span_digits s = (d, t) -> stop rest = true -> span_digits (s +++ rest) = (d, t +++ rest).
Proof.
  revert d t. induction s as [|c s IH]; intros d t; cbn.
  - intros H Hs. injection H as <- <-. cbn. destruct rest as [|c r]; [reflexivity|].
    cbn in *. destruct (is_digit c); [discriminate|reflexivity].
  - destruct (is_digit c).
    + destruct (span_digits s) as [d' t'] eqn:E. intros H Hs. injection H as <- <-.
      rewrite (IH d' t') by auto. reflexivity.
    + intros H Hs. injection H as <- <-. reflexivity.
Qed.

Lemma span_digits_cat s d t : span_digits s = (d, t) -> s = d +++ t.
Proof.
  revert d t. induction s as [|c s IH]; intros d t; cbn.
  - intros H; injection H as <- <-. reflexivity.
  - destruct (is_digit c).
    + destruct (span_digits s) as [d' t'] eqn:E. intros H. injection H as <- <-.
      cbn. f_equal. now apply IH.
    + intros H. injection H as <- <-. reflexivity.
Qed.

Lemma pint_app s x t rest :
  pint s = Some (x, t) -> stop rest = true -> pint (s +++ rest) = Some (x, t +++ rest).
Proof.
  destruct s as [|c s]; [discriminate|]. cbn.
  destruct (Ascii.eqb c "0"%char).
  - intros H _. injection H as <- <-. reflexivity.
  - destruct (is_digit c); [|discriminate].
    destruct (span_digits s) as [d t'] eqn:E. intros H Hs. injection H as <- <-.
    now rewrite (span_digits_app _ _ _ _ E Hs).
Qed.

Lemma pint_cat s x t : pint s = Some (x, t) -> s = x +++ t.
Proof.
  destruct s as [|c s]; [discriminate|]. cbn.
  destruct (Ascii.eqb_spec c "0"%char).
  - intros H. injection H as <- <-. subst. reflexivity.
  - destruct (is_digit c); [|discriminate].
    destruct (span_digits s) as [d t'] eqn:E. intros H. injection H as <- <-.
    apply span_digits_cat in E. now rewrite E.
Qed.

Lemma stop_head c r : stop (String c r) = true ->
  is_digit c = false /\ Ascii.eqb c "."%char = false /\ Ascii.eqb c "e"%char = false /\
  Ascii.eqb c "E"%char = false /\ Ascii.eqb c "+"%char = false /\ Ascii.eqb c "-"%char = false.
Proof.
  cbn. rewrite negb_true_iff, !orb_false_iff. tauto.
Qed.

Lemma pfrac_app s x t rest :
  pfrac s = Some (x, t) -> stop rest = true -> pfrac (s +++ rest) = Some (x, t +++ rest).
Proof.
  destruct s as [|c s]; cbn.
  - intros H Hs. injection H as <- <-. destruct rest as [|c r]; [reflexivity|].
    apply stop_head in Hs as (_ & Hd & _). cbn. now rewrite Hd.
  - destruct (Ascii.eqb c "."%char).
    + destruct (span_digits s) as [d t'] eqn:E. intros H Hs.
      rewrite (span_digits_app _ _ _ _ E Hs). destruct d; [discriminate|].
      injection H as <- <-. reflexivity.
    + intros H _. injection H as <- <-. reflexivity.
Qed.

Lemma pfrac_cat s x t : pfrac s = Some (x, t) -> s = x +++ t.
Proof.
  destruct s as [|c s]; cbn.
  - intros H. injection H as <- <-. reflexivity.
  - destruct (Ascii.eqb c "."%char).
    + destruct (span_digits s) as [d t'] eqn:E. apply span_digits_cat in E.
      destruct d; [discriminate|]. intros H. injection H as <- <-. cbn. now rewrite E.
    + intros H. injection H as <- <-. reflexivity.
Qed.

Lemma pexp_app s x t rest :
  pexp s = Some (x, t) -> stop rest = true -> pexp (s +++ rest) = Some (x, t +++ rest).
Proof.
  destruct s as [|c s].
  - cbn. intros H Hs. injection H as <- <-. destruct rest as [|c r]; [reflexivity|].
    apply stop_head in Hs as (_ & _ & He & HE & _). cbn. now rewrite He, HE.
  - cbn. destruct (Ascii.eqb c "e"%char || Ascii.eqb c "E"%char).
    2:{ intros H _. injection H as <- <-. reflexivity. }
    destruct s as [|d s]; [discriminate|]. cbn [String.append].
    destruct (Ascii.eqb d "+"%char || Ascii.eqb d "-"%char).
    + destruct (span_digits s) as [dd t'] eqn:E. intros H Hs.
      rewrite (span_digits_app _ _ _ _ E Hs). destruct dd; [discriminate|].
      injection H as <- <-. reflexivity.
    + destruct (span_digits (String d s)) as [dd t'] eqn:E. intros H Hs.
      change (String d (s +++ rest)) with (String d s +++ rest).
      rewrite (span_digits_app _ _ _ _ E Hs). destruct dd; [discriminate|].
      injection H as <- <-. reflexivity.
Qed.

Lemma pexp_cat s x t : pexp s = Some (x, t) -> s = x +++ t.
Proof.
  destruct s as [|c s].
  - cbn. intros H. injection H as <- <-. reflexivity.
  - cbn. destruct (Ascii.eqb c "e"%char || Ascii.eqb c "E"%char).
    2:{ intros H. injection H as <- <-. reflexivity. }
    destruct s as [|d s]; [discriminate|].
    destruct (Ascii.eqb d "+"%char || Ascii.eqb d "-"%char).
    + destruct (span_digits s) as [dd t'] eqn:E. apply span_digits_cat in E.
      destruct dd; [discriminate|]. intros H. injection H as <- <-. cbn. now rewrite E.
    + destruct (span_digits (String d s)) as [dd t'] eqn:E. apply span_digits_cat in E.
      destruct dd; [discriminate|]. intros H. injection H as <- <-. rewrite E. reflexivity.
Qed.

Lemma pnum_app s x t rest :
  pnum s = Some (x, t) -> stop rest = true -> pnum (s +++ rest) = Some (x, t +++ rest).
Proof.
  unfold pnum. intros H Hs.
  destruct s as [|c s].
  { cbn in H. discriminate. }
  cbn [String.append].
  destruct (Ascii.eqb c "-"%char).
  - destruct (pint s) as [[i s2]|] eqn:E1; [|discriminate].
    destruct (pfrac s2) as [[f s3]|] eqn:E2; [|discriminate].
    destruct (pexp s3) as [[e s4]|] eqn:E3; [|discriminate].
    injection H as <- <-.
    now rewrite (pint_app _ _ _ _ E1 Hs), (pfrac_app _ _ _ _ E2 Hs), (pexp_app _ _ _ _ E3 Hs).
  - destruct (pint (String c s)) as [[i s2]|] eqn:E1; [|discriminate].
    destruct (pfrac s2) as [[f s3]|] eqn:E2; [|discriminate].
    destruct (pexp s3) as [[e s4]|] eqn:E3; [|discriminate].
    injection H as <- <-.
    change (String c (s +++ rest)) with (String c s +++ rest).
    now rewrite (pint_app _ _ _ _ E1 Hs), (pfrac_app _ _ _ _ E2 Hs), (pexp_app _ _ _ _ E3 Hs).
Qed.

Lemma pnum_cat s x t : pnum s = Some (x, t) -> s = x +++ t.
Proof.
  unfold pnum. intros H.
  destruct s as [|c s]; [cbn in H; discriminate|].
  destruct (Ascii.eqb_spec c "-"%char).
  - destruct (pint s) as [[i s2]|] eqn:E1; [|discriminate].
    destruct (pfrac s2) as [[f s3]|] eqn:E2; [|discriminate].
    destruct (pexp s3) as [[e' s4]|] eqn:E3; [|discriminate].
    injection H as <- <-.
    apply pint_cat in E1. apply pfrac_cat in E2. apply pexp_cat in E3.
    subst. cbn. now rewrite !sapp_assoc.
  - destruct (pint (String c s)) as [[i s2]|] eqn:E1; [|discriminate].
    destruct (pfrac s2) as [[f s3]|] eqn:E2; [|discriminate].
    destruct (pexp s3) as [[e' s4]|] eqn:E3; [|discriminate].
    injection H as <- <-.
    apply pint_cat in E1. apply pfrac_cat in E2. apply pexp_cat in E3.
    rewrite E1, E2, E3. cbn. now rewrite !sapp_assoc.
Qed.

(** The first character of a number. *)
Lemma pnum_head a r x t : pnum (String a r) = Some (x, t) ->
  Ascii.eqb a "-"%char = true \/ is_digit a = true.
Proof.
  unfold pnum. destruct (Ascii.eqb a "-"%char); [auto|]. cbn [pint].
  destruct (Ascii.eqb_spec a "0"%char); [subst; auto|].
  destruct (is_digit a); [auto|discriminate].
Qed.

Definition numhead (a : ascii) : bool := Ascii.eqb a "-"%char || is_digit a.

Lemma numhead_neq a : numhead a = true ->
  is_ws a = false /\ Ascii.eqb a dq = false /\ Ascii.eqb a "["%char = false /\ Ascii.eqb a "{"%char = false /\
  Ascii.eqb a "n"%char = false /\ Ascii.eqb a "t"%char = false /\ Ascii.eqb a "f"%char = false /\
  Ascii.eqb a "]"%char = false /\ Ascii.eqb a "}"%char = false.
Proof.
  destruct a as [[] [] [] [] [] [] [] []]; intros H; try discriminate H; repeat split.
Qed.

Lemma is_num_spec l : is_num l = true -> pnum l = Some (l, EmptyString).
Proof.
  unfold is_num. destruct (pnum l) as [[x t]|] eqn:E; [|discriminate].
  destruct t; [|discriminate]. intros _. apply pnum_cat in E as E'.
  rewrite sapp_nil_r in E'. now subst.
Qed.

Lemma is_num_head l : is_num l = true -> exists a r, l = String a r /\ numhead a = true.
Proof.
  intros H. apply is_num_spec in H. destruct l as [|a r].
  { discriminate H. }
  exists a, r. split; [reflexivity|]. apply pnum_head in H. unfold numhead.
  apply orb_true_iff. exact H.
Qed.

(** ** Fuel *)

Lemma skip_ws_len s : String.length (skip_ws s) <= String.length s.
Proof. induction s as [|c s IH]; cbn; [lia|]. destruct (is_ws c); cbn; lia. Qed.

Lemma addl_inv p o x r : addl p o = Some (x, r) -> exists y, o = Some (y, r) /\ x = p +++ y.
Proof. destruct o as [[y r']|]; cbn; [|discriminate]. intros H. injection H as <- <-. eauto. Qed.

Lemma pstr_len s x t : pstr s = Some (x, t) -> String.length t < String.length s.
Proof.
  revert x t. induction s as [s IH] using str_len_ind. intros x t H.
  destruct s as [|a r]; [discriminate|].
  cbn [pstr] in H.
  repeat match type of H with
  | Some _ = Some _ => injection H as <- <-; cbn; lia
  | None = Some _ => discriminate H
  | addl _ _ = Some _ =>
      apply addl_inv in H as (y & H & _); apply IH in H; cbn [String.length] in *; lia
  | (match ?x with _ => _ end) = Some _ => destruct x
  end.
Qed.

Lemma span_digits_len s d t : span_digits s = (d, t) -> String.length t <= String.length s.
Proof. intros H. apply span_digits_cat in H. subst. rewrite sapp_length. lia. Qed.

Lemma pnum_len s x t : pnum s = Some (x, t) -> String.length t < String.length s.
Proof.
  intros H. pose proof (pnum_cat _ _ _ H) as E.
  assert (x <> EmptyString) as Hx.
  { unfold pnum in H. destruct s as [|c s]; [discriminate H|].
    destruct (Ascii.eqb c "-"%char).
    - destruct (pint s) as [[i s2]|] eqn:E1; [|discriminate].
      destruct (pfrac s2) as [[f s3]|] eqn:E2; [|discriminate].
      destruct (pexp s3) as [[e' s4]|] eqn:E3; [|discriminate].
      injection H as <- <-. discriminate.
    - destruct (pint (String c s)) as [[i s2]|] eqn:E1; [|discriminate].
      destruct (pfrac s2) as [[f s3]|] eqn:E2; [|discriminate].
      destruct (pexp s3) as [[e' s4]|] eqn:E3; [|discriminate].
      injection H as <- <-. cbn [pint] in E1.
      destruct (Ascii.eqb c "0"%char); [injection E1 as <- <-; discriminate|].
      destruct (is_digit c); [|discriminate]. destruct (span_digits s).
      injection E1 as <- <-. discriminate. }
  subst s. rewrite sapp_length. destruct x; [congruence|]. cbn. lia.
Qed.

Lemma strip_len p s t : strip p s = Some t -> String.length t <= String.length s.
Proof.
  revert s. induction p as [|a p IH]; intros s; cbn.
  - intros H. injection H as <-. lia.
  - destruct s as [|b s]; [discriminate|]. destruct (Ascii.eqb a b); [|discriminate].
    intros H. apply IH in H. cbn. lia.
Qed.

Lemma plit_len p j s k t : plit p j s = Some (k, t) -> String.length t <= String.length s.
Proof.
  unfold plit. destruct (strip p s) eqn:E; [|discriminate]. intros H. injection H as <- <-.
  now apply strip_len in E.
Qed.

Definition FuelOK {A} (f : nat -> string -> option (A * string)) (n : nat) : Prop :=
  forall s j t, f n s = Some (j, t) ->
    String.length t < String.length s /\
    forall m, 2 * (String.length s - String.length t) <= m -> f m s = Some (j, t).

Lemma pval_S n s0 : pval (S n) s0 =
    match skip_ws s0 with
    | EmptyString => None
    | String a r =>
      if Ascii.eqb a dq then
        match pstr r with Some (x, t) => Some (JStr x, t) | None => None end
      else if Ascii.eqb a "["%char then
        match skip_ws r with
        | String b r' =>
          if Ascii.eqb b "]"%char then Some (JArr [], r')
          else match pelems n r with Some (l, t) => Some (JArr l, t) | None => None end
        | EmptyString => None
        end
      else if Ascii.eqb a "{"%char then
        match skip_ws r with
        | String b r' =>
          if Ascii.eqb b "}"%char then Some (JObj [], r')
          else match pmembers n r with Some (l, t) => Some (JObj l, t) | None => None end
        | EmptyString => None
        end
      else if Ascii.eqb a "n"%char then plit "ull" JNull r
      else if Ascii.eqb a "t"%char then plit "rue" (JBool true) r
      else if Ascii.eqb a "f"%char then plit "alse" (JBool false) r
      else match pnum (String a r) with Some (l, t) => Some (JNum l, t) | None => None end
    end.
Proof. reflexivity. Qed.

Lemma pelems_S n s : pelems (S n) s =
    match pval n s with
    | None => None
    | Some (j, t) =>
      match skip_ws t with
      | EmptyString => None
      | String c t' =>
        if Ascii.eqb c ","%char then
          match pelems n t' with Some (l, u) => Some (j :: l, u) | None => None end
        else if Ascii.eqb c "]"%char then Some ([j], t')
        else None
      end
    end.
Proof. reflexivity. Qed.

Lemma pmembers_S n s : pmembers (S n) s =
    match skip_ws s with
    | EmptyString => None
    | String a r =>
      if Ascii.eqb a dq then
        match pstr r with
        | None => None
        | Some (k, t) =>
          match skip_ws t with
          | EmptyString => None
          | String c t1 =>
            if Ascii.eqb c ":"%char then
              match pval n t1 with
              | None => None
              | Some (j, t2) =>
                match skip_ws t2 with
                | EmptyString => None
                | String d t3 =>
                  if Ascii.eqb d ","%char then
                    match pmembers n t3 with
                    | Some (l, u) => Some ((k, j) :: l, u)
                    | None => None
                    end
                  else if Ascii.eqb d "}"%char then Some ([(k, j)], t3)
                  else None
                end
              end
            else None
          end
        end
      else None
    end.
Proof. reflexivity. Qed.

Lemma fuel_all n : FuelOK pval n /\ FuelOK pelems n /\ FuelOK pmembers n.
Proof.
  induction n as [|n (IHv & IHe & IHm)].
  { repeat split; cbn in H; discriminate. }
  repeat split.
  - rewrite pval_S in H.
    pose proof (skip_ws_len s) as L. destruct (skip_ws s) as [|a r]; [discriminate|]. cbn in L.
    destruct (Ascii.eqb a dq).
    { destruct (pstr r) as [[x u]|] eqn:E; [|discriminate]. injection H as <- <-.
      apply pstr_len in E. lia. }
    destruct (Ascii.eqb a "["%char).
    { pose proof (skip_ws_len r) as L'. destruct (skip_ws r) as [|b r']; [discriminate|]. cbn in L'.
      destruct (Ascii.eqb b "]"%char); [injection H as <- <-; lia|].
      destruct (pelems n r) as [[l u]|] eqn:E; [|discriminate]. injection H as <- <-.
      apply IHe in E as [E _]. lia. }
    destruct (Ascii.eqb a "{"%char).
    { pose proof (skip_ws_len r) as L'. destruct (skip_ws r) as [|b r']; [discriminate|]. cbn in L'.
      destruct (Ascii.eqb b "}"%char); [injection H as <- <-; lia|].
      destruct (pmembers n r) as [[l u]|] eqn:E; [|discriminate]. injection H as <- <-.
      apply IHm in E as [E _]. lia. }
    destruct (Ascii.eqb a "n"%char); [apply plit_len in H; lia|].
    destruct (Ascii.eqb a "t"%char); [apply plit_len in H; lia|].
    destruct (Ascii.eqb a "f"%char); [apply plit_len in H; lia|].
    destruct (pnum (String a r)) as [[l u]|] eqn:E; [|discriminate]. injection H as <- <-.
    apply pnum_len in E. cbn in E. lia.
  - intros m Hm.
    rewrite pval_S in H.
    pose proof (skip_ws_len s) as L.
    destruct m as [|m].
    { exfalso. destruct (skip_ws s) as [|a r]; [discriminate|]. cbn in L.
      destruct (Ascii.eqb a dq).
      { destruct (pstr r) as [[x u]|] eqn:E; [|discriminate]. injection H as <- <-.
        apply pstr_len in E. lia. }
      destruct (Ascii.eqb a "["%char).
      { pose proof (skip_ws_len r) as L'. destruct (skip_ws r) as [|b r']; [discriminate|]. cbn in L'.
        destruct (Ascii.eqb b "]"%char); [injection H as <- <-; lia|].
        destruct (pelems n r) as [[l u]|] eqn:E; [|discriminate]. injection H as <- <-.
        apply IHe in E as [E _]. lia. }
      destruct (Ascii.eqb a "{"%char).
      { pose proof (skip_ws_len r) as L'. destruct (skip_ws r) as [|b r']; [discriminate|]. cbn in L'.
        destruct (Ascii.eqb b "}"%char); [injection H as <- <-; lia|].
        destruct (pmembers n r) as [[l u]|] eqn:E; [|discriminate]. injection H as <- <-.
        apply IHm in E as [E _]. lia. }
      destruct (Ascii.eqb a "n"%char); [apply plit_len in H; lia|].
      destruct (Ascii.eqb a "t"%char); [apply plit_len in H; lia|].
      destruct (Ascii.eqb a "f"%char); [apply plit_len in H; lia|].
      destruct (pnum (String a r)) as [[l u]|] eqn:E; [|discriminate]. injection H as <- <-.
      apply pnum_len in E. cbn in E. lia. }
    rewrite pval_S. destruct (skip_ws s) as [|a r]; [discriminate|]. cbn in L.
    destruct (Ascii.eqb a dq); [exact H|].
    destruct (Ascii.eqb a "["%char).
    { destruct (skip_ws r) as [|b r']; [discriminate|].
      destruct (Ascii.eqb b "]"%char); [exact H|].
      destruct (pelems n r) as [[l u]|] eqn:E; [|discriminate]. injection H as <- <-.
      apply IHe in E as [E1 E2]. rewrite E2; [reflexivity|lia]. }
    destruct (Ascii.eqb a "{"%char).
    { destruct (skip_ws r) as [|b r']; [discriminate|].
      destruct (Ascii.eqb b "}"%char); [exact H|].
      destruct (pmembers n r) as [[l u]|] eqn:E; [|discriminate]. injection H as <- <-.
      apply IHm in E as [E1 E2]. rewrite E2; [reflexivity|lia]. }
    exact H.
  - rewrite pelems_S in H.
    destruct (pval n s) as [[k u]|] eqn:E; [|discriminate]. apply IHv in E as [E _].
    pose proof (skip_ws_len u) as L'. destruct (skip_ws u) as [|c u']; [discriminate|]. cbn in L'.
    destruct (Ascii.eqb c ","%char).
    + destruct (pelems n u') as [[l v]|] eqn:E1; [|discriminate]. injection H as <- <-.
      apply IHe in E1 as [E1 _]. lia.
    + destruct (Ascii.eqb c "]"%char); [|discriminate]. injection H as <- <-. lia.
  - intros m Hm.
    rewrite pelems_S in H.
    destruct (pval n s) as [[k u]|] eqn:E; [|discriminate]. apply IHv in E as [E Ev].
    pose proof (skip_ws_len u) as L'. destruct (skip_ws u) as [|c u'] eqn:Eu; [discriminate|]. cbn in L'.
    destruct (Ascii.eqb c ","%char) eqn:Ec.
    + destruct (pelems n u') as [[l v]|] eqn:E1; [|discriminate]. injection H as <- <-.
      apply IHe in E1 as [E1 E2].
      destruct m as [|m]; [lia|]. rewrite pelems_S, Ev by lia. rewrite Eu, Ec, E2 by lia. reflexivity.
    + destruct (Ascii.eqb c "]"%char) eqn:Ec2; [|discriminate]. injection H as <- <-.
      destruct m as [|m]; [lia|]. rewrite pelems_S, Ev by lia. rewrite Eu, Ec, Ec2. reflexivity.
  - rewrite pmembers_S in H.
    pose proof (skip_ws_len s) as L. destruct (skip_ws s) as [|a r]; [discriminate|]. cbn in L.
    destruct (Ascii.eqb a dq); [|discriminate].
    destruct (pstr r) as [[k u]|] eqn:E; [|discriminate]. apply pstr_len in E.
    pose proof (skip_ws_len u) as L1. destruct (skip_ws u) as [|c u1]; [discriminate|]. cbn in L1.
    destruct (Ascii.eqb c ":"%char); [|discriminate].
    destruct (pval n u1) as [[w u2]|] eqn:E1; [|discriminate]. apply IHv in E1 as [E1 _].
    pose proof (skip_ws_len u2) as L2. destruct (skip_ws u2) as [|d u3]; [discriminate|]. cbn in L2.
    destruct (Ascii.eqb d ","%char).
    + destruct (pmembers n u3) as [[l v]|] eqn:E2; [|discriminate]. injection H as <- <-.
      apply IHm in E2 as [E2 _]. lia.
    + destruct (Ascii.eqb d "}"%char); [|discriminate]. injection H as <- <-. lia.
  - intros m Hm.
    rewrite pmembers_S in H.
    pose proof (skip_ws_len s) as L. destruct (skip_ws s) as [|a r] eqn:Es; [discriminate|]. cbn in L.
    destruct (Ascii.eqb a dq) eqn:Ea; [|discriminate].
    destruct (pstr r) as [[k u]|] eqn:E; [|discriminate]. pose proof (pstr_len _ _ _ E) as L0.
    pose proof (skip_ws_len u) as L1. destruct (skip_ws u) as [|c u1] eqn:Eu; [discriminate|]. cbn in L1.
    destruct (Ascii.eqb c ":"%char) eqn:Ec; [|discriminate].
    destruct (pval n u1) as [[w u2]|] eqn:E1; [|discriminate]. apply IHv in E1 as [E1 Ev].
    pose proof (skip_ws_len u2) as L2. destruct (skip_ws u2) as [|d u3] eqn:Eu2; [discriminate|]. cbn in L2.
    destruct (Ascii.eqb d ","%char) eqn:Ed.
    + destruct (pmembers n u3) as [[l v]|] eqn:E2; [|discriminate]. injection H as <- <-.
      apply IHm in E2 as [E2 E3].
      destruct m as [|m]; [lia|]. rewrite pmembers_S, Es, Ea, E, Eu, Ec, Ev by lia.
      rewrite Eu2, Ed, E3 by lia. reflexivity.
    + destruct (Ascii.eqb d "}"%char) eqn:Ed2; [|discriminate]. injection H as <- <-.
      destruct m as [|m]; [lia|]. rewrite pmembers_S, Es, Ea, E, Eu, Ec, Ev by lia.
      rewrite Eu2, Ed, Ed2. reflexivity.
Qed.

Lemma pval_fuel n s j t m : pval n s = Some (j, t) -> 2 * String.length s <= m -> pval m s = Some (j, t).
Proof. intros H Hm. apply (proj1 (fuel_all n)) in H as [H1 H2]. apply H2. lia. Qed.

Lemma parse_intro n s j t : pval n s = Some (j, t) -> skip_ws t = EmptyString -> parse s = Some j.
Proof.
  intros H Ht. unfold parse. rewrite (pval_fuel n s j t) by (auto; lia). now rewrite Ht.
Qed.

Lemma pval_mono n m s r : n <= m -> pval n s = Some r -> pval m s = Some r
with pelems_mono n m s r : n <= m -> pelems n s = Some r -> pelems m s = Some r
with pmembers_mono n m s r : n <= m -> pmembers n s = Some r -> pmembers m s = Some r.
Proof.
  - intros L H. destruct n as [|n]; [discriminate|]. destruct m as [|m]; [lia|].
    rewrite pval_S in *. destruct (skip_ws s) as [|a t]; [exact H|].
    destruct (Ascii.eqb a dq); [exact H|].
    destruct (Ascii.eqb a "["%char).
    { destruct (skip_ws t) as [|b t']; [exact H|]. destruct (Ascii.eqb b "]"%char); [exact H|].
      destruct (pelems n t) as [q|] eqn:E; [|discriminate].
      rewrite (pelems_mono n m t q) by (auto; lia). exact H. }
    destruct (Ascii.eqb a "{"%char); [|exact H].
    destruct (skip_ws t) as [|b t']; [exact H|]. destruct (Ascii.eqb b "}"%char); [exact H|].
    destruct (pmembers n t) as [q|] eqn:E; [|discriminate].
    rewrite (pmembers_mono n m t q) by (auto; lia). exact H.
  - intros L H. destruct n as [|n]; [discriminate|]. destruct m as [|m]; [lia|].
    rewrite pelems_S in *. destruct (pval n s) as [q|] eqn:E; [|discriminate].
    rewrite (pval_mono n m s q) by (auto; lia). destruct q as [j t].
    destruct (skip_ws t) as [|c t']; [exact H|]. destruct (Ascii.eqb c ","%char); [|exact H].
    destruct (pelems n t') as [q|] eqn:E1; [|discriminate].
    rewrite (pelems_mono n m t' q) by (auto; lia). exact H.
  - intros L H. destruct n as [|n]; [discriminate|]. destruct m as [|m]; [lia|].
    rewrite pmembers_S in *. destruct (skip_ws s) as [|a r']; [exact H|].
    destruct (Ascii.eqb a dq); [|exact H]. destruct (pstr r') as [[k t]|]; [|exact H].
    destruct (skip_ws t) as [|c t1]; [exact H|]. destruct (Ascii.eqb c ":"%char); [|exact H].
    destruct (pval n t1) as [q|] eqn:E; [|discriminate].
    rewrite (pval_mono n m t1 q) by (auto; lia). destruct q as [j t2].
    destruct (skip_ws t2) as [|d t3]; [exact H|]. destruct (Ascii.eqb d ","%char); [|exact H].
    destruct (pmembers n t3) as [q|] eqn:E1; [|discriminate].
    rewrite (pmembers_mono n m t3 q) by (auto; lia). exact H.
Qed.

(** ** Parsing what was printed *)

Definition json_ind' (P : json -> Prop)
  (Hnull : P JNull)
  (Hbool : forall b, P (JBool b))
  (Hnum : forall l, P (JNum l))
  (Hstr : forall s, P (JStr s))
  (Harr : forall l, Forall P l -> P (JArr l))
  (Hobj : forall l, Forall (fun kv => P (snd kv)) l -> P (JObj l)) : forall j, P j :=
  fix rec (j : json) : P j :=
    match j with
    | JNull => Hnull
    | JBool b => Hbool b
    | JNum l => Hnum l
    | JStr s => Hstr s
    | JArr l => Harr l ((fix go l : Forall P l := match l with
                                     | [] => Forall_nil _
                                     | x :: r => Forall_cons _ (rec x) (go r)
                                     end) l)
    | JObj l => Hobj l ((fix go l : Forall (fun kv => P (snd kv)) l := match l with
                                     | [] => Forall_nil _
                                     | x :: r => Forall_cons _ (rec (snd x)) (go r)
                                     end) l)
    end.

Definition phead (c : ascii) : bool :=
  negb (is_ws c) && negb (Ascii.eqb c "]"%char) && negb (Ascii.eqb c "}"%char).

Lemma phead_spec c : phead c = true ->
  is_ws c = false /\ Ascii.eqb c "]"%char = false /\ Ascii.eqb c "}"%char = false.
Proof. unfold phead. rewrite !andb_true_iff, !negb_true_iff. tauto. Qed.

Lemma print_head j : wf_json j = true -> exists c r, print j = String c r /\ phead c = true.
Proof.
  destruct j as [|[]|l|s|l|l]; cbn; intros H; try (eexists _, _; split; reflexivity).
  apply is_num_head in H as (a & r & -> & H). exists a, r. split; [reflexivity|].
  unfold phead. destruct (numhead_neq a H) as (-> & _ & _ & _ & _ & _ & _ & -> & ->). reflexivity.
Qed.

Lemma skip_ws_nws c r : is_ws c = false -> skip_ws (String c r) = String c r.
Proof. intros H. cbn. now rewrite H. Qed.

Lemma pval_null r n : pval (S n) ("null" +++ r) = Some (JNull, r).
Proof. reflexivity. Qed.

Definition PrintsOK (j : json) : Prop :=
  wf_json j = true -> forall rest, stop rest = true ->
  exists n, pval n (print j +++ rest) = Some (jsan j, rest).

Lemma elems_ok l : Forall PrintsOK l -> forallb wf_json l = true -> l <> [] ->
  forall rest, exists n,
    pelems n (join "," (map print l) +++ String "]"%char rest) = Some (map jsan l, rest).
Proof.
  induction l as [|j l IH]; intros HF HW Hne rest; [congruence|].
  inversion HF as [|? ? Hj HF']; subst. cbn in HW. apply andb_true_iff in HW as [HWj HWl].
  destruct l as [|k l].
  - destruct (Hj HWj (String "]"%char rest)) as [n Hn]; [reflexivity|].
    exists (S n). cbn [map join]. rewrite pelems_S, Hn. reflexivity.
  - destruct (IH HF' HWl ltac:(discriminate) rest) as [n Hn].
    set (tl := join "," (map print (k :: l))) in *.
    destruct (Hj HWj (String ","%char (tl +++ String "]"%char rest))) as [m Hm]; [reflexivity|].
    exists (S (n + m)).
    replace (join "," (map print (j :: k :: l)) +++ String "]"%char rest)
      with (print j +++ String ","%char (tl +++ String "]"%char rest)).
    2:{ change (join "," (map print (j :: k :: l))) with (print j +++ String ","%char tl).
        now rewrite sapp_assoc. }
    rewrite pelems_S, (pval_mono m (n + m) _ _ ltac:(lia) Hm).
    rewrite skip_ws_nws by reflexivity. change (Ascii.eqb "," ",") with true. cbv iota.
    rewrite (pelems_mono n (n + m) _ _ ltac:(lia) Hn). reflexivity.
Qed.

Lemma quote_app k X : quote k +++ X = String dq (qbody k +++ String dq X).
Proof. unfold quote. cbn. now rewrite sapp_assoc. Qed.

Definition pmem (kv : string * json) : string := quote (fst kv) +++ ":" +++ print (snd kv).

Lemma members_ok l : Forall (fun kv => PrintsOK (snd kv)) l ->
  forallb (fun kv => wf_json (snd kv)) l = true -> l <> [] ->
  forall rest, exists n,
    pmembers n (join "," (map pmem l) +++ String "}"%char rest)
    = Some (map (fun kv => (sanitize (fst kv), jsan (snd kv))) l, rest).
Proof.
  induction l as [|[k j] l IH]; intros HF HW Hne rest; [congruence|].
  inversion HF as [|? ? Hj HF']; subst. cbn in HW. apply andb_true_iff in HW as [HWj HWl].
  cbn [snd fst] in *.
  destruct l as [|kj l].
  - destruct (Hj HWj (String "}"%char rest)) as [n Hn]; [reflexivity|].
    exists (S n). cbn [map join]. unfold pmem at 1. cbn [fst snd].
    rewrite !sapp_assoc, quote_app. rewrite pmembers_S. rewrite skip_ws_nws by reflexivity.
    change (Ascii.eqb dq dq) with true. cbv iota.
    rewrite pstr_qbody. cbn [String.append]. rewrite skip_ws_nws by reflexivity.
    change (Ascii.eqb ":" ":") with true. cbv iota. rewrite Hn. reflexivity.
  - destruct (IH HF' HWl ltac:(discriminate) rest) as [n Hn].
    set (tl := join "," (map pmem (kj :: l))) in *.
    destruct (Hj HWj (String ","%char (tl +++ String "}"%char rest))) as [m Hm]; [reflexivity|].
    exists (S (n + m)).
    replace (join "," (map pmem ((k, j) :: kj :: l)) +++ String "}"%char rest)
      with (String dq (qbody k +++ String dq (String ":"%char
              (print j +++ String ","%char (tl +++ String "}"%char rest))))).
    2:{ change (join "," (map pmem ((k,j) :: kj :: l))) with (pmem (k, j) +++ String ","%char tl).
        unfold pmem. cbn [fst snd]. rewrite !sapp_assoc, quote_app. reflexivity. }
    rewrite pmembers_S, skip_ws_nws by reflexivity.
    change (Ascii.eqb dq dq) with true. cbv iota.
    rewrite pstr_qbody. rewrite skip_ws_nws by reflexivity.
    change (Ascii.eqb ":" ":") with true. cbv iota.
    rewrite (pval_mono m (n + m) _ _ ltac:(lia) Hm).
    rewrite skip_ws_nws by reflexivity. change (Ascii.eqb "," ",") with true. cbv iota.
    rewrite (pmembers_mono n (n + m) _ _ ltac:(lia) Hn). reflexivity.
Qed.

Lemma join_head (f : string) l : exists r, join "," (f :: l) = f +++ r.
Proof.
  destruct l as [|g l]; [exists EmptyString; cbn; now rewrite sapp_nil_r|].
  eexists. reflexivity.
Qed.

Theorem print_ok j : PrintsOK j.
Proof.
  induction j as [|b|l|s|l IH|l IH] using json_ind'; intros HW rest Hs.
  - exists 1. reflexivity.
  - exists 1. destruct b; reflexivity.
  - cbn in HW. exists 1. cbn [print jsan].
    destruct (is_num_head l HW) as (a & r & El & Ha).
    destruct (numhead_neq a Ha) as (E1 & E2 & E3 & E4 & E5 & E6 & E7 & _).
    apply is_num_spec in HW.
    pose proof (pnum_app l l EmptyString rest HW Hs) as Hp.
    rewrite El in Hp |- *. cbn [String.append] in *.
    rewrite pval_S, skip_ws_nws by auto. rewrite E2, E3, E4, E5, E6, E7.
    rewrite Hp. reflexivity.
  - exists 1. cbn [print jsan]. rewrite quote_app. rewrite pval_S, skip_ws_nws by reflexivity.
    change (Ascii.eqb dq dq) with true. cbv iota. rewrite pstr_qbody. reflexivity.
  - destruct l as [|j l].
    { exists 1. reflexivity. }
    cbn [wf_json] in HW. cbn [print].
    destruct (elems_ok (j :: l) IH HW ltac:(discriminate) rest) as [n Hn].
    exists (S n).
    change (map print (j :: l)) with (print j :: map print l) in *.
    change (("[" +++ join "," (print j :: map print l) +++ "]") +++ rest)
      with (String "["%char ((join "," (print j :: map print l) +++ "]") +++ rest)).
    rewrite sapp_assoc. change ("]" +++ rest) with (String "]"%char rest).
    rewrite pval_S, skip_ws_nws by reflexivity.
    change (Ascii.eqb "[" dq) with false. change (Ascii.eqb "[" "[") with true. cbv iota.
    rewrite Hn.
    destruct (join_head (print j) (map print l)) as [r Hr]. rewrite Hr.
    cbn in HW. apply andb_true_iff in HW as [HWj _].
    destruct (print_head j HWj) as (c & r' & Ec & Hc). rewrite Ec. cbn [String.append].
    apply phead_spec in Hc as (Hc1 & Hc2 & Hc3).
    rewrite skip_ws_nws by auto. rewrite Hc2. reflexivity.
  - destruct l as [|kj l].
    { exists 1. reflexivity. }
    cbn [wf_json] in HW. cbn [print].
    destruct (members_ok (kj :: l) IH HW ltac:(discriminate) rest) as [n Hn].
    exists (S n). fold pmem. change (fun kv => quote (fst kv) +++ ":" +++ print (snd kv)) with pmem.
    set (b := join "," (map pmem (kj :: l))) in *.
    assert (exists r, b = String dq r) as [r Hr].
    { unfold b. cbn [map]. destruct (join_head (pmem kj) (map pmem l)) as [r Hr]. rewrite Hr.
      unfold pmem. rewrite !sapp_assoc, quote_app. eauto. }
    change (("{" +++ b +++ "}") +++ rest) with (String "{"%char ((b +++ "}") +++ rest)).
    rewrite sapp_assoc. change ("}" +++ rest) with (String "}"%char rest).
    rewrite pval_S, skip_ws_nws by reflexivity.
    change (Ascii.eqb "{" dq) with false. change (Ascii.eqb "{" "[") with false.
    change (Ascii.eqb "{" "{") with true. cbv iota.
    rewrite Hn. rewrite Hr. cbn [String.append]. rewrite skip_ws_nws by reflexivity. reflexivity.
Qed.

Theorem parse_print j : wf_json j = true -> parse (print j) = Some (jsan j).
Proof.
  intros HW. destruct (print_ok j HW EmptyString eq_refl) as [n Hn].
  rewrite sapp_nil_r in Hn. eapply parse_intro; [exact Hn|reflexivity].
Qed.
