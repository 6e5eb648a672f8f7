(** Number texts: what they denote and which double is taken for them. *)
From Coq Require Import Arith ZifyBool ZifyNat ZifyN QArith Qabs Qpower Qfield Lqa.
From Verif Require Import GoBase Json JsonText Float64 Float64Proofs SpecJson JsonGrammar SpecNumber FloatNear NearProofs.
Open Scope string_scope.
Open Scope list_scope.
Local Open Scope Z_scope.

Lemma fraction_part f fd : fraction f fd -> frac_part f /\ drop1 f = fd.
Proof. intros [|d H]; [split; [now left|reflexivity]|]. split; [right; eauto|reflexivity]. Qed.
Lemma exponent_part e ev : exponent e ev -> exp_part e.
Proof.
  intros [|x sg d H1 H2 H3|x d H1 H3]; [now left|right|right].
  - exists x, sg, d. repeat split; try assumption; try apply H3. cbn in *. tauto.
  - exists x, "-", d. repeat split; try assumption; try apply H3. cbn. tauto.
Qed.

Lemma head_digit d c r : some_digits d -> d = String c r -> Ascii.eqb c "-" = false /\ Ascii.eqb c "+" = false.
Proof.
  intros [_ H] ->. apply digits_is in H. cbn in H. apply andb_true_iff in H as [K _]. revert K. clear.
  destruct c as [[] [] [] [] [] [] [] []]; intros K; try discriminate K; split; reflexivity.
Qed.

Lemma exponent_value e ev : exponent e ev ->
  match drop1 e with
  | String c r => if Ascii.eqb c "-" then - digits_val 0 r else if Ascii.eqb c "+" then digits_val 0 r else digits_val 0 (String c r)
  | EmptyString => 0
  end = ev.
Proof.
  intros [|x sg d H1 H2 H3|x d H1 H3].
  - reflexivity.
  - destruct H1 as [<-|[<-|[]]]; destruct H2 as [<-|[<-|[]]]; cbn [String.append drop1]; try reflexivity;
      (destruct d as [|c d]; [destruct (proj1 H3 eq_refl)|]); destruct (head_digit _ c d H3 eq_refl) as [-> ->]; reflexivity.
  - destruct H1 as [<-|[<-|[]]]; reflexivity.
Qed.

Lemma denotes_parts l neg D k : denotes l neg D k -> lit_parts l = Some (neg, D, k).
Proof.
  intros (i & f & fd & e & ev & -> & Hi & Hf & He & -> & ->).
  pose proof (fraction_part f fd Hf) as [Hf' Hfd]. pose proof (exponent_part e ev He) as He'. pose proof (exponent_value e ev He) as Hev.
  pose proof (exp_read e He') as (E1 & E2 & _). pose proof (frac_read f e Hf' He') as (F1 & F2).
  pose proof (int_read i (f +++ e) Hi F2) as I1.
  assert (forall c r, i +++ f +++ e = String c r -> Ascii.eqb c "-" = false) as Hm.
  { intros c r. destruct Hi as [->|(c' & d & -> & Hc & _)]; cbn [String.append].
    - intros H. injection H as <- _. reflexivity.
    - intros H. injection H as <- _. revert Hc. clear.
      destruct c' as [[] [] [] [] [] [] [] []]; intros K; try discriminate K; reflexivity. }
  unfold lit_parts. destruct neg; cbn [String.append].
  - cbn [Ascii.eqb Bool.eqb]. rewrite I1, F1, E1. rewrite Hev, Hfd. reflexivity.
  - destruct (i +++ f +++ e) as [|c r]; [discriminate I1|].
    rewrite (Hm c r eq_refl). rewrite I1, F1, E1. rewrite Hev, Hfd. reflexivity.
Qed.

Lemma number_denotes l : number l -> exists neg D k, denotes l neg D k.
Proof.
  intros (sg & i & f & e & -> & Hsg & Hi & Hf & He).
  assert (exists fd, fraction f fd) as [fd Hfd].
  { destruct Hf as [->|(d & -> & Hd)]; [exists ""; constructor|exists d; now constructor]. }
  assert (exists ev, exponent e ev) as [ev Hev].
  { destruct He as [->|(x & g & d & -> & Hx & Hg & Hd)]; [exists 0; constructor|].
    destruct Hg as [<-|[<-|[<-|[]]]].
    - exists (digits_val 0 d). apply (ex_plus x "" d Hx); [now left|exact Hd].
    - exists (digits_val 0 d). apply (ex_plus x "+" d Hx); [right; now left|exact Hd].
    - exists (- digits_val 0 d). apply (ex_minus x d Hx Hd). }
  exists (match sg with "" => false | _ => true end), (digits_val 0 (i +++ fd)), (ev - Z.of_nat (String.length fd)).
  exists i, f, fd, e, ev. destruct Hsg as [<-|[<-|[]]]; repeat split; assumption.
Qed.

Lemma denotes_number l neg D k : denotes l neg D k -> number l.
Proof.
  intros (i & f & fd & e & ev & -> & Hi & Hf & He & _ & _). apply fraction_part in Hf as [Hf _]. apply exponent_part in He.
  exists (if neg then "-" else ""), i, f, e. destruct neg; repeat split; try assumption; cbn; tauto.
Qed.

Lemma denotes_unique l n D k n' D' k' : denotes l n D k -> denotes l n' D' k' -> n = n' /\ D = D' /\ k = k'.
Proof. intros H H'. apply denotes_parts in H, H'. rewrite H in H'. injection H' as -> -> ->. auto. Qed.

Lemma denotes_nonneg l n D k : denotes l n D k -> 0 <= D.
Proof. intros H. apply denotes_parts in H. eapply lit_parts_nonneg, H. Qed.

(** ** The value as a quotient *)

Lemma decimal_quotient D k : (decimal D k == inject_Z (if 0 <=? k then D * 10 ^ k else D) / inject_Z (if 0 <=? k then 1 else 10 ^ (- k)))%Q.
Proof.
  unfold decimal. change 10%Q with (inject_Z 10). destruct (0 <=? k) eqn:E.
  - rewrite qpow_nat by lia. rewrite inject_Z_mult. change (inject_Z 1) with 1%Q. field.
  - rewrite <- qpow_nat by lia. pose proof (qpow_pos 10 (- k) ltac:(lia)) as P. rewrite (qpow_neg 10 k) in * by lia.
    set (x := Qpower (inject_Z 10) k) in *. clearbody x.
    assert (~ x == 0)%Q as Hx. { intros H. rewrite H in P. revert P. apply Qlt_irrefl. }
    field. exact Hx.
Qed.

Lemma nearest_eq v w m e : (v == w)%Q -> nearest v m e -> nearest w m e.
Proof. intros E [C H]. split; [exact C|]. intros m' e' C'. rewrite <- E. exact (H m' e' C'). Qed.
Lemma large_eq v w : (v == w)%Q -> too_large v <-> too_large w.
Proof. intros E. unfold too_large. rewrite E. reflexivity. Qed.

Lemma nearest_zero k : nearest (decimal 0 k) 0 (-1074).
Proof.
  apply (nearest_eq (double 0 (-1074))); [unfold double, decimal; change (inject_Z 0) with 0%Q; ring|]. apply nearest_self. reflexivity.
Qed.
Lemma small_zero k : ~ too_large (decimal 0 k).
Proof.
  intros H. assert (E : (decimal 0 k == inject_Z 0 / inject_Z 1)%Q) by (unfold decimal; change (inject_Z 0) with 0%Q; change (inject_Z 1) with 1%Q; field).
  pose proof (proj1 (large_eq _ _ E) H) as H1. pose proof (proj1 (large_scaled 0 1 Z.lt_0_1) H1) as H2. clear - H2.
  assert (0 < 2 ^ (971 + 1074)) as P by (apply Z.pow_pos_nonneg; lia). rewrite Z.mul_0_l in H2. set (x := 2 ^ (971 + 1074)) in *. clearbody x.
  change (2 ^ 54) with 18014398509481984 in H2. lia.
Qed.

Theorem parse_taken l neg D k : denotes l neg D k ->
  match parse_float l with
  | Some x => exists m e, x = FFin neg m e /\ nearest (decimal D k) m e /\ ~ too_large (decimal D k)
  | None => too_large (decimal D k)
  end.
Proof.
  intros H. pose proof (denotes_nonneg _ _ _ _ H) as HD. unfold parse_float. rewrite (denotes_parts _ _ _ _ H).
  destruct (D =? 0) eqn:E0.
  - apply Z.eqb_eq in E0. subst D. exists 0, (-1074). split; [reflexivity|]. split; [apply nearest_zero|apply small_zero].
  - apply Z.eqb_neq in E0.
    assert (0 < (if 0 <=? k then D * 10 ^ k else D)) as Pn.
    { destruct (0 <=? k) eqn:E; [|lia]. assert (0 < 10 ^ k) by (apply Z.pow_pos_nonneg; lia). nia. }
    assert (0 < (if 0 <=? k then 1 else 10 ^ (- k))) as Pd.
    { destruct (0 <=? k) eqn:E; [lia|]. apply Z.pow_pos_nonneg; lia. }
    pose proof (round_nearest _ _ Pn Pd) as R. pose proof (decimal_quotient D k) as Q.
    destruct (round_pos _ _) as [[m e]|].
    + destruct R as [R1 R2]. exists m, e. split; [reflexivity|]. split; [eapply nearest_eq; [symmetry; exact Q|exact R1]|].
      intros L. apply R2. exact (proj1 (large_eq _ _ Q) L).
    + exact (proj2 (large_eq _ _ Q) R).
Qed.

Theorem taken_parse l x : number l -> (parse_float l = Some x <-> taken_as l x).
Proof.
  intros HN. destruct (number_denotes l HN) as (neg & D & k & H). pose proof (parse_taken l neg D k H) as P. split.
  - intros E. rewrite E in P. destruct P as (m & e & -> & P1 & P2). exists neg, D, k, m, e. auto.
  - intros (neg' & D' & k' & m & e & H' & -> & P1 & P2). destruct (denotes_unique _ _ _ _ _ _ _ H H') as (<- & <- & <-).
    destruct (parse_float l) as [x|].
    + destruct P as (m0 & e0 & -> & Q1 & Q2). destruct (nearest_unique _ _ _ _ _ P1 Q1) as [-> ->]. reflexivity.
    + destruct (P2 P).
Qed.
