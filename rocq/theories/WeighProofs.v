(** Reading and writing untyped values, number by number. *)
From Coq Require Import Arith ZifyBool Permutation Sorted QArith.
From Verif Require Import GoBase Utf8 Json JsonProofs JsonText Float64 Float64Proofs Codec Any AnyProofs SpecJson JsonGrammar SpecNumber FloatNear NearProofs NumberProofs SpecShort ShortFound SpecWeigh.
Open Scope string_scope.
Open Scope list_scope.

Lemma shows_mono (N N' : string -> f64 -> Prop) j : (forall l x, N l x -> N' l x) -> forall a, shows N j a -> shows N' j a.
Proof.
  intros HN. induction j as [|b|l|s|l IH|l IH] using json_ind'; intros a H; inversion H as [| |? x HL| |? xs HL|? m H1 H2 H3]; subst; constructor; auto.
  - clear H. induction HL as [|x y l ys Hxy _ IHL]; [constructor|]. inversion IH; subst. constructor; auto.
  - intros k v Hv. destruct (H3 k v Hv) as (bf & j & af & -> & K1 & K2). exists bf, j, af. split; [reflexivity|]. split; [exact K1|].
    rewrite Forall_forall in IH. apply (IH (k, j)); [|exact K2]. apply in_elt.
Qed.

Lemma dedup_last {A} (l : list (string * A)) k v : In (k, v) (dedup l) -> exists b a, l = b ++ (k, v) :: a /\ ~ In k (map fst a).
Proof.
  induction l as [|[k' v'] l IH]; [intros []|]. cbn [dedup]. destruct (has_key k' l) eqn:E.
  - intros H. destruct (IH H) as (b & a & -> & N). exists ((k', v') :: b), a. split; [reflexivity|exact N].
  - intros [H|H].
    + injection H as -> ->. exists [], l. split; [reflexivity|]. intros K. apply has_key_In in K. congruence.
    + destruct (IH H) as (b & a & -> & N). exists ((k', v') :: b), a. split; [reflexivity|exact N].
Qed.

Lemma to_any_weighs j : wf_json j = true -> forall a, to_any j = Some a -> weighs j a.
Proof.
  unfold weighs. induction j as [|b|l|s|l IH|l IH] using json_ind'; intros HC a H; cbn [to_any] in H.
  - injection H as <-. constructor.
  - injection H as <-. constructor.
  - destruct (parse_float l) as [x|] eqn:E; [|discriminate]. cbn in H. injection H as <-. constructor.
    cbn [wf_json] in HC. apply taken_parse; [|exact E]. apply number_read. apply is_num_spec, HC.
  - injection H as <-. constructor.
  - destruct (oall (map to_any l)) as [xs|] eqn:E; [|discriminate]. cbn in H. injection H as <-. constructor. apply oall_map in E.
    cbn [wf_json] in HC. rewrite forallb_forall in HC. clear -IH HC E. induction E as [|x y l ys Hxy _ IHE]; [constructor|].
    inversion IH; subst. constructor; [apply H1; [apply HC; now left|exact Hxy]|]. apply IHE; [assumption|]. intros z Hz. apply HC. now right.
  - destruct (oall _) as [xs|] eqn:E; [|discriminate]. cbn in H. injection H as <-. apply oall_map in E.
    cbn [wf_json] in HC. rewrite forallb_forall in HC.
    assert (EK : map fst xs = map fst l).
    { clear -E. induction E as [|x y l ys Hxy _ IHE]; [reflexivity|]. destruct (to_any (snd x)); [|discriminate Hxy]. cbn in Hxy. injection Hxy as <-.
      cbn [map fst]. rewrite IHE. reflexivity. }
    constructor.
    + eapply nodup_perm; [apply Permutation_sym, sort_perm|]. apply dedup_nodup.
    + intros k. rewrite <- EK, <- (dedup_keys xs). split; apply Permutation_in; [|apply Permutation_sym]; apply Permutation_map, sort_perm.
    + intros k a Ha. apply (Permutation_in _ (sort_perm _)) in Ha. apply dedup_last in Ha as (b & af & -> & N).
      apply Forall2_app_inv_r in E as (l1 & l2 & E1 & E2 & ->). inversion E2 as [|[k' j] y l2' ? E3 E4]; subst. cbn [fst snd] in E3.
      destruct (to_any j) as [a'|] eqn:Ea; [|discriminate E3]. cbn in E3. injection E3 as -> ->. exists l1, j, l2'. split; [reflexivity|]. split.
      * intros K. apply N. clear -E4 K. revert K. induction E4 as [|x y l ys Hxy _ IHE]; [intros []|].
        destruct (to_any (snd x)); [|discriminate Hxy]. cbn in Hxy. injection Hxy as <-. cbn [map fst In]. tauto.
      * rewrite Forall_forall in IH. apply (IH (k, j)); [apply in_elt| |exact Ea]. apply (HC (k, j)). apply in_elt.
Qed.

Lemma oall_none {A B} (f : A -> option B) l : oall (map f l) = None -> exists x, In x l /\ f x = None.
Proof.
  induction l as [|x l IH]; [discriminate|]. cbn [map oall]. destruct (f x) eqn:E; [|exists x; split; [now left|exact E]].
  destruct (oall (map f l)) eqn:E2; [discriminate|]. intros _. destruct (IH eq_refl) as (y & Hy & Ey). exists y. split; [now right|exact Ey].
Qed.
Lemma to_any_none j : wf_json j = true -> to_any j = None -> exists l, holds l j /\ oversized l.
Proof.
  induction j as [|b|l|s|l IH|l IH] using json_ind'; intros HC H; cbn [to_any] in H; try discriminate H.
  - destruct (parse_float l) as [x|] eqn:E; [discriminate|]. exists l. split; [constructor|].
    cbn [wf_json] in HC. pose proof (is_num_spec l HC) as EP. apply number_read in EP. apply number_denotes in EP as (neg & D & k & HD). pose proof (parse_taken _ _ _ _ HD) as P. rewrite E in P.
    exists neg, D, k. split; assumption.
  - destruct (oall (map to_any l)) as [xs|] eqn:E; [discriminate|]. apply oall_none in E as (j & Hj & Ej).
    cbn [wf_json] in HC. rewrite forallb_forall in HC. rewrite Forall_forall in IH. destruct (IH j Hj (HC j Hj) Ej) as (t & H1 & H2).
    exists t. split; [econstructor; eassumption|exact H2].
  - destruct (oall _) as [xs|] eqn:E; [discriminate|]. apply oall_none in E as ([k j] & Hj & Ej). cbn [fst snd] in Ej.
    destruct (to_any j) eqn:Ea; [discriminate Ej|].
    cbn [wf_json] in HC. rewrite forallb_forall in HC. rewrite Forall_forall in IH. destruct (IH _ Hj (HC _ Hj) Ea) as (t & H1 & H2).
    exists t. split; [econstructor; eassumption|exact H2].
Qed.
(** And the other way round: what is too large is not read. *)
Lemma oversized_none j l : holds l j -> oversized l -> to_any j = None.
Proof.
  intros H (neg & D & k & HD & HL). induction H as [|js j Hj _ IH|kvs k0 j Hj _ IH]; cbn [to_any].
  - pose proof (parse_taken _ _ _ _ HD) as P. destruct (parse_float l) as [x|]; [|reflexivity]. destruct P as (m & e & _ & _ & P). destruct (P HL).
  - destruct (oall (map to_any js)) as [xs|] eqn:E; [exfalso|reflexivity]. apply oall_map in E. clear -E Hj IH.
    induction E as [|x y l ys Hxy _ IHE]; [destruct Hj|]. destruct Hj as [->|Hj]; [congruence|auto].
  - destruct (oall _) as [xs|] eqn:E; [exfalso|reflexivity]. apply oall_map in E. clear -E Hj IH.
    induction E as [|x y l ys Hxy _ IHE]; [destruct Hj|]. destruct Hj as [->|Hj]; [cbn [fst snd] in Hxy; rewrite IH in Hxy; discriminate Hxy|auto].
Qed.

Lemma of_any_written a : wf_any a -> forall j, of_any a = Some j -> written j a.
Proof.
  unfold written. induction a as [|b|x|s|l IH|m IH] using any_ind'; intros HW j H; cbn [of_any] in H.
  - injection H as <-. constructor.
  - injection H as <-. constructor.
  - destruct (fmt_float x) as [t|] eqn:E; [|discriminate]. cbn in H. injection H as <-. constructor. apply fmt_json; [apply HW|exact E].
  - injection H as <-. constructor.
  - destruct (oall (map of_any l)) as [js|] eqn:E; [|discriminate]. cbn in H. injection H as <-. constructor. apply oall_map in E.
    apply wf_any_arr in HW. clear -IH HW E. induction E as [|x y l ys Hxy _ IHE]; [constructor|]. inversion IH; subst. inversion HW; subst. constructor; auto.
  - destruct (oall _) as [js|] eqn:E; [|discriminate]. cbn in H. injection H as <-. apply oall_map in E.
    apply wf_any_obj in HW as (HN & HS & HW).
    assert (EK : map fst js = map fst m).
    { clear -E. induction E as [|x y l ys Hxy _ IHE]; [reflexivity|]. destruct (of_any (snd x)); [|discriminate Hxy]. cbn in Hxy. injection Hxy as <-.
      cbn [map fst]. rewrite IHE. reflexivity. }
    constructor; [exact HN|intros k; rewrite EK; reflexivity|].
    intros k a Ha. apply in_split in Ha as (m1 & m2 & ->). apply Forall2_app_inv_l in E as (l1 & l2 & E1 & E2 & ->).
    inversion E2 as [|? y ? l2' E3 E4]; subst. cbn [fst snd] in E3. destruct (of_any a) as [j|] eqn:Ea; [|discriminate E3]. cbn in E3. injection E3 as <-.
    exists l1, j, l2'. split; [reflexivity|]. split.
    + rewrite <- EK, map_app in HN. cbn [map fst] in HN. apply NoDup_remove_2 in HN. intros K. apply HN. apply in_or_app. now right.
    + rewrite Forall_forall in IH, HW. apply (IH (k, a)); [apply in_elt| |exact Ea]. apply (HW (k, a)). apply in_elt.
Qed.
