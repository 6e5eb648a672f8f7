(** Untyped values survive the wire; re-encoding a tree only permutes members. *)
From Coq Require Import Permutation Sorted.
From Verif Require Import GoBase Utf8 Json JsonProofs JsonText Float64 Float64Proofs Codec EncProofs Any.
Open Scope string_scope.
Open Scope list_scope.

(** ** Lists of options *)

Lemma oall_Some {A} (l : list (option A)) xs : oall l = Some xs <-> l = map Some xs.
Proof.
  revert xs. induction l as [|[x|] l IH]; intros xs; cbn [oall].
  - split; intros H; [injection H as <-; reflexivity|destruct xs; [reflexivity|discriminate]].
  - destruct (oall l) as [ys|] eqn:E.
    + split; intros H.
      * injection H as <-. cbn [map]. f_equal. apply IH. reflexivity.
      * destruct xs as [|y xs']; [discriminate|]. cbn [map] in H. injection H as -> H.
        f_equal. f_equal. apply IH in H. injection H as ->. reflexivity.
    + split; intros H; [discriminate|]. destruct xs as [|y xs']; [discriminate|]. cbn [map] in H.
      injection H as -> H. apply IH in H. discriminate.
  - split; intros H; [discriminate|]. destruct xs; discriminate.
Qed.

Lemma oall_map {A B} (f : A -> option B) l ys : oall (map f l) = Some ys <-> Forall2 (fun x y => f x = Some y) l ys.
Proof.
  rewrite oall_Some. revert ys. induction l as [|x l IH]; intros ys; split; intros H.
  - destruct ys; [constructor|discriminate].
  - inversion H. reflexivity.
  - destruct ys as [|y ys]; [discriminate|]. cbn [map] in H. injection H as H1 H2.
    constructor; [exact H1|]. apply IH, H2.
  - inversion H as [|? y ? ys' H1 H2]; subst. cbn [map]. f_equal; [exact H1|]. apply IH, H2.
Qed.

(** ** Sorting *)

Lemma insert_perm {A} (kv : string * A) l : Permutation (kv_insert kv l) (kv :: l).
Proof.
  induction l as [|x l IH]; cbn [kv_insert]; [reflexivity|].
  destruct (String.leb (fst kv) (fst x)); [reflexivity|].
  rewrite IH. apply perm_swap.
Qed.

Lemma sort_perm {A} (l : list (string * A)) : Permutation (kv_sort l) l.
Proof.
  induction l as [|x l IH]; [reflexivity|]. cbn [kv_sort fold_right].
  change (fold_right kv_insert [] l) with (kv_sort l). rewrite insert_perm. constructor. exact IH.
Qed.

Definition kle {A} (a b : string * A) : Prop := String.leb (fst a) (fst b) = true.

Lemma insert_sorted {A} (kv : string * A) l : LocallySorted kle l -> LocallySorted kle (kv_insert kv l).
Proof.
  induction l as [|x l IH]; intros HS; cbn [kv_insert]; [constructor|].
  destruct (String.leb (fst kv) (fst x)) eqn:E; [constructor; [exact HS|exact E]|].
  assert (Exk : kle x kv).
  { unfold kle. destruct (String.leb_total (fst kv) (fst x)) as [H|H]; [congruence|exact H]. }
  inversion HS as [|? Hx|? y l' HS' Hxy]; subst.
  - cbn [kv_insert]. constructor; [constructor|exact Exk].
  - specialize (IH HS'). cbn [kv_insert] in IH |- *.
    destruct (String.leb (fst kv) (fst y)); constructor; try assumption.
Qed.

Lemma sort_sorted {A} (l : list (string * A)) : LocallySorted kle (kv_sort l).
Proof. induction l as [|x l IH]; [constructor|]. cbn [kv_sort fold_right]. apply insert_sorted. exact IH. Qed.

Lemma sort_id {A} (l : list (string * A)) : LocallySorted kle l -> kv_sort l = l.
Proof.
  induction l as [|x l IH]; intros HS; [reflexivity|]. cbn [kv_sort fold_right].
  change (fold_right kv_insert [] l) with (kv_sort l).
  inversion HS as [|? Hx|? y l' HS' Hxy]; subst; [reflexivity|].
  rewrite (IH HS'). cbn [kv_insert]. unfold kle in Hxy. rewrite Hxy. reflexivity.
Qed.

(** ** Duplicates *)

Lemma has_key_In {A} k (l : list (string * A)) : has_key k l = true <-> In k (map fst l).
Proof.
  unfold has_key. destruct (lookup k l) as [v|] eqn:E.
  - apply lookup_In in E. split; [|reflexivity]. intros _. change k with (fst (k, v)). apply in_map. exact E.
  - apply lookup_None in E. split; [discriminate|contradiction].
Qed.

Lemma dedup_id {A} (l : list (string * A)) : NoDup (map fst l) -> dedup l = l.
Proof.
  induction l as [|[k v] l IH]; intros HN; [reflexivity|]. cbn [dedup].
  inversion HN as [|? ? H1 H2]; subst. destruct (has_key k l) eqn:E.
  - apply has_key_In in E. contradiction.
  - rewrite (IH H2). reflexivity.
Qed.

Lemma dedup_incl {A} (l : list (string * A)) x : In x (dedup l) -> In x l.
Proof.
  induction l as [|[k v] l IH]; cbn [dedup]; [auto|].
  destruct (has_key k l); [intros H; right; auto|intros [H|H]; [left; exact H|right; auto]].
Qed.

Lemma dedup_nodup {A} (l : list (string * A)) : NoDup (map fst (dedup l)).
Proof.
  induction l as [|[k v] l IH]; cbn [dedup]; [constructor|].
  destruct (has_key k l) eqn:E; [exact IH|]. cbn [map fst]. constructor; [|exact IH].
  intros H. apply in_map_iff in H. destruct H as ([k' v'] & E' & Hi). cbn [fst] in E'. subst k'.
  apply dedup_incl in Hi. assert (has_key k l = true); [|congruence].
  apply has_key_In. change k with (fst (k, v')). apply in_map. exact Hi.
Qed.

Lemma dedup_keys {A} (l : list (string * A)) k : In k (map fst (dedup l)) <-> In k (map fst l).
Proof.
  induction l as [|[k' v] l IH]; cbn [dedup]; [tauto|].
  destruct (has_key k' l) eqn:E; cbn [map fst In]; rewrite IH; [|tauto].
  apply has_key_In in E. split; [auto|]. intros [<-|H]; [exact E|exact H].
Qed.

Lemma dedup_map {A B} (f : A -> B) (l : list (string * A)) :
  dedup (map (fun kv => (fst kv, f (snd kv))) l) = map (fun kv => (fst kv, f (snd kv))) (dedup l).
Proof.
  induction l as [|[k v] l IH]; [reflexivity|]. cbn [map dedup fst snd].
  assert (E : has_key k (map (fun kv => (fst kv, f (snd kv))) l) = has_key k l).
  { apply eq_true_iff_eq. rewrite !has_key_In, map_map. cbn [fst]. tauto. }
  rewrite E, IH. destruct (has_key k l); reflexivity.
Qed.

(** ** Well-formed untyped values *)

Fixpoint wf_any (a : any) : Prop :=
  match a with
  | ANull | ABool _ => True
  | ANum x => canon x = true /\ finite x = true
  | AStr s => sanitize s = s
  | AArr l => fold_right (fun x P => wf_any x /\ P) True l
  | AObj m => NoDup (map fst m) /\ LocallySorted kle m /\
              fold_right (fun kv P => (sanitize (fst kv) = fst kv /\ wf_any (snd kv)) /\ P) True m
  end.

Lemma fold_and {A} (Q : A -> Prop) l : fold_right (fun x P => Q x /\ P) True l <-> Forall Q l.
Proof.
  induction l as [|x l IH]; cbn [fold_right]; split; intros H; [constructor|exact I| |].
  - destruct H as [H1 H2]. constructor; [exact H1|apply IH, H2].
  - inversion H; subst. split; [assumption|apply IH; assumption].
Qed.

Lemma wf_any_arr l : wf_any (AArr l) <-> Forall wf_any l.
Proof. cbn [wf_any]. apply fold_and. Qed.
Lemma wf_any_obj m : wf_any (AObj m) <-> NoDup (map fst m) /\ LocallySorted kle m /\
  Forall (fun kv => sanitize (fst kv) = fst kv /\ wf_any (snd kv)) m.
Proof. cbn [wf_any]. rewrite (fold_and (fun kv => sanitize (fst kv) = fst kv /\ wf_any (snd kv))). reflexivity. Qed.

Definition any_ind' (P : any -> Prop)
  (H1 : P ANull) (H2 : forall b, P (ABool b)) (H3 : forall x, P (ANum x)) (H4 : forall s, P (AStr s))
  (H5 : forall l, Forall P l -> P (AArr l))
  (H6 : forall l, Forall (fun kv => P (snd kv)) l -> P (AObj l)) : forall a, P a :=
  fix rec (a : any) : P a :=
    match a with
    | ANull => H1 | ABool b => H2 b | ANum x => H3 x | AStr s => H4 s
    | AArr l => H5 l ((fix go l : Forall P l := match l with
                           | [] => Forall_nil _ | x :: r => Forall_cons _ (rec x) (go r) end) l)
    | AObj l => H6 l ((fix go l : Forall (fun kv => P (snd kv)) l := match l with
                           | [] => Forall_nil _ | x :: r => Forall_cons _ (rec (snd x)) (go r) end) l)
    end.

Lemma nodup_perm {A} (l l' : list (string * A)) : Permutation l l' -> NoDup (map fst l) -> NoDup (map fst l').
Proof. intros HP HN. eapply Permutation_NoDup; [apply Permutation_map, HP|exact HN]. Qed.

Theorem to_any_wf j : forall a, clean j -> to_any j = Some a -> wf_any a.
Proof.
  induction j as [|b|l|s|l IH|l IH] using json_ind'; intros a HC H; cbn [to_any] in H.
  - injection H as <-. exact I.
  - injection H as <-. exact I.
  - destruct (parse_float l) as [x|] eqn:E; [|discriminate]. cbn in H. injection H as <-.
    apply parse_float_canon in E. exact E.
  - injection H as <-. destruct HC as [_ HC]. cbn in HC. cbn [wf_any]. congruence.
  - destruct (oall (map to_any l)) as [xs|] eqn:E; [|discriminate]. cbn in H. injection H as <-.
    apply wf_any_arr. apply clean_arr in HC. apply oall_map in E. clear -IH HC E.
    induction E as [|x y l ys Hxy _ IHE]; [constructor|].
    inversion IH; subst. inversion HC; subst. constructor; eauto.
  - destruct (oall _) as [xs|] eqn:E; [|discriminate]. cbn in H. injection H as <-.
    apply wf_any_obj. apply clean_obj in HC. apply oall_map in E.
    split; [|split].
    + eapply nodup_perm; [apply Permutation_sym, sort_perm|]. apply dedup_nodup.
    + apply sort_sorted.
    + assert (HF : Forall (fun kv => sanitize (fst kv) = fst kv /\ wf_any (snd kv)) xs).
      { clear -IH HC E. induction E as [|x y l ys Hxy _ IHE]; [constructor|].
        inversion IH as [|? ? I1 I2]; subst. inversion HC as [|? ? [C1 C2] C3]; subst.
        destruct (to_any (snd x)) as [a|] eqn:Ea; [|discriminate]. cbn in Hxy. injection Hxy as <-.
        constructor; [split; [exact C1|cbn [snd]; eauto]|auto]. }
      eapply Permutation_Forall; [apply Permutation_sym, sort_perm|].
      rewrite Forall_forall in *. intros x Hx. apply HF. apply dedup_incl. exact Hx.
Qed.

(** A well-formed untyped value survives json.Marshal followed by
    json.Unmarshal. *)
Theorem of_any_ok a : wf_any a -> exists j, of_any a = Some j /\ clean j /\ to_any j = Some a.
Proof.
  induction a as [|b|x|s|l IH|m IH] using any_ind'; intros HW; cbn [of_any].
  - eexists. split; [reflexivity|]. split; [split; reflexivity|reflexivity].
  - eexists. split; [reflexivity|]. split; [split; reflexivity|reflexivity].
  - destruct HW as [H1 H2]. destruct (fmt_parse x H1 H2) as (s & Es & Hn & Hp).
    rewrite Es. exists (JNum s). split; [reflexivity|]. split; [split; [exact Hn|reflexivity]|].
    cbn [to_any]. rewrite Hp. reflexivity.
  - cbn [wf_any] in HW. exists (JStr s). split; [reflexivity|]. split; [split; [reflexivity|cbn; now rewrite HW]|reflexivity].
  - apply wf_any_arr in HW.
    assert (exists js, Forall2 (fun x y => of_any x = Some y) l js /\ Forall clean js /\
                       Forall2 (fun x y => to_any x = Some y) js l) as (js & E1 & E2 & E3).
    { induction l as [|x l IHl]; [exists []; repeat constructor|].
      inversion IH as [|? ? I1 I2]; subst. inversion HW as [|? ? W1 W2]; subst.
      destruct (I1 W1) as (j & J1 & J2 & J3). destruct (IHl I2 W2) as (js & K1 & K2 & K3).
      exists (j :: js). repeat split; constructor; assumption. }
    apply oall_map in E1, E3. rewrite E1. exists (JArr js). split; [reflexivity|].
    split; [apply clean_arr; exact E2|]. cbn [to_any]. rewrite E3. reflexivity.
  - apply wf_any_obj in HW. destruct HW as (HN & HS & HW).
    assert (exists js, Forall2 (fun x y => omap (pair (fst x)) (of_any (snd x)) = Some y) m js /\
                       Forall (fun kv => sanitize (fst kv) = fst kv /\ clean (snd kv)) js /\
                       Forall2 (fun x y => omap (pair (fst x)) (to_any (snd x)) = Some y) js m) as (js & E1 & E2 & E3).
    { clear HN HS. induction m as [|[k x] m IHm]; [exists []; repeat constructor|].
      inversion IH as [|? ? I1 I2]; subst. inversion HW as [|? ? [W0 W1] W2]; subst. cbn [fst snd] in *.
      destruct (I1 W1) as (j & J1 & J2 & J3). destruct (IHm I2 W2) as (js & K1 & K2 & K3).
      exists ((k, j) :: js). split; [constructor; [cbn [fst snd]; rewrite J1; reflexivity|exact K1]|].
      split; [constructor; [split; assumption|exact K2]|].
      constructor; [cbn [fst snd]; rewrite J3; reflexivity|exact K3]. }
    apply oall_map in E1, E3. rewrite E1. exists (JObj js). split; [reflexivity|].
    split; [apply clean_obj; exact E2|]. cbn [to_any]. rewrite E3. cbn [omap].
    rewrite dedup_id by exact HN. rewrite sort_id by exact HS. reflexivity.
Qed.

Corollary any_round_trip a : wf_any a ->
  exists s, marshal_any a = Ok s /\ unmarshal_any s = Some a.
Proof.
  intros HW. destruct (of_any_ok a HW) as (j & E1 & (C1 & C2) & E2).
  exists (print j). unfold marshal_any, unmarshal_any. rewrite E1. split; [reflexivity|].
  rewrite parse_print by exact C1. rewrite C2. exact E2.
Qed.

Lemma unmarshal_any_wf s a : unmarshal_any s = Some a -> wf_any a.
Proof.
  unfold unmarshal_any. destruct (parse s) as [j|] eqn:E; [|discriminate].
  apply parse_clean in E. apply to_any_wf. exact E.
Qed.

(** ** Trees up to the order of members *)

Inductive jeq : json -> json -> Prop :=
| jeq_null : jeq JNull JNull
| jeq_bool b : jeq (JBool b) (JBool b)
| jeq_num l : jeq (JNum l) (JNum l)
| jeq_str s : jeq (JStr s) (JStr s)
| jeq_arr l1 l2 : Forall2 jeq l1 l2 -> jeq (JArr l1) (JArr l2)
| jeq_obj l1 l l2 : Forall2 (fun a b => fst a = fst b /\ jeq (snd a) (snd b)) l1 l -> Permutation l l2 ->
    jeq (JObj l1) (JObj l2).

Fixpoint nodupb (l : list string) : bool :=
  match l with [] => true | x :: r => negb (strmem x r) && nodupb r end.

Lemma strmem_In x l : strmem x l = true <-> In x l.
Proof.
  unfold strmem. rewrite existsb_exists. split.
  - intros (y & Hy & E). apply String.eqb_eq in E. subst y. exact Hy.
  - intros H. exists x. split; [exact H|apply String.eqb_refl].
Qed.

Lemma nodupb_spec l : nodupb l = true <-> NoDup l.
Proof.
  induction l as [|x l IH]; cbn [nodupb]; [split; [constructor|reflexivity]|].
  rewrite andb_true_iff, negb_true_iff, IH. split.
  - intros [H1 H2]. constructor; [|exact H2]. intros H. apply strmem_In in H. congruence.
  - intros H. inversion H as [|? ? H1 H2]; subst. split; [|exact H2].
    destruct (strmem x l) eqn:E; [apply strmem_In in E; contradiction|reflexivity].
Qed.

(** Numbers are written the way json.Marshal writes a float64, and no object has
    two keys that the reflective decoder could confuse. *)
Definition nice_num (l : string) : bool :=
  match parse_float l with
  | Some x => match fmt_float x with Some l' => String.eqb l l' | None => false end
  | None => false
  end.
Fixpoint good (j : json) : bool :=
  match j with
  | JNull | JBool _ | JStr _ => true
  | JNum l => nice_num l
  | JArr l => forallb good l
  | JObj l => nodupb (map (fun kv => fold_key (fst kv)) l) && forallb (fun kv => good (snd kv)) l
  end.

Lemma NoDup_map_inv' {A B C} (f : A -> B) (g : B -> C) l : NoDup (map (fun x => g (f x)) l) -> NoDup (map f l).
Proof. intros H. rewrite <- (map_map f g) in H. apply NoDup_map_inv in H. exact H. Qed.

(** Passing a tree through interface{} values only permutes members. *)
Definition canonize (j : json) : option json :=
  match to_any j with Some a => of_any a | None => None end.

Theorem canonize_jeq j : good j = true -> exists j', canonize j = Some j' /\ jeq j j'.
Proof.
  unfold canonize. induction j as [|b|l|s|l IH|l IH] using json_ind'; cbn [good to_any]; intros HG.
  - exists JNull. split; [reflexivity|constructor].
  - exists (JBool b). split; [reflexivity|constructor].
  - unfold nice_num in HG. destruct (parse_float l) as [x|]; [|discriminate]. cbn [omap of_any].
    destruct (fmt_float x) as [l'|]; [|discriminate]. apply String.eqb_eq in HG. subst l'.
    exists (JNum l). split; [reflexivity|constructor].
  - exists (JStr s). split; [reflexivity|constructor].
  - rewrite forallb_forall in HG.
    assert (exists xs js, Forall2 (fun x y => to_any x = Some y) l xs /\
                          Forall2 (fun x y => of_any x = Some y) xs js /\ Forall2 jeq l js) as (xs & js & E1 & E2 & E3).
    { induction l as [|x l IHl]; [exists [], []; repeat constructor|].
      inversion IH as [|? ? I1 I2]; subst.
      destruct (I1 (HG x (or_introl eq_refl))) as (j' & J1 & J2).
      destruct (to_any x) as [a|] eqn:Ea; [|discriminate].
      destruct (IHl I2 (fun y Hy => HG y (or_intror Hy))) as (xs & js & K1 & K2 & K3).
      exists (a :: xs), (j' :: js). repeat split; constructor; assumption. }
    apply oall_map in E1, E2. rewrite E1. cbn [omap of_any]. rewrite E2. cbn [omap].
    exists (JArr js). split; [reflexivity|constructor; exact E3].
  - apply andb_true_iff in HG. destruct HG as [HN HG]. apply nodupb_spec in HN. rewrite forallb_forall in HG.
    assert (HK : NoDup (map fst l)) by (eapply NoDup_map_inv'; exact HN). clear HN.
    assert (exists xs js, Forall2 (fun x y => omap (pair (fst x)) (to_any (snd x)) = Some y) l xs /\
                          Forall2 (fun x y => omap (pair (fst x)) (of_any (snd x)) = Some y) xs js /\
                          Forall2 (fun a b => fst a = fst b /\ jeq (snd a) (snd b)) l js /\
                          map fst xs = map fst l) as (xs & js & E1 & E2 & E3 & E4).
    { clear HK. induction l as [|[k x] l IHl]; [exists [], []; repeat constructor|].
      inversion IH as [|? ? I1 I2]; subst. cbn [snd] in I1.
      destruct (I1 (HG (k, x) (or_introl eq_refl))) as (j' & J1 & J2).
      destruct (to_any x) as [a|] eqn:Ea; [|discriminate].
      destruct (IHl I2 (fun y Hy => HG y (or_intror Hy))) as (xs & js & K1 & K2 & K3 & K4).
      exists ((k, a) :: xs), ((k, j') :: js).
      split; [constructor; [cbn [fst snd]; rewrite Ea; reflexivity|exact K1]|].
      split; [constructor; [cbn [fst snd]; rewrite J1; reflexivity|exact K2]|].
      split; [constructor; [split; [reflexivity|exact J2]|exact K3]|].
      cbn [map fst]. congruence. }
    apply oall_map in E1. rewrite E1. cbn [omap of_any].
    rewrite dedup_id by (rewrite E4; exact HK).
    assert (exists ks, Forall2 (fun x y => omap (pair (fst x)) (of_any (snd x)) = Some y) (kv_sort xs) ks /\
                       Permutation js ks) as (ks & F1 & F2).
    { pose proof (Permutation_sym (sort_perm xs)) as HP. clear -E2 HP. revert HP. generalize (kv_sort xs).
      intros ys HP. revert js E2. induction HP as [|x l l' HP IH|x y l|l l' l'' HP1 IH1 HP2 IH2]; intros js E2.
      - inversion E2; subst. exists []. split; constructor.
      - inversion E2 as [|? z ? zs Hz Hzs]; subst. destruct (IH zs Hzs) as (ks & K1 & K2).
        exists (z :: ks). split; constructor; assumption.
      - inversion E2 as [|? z ? zs Hz Hzs]; subst. inversion Hzs as [|? w ? ws Hw Hws]; subst.
        exists (w :: z :: ws). split; [constructor; [exact Hw|constructor; [exact Hz|exact Hws]]|apply perm_swap].
      - destruct (IH1 js E2) as (ks & K1 & K2). destruct (IH2 ks K1) as (ms & M1 & M2).
        exists ms. split; [exact M1|etransitivity; eassumption]. }
    apply oall_map in F1. rewrite F1. cbn [omap]. exists (JObj ks). split; [reflexivity|].
    econstructor; eassumption.
Qed.
