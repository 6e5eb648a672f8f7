(** Decoding does not depend on the order of object members. *)
From Coq Require Import Sorting.Permutation.
From Verif Require Import GoBase Utf8 Json JsonProofs Float64 GoTime Lang Types Codec EncProofs Any AnyProofs.
Open Scope string_scope.
Open Scope list_scope.

(** ** Struct states *)

Lemma set_field_keys f v fs : map fst (set_field f v fs) = map fst fs.
Proof.
  induction fs as [|[k x] fs IH]; [reflexivity|]. cbn [set_field].
  destruct (String.eqb k f); [reflexivity|]. cbn [map fst]. rewrite IH. reflexivity.
Qed.

Lemma set_field_lookup f g v fs : lookup g (set_field f v fs) =
  if String.eqb g f then match lookup f fs with Some _ => Some v | None => None end else lookup g fs.
Proof.
  induction fs as [|[k x] fs IH]; cbn [set_field lookup].
  - destruct (String.eqb g f); reflexivity.
  - destruct (String.eqb_spec k f) as [->|Hk]; cbn [lookup].
    + destruct (String.eqb_spec g f) as [->|Hg].
      * rewrite String.eqb_refl. reflexivity.
      * reflexivity.
    + destruct (String.eqb_spec g k) as [->|Hg].
      * destruct (String.eqb_spec k f); [contradiction|reflexivity].
      * rewrite IH. destruct (String.eqb_spec g f) as [->|Hg']; [|reflexivity].
        destruct (String.eqb_spec f k); [congruence|reflexivity].
Qed.

Lemma set_field_comm f g u v fs : f <> g ->
  set_field f u (set_field g v fs) = set_field g v (set_field f u fs).
Proof.
  intros H. induction fs as [|[k x] fs IH]; [reflexivity|]. cbn [set_field].
  destruct (String.eqb_spec k g) as [->|Hg].
  - cbn [set_field]. destruct (String.eqb_spec g f) as [E|_]; [congruence|]. cbn [set_field].
    rewrite String.eqb_refl. reflexivity.
  - cbn [set_field]. destruct (String.eqb_spec k f) as [->|Hf].
    + cbn [set_field]. destruct (String.eqb_spec f g); [contradiction|reflexivity].
    + cbn [set_field]. destruct (String.eqb_spec k g); [contradiction|]. rewrite IH. reflexivity.
Qed.

(** ** A common form of both decoding loops *)

Definition target := string -> option (string * gty).

Fixpoint gturns (tg : target) (strict : bool) (l : list (string * delayed)) (fs : list (string * gval))
  : option (list (string * gval)) :=
  match l with
  | [] => Some fs
  | (k, dl) :: r =>
    match tg k with
    | None => if strict then None else gturns tg strict r fs
    | Some (f, t) =>
      match lookup f fs with
      | None => None
      | Some cur => match dl t cur with
                    | None => None
                    | Some v => gturns tg strict r (set_field f v fs)
                    end
      end
    end
  end.

Definition case_of (cases : list dcase) (k : string) : option dcase :=
  find (fun c => String.eqb (c_key c) k) cases.

Definition table_target (d : decl) (cases : list dcase) : target := fun k =>
  match case_of cases k with
  | Some c => match find_field d (c_field c) with Some fd => Some (c_field c, f_ty fd) | None => None end
  | None => None
  end.

Definition default_tgt (d : decl) : target := fun k =>
  match default_target d k with Some f => Some (f_name f, f_ty f) | None => None end.

Definition opt_list {A} (o : option A) : list A := match o with Some x => [x] | None => [] end.
Definition flag_of (cases : list dcase) (k : string) : list string :=
  match case_of cases k with Some c => opt_list (c_flag c) | None => [] end.
Definition flags_of (cases : list dcase) (ks : list string) : list string := flat_map (flag_of cases) ks.

(** Facts about the tables, checked by computation for every type. *)
Definition dec_ok (d : decl) : bool :=
  nodupb (map f_name (d_fields d)) &&
  match d_dec d with
  | DTable _ cases _ _ =>
    nodupb (map c_key cases) && nodupb (map c_field cases) &&
    forallb (fun c => match find_field d (c_field c) with Some _ => true | None => false end) cases
  | DDefault => nodupb (map (fun f => fold_key (f_json f)) (d_fields d))
  end.

Lemma all_dec_ok : forallb dec_ok all_decls = true.
Proof. vm_compute. reflexivity. Qed.

Lemma dec_ok_in d : In d all_decls -> dec_ok d = true.
Proof. intros H. pose proof all_dec_ok as HA. rewrite forallb_forall in HA. auto. Qed.

Definition cases_known (d : decl) (cases : list dcase) : Prop :=
  forall c, In c cases -> exists fd, find_field d (c_field c) = Some fd.

Lemma turns_gturns d cases strict l : cases_known d cases -> forall fs got,
  turns d cases strict l (fs, got) =
  match gturns (table_target d cases) strict l fs with
  | Some fs' => Some (fs', rev (flags_of cases (map fst l)) ++ got)
  | None => None
  end.
Proof.
  intros HK. induction l as [|[k dl] l IH]; intros fs got; [reflexivity|].
  cbn [turns turn gturns fst snd map flags_of flat_map]. unfold table_target, flag_of, case_of.
  destruct (find (fun c => String.eqb (c_key c) k) cases) as [c|] eqn:Ec.
  2:{ destruct strict; [reflexivity|]. cbn [app]. apply IH. }
  destruct (HK c) as [fd Hf]; [eapply find_some; exact Ec|]. rewrite Hf.
  destruct (lookup (c_field c) fs) as [cur|]; [|reflexivity].
  destruct (dl (f_ty fd) cur) as [v|]; [|reflexivity]. rewrite IH.
  destruct (gturns _ _ l _) as [fs'|]; [|reflexivity].
  f_equal. f_equal. unfold flags_of. rewrite rev_app_distr, <- app_assoc.
  destruct (c_flag c); reflexivity.
Qed.

Lemma default_gturns d l : forall fs, default_turns d l fs = gturns (default_tgt d) false l fs.
Proof.
  induction l as [|[k dl] l IH]; intros fs; [reflexivity|]. cbn [default_turns gturns].
  unfold default_tgt at 1. destruct (default_target d k) as [f|]; [|apply IH].
  destruct (lookup (f_name f) fs) as [cur|]; [|reflexivity].
  destruct (dl (f_ty f) cur); [apply IH|reflexivity].
Qed.

(** Distinct keys have distinct targets. *)
Definition inj_on (tg : target) (ks : list string) : Prop :=
  forall k1 k2 f1 t1 f2 t2, In k1 ks -> In k2 ks -> k1 <> k2 ->
    tg k1 = Some (f1, t1) -> tg k2 = Some (f2, t2) -> f1 <> f2.

Lemma inj_on_incl tg ks ks' : incl ks' ks -> inj_on tg ks -> inj_on tg ks'.
Proof. intros H HI k1 k2 f1 t1 f2 t2 H1 H2. apply HI; auto. Qed.

Lemma find_nodup {A} (g : A -> string) l x y : NoDup (map g l) -> In x l -> In y l -> g x = g y -> x = y.
Proof.
  induction l as [|z l IH]; [intros _ []|]. cbn [map]. intros HN H1 H2 E. inversion HN as [|? ? N1 N2]; subst.
  destruct H1 as [->|H1], H2 as [->|H2]; [reflexivity| | |auto].
  - exfalso. apply N1. rewrite E. apply in_map. exact H2.
  - exfalso. apply N1. rewrite <- E. apply in_map. exact H1.
Qed.

Lemma case_of_spec cases k c : case_of cases k = Some c -> In c cases /\ c_key c = k.
Proof. intros H. apply find_some in H. destruct H as [H1 H2]. apply String.eqb_eq in H2. auto. Qed.

Lemma table_inj d cases ks : NoDup (map c_field cases) -> inj_on (table_target d cases) ks.
Proof.
  intros HN k1 k2 f1 t1 f2 t2 _ _ Hk H1 H2. unfold table_target in *.
  destruct (case_of cases k1) as [c1|] eqn:E1; [|discriminate].
  destruct (case_of cases k2) as [c2|] eqn:E2; [|discriminate].
  apply case_of_spec in E1, E2. destruct E1 as [I1 K1], E2 as [I2 K2].
  destruct (find_field d (c_field c1)); [|discriminate]. destruct (find_field d (c_field c2)); [|discriminate].
  injection H1 as <- _. injection H2 as <- _. intros E.
  assert (c1 = c2) by (apply (find_nodup c_field cases); assumption). congruence.
Qed.

Lemma default_target_fold d k f : default_target d k = Some f ->
  In f (d_fields d) /\ fold_key (f_json f) = fold_key k.
Proof.
  unfold default_target. destruct (find (fun f => String.eqb (f_json f) k) (d_fields d)) as [g|] eqn:E; intros H.
  - injection H as <-. apply find_some in E. destruct E as [E1 E2]. apply String.eqb_eq in E2. subst k. auto.
  - apply find_some in H. destruct H as [H1 H2]. apply String.eqb_eq in H2. auto.
Qed.

Lemma default_inj d ks : NoDup (map f_name (d_fields d)) ->
  NoDup (map fold_key ks) -> inj_on (default_tgt d) ks.
Proof.
  intros HF HN k1 k2 f1 t1 f2 t2 I1 I2 Hk H1 H2 E. unfold default_tgt in *.
  destruct (default_target d k1) as [g1|] eqn:E1; [|discriminate].
  destruct (default_target d k2) as [g2|] eqn:E2; [|discriminate].
  apply default_target_fold in E1, E2. destruct E1 as [J1 K1], E2 as [J2 K2].
  injection H1 as <- _. injection H2 as <- _.
  assert (g1 = g2) by (apply (find_nodup f_name (d_fields d)); assumption). subst g2.
  apply Hk. apply (find_nodup fold_key ks); congruence.
Qed.

Lemma gturns_swap tg strict a b l fs : inj_on tg [fst a; fst b] -> fst a <> fst b ->
  gturns tg strict (a :: b :: l) fs = gturns tg strict (b :: a :: l) fs.
Proof.
  destruct a as [k1 d1], b as [k2 d2]. cbn [fst]. intros HI HK. cbn [gturns].
  destruct (tg k1) as [[f1 t1]|] eqn:E1; destruct (tg k2) as [[f2 t2]|] eqn:E2.
  - assert (Hf : f1 <> f2) by (apply (HI k1 k2 f1 t1 f2 t2); cbn; auto).
    assert (B1 : String.eqb f1 f2 = false) by (apply String.eqb_neq; exact Hf).
    assert (B2 : String.eqb f2 f1 = false) by (apply String.eqb_neq; congruence).
    destruct (lookup f1 fs) as [c1|] eqn:L1; destruct (lookup f2 fs) as [c2|] eqn:L2.
    + destruct (d1 t1 c1) as [v1|] eqn:D1, (d2 t2 c2) as [v2|] eqn:D2;
        rewrite ?set_field_lookup, ?B1, ?B2, ?L1, ?L2, ?D1, ?D2; try reflexivity.
      rewrite set_field_comm by congruence. reflexivity.
    + destruct (d1 t1 c1) as [v1|]; [|reflexivity].
      rewrite set_field_lookup, B2, L2. reflexivity.
    + destruct (d2 t2 c2) as [v2|]; [|reflexivity].
      rewrite set_field_lookup, B1, L1. reflexivity.
    + reflexivity.
  - destruct strict; [destruct (lookup f1 fs) as [c1|]; [destruct (d1 t1 c1)|]; reflexivity|].
    destruct (lookup f1 fs) as [c1|]; [destruct (d1 t1 c1)|]; reflexivity.
  - destruct strict; [destruct (lookup f2 fs) as [c2|]; [destruct (d2 t2 c2)|]; reflexivity|].
    destruct (lookup f2 fs) as [c2|]; [destruct (d2 t2 c2)|]; reflexivity.
  - reflexivity.
Qed.

Lemma gturns_perm tg strict l l' : Permutation l l' -> NoDup (map fst l) -> inj_on tg (map fst l) ->
  forall fs, gturns tg strict l fs = gturns tg strict l' fs.
Proof.
  induction 1 as [|[k dl] l l' HP IH|[k1 d1] [k2 d2] l|l l' l'' HP1 IH1 HP2 IH2]; intros HN HI fs.
  - reflexivity.
  - cbn [map fst] in *. inversion HN as [|? ? N1 N2]; subst.
    assert (HI' : inj_on tg (map fst l)) by (eapply inj_on_incl; [|exact HI]; apply incl_tl, incl_refl).
    cbn [gturns]. destruct (tg k) as [[f t]|].
    + destruct (lookup f fs) as [c|]; [|reflexivity]. destruct (dl t c); [|reflexivity]. apply IH; assumption.
    + destruct strict; [reflexivity|]. apply IH; assumption.
  - cbn [map fst] in *. inversion HN as [|? ? N1 N2]; subst. apply gturns_swap.
    + eapply inj_on_incl; [|exact HI]. intros x [<-|[<-|[]]]; cbn; auto.
    + cbn [fst]. intros E. apply N1. left. congruence.
  - rewrite IH1 by assumption. apply IH2.
    + eapply nodup_perm; eassumption.
    + eapply inj_on_incl; [|exact HI]. intros x Hx. eapply Permutation_in; [|exact Hx].
      apply Permutation_map, Permutation_sym, HP1.
Qed.

(** Members whose values decode alike. *)
Definition drel (a b : string * delayed) : Prop :=
  fst a = fst b /\ forall t c, snd a t c = snd b t c.

Lemma gturns_ext tg strict l l' : Forall2 drel l l' -> forall fs, gturns tg strict l fs = gturns tg strict l' fs.
Proof.
  induction 1 as [|[k1 d1] [k2 d2] l l' [E1 E2] _ IH]; intros fs; [reflexivity|].
  cbn [fst snd] in *. subst k2. cbn [gturns]. destruct (tg k1) as [[f t]|].
  - destruct (lookup f fs) as [c|]; [|reflexivity]. rewrite E2. destruct (d2 t c); [apply IH|reflexivity].
  - destruct strict; [reflexivity|apply IH].
Qed.

Lemma drel_keys l l' : Forall2 drel l l' -> map fst l = map fst l'.
Proof. induction 1 as [|a b l l' [E _] _ IH]; [reflexivity|]. cbn [map]. congruence. Qed.

Lemma strmem_perm l l' x : Permutation l l' -> strmem x l = strmem x l'.
Proof.
  intros H. destruct (strmem x l) eqn:E1, (strmem x l') eqn:E2; try reflexivity.
  - apply strmem_In in E1. apply (Permutation_in _ H) in E1. apply strmem_In in E1. congruence.
  - apply strmem_In in E2. apply (Permutation_in _ (Permutation_sym H)) in E2. apply strmem_In in E2. congruence.
Qed.

Lemma known_of d fl cases st ck : In d all_decls -> d_dec d = DTable fl cases st ck ->
  cases_known d cases /\ NoDup (map c_key cases) /\ NoDup (map c_field cases).
Proof.
  intros HD E. apply dec_ok_in in HD. unfold dec_ok in HD. rewrite E in HD.
  apply andb_true_iff in HD. destruct HD as [_ HD]. apply andb_true_iff in HD. destruct HD as [HD H3].
  apply andb_true_iff in HD. destruct HD as [H1 H2]. apply nodupb_spec in H1, H2. rewrite forallb_forall in H3.
  split; [|auto]. intros c Hc. specialize (H3 c Hc). destruct (find_field d (c_field c)) as [fd|]; [eauto|discriminate].
Qed.

(** The result of one UnmarshalJSON in terms of [gturns]. *)
Lemma run_table_eq d fl cases st ck l fs : In d all_decls -> d_dec d = DTable fl cases st ck ->
  run_table d cases st ck l fs =
  if forallb (fun c => strmem (fst c) (flags_of cases (map fst l))) ck
  then gturns (table_target d cases) st l fs else None.
Proof.
  intros HD E. destruct (known_of d fl cases st ck HD E) as (HK & _). unfold run_table.
  rewrite turns_gturns by exact HK. rewrite app_nil_r.
  assert (HF : forallb (fun c => strmem (fst c) (rev (flags_of cases (map fst l)))) ck =
               forallb (fun c : string * string => strmem (fst c) (flags_of cases (map fst l))) ck).
  { clear. induction ck as [|c ck IH]; [reflexivity|]. cbn [forallb]. rewrite IH. f_equal.
    apply strmem_perm, Permutation_sym, Permutation_rev. }
  destruct (gturns _ st l fs) as [fs'|].
  - rewrite HF. reflexivity.
  - rewrite <- HF. destruct (forallb _ ck); reflexivity.
Qed.

Lemma flags_perm cases ks ks' : Permutation ks ks' -> Permutation (flags_of cases ks) (flags_of cases ks').
Proof. intros H. unfold flags_of. apply Permutation_flat_map. exact H. Qed.

Lemma run_table_perm d fl cases st ck l l' fs : In d all_decls -> d_dec d = DTable fl cases st ck ->
  Permutation l l' -> NoDup (map fst l) ->
  run_table d cases st ck l fs = run_table d cases st ck l' fs.
Proof.
  intros HD E HP HN. rewrite !(run_table_eq d fl) by assumption.
  destruct (known_of d fl cases st ck HD E) as (_ & _ & HI).
  rewrite (gturns_perm _ st l l' HP HN (table_inj d cases _ HI)).
  assert (HF : forallb (fun c => strmem (fst c) (flags_of cases (map fst l))) ck =
               forallb (fun c : string * string => strmem (fst c) (flags_of cases (map fst l'))) ck).
  { clear - HP. induction ck as [|c ck IH]; [reflexivity|]. cbn [forallb]. rewrite IH. f_equal.
    apply strmem_perm, flags_perm, Permutation_map, HP. }
  rewrite HF. reflexivity.
Qed.

Lemma run_table_ext d fl cases st ck l l' fs : In d all_decls -> d_dec d = DTable fl cases st ck ->
  Forall2 drel l l' -> run_table d cases st ck l fs = run_table d cases st ck l' fs.
Proof.
  intros HD E HR. rewrite !(run_table_eq d fl) by assumption.
  rewrite (drel_keys l l' HR), (gturns_ext _ _ l l' HR). reflexivity.
Qed.

Lemma has_key_map_fst {A B} k (l : list (string * A)) (l' : list (string * B)) :
  map fst l = map fst l' -> has_key k l = has_key k l'.
Proof.
  intros H. destruct (has_key k l) eqn:E1, (has_key k l') eqn:E2; try reflexivity.
  - apply has_key_In in E1. rewrite H in E1. apply has_key_In in E1. congruence.
  - apply has_key_In in E2. rewrite <- H in E2. apply has_key_In in E2. congruence.
Qed.

Lemma dedup_drel l l' : Forall2 drel l l' -> Forall2 drel (dedup l) (dedup l').
Proof.
  induction 1 as [|[k1 d1] [k2 d2] l l' [E1 E2] HF IH]; [constructor|]. cbn [fst snd] in *. subst k2.
  cbn [dedup]. rewrite (has_key_map_fst k1 l l' (drel_keys _ _ HF)). destruct (has_key k1 l'); [exact IH|].
  constructor; [split; [reflexivity|exact E2]|exact IH].
Qed.

Lemma elems_ext (l l' : list delayed) t z curs :
  Forall2 (fun a b : delayed => forall t c, a t c = b t c) l l' ->
  elems (fun c (dl : delayed) => dl t c) z curs l = elems (fun c (dl : delayed) => dl t c) z curs l'.
Proof.
  intros H. revert curs. induction H as [|a b l l' E _ IH]; intros curs; [reflexivity|]. cbn [elems].
  rewrite E, IH. reflexivity.
Qed.

(** ** Map iteration order (the oracle [o]) *)

Definition any_order (o : order) : Prop := forall p l, Permutation (o p l) l.

Lemma at_ty_ext sh j arr arr' obj obj' :
  (forall l, Permutation (sh l) l) ->
  Forall2 (fun a b : delayed => forall t c, a t c = b t c) arr arr' ->
  Forall2 drel obj obj' ->
  forall t c, at_ty sh j arr obj t c = at_ty (fun l => l) j arr' obj' t c.
Proof.
  intros HS HA HO. induction t as [|b| | | |t IH|t IH|n]; intros c; cbn [at_ty]; try reflexivity.
  - destruct j; rewrite ?IH; reflexivity.
  - destruct j; try reflexivity. rewrite (elems_ext arr arr' t _ _ HA). reflexivity.
  - destruct (find_decl n) as [d|] eqn:Ed; [|reflexivity]. apply find_decl_in in Ed. destruct Ed as [HD _].
    destruct c; try reflexivity. unfold unmarshal_struct. destruct (d_dec d) as [fl cases st ck|] eqn:Edd.
    + destruct j; try reflexivity. f_equal.
      rewrite (run_table_perm d fl cases st ck (sh (dedup obj)) (dedup obj) _ HD Edd (HS _)).
      * apply (run_table_ext d fl); [assumption..|]. apply dedup_drel. exact HO.
      * eapply nodup_perm; [apply Permutation_sym, HS|]. apply dedup_nodup.
    + destruct j; try reflexivity. rewrite !default_gturns. rewrite (gturns_ext _ _ _ _ HO). reflexivity.
Qed.

Theorem dec_o_dec o j : any_order o -> forall p t c, dec_o o p j t c = dec j t c.
Proof.
  intros Ho. induction j as [|b|l|s|l IH|l IH] using json_ind'; intros p t c; cbn [dec_o dec];
    apply at_ty_ext; try apply Ho; try constructor.
  - generalize 0. induction l as [|x l IHl]; intros i; cbn [imap map]; [constructor|].
    inversion IH; subst. constructor; [auto|apply IHl; assumption].
  - generalize 0. induction l as [|x l IHl]; intros i; cbn [imap map]; [constructor|].
    inversion IH; subst. constructor; [split; [reflexivity|cbn [snd]; auto]|apply IHl; assumption].
Qed.

(** ** Trees that differ only in the order of members *)

Fixpoint fdist (j : json) : bool :=
  match j with
  | JArr l => forallb fdist l
  | JObj l => nodupb (map (fun kv => fold_key (fst kv)) l) && forallb (fun kv => fdist (snd kv)) l
  | _ => true
  end.

Lemma good_fdist j : good j = true -> fdist j = true.
Proof.
  induction j as [|b|l|s|l IH|l IH] using json_ind'; cbn [good fdist]; try reflexivity; intros H.
  - rewrite forallb_forall in *. rewrite Forall_forall in IH. auto.
  - apply andb_true_iff in H. destruct H as [H1 H2]. rewrite H1. cbn [andb].
    rewrite forallb_forall in *. rewrite Forall_forall in IH. auto.
Qed.

Theorem dec_jeq j1 : forall j2, jeq j1 j2 -> fdist j1 = true -> forall t c, dec j1 t c = dec j2 t c.
Proof.
  induction j1 as [|b|l|s|l IH|l IH] using json_ind'; intros j2 HJ HG; inversion HJ; subst; intros t c; try reflexivity.
  - cbn [dec]. cbn [fdist] in HG. rewrite forallb_forall in HG.
    assert (HA : Forall2 (fun a b : delayed => forall t c, a t c = b t c) (map dec l) (map dec l2)).
    { clear HJ. match goal with H : Forall2 jeq _ _ |- _ => induction H as [|x y l l' Hxy _ IHl] end; [constructor|].
      inversion IH; subst. cbn [map]. constructor.
      - match goal with H : forall j2, jeq x j2 -> _ |- _ => apply H end; [exact Hxy|]. apply HG. left. reflexivity.
      - apply IHl; [assumption|]. intros z Hz. apply HG. right. exact Hz. }
    revert c. induction t as [|b| | | |t IHt|t IHt|n]; intros c; cbn [at_ty]; try reflexivity.
    + rewrite IHt. reflexivity.
    + rewrite (elems_ext _ _ t _ _ HA). reflexivity.
  - match goal with H : Forall2 _ _ ?x, H' : Permutation ?x _ |- _ => rename x into lm; rename H into HF; rename H' into HP end.
    cbn [dec]. cbn [fdist] in HG. apply andb_true_iff in HG. destruct HG as [HN HG].
    rewrite forallb_forall in HG. apply nodupb_spec in HN.
    set (m1 := map (fun kv => (fst kv, dec (snd kv))) l). set (m2 := map (fun kv => (fst kv, dec (snd kv))) l2).
    set (mm := map (fun kv => (fst kv, dec (snd kv))) lm).
    assert (HR : Forall2 drel m1 mm).
    { subst m1 mm. clear HJ HP m2 HN.
      induction HF as [|x y l l' [E1 E2] _ IHl]; [constructor|].
      inversion IH; subst. cbn [map]. constructor.
      - split; [exact E1|]. cbn [snd].
        match goal with H : forall j2, jeq (snd x) j2 -> _ |- _ => apply H end; [exact E2|].
        apply HG. left. reflexivity.
      - apply IHl; [assumption|]. intros z Hz. apply HG. right. exact Hz. }
    assert (HPm : Permutation mm m2) by (apply Permutation_map; exact HP).
    assert (K1 : map fst m1 = map fst l) by (subst m1; rewrite map_map; reflexivity).
    assert (HNm : NoDup (map fst mm)).
    { rewrite <- (drel_keys _ _ HR), K1. eapply NoDup_map_inv'. exact HN. }
    assert (HN2 : NoDup (map fst m2)) by (eapply nodup_perm; eassumption).
    assert (HN1 : NoDup (map fst m1)) by (rewrite (drel_keys _ _ HR); exact HNm).
    assert (HFm : NoDup (map fold_key (map fst mm))).
    { rewrite <- (drel_keys _ _ HR), K1, map_map. exact HN. }
    clearbody m1 m2 mm. clear -HR HPm HN1 HN2 HNm HFm. revert c.
    induction t as [|b| | | |t IHt|t IHt|n]; intros c; cbn [at_ty]; try reflexivity.
    + rewrite IHt. reflexivity.
    + destruct (find_decl n) as [d|] eqn:Ed; [|reflexivity]. apply find_decl_in in Ed. destruct Ed as [HD _].
      destruct c; try reflexivity. f_equal. unfold unmarshal_struct.
      destruct (d_dec d) as [fl cases st ck|] eqn:Edd.
      * rewrite !dedup_id by assumption.
        rewrite (run_table_ext d fl cases st ck m1 mm _ HD Edd HR).
        apply (run_table_perm d fl); assumption.
      * rewrite !default_gturns. rewrite (gturns_ext _ _ _ _ HR). apply gturns_perm; [exact HPm|exact HNm|].
        apply default_inj; [|exact HFm]. apply dec_ok_in in HD. unfold dec_ok in HD.
        apply andb_true_iff in HD. apply nodupb_spec. tauto.
Qed.
