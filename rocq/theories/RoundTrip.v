(** Decoding what was encoded, for every message type. *)
From Coq Require Import Sorting.Permutation.
From Verif Require Import GoBase Utf8 Json JsonProofs JsonText Float64 Float64Proofs GoTime GoTimeProofs
  Lang Types Codec EncProofs Any AnyProofs DecProofs SpecCodec.
Open Scope string_scope.
Open Scope list_scope.

(** ** Conditions on the tables, checked by computation *)

Fixpoint okty (t : gty) : bool :=
  match t with
  | TTime => false
  | TPtr t => match t with TPtr _ | TSlice _ => false | _ => okty t end
  | TSlice t => okty t
  | _ => true
  end.

Definition field_target (d : decl) : target :=
  match d_dec d with DTable _ cases _ _ => table_target d cases | DDefault => default_tgt d end.
Definition dec_strict (d : decl) : bool :=
  match d_dec d with DTable _ _ st _ => st | DDefault => false end.

Definition is_ty_struct (t : gty) : bool := match t with TStruct _ => true | _ => false end.
Definition time_ty (t : gty) : bool := match t with TTime | TPtr TTime => true | _ => false end.

Fixpoint gty_eqb (a b : gty) : bool :=
  match a, b with
  | TStr, TStr | TF64, TF64 | TBool, TBool | TTime, TTime => true
  | TInt x, TInt y => Z.eqb x y
  | TPtr x, TPtr y | TSlice x, TSlice y => gty_eqb x y
  | TStruct x, TStruct y => String.eqb x y
  | _, _ => false
  end.
Lemma gty_eqb_eq a : forall b, gty_eqb a b = true -> a = b.
Proof.
  induction a; intros []; cbn [gty_eqb]; try discriminate; try reflexivity; intros H.
  - apply Z.eqb_eq in H. congruence.
  - f_equal. auto.
  - f_equal. auto.
  - apply String.eqb_eq in H. congruence.
Qed.

Definition cond_ok (c : icond) (t : gty) : bool :=
  match c, t with
  | CAlways, _ => true
  | CNotNil, (TPtr _ | TSlice _) => true
  | CNotEmpty, (TStr | TInt _ | TBool | TPtr _) => true
  | _, _ => false
  end.

Definition item_ok (d : decl) (it : item) : bool :=
  match it with
  | ItReq _ _ => true
  | ItField k f tm c =>
    String.eqb (sanitize k) k &&
    match find_field d f with
    | None => false
    | Some fd =>
      match field_target d k with
      | Some (f', t') => String.eqb f' f && gty_eqb t' (f_ty fd) && negb (lost (d_name d) f)
      | None => lost (d_name d) f && negb (dec_strict d)
      end && (if tm then time_ty (f_ty fd) else okty (f_ty fd)) && negb (is_ty_struct (f_ty fd)) &&
      cond_ok c (f_ty fd)
    end
  end.

Definition item_keys (its : list item) : list string :=
  flat_map (fun it => match it with ItField k _ _ _ => [k] | _ => [] end) its.
Definition item_fields (its : list item) : list string :=
  flat_map (fun it => match it with ItField _ f _ _ => [f] | _ => [] end) its.
Definition sure_keys (its : list item) : list string :=
  flat_map (fun it => match it with ItField k _ _ CAlways => [k] | _ => [] end) its.

Definition rt_ok (d : decl) : bool :=
  match items_of d with
  | None => false
  | Some its =>
    forallb (item_ok d) its && nodupb (map fold_key (item_keys its)) && nodupb (item_fields its) &&
    nodupb (map f_name (d_fields d)) &&
    forallb (fun f => strmem (f_name f) (item_fields its)) (d_fields d) &&
    forallb (fun f => negb (is_ty_struct (f_ty f))) (d_fields d) &&
    match d_dec d with
    | DTable _ cases _ ck => forallb (fun c => strmem (fst c) (flags_of cases (sure_keys its))) ck
    | DDefault => true
    end
  end.

Lemma all_rt_ok : forallb rt_ok all_decls = true.
Proof. vm_compute. reflexivity. Qed.

(** ** Typed structs *)

Lemma has_type_struct fs n : has_type (VStruct fs) (TStruct n) = true ->
  exists d, find_decl n = Some d /\
  Forall2 (fun kv f => fst kv = f_name f /\ has_type (snd kv) (f_ty f) = true) fs (d_fields d).
Proof.
  cbn [has_type]. destruct (find_decl n) as [d|]; [|discriminate]. intros H. exists d. split; [reflexivity|].
  revert H. generalize (d_fields d) as ds. induction fs as [|[k x] fs IH]; intros [|f ds] H; try discriminate.
  - constructor.
  - apply andb_true_iff in H. destruct H as [H H3]. apply andb_true_iff in H. destruct H as [H1 H2].
    apply String.eqb_eq in H1. constructor; [auto|]. apply IH. exact H3.
Qed.

Lemma typed_keys fs ds : Forall2 (fun kv f => fst kv = f_name f /\ has_type (snd kv) (f_ty f) = true) fs ds ->
  map fst fs = map f_name ds.
Proof. induction 1 as [|kv f fs ds [E _] _ IH]; [reflexivity|]. cbn [map]. congruence. Qed.

Lemma typed_lookup fs ds f fd : Forall2 (fun kv f => fst kv = f_name f /\ has_type (snd kv) (f_ty f) = true) fs ds ->
  find (fun x => String.eqb (f_name x) f) ds = Some fd ->
  exists v, lookup f fs = Some v /\ has_type v (f_ty fd) = true /\ In (f, v) fs.
Proof.
  induction 1 as [|[k x] g fs ds [E1 E2] _ IH]; [discriminate|]. cbn [fst snd] in *. subst k.
  cbn [find lookup]. intros H. rewrite (String.eqb_sym f). destruct (String.eqb_spec (f_name g) f) as [E|E].
  - injection H as <-. exists x. rewrite <- E. repeat split; [exact E2|left; reflexivity].
  - destruct (IH H) as (v & H1 & H2 & H3). exists v. repeat split; [exact H1|exact H2|right; exact H3].
Qed.

Lemma lookup_map {A B} (g : string -> A -> B) (l : list (string * A)) f :
  lookup f (map (fun kv => (fst kv, g (fst kv) (snd kv))) l) = omap (g f) (lookup f l).
Proof.
  induction l as [|[k x] l IH]; [reflexivity|]. cbn [map lookup fst snd].
  destruct (String.eqb_spec f k) as [->|]; [reflexivity|exact IH].
Qed.

Definition jenv (d : decl) (fs : list (string * gval)) : list (string * (gval * res json)) :=
  map (fun kv =>
           match find_field d (fst kv) with
           | Some f => (fst kv, (snd kv, jt (f_ty f) (snd kv)))
           | None => (fst kv, (snd kv, Err "ill-typed"))
           end) fs.

Lemma jenv_lookup d fs f : lookup f (jenv d fs) =
  match lookup f fs with
  | Some v => Some (v, match find_field d f with Some fd => jt (f_ty fd) v | None => Err "ill-typed" end)
  | None => None
  end.
Proof.
  unfold jenv.
  rewrite (map_ext _ (fun kv => (fst kv, (fun k x => (x, match find_field d k with Some fd => jt (f_ty fd) x
     | None => Err "ill-typed" end)) (fst kv) (snd kv)))).
  - rewrite (lookup_map (fun k x => (x, match find_field d k with Some fd => jt (f_ty fd) x
     | None => Err "ill-typed" end))). destruct (lookup f fs); reflexivity.
  - intros kv. destruct (find_field d (fst kv)); reflexivity.
Qed.

Lemma lookup_ext (a b : list (string * gval)) : map fst a = map fst b -> NoDup (map fst a) ->
  (forall f, lookup f a = lookup f b) -> a = b.
Proof.
  revert b. induction a as [|[k x] a IH]; intros [|[k' y] b] HK HN HL; cbn [map fst] in HK; try discriminate; [reflexivity|].
  injection HK as -> HK. cbn [map fst] in HN. inversion HN as [|? ? N1 N2]; subst.
  pose proof (HL k') as H0. cbn [lookup] in H0. rewrite String.eqb_refl in H0. injection H0 as ->. f_equal.
  apply IH; [exact HK|exact N2|]. intros f. specialize (HL f). cbn [lookup] in HL.
  destruct (String.eqb_spec f k') as [Efk|]; [|exact HL]. rewrite Efk. clear HL Efk.
  assert (lookup k' a = None) as -> by (apply lookup_None; exact N1).
  symmetry. apply lookup_None. rewrite <- HK. exact N1.
Qed.

(** ** Numbers *)

Lemma nice_int z : (Z.abs z <=? 2 ^ 53)%Z = true -> nice_num (dec_int z) = true.
Proof.
  intros H. apply Z.leb_le in H. destruct (fmt_int z H) as (x & E1 & E2). unfold nice_num.
  unfold f64_of_Z in E1. rewrite E1, E2. apply String.eqb_refl.
Qed.

Lemma nice_float x s : canon x = true -> fmt_float x = Some s -> nice_num s = true /\ parse_float s = Some x.
Proof.
  intros H E. assert (EF : finite x = true) by (destruct x; [reflexivity|discriminate|discriminate]).
  destruct (fmt_parse x H EF) as (s' & Es & _ & Hp). rewrite E in Es. injection Es as <-.
  split; [|exact Hp]. unfold nice_num. rewrite Hp, E. apply String.eqb_refl.
Qed.

(** ** Time texts are ASCII *)

Definition is_ascii (c : ascii) : bool := (code c <? 128)%N.

Lemma ascii_sanitize s : str_forall is_ascii s = true -> sanitize s = s.
Proof.
  induction s as [|a s IH]; [reflexivity|]. cbn [str_forall]. intros H. apply andb_true_iff in H. destruct H as [H1 H2].
  rewrite sanitize_1; [rewrite IH by exact H2; reflexivity|]. unfold utf8_size, is_ascii in *. rewrite H1. reflexivity.
Qed.

Lemma digit_ascii s : str_forall is_digit s = true -> str_forall is_ascii s = true.
Proof.
  induction s as [|a s IH]; [reflexivity|]. cbn [str_forall]. intros H. apply andb_true_iff in H. destruct H as [H1 H2].
  rewrite IH by exact H2. rewrite andb_true_r. apply between_spec in H1. apply N.ltb_lt. lia.
Qed.

Lemma pad_ascii w n : (0 <= n)%Z -> str_forall is_ascii (pad w n) = true.
Proof. intros H. apply digit_ascii. unfold pad. apply zpad_digits, dec_digits, H. Qed.

Lemma civil_ascii t : time_valid t = true -> (0 <= t_year t)%Z -> str_forall is_ascii (fmt_civil t) = true.
Proof.
  intros H HY. apply time_valid_spec in H. unfold fmt_civil, pad_int.
  assert ((t_year t <? 0)%Z = false) as -> by lia.
  rewrite !str_forall_app, !pad_ascii by lia. reflexivity.
Qed.

Lemma zone_ascii o : str_forall is_ascii (fmt_zone o) = true.
Proof.
  unfold fmt_zone. destruct (o =? 0)%Z; [reflexivity|].
  rewrite !str_forall_app. rewrite !pad_ascii; [destruct (_ <? 0)%Z; reflexivity| |].
  - apply Z.mod_pos_bound. lia.
  - apply Z.div_pos; lia.
Qed.

Lemma format_sanitize x : time_wire x = true -> sanitize (format_rfc3339 x) = format_rfc3339 x.
Proof.
  intros H. apply time_wire_spec in H. destruct H as (H1 & H2 & _). apply ascii_sanitize.
  unfold format_rfc3339. rewrite str_forall_app, civil_ascii, zone_ascii by (auto; lia). reflexivity.
Qed.

(** ** The loop over items *)

Definition rt_val (v : gval) : Prop := forall t j, has_type v t = true -> carried v = true -> okty t = true ->
  jt t v = Ok j -> good (jsan j) = true /\ dec (jsan j) t (zero t) = Some (norm_at t v).

Definition arrived (d : decl) (fs : list (string * gval)) (f : string) : option gval :=
  match find_field d f, lookup f fs with
  | Some fd, Some v => Some (if lost (d_name d) f then zero0 (f_ty fd) else norm_at (f_ty fd) v)
  | _, _ => None
  end.

Lemma time_field v t j : has_type v t = true -> carried v = true -> time_ty t = true -> time_tree v = Ok j ->
  good (jsan j) = true /\ dec (jsan j) t (zero t) = Some (norm_at t v).
Proof.
  intros HT HC Ht HJ. destruct t as [| | | | |t| | ]; try discriminate.
  - destruct v as [| | | |x| | | | ]; try discriminate. cbn [time_tree] in HJ. injection HJ as <-.
    cbn [carried] in HC. cbn [jsan]. rewrite format_sanitize by exact HC.
    split; [reflexivity|]. cbn [dec at_ty norm_at]. rewrite (parse_format x HC). reflexivity.
  - destruct t; try discriminate. destruct v as [| | | | | |v| | ]; try discriminate.
    destruct v as [| | | |x| | | | ]; try discriminate. cbn [time_tree] in HJ. injection HJ as <-.
    cbn [carried] in HC. cbn [jsan]. rewrite format_sanitize by exact HC.
    split; [reflexivity|]. cbn [dec at_ty norm_at]. rewrite (parse_format x HC). reflexivity.
Qed.

Lemma find_field_name d f fd : find_field d f = Some fd -> f_name fd = f.
Proof. intros H. apply find_some in H. destruct H as [_ H]. apply String.eqb_eq in H. exact H. Qed.

Lemma norm_zero_nil t : norm_at t VNil = VNil.
Proof. destruct t; reflexivity. Qed.

(** A field that is skipped is at its zero value. *)
Lemma skipped_zero c t v : cond_ok c t = true -> has_type v t = true -> skipped c v = true ->
  norm_at t v = zero0 t.
Proof.
  intros HC HT HS. destruct c; [discriminate| |].
  - cbn [skipped] in HS. destruct v; try discriminate. rewrite norm_zero_nil.
    destruct t; try discriminate; reflexivity.
  - cbn [skipped] in HS. destruct t; try discriminate; destruct v; try discriminate; cbn [is_empty] in HS.
    + apply String.eqb_eq in HS. subst s. reflexivity.
    + apply Z.eqb_eq in HS. subst z. reflexivity.
    + destruct b; [discriminate|reflexivity].
    + reflexivity.
Qed.

Definition dmembers (ms : list (string * json)) : list (string * delayed) :=
  map (fun kv => (sanitize (fst kv), dec (jsan (snd kv)))) ms.

Lemma zero_zero0 t : is_ty_struct t = false -> zero t = zero0 t.
Proof. destruct t; [reflexivity..|discriminate]. Qed.

Lemma items_loop d fs : Forall2 (fun kv f => fst kv = f_name f /\ has_type (snd kv) (f_ty f) = true) fs (d_fields d) ->
  Forall (fun kv => rt_val (snd kv)) fs -> forallb (fun kv => carried (snd kv)) fs = true ->
  forall its ms st, items_run time_tree (jenv d fs) its = Ok ms ->
  forallb (item_ok d) its = true -> NoDup (item_fields its) ->
  (forall f fd, In f (item_fields its) -> find_field d f = Some fd -> lookup f st = Some (zero0 (f_ty fd))) ->
  exists st', gturns (field_target d) (dec_strict d) (dmembers ms) st = Some st' /\
    map fst st' = map fst st /\
    (forall f, lookup f st' = if strmem f (item_fields its) then arrived d fs f else lookup f st) /\
    Forall (fun kv => good (jsan (snd kv)) = true /\ sanitize (fst kv) = fst kv) ms /\
    incl (map fst ms) (item_keys its) /\ incl (sure_keys its) (map fst ms).
Proof.
  intros HT HV HC. induction its as [|it its IH]; intros ms st HR HO HN HZ.
  { cbn [items_run] in HR. injection HR as <-. exists st. repeat split; try constructor; apply incl_refl. }
  cbn [forallb] in HO. apply andb_true_iff in HO. destruct HO as [HO1 HO].
  destruct it as [f msg|k f tm c]; cbn [items_run] in HR.
  { destruct (lookup f (jenv d fs)) as [[v r]|]; [|discriminate]. destruct (is_nil v); [discriminate|].
    apply IH; assumption. }
  cbn [item_fields flat_map app] in *. fold (item_fields its) in *.
  inversion HN as [|? ? N1 N2]; subst.
  cbn [item_ok] in HO1. apply andb_true_iff in HO1. destruct HO1 as [HK HO1]. apply String.eqb_eq in HK.
  destruct (find_field d f) as [fd|] eqn:Ef; [|discriminate].
  apply andb_true_iff in HO1. destruct HO1 as [HO1 Hc]. apply andb_true_iff in HO1. destruct HO1 as [HO1 Hns].
  apply andb_true_iff in HO1. destruct HO1 as [Htg Htm]. apply negb_true_iff in Hns.
  destruct (typed_lookup fs (d_fields d) f fd HT Ef) as (v & Lv & Tv & Iv).
  rewrite jenv_lookup, Lv, Ef in HR.
  assert (HA : arrived d fs f = Some (if lost (d_name d) f then zero0 (f_ty fd) else norm_at (f_ty fd) v)).
  { unfold arrived. rewrite Ef, Lv. reflexivity. }
  assert (Hst : lookup f st = Some (zero0 (f_ty fd))) by (apply HZ; [left; reflexivity|exact Ef]).
  assert (Cv : carried v = true) by (rewrite forallb_forall in HC; apply (HC (f, v)); exact Iv).
  destruct (skipped c v) eqn:Es.
  - destruct (IH ms st HR HO N2) as (st' & G1 & G2 & G3 & G4 & G5 & G6).
    { intros g gd Hg. apply HZ. right. exact Hg. }
    exists st'. split; [exact G1|]. split; [exact G2|]. split.
    { intros g. rewrite G3. unfold strmem. cbn [existsb]. fold (strmem g (item_fields its)).
      destruct (String.eqb_spec g f) as [->|Hg]; cbn [orb]; [|reflexivity].
      destruct (strmem f (item_fields its)) eqn:E; [apply strmem_In in E; contradiction|].
      rewrite HA, Hst. f_equal. destruct (lost (d_name d) f); [reflexivity|].
      symmetry. apply (skipped_zero c); assumption. }
    split; [exact G4|]. split; [cbn [item_keys flat_map app]; apply incl_tl; exact G5|].
    destruct c; [discriminate|exact G6|exact G6].
  - destruct (if tm then time_tree v else jt (f_ty fd) v) as [j| |] eqn:Ej; [|discriminate|discriminate].
    cbn [rbind] in HR. destruct (items_run time_tree (jenv d fs) its) as [ms'| |] eqn:Er; [|discriminate|discriminate].
    cbn [rbind] in HR. injection HR as <-.
    assert (HD : good (jsan j) = true /\ dec (jsan j) (f_ty fd) (zero (f_ty fd)) = Some (norm_at (f_ty fd) v)).
    { destruct tm.
      - apply time_field; assumption.
      - rewrite Forall_forall in HV. apply (HV (f, v) Iv (f_ty fd) j Tv Cv Htm Ej). }
    destruct HD as [HG HD]. rewrite zero_zero0 in HD by exact Hns.
    unfold dmembers. cbn [map fst snd gturns]. rewrite HK. fold (dmembers ms').
    destruct (field_target d k) as [[f' t']|] eqn:Et.
    + apply andb_true_iff in Htg. destruct Htg as [Htg Hl]. apply negb_true_iff in Hl.
      apply andb_true_iff in Htg. destruct Htg as [E1 E2]. apply String.eqb_eq in E1. apply gty_eqb_eq in E2. subst f' t'.
      rewrite Hst, HD.
      destruct (IH ms' (set_field f (norm_at (f_ty fd) v) st) eq_refl HO N2) as (st' & G1 & G2 & G3 & G4 & G5 & G6).
      { intros g gd Hg Hgd. rewrite set_field_lookup. destruct (String.eqb_spec g f) as [->|]; [contradiction|].
        apply HZ; [right; exact Hg|exact Hgd]. }
      exists st'. split; [exact G1|]. split; [rewrite G2; apply set_field_keys|]. split.
      { intros g. rewrite G3. unfold strmem. cbn [existsb]. fold (strmem g (item_fields its)). rewrite set_field_lookup.
        destruct (String.eqb_spec g f) as [->|Hg]; cbn [orb]; [|reflexivity].
        destruct (strmem f (item_fields its)) eqn:E; [reflexivity|]. rewrite Hst, HA, Hl. reflexivity. }
      split; [constructor; [split; [exact HG|exact HK]|exact G4]|].
      split; [cbn [item_keys flat_map app]; apply incl_cons; [left; reflexivity|apply incl_tl; exact G5]|].
      destruct c; cbn [sure_keys flat_map app]; [apply incl_cons; [left; reflexivity|]| | ]; apply incl_tl; exact G6.
    + apply andb_true_iff in Htg. destruct Htg as [Hl Hst']. apply negb_true_iff in Hst'. rewrite Hst'.
      destruct (IH ms' st eq_refl HO N2) as (st' & G1 & G2 & G3 & G4 & G5 & G6).
      { intros g gd Hg. apply HZ. right. exact Hg. }
      rewrite Hst' in G1. exists st'. split; [exact G1|]. split; [exact G2|]. split.
      { intros g. rewrite G3. unfold strmem. cbn [existsb]. fold (strmem g (item_fields its)).
        destruct (String.eqb_spec g f) as [->|Hg]; cbn [orb]; [|reflexivity].
        destruct (strmem f (item_fields its)) eqn:E; [reflexivity|]. rewrite Hst, HA, Hl. reflexivity. }
      split; [constructor; [split; [exact HG|exact HK]|exact G4]|].
      split; [cbn [item_keys flat_map app]; apply incl_cons; [left; reflexivity|apply incl_tl; exact G5]|].
      destruct c; cbn [sure_keys flat_map app]; [apply incl_cons; [left; reflexivity|]| | ]; apply incl_tl; exact G6.
Qed.

Lemma NoDup_keys_sub its {A} (mt : gval -> res A) env ms : NoDup (map fold_key (item_keys its)) ->
  items_run mt env its = Ok ms -> NoDup (map fold_key (map fst ms)) /\ incl (map fst ms) (item_keys its).
Proof.
  revert ms. induction its as [|it its IH]; intros ms HN HR; cbn [items_run] in HR.
  { injection HR as <-. split; [constructor|apply incl_refl]. }
  destruct it as [f msg|k f tm c].
  { destruct (lookup f env) as [[v r]|]; [|discriminate]. destruct (is_nil v); [discriminate|]. apply IH; assumption. }
  cbn [item_keys flat_map app map] in HN. fold (item_keys its) in HN. inversion HN as [|? ? N1 N2]; subst.
  destruct (lookup f env) as [[v r]|]; [|discriminate]. destruct (skipped c v).
  { destruct (IH ms N2 HR) as [H1 H2]. split; [exact H1|]. cbn [item_keys flat_map app]. apply incl_tl. exact H2. }
  destruct (if tm then mt v else r) as [x| |]; [|discriminate|discriminate]. cbn [rbind] in HR.
  destruct (items_run mt env its) as [ms'| |]; [|discriminate|discriminate]. cbn [rbind] in HR. injection HR as <-.
  destruct (IH ms' N2 eq_refl) as [H1 H2]. cbn [map fst item_keys flat_map app]. split.
  - constructor; [|exact H1]. intros HI. apply N1. rewrite in_map_iff in HI. destruct HI as (y & E & Hy).
    rewrite <- E. apply in_map. apply H2. exact Hy.
  - apply incl_cons; [left; reflexivity|apply incl_tl; exact H2].
Qed.

Lemma strmem_flags cases ks ks' x : incl ks ks' -> strmem x (flags_of cases ks) = true ->
  strmem x (flags_of cases ks') = true.
Proof.
  intros HI H. apply strmem_In in H. apply strmem_In. unfold flags_of in *. rewrite in_flat_map in *.
  destruct H as (k & Hk & Hx). exists k. split; [apply HI; exact Hk|exact Hx].
Qed.

Lemma rt_ok_in d : In d all_decls -> rt_ok d = true.
Proof. intros H. pose proof all_rt_ok as HA. rewrite forallb_forall in HA. auto. Qed.

Lemma zero_lookup d f fd : find_field d f = Some fd ->
  lookup f (map (fun f => (f_name f, zero0 (f_ty f))) (d_fields d)) = Some (zero0 (f_ty fd)).
Proof.
  unfold find_field. induction (d_fields d) as [|g ds IH]; [discriminate|]. cbn [find map lookup].
  rewrite (String.eqb_sym f). destruct (String.eqb (f_name g) f); [intros H; injection H as <-; reflexivity|exact IH].
Qed.

Lemma unmarshal_gturns d l fs : In d all_decls -> NoDup (map fst l) ->
  unmarshal_struct (fun l => l) d (Some l) fs =
  match d_dec d with
  | DTable _ cases _ ck =>
    if forallb (fun c => strmem (fst c) (flags_of cases (map fst l))) ck
    then gturns (field_target d) (dec_strict d) l fs else None
  | DDefault => gturns (field_target d) (dec_strict d) l fs
  end.
Proof.
  intros HD HN. unfold unmarshal_struct, field_target, dec_strict. destruct (d_dec d) as [fl cases st ck|] eqn:E.
  - rewrite dedup_id by exact HN. apply (run_table_eq d fl); assumption.
  - apply default_gturns.
Qed.

Lemma find_in {A} (p : A -> bool) l x : In x l -> p x = true -> exists y, find p l = Some y.
Proof.
  induction l as [|z l IH]; [intros []|]. intros H Hp. cbn [find]. destruct (p z) eqn:E; [eauto|].
  destruct H as [->|H]; [congruence|auto].
Qed.

Lemma struct_rt d n fs j : find_decl n = Some d ->
  Forall2 (fun kv f => fst kv = f_name f /\ has_type (snd kv) (f_ty f) = true) fs (d_fields d) ->
  Forall (fun kv => rt_val (snd kv)) fs -> carried (VStruct fs) = true ->
  struct_tree d (jenv d fs) = Ok j ->
  good (jsan j) = true /\ dec (jsan j) (TStruct n) (zero (TStruct n)) = Some (norm_at (TStruct n) (VStruct fs)).
Proof.
  intros HF HT HV HC HJ. pose proof HF as HF0. apply find_decl_in in HF0. destruct HF0 as [HD Hn].
  pose proof (rt_ok_in d HD) as HK. unfold rt_ok in HK. unfold struct_tree in HJ.
  destruct (items_of d) as [its|]; [|discriminate].
  repeat (apply andb_true_iff in HK; destruct HK as [HK ?HX]).
  rename HX into Hflags, HX0 into Hstr, HX1 into Hcov, HX2 into Hnm, HX3 into Hnf, HX4 into Hnk.
  apply nodupb_spec in Hnm, Hnf, Hnk.
  destruct (items_run time_tree (jenv d fs) its) as [ms| |] eqn:ER; [|discriminate|discriminate].
  cbn [rbind] in HJ.
  assert (EJ : jsan j = JObj (map (fun kv => (sanitize (fst kv), jsan (snd kv))) ms)).
  { assert (Ej : j = if customised d then jsan (JObj ms) else JObj ms) by congruence. rewrite Ej.
    destruct (customised d); [rewrite jsan_idem|]; reflexivity. }
  rewrite EJ. clear HJ EJ j.
  destruct (NoDup_keys_sub its time_tree (jenv d fs) ms Hnk ER) as [Kd _].
  destruct (items_loop d fs HT HV HC its ms (map (fun f => (f_name f, zero0 (f_ty f))) (d_fields d)) ER HK Hnf)
    as (st' & G1 & G2 & G3 & G4 & G5 & G6).
  { intros f fd _ Hf. apply zero_lookup. exact Hf. }
  assert (EK : map (fun kv : string * json => (sanitize (fst kv), jsan (snd kv))) ms = map (fun kv => (fst kv, jsan (snd kv))) ms).
  { apply map_ext_in. intros kv Hkv. rewrite Forall_forall in G4. destruct (G4 kv Hkv) as [_ ->]. reflexivity. }
  assert (EKs : map sanitize (map fst ms) = map fst ms).
  { rewrite map_map. apply map_ext_in. intros kv Hkv. rewrite Forall_forall in G4. destruct (G4 kv Hkv) as [_ ->]. reflexivity. }
  split.
  - rewrite EK. cbn [good]. apply andb_true_iff. split.
    + apply nodupb_spec. rewrite map_map. cbn [fst]. rewrite <- map_map. exact Kd.
    + rewrite forallb_forall. intros kv Hkv. apply in_map_iff in Hkv. destruct Hkv as (kv0 & <- & Hin).
      rewrite Forall_forall in G4. apply (G4 kv0 Hin).
  - cbn [dec]. rewrite map_map. cbn [fst snd]. fold (dmembers ms). cbn [at_ty zero]. rewrite HF. unfold zero_struct.
    assert (KM : map fst (dmembers ms) = map fst ms).
    { unfold dmembers. rewrite map_map. cbn [fst]. rewrite <- (map_map fst sanitize). exact EKs. }
    assert (KN : NoDup (map fst (dmembers ms))).
    { rewrite KM. eapply NoDup_map_inv. exact Kd. }
    rewrite unmarshal_gturns by assumption. rewrite G1.
    assert (HH : Some st' = Some (map (fun kv =>
        match find_field d (fst kv) with
        | Some f => (fst kv, if lost n (fst kv) then zero0 (f_ty f) else norm_at (f_ty f) (snd kv))
        | None => kv
        end) fs)).
    { f_equal. apply lookup_ext.
      - rewrite G2, !map_map. cbn [fst]. transitivity (map fst fs).
        + symmetry. apply (typed_keys fs (d_fields d)). exact HT.
        + apply map_ext. intros kv. destruct (find_field d (fst kv)); reflexivity.
      - rewrite G2, map_map. exact Hnm.
      - intros f. rewrite G3.
        rewrite (map_ext _ (fun kv => (fst kv, (fun k x => match find_field d k with
            | Some f => if lost n k then zero0 (f_ty f) else norm_at (f_ty f) x | None => x end) (fst kv) (snd kv)))).
        2:{ intros [k x]. cbn [fst snd]. destruct (find_field d k); reflexivity. }
        rewrite (lookup_map (fun k x => match find_field d k with
            | Some f => if lost n k then zero0 (f_ty f) else norm_at (f_ty f) x | None => x end)).
        assert (HIN : strmem f (item_fields its) = true <-> In f (map f_name (d_fields d))).
        { split.
          - intros H. apply strmem_In in H. rewrite forallb_forall in HK. unfold item_fields in H.
            apply in_flat_map in H. destruct H as (it & Hit & Hf). specialize (HK it Hit).
            destruct it as [|k g tm c]; [destruct Hf|]. destruct Hf as [<-|[]]. cbn [item_ok] in HK.
            apply andb_true_iff in HK. destruct HK as [_ HK]. destruct (find_field d g) as [fd|] eqn:E; [|discriminate].
            pose proof (find_field_name d g fd E) as E'. rewrite <- E'. apply in_map. apply find_some in E. tauto.
          - intros H. apply in_map_iff in H. destruct H as (g & <- & Hg). rewrite forallb_forall in Hcov. apply Hcov. exact Hg. }
        destruct (strmem f (item_fields its)) eqn:ES.
        + unfold arrived. rewrite Hn. pose proof (proj1 HIN eq_refl) as HX. apply in_map_iff in HX. destruct HX as (x & <- & Hg).
          destruct (find_in (fun y => String.eqb (f_name y) (f_name x)) (d_fields d) x Hg (String.eqb_refl _)) as [fd Hfd].
          fold (find_field d (f_name x)) in Hfd. rewrite Hfd.
          destruct (lookup (f_name x) fs); reflexivity.
        + assert (HNin : ~ In f (map f_name (d_fields d))) by (intros H; apply HIN in H; discriminate).
          assert (E1 : lookup f (map (fun f => (f_name f, zero0 (f_ty f))) (d_fields d)) = None).
          { apply lookup_None. rewrite map_map. exact HNin. }
          assert (E2 : lookup f fs = None).
          { apply lookup_None. intros H. apply HNin. clear -HT H. induction HT as [|kv g fs ds [E _] _ IH]; [exact H|].
            cbn [map] in *. destruct H as [H|H]; [left; congruence|right; auto]. }
          rewrite E1, E2. reflexivity. }
    cbn [norm_at]. rewrite HF. rewrite HH. destruct (d_dec d) as [fl cases st ck|]; [|reflexivity].
    assert (forallb (fun c => strmem (fst c) (flags_of cases (map fst (dmembers ms)))) ck = true) as ->; [|reflexivity].
    rewrite forallb_forall in *. intros c Hc. eapply strmem_flags; [|apply Hflags; exact Hc]. rewrite KM. exact G6.
Qed.

Lemma not_null_jt t v j : (match t with TPtr _ | TSlice _ => false | _ => true end) = true -> jt t v = Ok j -> jsan j <> JNull.
Proof.
  intros Ht HJ HN. destruct t; try discriminate; destruct v; cbn [jt] in HJ; try discriminate.
  - injection HJ as <-. discriminate.
  - injection HJ as <-. discriminate.
  - destruct (fmt_float x); [|discriminate]. injection HJ as <-. discriminate.
  - injection HJ as <-. discriminate.
  - destruct (_ && _); [|discriminate]. injection HJ as <-. discriminate.
  - destruct (find_decl n); [|discriminate]. unfold struct_tree in HJ.
    destruct (items_of d); [|discriminate]. destruct (items_run _ _ _); try discriminate. cbn [rbind] in HJ.
    injection HJ as <-. destruct (customised d); discriminate.
Qed.

Lemma rmap_ok {A B} (f : A -> res B) l r : rmap f l = Ok r -> Forall2 (fun x y => f x = Ok y) l r.
Proof.
  revert r. induction l as [|x l IH]; intros r H; cbn [rmap] in H.
  - injection H as <-. constructor.
  - destruct (f x) as [y| |] eqn:E; [|discriminate|discriminate]. cbn [rbind] in H. fold (rmap f) in H.
    destruct (rmap f l) as [ys| |]; [|discriminate|discriminate]. cbn [rbind] in H. injection H as <-.
    constructor; auto.
Qed.

Lemma dec_ptr j t c : j <> JNull -> dec j (TPtr t) c = omap VPtr (dec j t (match c with VPtr v => v | _ => zero t end)).
Proof. destruct j; intros H; [congruence| | | | | ]; reflexivity. Qed.

Theorem round_trip v : rt_val v.
Proof.
  unfold rt_val. induction v as [s|z|x|b|x| |v IH|l IH|fs IH] using gval_ind'; intros t j HT HC HO HJ;
    destruct t as [|bits| | | |t|t|n]; try discriminate; cbn [jt] in HJ.
  - injection HJ as <-. split; reflexivity.
  - injection HJ as <-. cbn [jsan]. split; [apply nice_int; exact HC|].
    cbn [dec at_ty]. cbn [has_type] in HT. rewrite parse_int_dec_int by lia. reflexivity.
  - destruct (fmt_float x) as [s|] eqn:E; [|discriminate]. injection HJ as <-. cbn [has_type] in HT.
    destruct (nice_float x s HT E) as [H1 H2]. cbn [jsan]. split; [exact H1|].
    cbn [dec at_ty]. rewrite H2. reflexivity.
  - injection HJ as <-. split; reflexivity.
  - injection HJ as <-. split; reflexivity.
  - injection HJ as <-. split; reflexivity.
  - cbn [has_type] in HT. cbn [carried] in HC.
    assert (HO' : okty t = true) by (cbn [okty] in HO; destruct t; try discriminate; exact HO).
    destruct (IH t j HT HC HO' HJ) as [H1 H2]. split; [exact H1|].
    assert (HN : jsan j <> JNull).
    { eapply not_null_jt; [|exact HJ]. cbn [okty] in HO. destruct t; try discriminate; reflexivity. }
    rewrite dec_ptr by exact HN. cbn [zero zero0]. rewrite H2. reflexivity.
  - destruct (rmap _ l) as [js| |] eqn:E; [|discriminate|discriminate]. cbn [rbind] in HJ. injection HJ as <-.
    apply rmap_ok in E. cbn [has_type carried okty] in *. cbn [jsan good dec at_ty norm_at zero zero0].
    assert (HH : forallb good (map jsan js) = true /\
      elems (fun c (dl : delayed) => dl t c) (zero t) [] (map dec (map jsan js)) = Some (map (norm_at t) l)).
    { induction E as [|x j l js Exj _ IHl]; [split; reflexivity|].
      inversion IH as [|? ? I1 I2]; subst. cbn [forallb] in HT, HC.
      apply andb_true_iff in HT. destruct HT as [T1 T2]. apply andb_true_iff in HC. destruct HC as [C1 C2].
      destruct (I1 t j T1 C1 HO Exj) as [G1 G2]. destruct (IHl I2 T2 C2) as [G3 G4].
      cbn [map forallb elems hd tl]. rewrite G1, G3, G2, G4. split; reflexivity. }
    destruct HH as [H1 H2]. split; [exact H1|]. rewrite H2. reflexivity.
  - apply has_type_struct in HT. destruct HT as (d & Ed & HT). rewrite Ed in HJ.
    apply (struct_rt d); assumption.
Qed.
