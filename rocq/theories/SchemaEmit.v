(** Nulls and unknown properties in accepted payloads; emitted payloads. *)
From Coq Require Import ZifyBool Sorting.Permutation.
From Verif Require Import GoBase Utf8 Json JsonProofs JsonText Float64 Float64Proofs GoTime GoTimeProofs
  Lang Types Codec EncProofs Any AnyProofs DecProofs SpecCodec RoundTrip NumTotal DecTyped Tables Registry Frame FrameProofs FrameMore Leaves
  SpecEnc EncTotal Schemas SpecSchema FloatInt SchemaProofs SchemaMore.
Open Scope string_scope.
Open Scope list_scope.

(** ** Unknown properties of lenient types *)

Lemma gturns_skip tg l1 k dl l2 : tg k = None -> forall fs,
  gturns tg false (l1 ++ (k, dl) :: l2) fs = gturns tg false (l1 ++ l2) fs.
Proof.
  intros HT. induction l1 as [|[k1 d1] l1 IH]; intros fs; cbn [app gturns].
  - rewrite HT. reflexivity.
  - destruct (tg k1) as [[f t]|]; [|apply IH]. destruct (lookup f fs); [|reflexivity]. destruct (d1 t g); [apply IH|reflexivity].
Qed.

Lemma flags_skip cases l1 k l2 : case_of cases k = None -> flags_of cases (l1 ++ k :: l2) = flags_of cases (l1 ++ l2).
Proof.
  intros H. unfold flags_of. rewrite !flat_map_app. cbn [flat_map]. unfold flag_of at 2. rewrite H. reflexivity.
Qed.

Lemma fold_targets : forallb (fun d => match d_dec d with
  | DTable _ cases _ _ => forallb (fun c => existsb (fun f => String.eqb (fold_key (f_json f)) (fold_key (c_key c))) (d_fields d)) cases
  | DDefault => true end) all_decls = true.
Proof. vm_compute. reflexivity. Qed.

Theorem unknown_ignored n d l1 k x l2 c : find_decl n = Some d -> dec_strict d = false ->
  Forall (fun f => fold_key (f_json f) <> fold_key k) (d_fields d) ->
  NoDup (map fst (l1 ++ (k, x) :: l2)) ->
  dec (JObj (l1 ++ (k, x) :: l2)) (TStruct n) c = dec (JObj (l1 ++ l2)) (TStruct n) c.
Proof.
  intros Hd HS HF HN. destruct c as [| | | | | | | |fs]; try (cbn [dec at_ty]; rewrite Hd; reflexivity).
  destruct (find_decl_in n d Hd) as [HI _].
  assert (HT : field_target d k = None).
  { unfold field_target. destruct (d_dec d) as [fl cases st ck|] eqn:ED.
    - unfold table_target. destruct (case_of cases k) as [cc|] eqn:EC; [|reflexivity]. exfalso.
      apply case_of_spec in EC. destruct EC as [I1 K1]. pose proof fold_targets as HA. rewrite forallb_forall in HA.
      specialize (HA d HI). rewrite ED, forallb_forall in HA. specialize (HA cc I1). apply existsb_exists in HA.
      destruct HA as (f & F1 & F2). rewrite Forall_forall in HF. specialize (HF f F1). apply String.eqb_eq in F2. congruence.
    - unfold default_tgt, default_target. destruct (find (fun f => String.eqb (f_json f) k) (d_fields d)) as [f|] eqn:E1.
      { exfalso. apply find_some in E1. destruct E1 as [F1 F2]. apply String.eqb_eq in F2. rewrite Forall_forall in HF. apply (HF f F1). congruence. }
      destruct (find (fun f => String.eqb (fold_key (f_json f)) (fold_key k)) (d_fields d)) as [f|] eqn:E2; [|reflexivity].
      exfalso. apply find_some in E2. destruct E2 as [F1 F2]. apply String.eqb_eq in F2. rewrite Forall_forall in HF. apply (HF f F1). congruence. }
  assert (HN' : NoDup (map fst (l1 ++ l2))).
  { rewrite map_app in *. cbn [map fst] in HN. apply NoDup_remove_1 in HN. exact HN. }
  rewrite !(dec_struct_obj n d) by assumption. rewrite HS. rewrite !map_app. cbn [map fst snd]. rewrite gturns_skip by exact HT.
  destruct (d_dec d) as [fl cases st ck|] eqn:ED; [|reflexivity].
  rewrite flags_skip; [reflexivity|].
  unfold field_target in HT. rewrite ED in HT. unfold table_target in HT. destruct (case_of cases k) as [cc|] eqn:EC; [|reflexivity].
  exfalso. apply case_of_spec in EC. destruct EC as [I1 _]. pose proof (dec_ok_in d HI) as HO. unfold dec_ok in HO. rewrite ED in HO.
  repeat rewrite andb_true_iff in HO. destruct HO as (_ & _ & HO). rewrite forallb_forall in HO. specialize (HO cc I1).
  destruct (find_field d (c_field cc)); discriminate.
Qed.

(** ** Null for every property *)

Lemma set_field_same f v fs : lookup f fs = Some v -> set_field f v fs = fs.
Proof.
  induction fs as [|[k x] fs IH]; [discriminate|]. cbn [lookup set_field]. rewrite (String.eqb_sym f).
  destruct (String.eqb_spec k f) as [->|]; intros H; [congruence|]. rewrite IH by exact H. reflexivity.
Qed.

Lemma gturns_null d tg strict l fs : In d all_decls ->
  (forall k f t, tg k = Some (f, t) -> exists fd, find_field d f = Some fd /\ t = f_ty fd) ->
  (forall f fd, find_field d f = Some fd -> lookup f fs = Some (zero0 (f_ty fd))) ->
  Forall (fun kv : string * delayed => snd kv = dec JNull /\ tg (fst kv) <> None) l ->
  gturns tg strict l fs = Some fs.
Proof.
  intros HI HT HZ HL. induction HL as [|[k dl] l [E1 E2] _ IH]; [reflexivity|]. cbn [fst snd] in *. subst dl. cbn [gturns].
  destruct (tg k) as [[f t]|] eqn:ET; [|congruence]. destruct (HT k f t ET) as (fd & Ef & ->).
  rewrite (HZ f fd Ef).
  assert (dec JNull (f_ty fd) (zero0 (f_ty fd)) = Some (zero0 (f_ty fd))) as ->.
  { pose proof (rt_ok_in d HI) as HR. unfold rt_ok in HR. destruct (items_of d); [|discriminate].
    repeat rewrite andb_true_iff in HR. destruct HR as [[_ HR] _]. rewrite forallb_forall in HR.
    unfold find_field in Ef. apply find_some in Ef. specialize (HR fd (proj1 Ef)).
    destruct (f_ty fd); try reflexivity. discriminate. }
  rewrite set_field_same by apply (HZ f fd Ef). exact IH.
Qed.

Lemma all_zero_fields : forallb (fun d => match zero (TStruct (d_name d)) with
  | VStruct fs => forallb (fun f => match lookup (f_name f) fs with Some v => true | None => false end) (d_fields d)
  | _ => false end) all_decls = true.
Proof. vm_compute. reflexivity. Qed.

Definition known_props (s : schema) (t : gty) : bool :=
  match s, t with
  | SObj props _ _, TStruct n => match find_decl n with
     | Some d => forallb (fun ks => match field_target d (fst ks) with Some _ => true | None => false end) props
     | None => false end
  | _, _ => false
  end.
Lemma all_known : forallb (fun ty => match schema_of ty with Some s => known_props s (TStruct ty) && compat s (TStruct ty) | None => false end) msg_types = true.
Proof. vm_compute. reflexivity. Qed.

Theorem nulls_accepted ty props req add m text : In ty msg_types -> schema_of ty = Some (SObj props req add) ->
  wf_any (AObj m) -> Forall (fun kv => snd kv = ANull /\ In (fst kv) (map fst props)) m ->
  Forall (fun k => In k (map fst m)) req ->
  marshal_any (AObj m) = Ok text -> unmarshal_msg ty text = Some (zero (TStruct ty)).
Proof.
  intros HI HS HW HN HR HM. pose proof all_known as HA. rewrite forallb_forall in HA. specialize (HA ty HI). rewrite HS in HA.
  apply andb_true_iff in HA. destruct HA as [HA HC].
  destruct (of_any_ok _ HW) as (j & Ej & [C1 C2] & _). unfold marshal_any in HM. rewrite Ej in HM.
  assert (text = print j) as -> by congruence. unfold unmarshal_msg. rewrite (parse_print j C1), C2.
  cbn [of_any] in Ej. unfold omap in Ej. match type of Ej with match ?x with _ => _ end = _ => destruct x as [ms|] eqn:EO; [|discriminate] end.
  assert (j = JObj ms) as -> by congruence. apply oall_map in EO. apply wf_any_obj in HW. destruct HW as (W1 & _ & _).
  assert (EK : map fst ms = map fst m /\ Forall (fun kv => snd kv = JNull) ms).
  { clear -EO HN. induction EO as [|[k a] [k' j] m ms E _ IHE]; [split; [reflexivity|constructor]|]. inversion HN as [|? ? [N1 N2] N3]; subst.
    cbn [fst snd] in *. subst a. cbn in E. injection E as <- <-. destruct (IHE N3) as [I1 I2]. cbn [map fst]. rewrite I1. split; [reflexivity|].
    constructor; [reflexivity|exact I2]. }
  destruct EK as [EK EN].
  cbn [known_props] in HA. cbn [compat strip_ptr] in HC. destruct (find_decl ty) as [d|] eqn:Ed; [|discriminate].
  destruct (find_decl_in ty d Ed) as [HId HNm].
  pose proof all_zero_fields as HZ. rewrite forallb_forall in HZ. specialize (HZ d HId). rewrite HNm in HZ.
  destruct (zero (TStruct ty)) as [| | | | | | | |fs] eqn:EZ; try discriminate.
  rewrite (dec_struct_obj ty d ms fs Ed) by (rewrite EK; exact W1).
  apply andb_true_iff in HC. destruct HC as [HC C3].
  assert (G : gturns (field_target d) (dec_strict d) (map (fun kv => (fst kv, dec (snd kv))) ms) fs = Some fs).
  { apply (gturns_null d); [exact HId|apply field_target_ok; exact HId| |].
    - intros f fd Ef. unfold zero in EZ. rewrite Ed in EZ. unfold zero_struct in EZ. assert (fs = map (fun f => (f_name f, zero0 (f_ty f))) (d_fields d)) as -> by congruence.
      unfold find_field in Ef. clear -Ef. induction (d_fields d) as [|g ds IH]; [discriminate|]. cbn [find map lookup] in *.
      rewrite (String.eqb_sym f). destruct (String.eqb_spec (f_name g) f); [congruence|]. auto.
    - apply Forall_forall. intros [k dl] Hk. apply in_map_iff in Hk. destruct Hk as ([k' j'] & E & Hk). cbn [fst snd] in E. injection E as -> <-.
      rewrite Forall_forall in EN. pose proof (EN _ Hk) as E1. cbn [snd] in *. subst j'. split; [reflexivity|]. cbn [fst].
      assert (In k (map fst m)) as Hm by (rewrite <- EK; apply in_map_iff; exists (k, JNull); auto).
      apply in_map_iff in Hm. destruct Hm as ([k1 a1] & <- & Hm). rewrite Forall_forall in HN. destruct (HN _ Hm) as [_ HP].
      apply in_map_iff in HP. destruct HP as (ks & E & HP). rewrite forallb_forall in HA. specialize (HA ks HP). rewrite E in HA. cbn [fst] in *.
      destruct (field_target d k1); [discriminate|discriminate HA]. }
  rewrite G. destruct (d_dec d) as [fl cases st ck|] eqn:ED; [|reflexivity].
  assert (forallb (fun c => strmem (fst c) (flags_of cases (map fst ms))) ck = true) as ->; [|reflexivity].
  apply forallb_forall. intros c Hc. rewrite forallb_forall in C3. specialize (C3 c Hc).
  eapply strmem_flags; [|exact C3]. intros k Hk. rewrite EK. rewrite Forall_forall in HR. apply HR. exact Hk.
Qed.

(** ** Members of an encoded object *)

Lemma items_run_in {A} mt (env : list (string * (gval * res A))) its : forall ms, items_run mt env its = Ok ms -> forall k x, In (k, x) ms ->
  exists f tm c v t, In (ItField k f tm c) its /\ lookup f env = Some (v, t) /\ skipped c v = false /\ (if tm then mt v else t) = Ok x.
Proof.
  induction its as [|it its IH]; intros ms H k x HI; cbn [items_run] in H; [injection H as <-; destruct HI|].
  destruct it as [f msg|k0 f tm c].
  - destruct (lookup f env) as [[v t]|]; [|discriminate]. destruct (is_nil v); [discriminate|].
    destruct (IH ms H k x HI) as (f' & tm & c & v' & t' & I1 & I2). exists f', tm, c, v', t'. split; [right; exact I1|exact I2].
  - destruct (lookup f env) as [[v t]|] eqn:EL; [|discriminate]. destruct (skipped c v) eqn:ES.
    { destruct (IH ms H k x HI) as (f' & tm' & c' & v' & t' & I1 & I2). exists f', tm', c', v', t'. split; [right; exact I1|exact I2]. }
    destruct (if tm then mt v else t) as [y| |] eqn:EY; try discriminate. cbn [rbind] in H.
    destruct (items_run mt env its) as [ms'| |] eqn:EI; try discriminate. cbn [rbind] in H. injection H as <-.
    destruct HI as [E|HI].
    + injection E as -> ->. exists f, tm, c, v, t. split; [left; reflexivity|auto].
    + destruct (IH ms' eq_refl k x HI) as (f' & tm' & c' & v' & t' & I1 & I2). exists f', tm', c', v', t'. split; [right; exact I1|exact I2].
Qed.

Lemma items_run_key {A} mt (env : list (string * (gval * res A))) its : forall ms, items_run mt env its = Ok ms -> forall k f tm c v t,
  In (ItField k f tm c) its -> lookup f env = Some (v, t) -> skipped c v = false -> In k (map fst ms).
Proof.
  induction its as [|it its IH]; intros ms H k f tm c v t HI HL HS; [destruct HI|]. cbn [items_run] in H.
  destruct HI as [->|HI].
  - rewrite HL, HS in H. destruct (if tm then mt v else t) as [y| |]; try discriminate. cbn [rbind] in H.
    destruct (items_run mt env its) as [ms'| |]; try discriminate. cbn [rbind] in H. injection H as <-. left. reflexivity.
  - destruct it as [f0 msg|k0 f0 tm0 c0].
    + destruct (lookup f0 env) as [[v0 t0]|]; [|discriminate]. destruct (is_nil v0); [discriminate|]. eapply IH; eauto.
    + destruct (lookup f0 env) as [[v0 t0]|] eqn:EL; [|discriminate]. destruct (skipped c0 v0) eqn:ES; [eapply IH; eauto|].
      destruct (if tm0 then mt v0 else t0) as [y| |]; try discriminate. cbn [rbind] in H.
      destruct (items_run mt env its) as [ms'| |] eqn:EI; try discriminate. cbn [rbind] in H. injection H as <-. right. eapply IH; eauto.
Qed.

Lemma items_run_req {A} mt (env : list (string * (gval * res A))) its : forall ms, items_run mt env its = Ok ms -> forall f msg v t,
  In (ItReq f msg) its -> lookup f env = Some (v, t) -> is_nil v = false.
Proof.
  induction its as [|it its IH]; intros ms H f msg v t HI HL; [destruct HI|]. cbn [items_run] in H.
  destruct HI as [->|HI].
  - rewrite HL in H. destruct (is_nil v); [discriminate|reflexivity].
  - destruct it as [f0 msg0|k0 f0 tm0 c0].
    + destruct (lookup f0 env) as [[v0 t0]|]; [|discriminate]. destruct (is_nil v0); [discriminate|]. eapply IH; eauto.
    + destruct (lookup f0 env) as [[v0 t0]|] eqn:EL; [|discriminate]. destruct (skipped c0 v0) eqn:ES; [eapply IH; eauto|].
      destruct (if tm0 then mt v0 else t0) as [y| |]; try discriminate. cbn [rbind] in H.
      destruct (items_run mt env its) as [ms'| |] eqn:EI; try discriminate. eapply IH; eauto.
Qed.

Lemma items_run_nodup {A} mt (env : list (string * (gval * res A))) its : forall ms, items_run mt env its = Ok ms ->
  NoDup (item_keys its) -> NoDup (map fst ms) /\ forall k, In k (map fst ms) -> In k (item_keys its).
Proof.
  induction its as [|it its IH]; intros ms H HN; cbn [items_run] in H.
  - injection H as <-. split; [constructor|intros k []].
  - destruct it as [f msg|k0 f tm c]; cbn [item_keys flat_map app] in *.
    + destruct (lookup f env) as [[v t]|]; [|discriminate]. destruct (is_nil v); [discriminate|]. apply IH; assumption.
    + inversion HN as [|? ? N1 N2]; subst. destruct (lookup f env) as [[v t]|]; [|discriminate]. destruct (skipped c v).
      { destruct (IH ms H N2) as [I1 I2]. split; [exact I1|]. intros k Hk. right. apply I2. exact Hk. }
      destruct (if tm then mt v else t) as [y| |]; try discriminate. cbn [rbind] in H.
      destruct (items_run mt env its) as [ms'| |]; try discriminate. cbn [rbind] in H. injection H as <-.
      destruct (IH ms' eq_refl N2) as [I1 I2]. cbn [map fst]. split.
      * constructor; [|exact I1]. intros X. apply N1, I2, X.
      * intros k [<-|Hk]; [left; reflexivity|right; apply I2; exact Hk].
Qed.

(** ** Keys of the encoding (C10) *)

Definition cond_listed (n f : string) (c : icond) : bool :=
  match c with
  | CAlways => negb (listed n f omitted_if_nil) && negb (listed n f omitted_if_empty)
  | CNotNil => listed n f omitted_if_nil && negb (listed n f omitted_if_empty)
  | CNotEmpty => negb (listed n f omitted_if_nil) && listed n f omitted_if_empty
  end.
Definition keys_ok (d : decl) : bool :=
  match items_of d with
  | None => false
  | Some its => nodupb (item_keys its) &&
    forallb (fun f => existsb (fun it => match it with ItField k g _ c => String.eqb k (f_json f) && String.eqb g (f_name f) && cond_listed (d_name d) g c | _ => false end) its) (d_fields d) &&
    forallb (fun it => match it with
      | ItField k g _ c => String.eqb (sanitize k) k && cond_listed (d_name d) g c && existsb (fun f => String.eqb (f_name f) g && String.eqb (f_json f) k) (d_fields d) &&
           match c, find_field d g with CNotEmpty, Some fd => match f_ty fd with TInt _ | TPtr _ => true | _ => false end | CNotEmpty, None => false | _, _ => true end
      | _ => true end) its
  end.
Lemma all_keys_ok : forallb keys_ok all_decls = true.
Proof. vm_compute. reflexivity. Qed.

Lemma jsan_members its : forallb (fun k => String.eqb (sanitize k) k) (item_keys its) = true ->
  forall ms : list (string * json), (forall k, In k (map fst ms) -> In k (item_keys its)) ->
  map fst (map (fun kv => (sanitize (fst kv), jsan (snd kv))) ms) = map fst ms.
Proof.
  intros HK ms HM. rewrite map_map. cbn [fst]. apply map_ext_in. intros [k x] Hx. cbn [fst].
  rewrite forallb_forall in HK. specialize (HK k). apply String.eqb_eq. apply HK, HM, in_map_iff. exists (k, x). auto.
Qed.

Lemma skipped_left_out n f c fd v : cond_listed n f c = true -> has_type v (f_ty fd) = true ->
  match c with CNotEmpty => match f_ty fd with TInt _ | TPtr _ => true | _ => false end | _ => true end = true ->
  skipped c v = left_out n f v.
Proof.
  intros HC HT HE. unfold left_out, cond_listed in *. destruct c; cbn [skipped];
    apply andb_true_iff in HC; destruct HC as [H1 H2];
    destruct (listed n f omitted_if_nil), (listed n f omitted_if_empty); try discriminate; cbn [andb orb].
  - reflexivity.
  - rewrite orb_false_r. destruct v; reflexivity.
  - destruct (f_ty fd), v; try discriminate; reflexivity.
Qed.

Theorem encoded_keys n d fs text : find_decl n = Some d -> has_type (VStruct fs) (TStruct n) = true ->
  marshal_msg n (VStruct fs) = Ok text ->
  exists l, parse text = Some (JObj l) /\ NoDup (map fst l) /\
    forall k, In k (map fst l) <->
      exists f v, In f (d_fields d) /\ f_json f = k /\ lookup (f_name f) fs = Some v /\ left_out n (f_name f) v = false.
Proof.
  intros Hd HT HM. destruct (marshal_msg_tree n _ text HT HM) as (j & HJ & -> & HW).
  rewrite (parse_print j HW). cbn [jt] in HJ. rewrite Hd in HJ. fold (jenv d fs) in HJ.
  destruct (find_decl_in n d Hd) as [HI HNm]. pose proof all_keys_ok as HA. rewrite forallb_forall in HA. specialize (HA d HI).
  unfold keys_ok in HA. unfold struct_tree in HJ. destruct (items_of d) as [its|] eqn:EI; [|discriminate].
  destruct (items_run time_tree (jenv d fs) its) as [ms| |] eqn:ER; try discriminate. cbn [rbind] in HJ.
  repeat rewrite andb_true_iff in HA. destruct HA as [[A1 A2] A3]. apply nodupb_spec in A1.
  destruct (items_run_nodup _ _ _ _ ER A1) as [N1 N2].
  assert (SK : forallb (fun k => String.eqb (sanitize k) k) (item_keys its) = true).
  { apply forallb_forall. intros k Hk. unfold item_keys in Hk. apply in_flat_map in Hk. destruct Hk as (it & I1 & I2).
    rewrite forallb_forall in A3. specialize (A3 it I1). destruct it as [|k0 f tm c]; [destruct I2|]. destruct I2 as [<-|[]].
    repeat rewrite andb_true_iff in A3. apply A3. }
  assert (exists l, jsan j = JObj l /\ map fst l = map fst ms) as (l & EJ & EL).
  { assert (Ej : jsan j = jsan (JObj ms)).
    { assert (j = if customised d then jsan (JObj ms) else JObj ms) as -> by congruence. destruct (customised d); [apply jsan_idem|reflexivity]. }
    rewrite Ej. cbn [jsan]. eexists. split; [reflexivity|]. apply (jsan_members its SK ms N2). }
  exists l. rewrite EJ, EL. split; [reflexivity|]. split; [exact N1|].
  apply has_type_struct in HT. destruct HT as (d' & Hd' & HT). assert (d' = d) by congruence. subst d'.
  assert (FF : forall f, In f (d_fields d) -> find_field d (f_name f) = Some f).
  { pose proof (dec_ok_in d HI) as H. unfold dec_ok in H. apply andb_true_iff in H. destruct H as [H _]. apply nodupb_spec in H.
    unfold find_field. intros f Hf. revert H Hf. generalize (d_fields d). intros ds. induction ds as [|g ds IH]; intros H Hf; [destruct Hf|].
    cbn [map find] in *. inversion H as [|? ? M1 M2]; subst. destruct Hf as [->|Hf]; [rewrite String.eqb_refl; reflexivity|].
    destruct (String.eqb_spec (f_name g) (f_name f)) as [E|E]; [|auto]. exfalso. apply M1. rewrite E. apply in_map. exact Hf. }
  assert (SL : forall k f tm c v fd, In (ItField k f tm c) its -> find_field d f = Some fd -> lookup f fs = Some v -> skipped c v = left_out n f v).
  { intros k f tm c v fd I1 I2 I3. rewrite forallb_forall in A3. specialize (A3 _ I1). cbn beta iota in A3. rewrite I2 in A3.
    repeat rewrite andb_true_iff in A3. destruct A3 as [[[_ A3] _] A4]. rewrite HNm in A3.
    pose proof I2 as I2'. unfold find_field in I2'. destruct (typed_lookup fs (d_fields d) f fd HT I2') as (v' & L1 & L2 & _).
    assert (v' = v) by congruence. subst v'. apply (skipped_left_out n f c fd v A3 L2). destruct c; [reflexivity|reflexivity|exact A4]. }
  intros k. split.
  - intros Hk. apply in_map_iff in Hk. destruct Hk as ([k0 x] & E & Hk). cbn [fst] in E. subst k0.
    destruct (items_run_in _ _ _ _ ER k x Hk) as (f & tm & c & v & t & I1 & I2 & I3 & I4).
    rewrite jenv_lookup in I2. destruct (lookup f fs) as [w|] eqn:EF; [|discriminate]. assert (w = v) by congruence. subst w.
    pose proof A3 as A3'. rewrite forallb_forall in A3'. specialize (A3' _ I1). cbn beta iota in A3'. repeat rewrite andb_true_iff in A3'.
    destruct A3' as [[[_ A4] A5] _]. apply existsb_exists in A5. destruct A5 as (fd & F1 & F2). apply andb_true_iff in F2.
    destruct F2 as [F2 F3]. apply String.eqb_eq in F2, F3. exists fd, v. rewrite F2. split; [exact F1|]. split; [exact F3|]. split; [exact EF|].
    rewrite <- (SL k f tm c v fd I1); [exact I3| |exact EF]. rewrite <- F2. apply FF, F1.
  - intros (f & v & F1 & F2 & F3 & F4). rewrite forallb_forall in A2. specialize (A2 f F1). apply existsb_exists in A2.
    destruct A2 as (it & I1 & I2). destruct it as [|k0 g tm c]; [discriminate|]. repeat rewrite andb_true_iff in I2.
    destruct I2 as [[K1 K2] K3]. apply String.eqb_eq in K1, K2. subst k0 g.
    eapply (items_run_key _ _ _ _ ER k (f_name f) tm c v); [rewrite <- F2; exact I1| |].
    + rewrite jenv_lookup, F3. reflexivity.
    + rewrite (SL _ _ _ _ _ f I1 (FF f F1) F3). exact F4.
Qed.

(** ** Emitted payloads against the schema (C16) *)

Definition nil_never (its : list item) (f : string) : bool :=
  existsb (fun it => match it with ItReq g _ => String.eqb g f | _ => false end) its.

Fixpoint emits (s : schema) (t : gty) {struct s} : bool :=
  match s, strip_ptr t with
  | SStr _ _ dt, TStr => negb dt
  | SStr _ _ _, TTime => true
  | SInt, TInt _ => true
  | SNum, (TF64 | TInt _) => true
  | SBool, TBool => true
  | SArr s, TSlice t => emits s t && match t with TPtr _ => is_object s | TSlice _ => false | _ => true end
  | SObj props req add, TStruct n =>
    match find_decl n with
    | None => false
    | Some d =>
      match items_of d with
      | None => false
      | Some its =>
        forallb (fun it => match it with
          | ItReq _ _ => true
          | ItField k f tm c =>
            match find_field d f with
            | None => false
            | Some fd =>
              (* a property the schema does not list *)
              (add && negb (has_key k props)) ||
              existsb (fun ks => String.eqb (fst ks) k && emits (snd ks) (f_ty fd) &&
                (tm || (negb (time_ty (f_ty fd)) &&
                match f_ty fd with
                | TPtr _ | TSlice _ => null_ok req k (snd ks) || nil_never its f || match c with CAlways => false | _ => true end
                | _ => true
                end))) props
            end
          end) its &&
        forallb (fun k => strmem k (sure_keys its)) req
      end
    end
  | _, _ => false
  end.

Definition nodup_props (s : schema) : bool :=
  match s with SObj props _ _ => nodupb (map fst props) | _ => true end.
Fixpoint all_nodup (s : schema) : bool :=
  match s with
  | SObj props _ _ => nodupb (map fst props) && forallb (fun ks => all_nodup (snd ks)) props
  | SArr s => all_nodup s
  | _ => true
  end.

Lemma all_emits : forallb (fun ty => match schema_of ty with Some s => emits s (TStruct ty) && all_nodup s | None => false end) msg_types = true.
Proof. vm_compute. reflexivity. Qed.

(** Element types of lists and pointers: no pointer to pointer, no pointer to
    list (checked as [okty] for every field). *)
Lemma jt_null t v j : okty t = true -> has_type v t = true -> jt t v = Ok j -> to_any (jsan j) = Some ANull -> v = VNil.
Proof.
  intros HO HT HJ HA. destruct v as [s|z|x|b|x| |v|l|fs];
    destruct t as [|bits| | | |t|t|n]; try discriminate; cbn [jt] in HJ; try reflexivity; exfalso.
  - assert (j = JStr s) as -> by congruence. discriminate.
  - assert (j = JNum (dec_int z)) as -> by congruence. cbn [jsan to_any] in HA. destruct (parse_float _); discriminate.
  - destruct (fmt_float x) as [s|]; [|discriminate]. assert (j = JNum s) as -> by congruence. cbn [jsan to_any] in HA. destruct (parse_float _); discriminate.
  - assert (j = JBool b) as -> by congruence. discriminate.
  - cbn [has_type] in HT. destruct v as [s|z|x|b|x| |v|l|fs]; destruct t as [|bits| | | |t|t|n]; try discriminate; cbn [jt] in HJ.
    + assert (j = JStr s) as -> by congruence. discriminate.
    + assert (j = JNum (dec_int z)) as -> by congruence. cbn [jsan to_any] in HA. destruct (parse_float _); discriminate.
    + destruct (fmt_float x) as [s|]; [|discriminate]. assert (j = JNum s) as -> by congruence. cbn [jsan to_any] in HA. destruct (parse_float _); discriminate.
    + assert (j = JBool b) as -> by congruence. discriminate.
    + destruct (struct_jt_obj n (VStruct fs) j HJ) as [l El]. rewrite El in HA. cbn [to_any] in HA. unfold omap in HA.
      match type of HA with match ?x with _ => _ end = _ => destruct x; discriminate end.
  - destruct (rmap _ l) as [js| |]; try discriminate. cbn [rbind] in HJ. assert (j = JArr js) as -> by congruence.
    cbn [jsan to_any] in HA. unfold omap in HA. match type of HA with match ?x with _ => _ end = _ => destruct x; discriminate end.
  - destruct (struct_jt_obj n (VStruct fs) j HJ) as [l El]. rewrite El in HA. cbn [to_any] in HA. unfold omap in HA.
    match type of HA with match ?x with _ => _ end = _ => destruct x; discriminate end.
Qed.

(** Encoding at the pointed-to type. *)
Lemma jt_strip t v j : okty t = true -> has_type v t = true -> v <> VNil -> jt t v = Ok j ->
  exists v', has_type v' (strip_ptr t) = true /\ okty (strip_ptr t) = true /\ jt (strip_ptr t) v' = Ok j /\ times v' = times v /\ v' <> VNil.
Proof.
  intros HO HT HN HJ. destruct t as [|bits| | | |t|t|n]; cbn [strip_ptr]; try (exists v; auto; fail).
  destruct v as [s|z|x|b|x| |v|l|fs]; try discriminate; [congruence|]. cbn [has_type jt] in *. exists v.
  assert (okty t = true) by (cbn [okty] in HO; destruct t; try discriminate; exact HO).
  repeat split; try assumption. destruct v, t; try discriminate; intros E; discriminate.
Qed.

Lemma rmap_forall {A B} (f : A -> res B) l : forall ys, rmap f l = Ok ys -> Forall2 (fun x y => f x = Ok y) l ys.
Proof.
  induction l as [|x l IH]; intros ys H; cbn [rmap] in H; [injection H as <-; constructor|].
  destruct (f x) as [y| |] eqn:E; try discriminate. cbn [rbind] in H. destruct (rmap f l) as [zs| |]; try discriminate.
  cbn [rbind] in H. injection H as <-. constructor; auto.
Qed.

Lemma sorted_in {A} (l : list (string * A)) x : In x (kv_sort (dedup l)) -> In x l.
Proof. intros H. apply dedup_incl. eapply Permutation_in; [apply sort_perm|exact H]. Qed.
Lemma sorted_key {A} (l : list (string * A)) k : In k (map fst l) -> In k (map fst (kv_sort (dedup l))).
Proof.
  intros H. apply dedup_keys in H. eapply Permutation_in; [|exact H]. apply Permutation_map. symmetry. apply sort_perm.
Qed.

Lemma find_schema_unique props k s : NoDup (map fst props) -> In (k, s) props -> find_schema props k = Some s.
Proof.
  induction props as [|[k' s'] ps IH]; intros HN HI; [destruct HI|]. cbn [map fst find_schema] in *. inversion HN as [|? ? N1 N2]; subst.
  destruct HI as [E|HI]; [injection E as -> ->; rewrite String.eqb_refl; reflexivity|].
  destruct (String.eqb_spec k' k) as [->|]; [|auto]. exfalso. apply N1, in_map_iff. exists (k, s). auto.
Qed.

Lemma times_in_slice l x : In x l -> incl (times x) (times (VSlice l)).
Proof. intros H t Ht. unfold times. cbn [leaves]. apply in_flat_map. exists x. auto. Qed.
Lemma times_in_struct fs k x : In (k, x) fs -> incl (times x) (times (VStruct fs)).
Proof. intros H t Ht. unfold times. cbn [leaves]. apply in_flat_map. exists (k, x). auto. Qed.

Lemma wire_incl v w : incl (times w) (times v) -> wire_times v -> wire_times w.
Proof. unfold wire_times. rewrite !Forall_forall. intros H1 H2 t Ht. apply H2, H1, Ht. Qed.

Lemma emitted_time s t v j a : emits s t = true -> time_ty t = true -> time_tree v = Ok j -> has_type v t = true -> wire_times v ->
  to_any (jsan j) = Some a -> sent_as s a = true /\ a <> ANull.
Proof.
  intros HE HT HJ HV HW HA.
  assert (exists x, j = JStr (format_rfc3339 x) /\ time_wire x = true) as (x & -> & Hx).
  { destruct v as [| | | |x| |v| | ]; try discriminate; cbn [time_tree] in HJ.
    - exists x. split; [congruence|]. unfold wire_times in HW. cbn in HW. inversion HW; assumption.
    - destruct v as [| | | |x| | | | ]; try discriminate. exists x. split; [congruence|]. unfold wire_times in HW. cbn in HW. inversion HW; assumption. }
  cbn [jsan to_any] in HA. rewrite format_sanitize in HA by exact Hx. assert (a = AStr (format_rfc3339 x)) as -> by congruence.
  split; [|discriminate].
  destruct s as [ml en dt| | | | |]; cbn [emits] in HE; destruct t as [| | | | |[]| |]; cbn [strip_ptr] in HE; try discriminate;
    cbn [sent_as]; rewrite (parse_format x Hx); destruct dt; reflexivity.
Qed.

Theorem emits_sound s : forall t v j a, emits s t = true -> all_nodup s = true -> okty t = true -> has_type v t = true -> wire_times v ->
  jt t v = Ok j -> v <> VNil -> to_any (jsan j) = Some a -> sent_as s a = true.
Proof.
  induction s as [ml en dt| | | |s IH|props req add IH] using schema_ind'; intros t v j a HE HND HO HT HW HJ HN HA;
    destruct (jt_strip t v j HO HT HN HJ) as (v' & HT' & HO' & HJ' & ET & HN');
    assert (HW' : wire_times v') by (unfold wire_times in *; rewrite ET; exact HW);
    cbn [emits] in HE; clear HT HO HJ HN HW ET; revert HE HT' HO' HJ'; generalize (strip_ptr t); clear t v; rename v' into v;
    intros t HE HT HO HJ.
  - destruct t; try discriminate. destruct v; try discriminate. cbn [jt] in HJ. assert (j = JStr s) as -> by congruence.
    cbn [jsan to_any] in HA. assert (a = AStr (sanitize s)) as -> by congruence. destruct dt; [discriminate|reflexivity].
  - destruct t; try discriminate. destruct v; try discriminate. cbn [jt] in HJ. assert (j = JNum (dec_int z)) as -> by congruence.
    cbn [jsan to_any] in HA. unfold omap in HA. destruct (parse_float (dec_int z)) as [x|] eqn:EP; [|discriminate]. assert (a = ANum x) as -> by congruence.
    cbn [sent_as]. unfold integral. pose proof (int_integral z x EP). destruct (f64_toZ x); [reflexivity|contradiction].
  - destruct t; try discriminate; destruct v; try discriminate; cbn [jt] in HJ.
    + assert (j = JNum (dec_int z)) as -> by congruence. cbn [jsan to_any] in HA. unfold omap in HA.
      destruct (parse_float (dec_int z)) as [x|]; [|discriminate]. assert (a = ANum x) as -> by congruence. reflexivity.
    + destruct (fmt_float x) as [s|]; [|discriminate]. assert (j = JNum s) as -> by congruence. cbn [jsan to_any] in HA. unfold omap in HA.
      destruct (parse_float s) as [y|]; [|discriminate]. assert (a = ANum y) as -> by congruence. reflexivity.
  - destruct t; try discriminate. destruct v; try discriminate. cbn [jt] in HJ. assert (j = JBool b) as -> by congruence.
    cbn [jsan to_any] in HA. assert (a = ABool b) as -> by congruence. reflexivity.
  - destruct t as [| | | | | |t| ]; try discriminate. destruct v as [| | | | | | |l| ]; try discriminate; [congruence|].
    apply andb_true_iff in HE. destruct HE as [HE HP]. cbn [jt] in HJ. destruct (rmap _ l) as [js| |] eqn:ER; try discriminate.
    cbn [rbind] in HJ. assert (j = JArr js) as -> by congruence. cbn [jsan to_any] in HA. unfold omap in HA.
    match type of HA with match ?x with _ => _ end = _ => destruct x as [xs|] eqn:EO; [|discriminate] end. assert (a = AArr xs) as -> by congruence.
    apply rmap_forall in ER. rewrite map_map in EO. apply oall_map in EO.
    cbn [sent_as]. apply forallb_forall. intros x Hx. cbn [has_type] in HT. rewrite forallb_forall in HT. cbn [okty] in HO.
    assert (exists v0 j0, In v0 l /\ jt t v0 = Ok j0 /\ to_any (jsan j0) = Some x) as (v0 & j0 & V1 & V2 & V3).
    { clear -ER EO Hx. revert xs EO Hx. induction ER as [|v0 j0 l js E _ IHE]; intros xs EO Hx; [inversion EO; subst; destruct Hx|].
      inversion EO as [|? y ? ys E1 E2]; subst. destruct Hx as [<-|Hx]; [exists v0, j0; split; [left; reflexivity|auto]|].
      destruct (IHE ys E2 Hx) as (v1 & j1 & V1 & V2). exists v1, j1. split; [right; exact V1|exact V2]. }
    assert (WV : wire_times v0) by (apply (wire_incl (VSlice l)); [apply times_in_slice; exact V1|exact HW']).
    destruct (match v0 with VNil => true | _ => false end) eqn:EN.
    + destruct v0; try discriminate. specialize (HT _ V1). destruct t; try discriminate. cbn [jt] in V2. assert (j0 = JNull) as -> by congruence.
      cbn in V3. assert (x = ANull) as -> by congruence. exact HP.
    + assert (v0 <> VNil) by (intros ->; discriminate). pose proof (IH t v0 j0 x HE HND HO (HT _ V1) WV V2 H V3) as HS.
      destruct x; try exact HS. exfalso. apply H. eapply jt_null; eauto.
  - destruct t as [| | | | | | |n]; try discriminate. destruct (find_decl n) as [d|] eqn:Ed; [|discriminate].
    destruct (items_of d) as [its|] eqn:EI; [|discriminate]. apply andb_true_iff in HE. destruct HE as [E1 E2].
    destruct v as [| | | | | | | |fs]; try discriminate. cbn [jt] in HJ. rewrite Ed in HJ. fold (jenv d fs) in HJ.
    unfold struct_tree in HJ. rewrite EI in HJ. destruct (items_run time_tree (jenv d fs) its) as [ms| |] eqn:ER; try discriminate. cbn [rbind] in HJ.
    destruct (find_decl_in n d Ed) as [HI HNm].
    assert (HM : exists xs, a = AObj (kv_sort (dedup xs)) /\
      Forall2 (fun kv kx => fst kx = sanitize (fst kv) /\ to_any (jsan (snd kv)) = Some (snd kx)) ms xs).
    { assert (Ej : jsan j = jsan (JObj ms)).
      { assert (j = if customised d then jsan (JObj ms) else JObj ms) as -> by congruence. destruct (customised d); [apply jsan_idem|reflexivity]. }
      rewrite Ej in HA. cbn [jsan to_any] in HA. unfold omap at 1 in HA. rewrite map_map in HA.
      match type of HA with match ?x with _ => _ end = _ => destruct x as [xs|] eqn:EO; [|discriminate] end.
      exists xs. split; [congruence|]. apply oall_map in EO. clear -EO.
      induction EO as [|[k x] [k' y] ms xs E _ IHE]; [constructor|]. constructor; [|exact IHE]. cbn [fst snd] in *. unfold omap in E.
      destruct (to_any (jsan x)) as [z|]; [|discriminate]. injection E as <- <-. auto. }
    destruct HM as (xs & -> & HX).
    assert (SAN : forall k f tm c, In (ItField k f tm c) its -> sanitize k = k /\ (exists fd, find_field d f = Some fd /\ (if tm then time_ty (f_ty fd) = true else okty (f_ty fd) = true))).
    { intros k f tm c Hi. pose proof (rt_ok_in d HI) as HR. unfold rt_ok in HR. rewrite EI in HR. repeat rewrite andb_true_iff in HR.
      assert (HK : forallb (item_ok d) its = true) by tauto. rewrite forallb_forall in HK. specialize (HK _ Hi). cbn [item_ok] in HK.
      apply andb_true_iff in HK. destruct HK as [K1 K2]. apply String.eqb_eq in K1. split; [exact K1|].
      destruct (find_field d f) as [fd|]; [|discriminate]. exists fd. split; [reflexivity|].
      repeat rewrite andb_true_iff in K2. destruct K2 as [[[_ K2] _] _]. destruct tm; exact K2. }
    cbn [all_nodup] in HND. apply andb_true_iff in HND. destruct HND as [HND1 HND2]. apply nodupb_spec in HND1.
    pose proof HT as HT0. apply has_type_struct in HT. destruct HT as (d' & Hd' & HT). assert (d' = d) by congruence. subst d'.
    rewrite sent_obj. apply andb_true_iff. split.
    + apply forallb_forall. intros [k x] Hk. apply sorted_in in Hk. cbn [fst snd].
      assert (exists k0 j0, In (k0, j0) ms /\ k = sanitize k0 /\ to_any (jsan j0) = Some x) as (k0 & j0 & J1 & J2 & J3).
      { clear -HX Hk. induction HX as [|[k0 j0] [k1 x1] ms xs [E1 E2] _ IHE]; [destruct Hk|]. cbn [fst snd] in *. destruct Hk as [Hk|Hk].
        - injection Hk as -> ->. exists k0, j0. split; [left; reflexivity|auto].
        - destruct (IHE Hk) as (k' & j' & J1 & J2). exists k', j'. split; [right; exact J1|exact J2]. }
      destruct (items_run_in _ _ _ _ ER k0 j0 J1) as (f & tm & c & v & r & I1 & I2 & I3 & I4).
      destruct (SAN _ _ _ _ I1) as [S1 (fd & Ef & S2)]. rewrite S1 in J2. subst k0.
      rewrite jenv_lookup in I2. destruct (lookup f fs) as [w|] eqn:EF; [|discriminate]. rewrite Ef in I2.
      assert (w = v) by congruence. subst w. assert (r = jt (f_ty fd) v) by congruence. subst r.
      pose proof Ef as Ef'. unfold find_field in Ef'. destruct (typed_lookup fs (d_fields d) f fd HT Ef') as (v1 & L1 & L2 & L3).
      assert (v1 = v) by congruence. subst v1.
      assert (WV : wire_times v) by (apply (wire_incl (VStruct fs)); [apply (times_in_struct fs f v L3)|exact HW']).
      rewrite forallb_forall in E1. pose proof (E1 _ I1) as EE. cbn beta iota in EE. rewrite Ef in EE. apply orb_true_iff in EE.
      destruct EE as [EE|EE].
      { apply andb_true_iff in EE. destruct EE as [EE1 EE2]. destruct (find_schema props k) as [s|] eqn:EFS.
        - apply find_schema_in in EFS. assert (has_key k props = true) by (apply has_key_In, in_map_iff; exists (k, s); auto). rewrite H in EE2. discriminate.
        - exact EE1. }
      apply existsb_exists in EE. destruct EE as ([k1 s] & P1 & P2). cbn [fst snd] in P2. repeat rewrite andb_true_iff in P2.
      destruct P2 as [[P2 P3] P4]. apply String.eqb_eq in P2. subst k1. rewrite (find_schema_unique props k s HND1 P1).
      rewrite forallb_forall in HND2. specialize (HND2 _ P1). cbn [snd] in HND2.
      rewrite Forall_forall in IH. specialize (IH _ P1). cbn [snd] in IH.
      destruct tm.
      * destruct (emitted_time s (f_ty fd) v j0 x P3 S2 I4 L2 WV J3) as [R1 R2]. destruct x; try exact R1. congruence.
      * cbn [orb] in P4. apply andb_true_iff in P4. destruct P4 as [_ P4].
        destruct (match v with VNil => true | _ => false end) eqn:EN.
        -- destruct v; try discriminate. assert (x = ANull) as ->.
           { destruct (f_ty fd); try discriminate; cbn [jt] in I4; assert (j0 = JNull) as -> by congruence; cbn in J3; congruence. }
           assert (NN : nil_never its f = false).
           { destruct (nil_never its f) eqn:EV; [|reflexivity]. exfalso. unfold nil_never in EV. apply existsb_exists in EV.
             destruct EV as ([g msg|] & V1 & V2); [|discriminate]. apply String.eqb_eq in V2. subst g.
             pose proof (items_run_req _ _ _ _ ER f msg VNil (jt (f_ty fd) VNil) V1) as X. rewrite jenv_lookup, EF, Ef in X. specialize (X eq_refl). discriminate. }
           assert (NC : match c with CAlways => false | _ => true end = false) by (destruct c; [reflexivity|discriminate|discriminate]).
           destruct (f_ty fd); try discriminate; rewrite NN, NC, !orb_false_r in P4; exact P4.
        -- assert (v <> VNil) by (intros ->; discriminate).
           pose proof (IH (f_ty fd) v j0 x P3 HND2 S2 L2 WV I4 H J3) as R. destruct x; try exact R. exfalso. apply H. eapply jt_null; eauto.
    + apply forallb_forall. intros k Hk. apply has_key_In. apply sorted_key.
      rewrite forallb_forall in E2. specialize (E2 k Hk). apply strmem_In in E2. unfold sure_keys in E2. apply in_flat_map in E2.
      destruct E2 as (it & I1 & I2). destruct it as [|k0 f tm c]; [destruct I2|]. destruct c; [|destruct I2|destruct I2]. destruct I2 as [->|[]].
      destruct (SAN _ _ _ _ I1) as [S1 (fd & Ef & _)]. unfold find_field in Ef.
      destruct (typed_lookup fs (d_fields d) f fd HT Ef) as (v1 & L1 & L2 & L3).
      assert (Hm : In k (map fst ms)).
      { eapply (items_run_key _ _ _ _ ER k f tm CAlways v1); [exact I1| |reflexivity]. rewrite jenv_lookup, L1. reflexivity. }
      clear -HX Hm S1. induction HX as [|[k0 j0] [k1 x1] ms xs [E1 E2] _ IHE]; [destruct Hm|]. cbn [map fst] in *.
      destruct Hm as [->|Hm]; [left; congruence|right; auto].
Qed.

Theorem sent_shape ty s v text a : In ty msg_types -> schema_of ty = Some s -> has_type v (TStruct ty) = true -> wire_times v ->
  marshal_msg ty v = Ok text -> unmarshal_any text = Some a -> sent_as s a = true.
Proof.
  intros HI HS HT HW HM HA. pose proof all_emits as HE. rewrite forallb_forall in HE. specialize (HE ty HI). rewrite HS in HE.
  apply andb_true_iff in HE. destruct HE as [HE HN].
  destruct (marshal_msg_tree ty v text HT HM) as (j & HJ & -> & HWf). unfold unmarshal_any in HA. rewrite (parse_print j HWf) in HA.
  eapply (emits_sound s (TStruct ty) v j a); eauto. intros ->. discriminate.
Qed.
