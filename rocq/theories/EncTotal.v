(** When encoding succeeds, fails or panics. *)
From Verif Require Import GoBase Utf8 Json JsonProofs Float64 Float64Proofs GoTime
  Lang Types Codec EncProofs AnyProofs DecProofs SpecCodec RoundTrip SpecEnc Registry FrameProofs.
Open Scope string_scope.
Open Scope list_scope.

Definition is_panic {A} (r : res A) : bool := match r with Panic => true | _ => false end.

Definition item_good {A} (mt : gval -> res A) (env : list (string * (gval * res A))) (it : item) : bool :=
  match it with
  | ItReq f _ => match lookup f env with Some (v, _) => negb (is_nil v) | None => false end
  | ItField _ f tm c =>
    match lookup f env with
    | Some (v, r) => skipped c v || is_ok (if tm then mt v else r)
    | None => false
    end
  end.

Lemma items_run_ok {A} mt (env : list (string * (gval * res A))) its :
  is_ok (items_run mt env its) = forallb (item_good mt env) its.
Proof.
  induction its as [|[f m|k f tm c] its IH]; [reflexivity| |]; cbn [items_run forallb item_good].
  - destruct (lookup f env) as [[v r]|]; [|reflexivity]. destruct (is_nil v); [reflexivity|exact IH].
  - destruct (lookup f env) as [[v r]|]; [|reflexivity]. destruct (skipped c v); [exact IH|]. cbn [orb].
    rewrite <- IH. destruct (if tm then mt v else r); cbn [rbind is_ok]; [|reflexivity|reflexivity].
    destruct (items_run mt env its); reflexivity.
Qed.

Lemma items_run_panic {A} mt (env : list (string * (gval * res A))) its : items_run mt env its = Panic ->
  exists k f tm c v r, In (ItField k f tm c) its /\ lookup f env = Some (v, r) /\ skipped c v = false /\ (if tm then mt v else r) = Panic.
Proof.
  induction its as [|[f m|k f tm c] its IH]; [discriminate| |]; cbn [items_run]; intros H.
  - destruct (lookup f env) as [[v r]|]; [|discriminate]. destruct (is_nil v); [discriminate|].
    destruct (IH H) as (k' & f' & tm' & c' & v' & r' & H1 & H2). exists k', f', tm', c', v', r'. split; [right; exact H1|exact H2].
  - destruct (lookup f env) as [[v r]|] eqn:EL; [|discriminate]. destruct (skipped c v) eqn:ES.
    { destruct (IH H) as (k' & f' & tm' & c' & v' & r' & H1 & H2). exists k', f', tm', c', v', r'. split; [right; exact H1|exact H2]. }
    destruct (if tm then mt v else r) as [x| |] eqn:EX; cbn [rbind] in H; [|discriminate|].
    + destruct (items_run mt env its) as [l| |]; cbn [rbind] in H; [discriminate|discriminate|].
      destruct (IH eq_refl) as (k' & f' & tm' & c' & v' & r' & H1 & H2). exists k', f', tm', c', v', r'. split; [right; exact H1|exact H2].
    + exists k, f, tm, c, v, r. split; [left; reflexivity|]. auto.
Qed.

(** Static check of one type against the specification tables. *)
Definition req_fields (its : list item) : list string :=
  flat_map (fun it => match it with ItReq f _ => [f] | _ => [] end) its.
Definition tot_item (d : decl) (it : item) : bool :=
  match it with
  | ItReq f _ => strmem f (required_objects (d_name d)) && match find_field d f with Some fd => negb (time_ty (f_ty fd)) | None => false end
  | ItField _ f tm c =>
    match find_field d f with
    | None => false
    | Some fd =>
      if tm then match f_ty fd, c with
                 | TTime, CAlways => true
                 | TPtr TTime, CNotNil => true
                 | TPtr TTime, CAlways => String.eqb (d_name d) "csreq.IdTagInfo" && String.eqb f "ExpiryDate"
                 | _, _ => false
                 end
      else negb (time_ty (f_ty fd)) && cond_ok c (f_ty fd)
    end
  end.
Definition tot_ok (d : decl) : bool :=
  match items_of d with
  | None => false
  | Some its => forallb (tot_item d) its && forallb (fun f => strmem f (req_fields its)) (required_objects (d_name d)) &&
    forallb (fun f => negb (is_ty_struct (f_ty f)) && match f_ty f with TSlice TTime => false | t => okty t || time_ty t end) (d_fields d) &&
    (negb (String.eqb (d_name d) "csreq.IdTagInfo") ||
       existsb (fun it => match it with ItField _ f true CAlways => String.eqb f "ExpiryDate" | _ => false end) its)
  end.
Lemma all_tot_ok : forallb tot_ok all_decls = true.
Proof. vm_compute. reflexivity. Qed.

Definition enc_spec (t : gty) (v : gval) : bool := finite_floats v && objects_present t v && expiry_present t v.

Definition local_ok (n : string) (fs : list (string * gval)) : bool :=
  forallb (set_in fs) (required_objects n) && (if String.eqb n "csreq.IdTagInfo" then set_in fs "ExpiryDate" else true).

Lemma forallb_andb {A} (p q : A -> bool) l : forallb (fun x => p x && q x) l = forallb p l && forallb q l.
Proof. induction l as [|x l IH]; [reflexivity|]. cbn [forallb]. rewrite IH. destruct (p x), (q x), (forallb p l), (forallb q l); reflexivity. Qed.

Lemma forallb_ext_in {A} (p q : A -> bool) l : (forall x, In x l -> p x = q x) -> forallb p l = forallb q l.
Proof. induction l as [|x l IH]; [reflexivity|]. intros H. cbn [forallb]. rewrite (H x (or_introl eq_refl)), IH; [reflexivity|]. intros y Hy. apply H. right. exact Hy. Qed.

Lemma field_of_member d fs k x : In d all_decls ->
  Forall2 (fun kv f => fst kv = f_name f /\ has_type (snd kv) (f_ty f) = true) fs (d_fields d) ->
  In (k, x) fs -> exists f, find_field d k = Some f /\ has_type x (f_ty f) = true /\ lookup k fs = Some x.
Proof.
  intros HI HT Hx. pose proof (rt_ok_in d HI) as HR. unfold find_field.
  unfold rt_ok in HR. destruct (items_of d); [|discriminate].
  repeat rewrite andb_true_iff in HR. assert (HND : nodupb (map f_name (d_fields d)) = true) by tauto.
  apply nodupb_spec in HND. clear -HT Hx HND. induction HT as [|[k' x'] f fs ds [E1 E2] HT' IHt]; [destruct Hx|].
  cbn [map find lookup fst snd] in *. inversion HND as [|? ? N1 N2]; subst.
  destruct Hx as [E|Hx].
  - injection E as E ->. subst k. rewrite !String.eqb_refl. eauto.
  - destruct (IHt Hx N2) as (g & G1 & G2 & G3). destruct (String.eqb_spec (f_name f) k) as [E|E].
    + exfalso. apply N1. rewrite E. apply find_some in G1. destruct G1 as [G1 G4]. apply String.eqb_eq in G4.
      rewrite <- G4. apply in_map. exact G1.
    + exists g. split; [exact G1|]. split; [exact G2|]. destruct (String.eqb_spec k (f_name f)); [congruence|exact G3].
Qed.

Lemma enc_spec_struct n d fs : find_decl n = Some d ->
  Forall2 (fun kv f => fst kv = f_name f /\ has_type (snd kv) (f_ty f) = true) fs (d_fields d) ->
  enc_spec (TStruct n) (VStruct fs) = local_ok n fs &&
    forallb (fun kv => match find_field d (fst kv) with Some f => enc_spec (f_ty f) (snd kv) | None => true end) fs.
Proof.
  intros Hd HT. destruct (find_decl_in n d Hd) as [HI _].
  unfold enc_spec, objects_present, expiry_present, local_ok. cbn [finite_floats all_structs]. rewrite Hd.
  set (A := forallb (set_in fs) (required_objects n)).
  set (B := if String.eqb n "csreq.IdTagInfo" then set_in fs "ExpiryDate" else true).
  match goal with |- _ && (_ && ?p) && (_ && ?q) = _ => set (P := p); set (Q := q) end.
  assert (forallb (fun kv => match find_field d (fst kv) with
     | Some f => finite_floats (snd kv) && all_structs (fun n fs => forallb (set_in fs) (required_objects n)) (f_ty f) (snd kv) &&
                 all_structs (fun n fs => if String.eqb n "csreq.IdTagInfo" then set_in fs "ExpiryDate" else true) (f_ty f) (snd kv)
     | None => true end) fs = forallb (fun kv => finite_floats (snd kv)) fs && P && Q) as ->.
  { unfold P, Q. rewrite <- !forallb_andb. apply forallb_ext_in. intros [k x] Hx. cbn [fst snd].
    destruct (field_of_member d fs k x HI HT Hx) as (f & Ef & _). rewrite Ef. reflexivity. }
  destruct A, B, P, Q, (forallb (fun kv => finite_floats (snd kv)) fs); reflexivity.
Qed.

Lemma skipped_spec c t v : cond_ok c t = true -> has_type v t = true -> skipped c v = true -> enc_spec t v = true.
Proof.
  intros HC HT HS. destruct c; cbn [skipped] in HS; [discriminate| |].
  - destruct v; try discriminate. destruct t; reflexivity.
  - destruct t; try discriminate; destruct v; try discriminate; cbn [is_empty] in HS; try reflexivity.
Qed.

Definition tot_val (v : gval) : Prop := forall t, has_type v t = true -> okty t = true ->
  is_ok (jt t v) = enc_spec t v.

Lemma time_total v t : has_type v t = true -> time_ty t = true -> enc_spec t v = true.
Proof. destruct t as [| | | | |[]| | ]; try discriminate; destruct v; try discriminate; intros HT _; try reflexivity.
  cbn [has_type] in HT. destruct v; try discriminate. reflexivity. Qed.

Lemma field_okty d f fd : In d all_decls -> find_field d f = Some fd -> time_ty (f_ty fd) = false -> okty (f_ty fd) = true.
Proof.
  intros HI Hf HT. pose proof all_tot_ok as HA. rewrite forallb_forall in HA. specialize (HA d HI). unfold tot_ok in HA.
  destruct (items_of d); [|discriminate]. repeat rewrite andb_true_iff in HA. destruct HA as [[[_ _] HA] _].
  rewrite forallb_forall in HA. unfold find_field in Hf. apply find_some in Hf. destruct Hf as [Hf _]. specialize (HA fd Hf).
  destruct (f_ty fd) as [| | | | |[]|[]| ]; try reflexivity; try discriminate; cbn in HA |- *; try exact HA; rewrite ?orb_false_r in HA; exact HA.
Qed.

Theorem enc_total v : tot_val v.
Proof.
  induction v as [s|z|x|b|x| |v IH|l IH|fs IH] using gval_ind'; intros t HT HO;
    destruct t as [|bits| | | |t|t|n]; try discriminate; cbn [jt]; try reflexivity.
  - (* float *) cbn [has_type] in HT. destruct (finite x) eqn:EF.
    + destruct (fmt_parse x HT EF) as (s & Es & _). rewrite Es. unfold enc_spec. cbn. rewrite EF. reflexivity.
    + unfold enc_spec. cbn. rewrite EF. destruct x; try discriminate; reflexivity.
  - cbn [has_type] in HT. assert (okty t = true).
    { cbn [okty] in HO. destruct t; try discriminate; try exact HO. }
    rewrite (IH t HT H). reflexivity.
  - cbn [has_type okty] in *. unfold enc_spec, objects_present, expiry_present. cbn [finite_floats all_structs].
    assert (E : forallb (fun x => is_ok (jt t x)) l = forallb finite_floats l &&
       forallb (all_structs (fun n fs => forallb (set_in fs) (required_objects n)) t) l &&
       forallb (all_structs (fun n fs => if String.eqb n "csreq.IdTagInfo" then set_in fs "ExpiryDate" else true) t) l).
    { rewrite <- !forallb_andb. apply forallb_ext_in. intros x Hx. rewrite Forall_forall in IH. rewrite forallb_forall in HT.
      rewrite (IH x Hx t (HT x Hx) HO). reflexivity. }
    rewrite <- E. clear E IH. induction l as [|x l IH]; [reflexivity|]. cbn [rmap forallb].
    cbn [forallb] in HT. apply andb_true_iff in HT. destruct HT as [_ HT]. specialize (IH HT).
    destruct (jt t x); cbn [rbind is_ok]; [|reflexivity|reflexivity]. rewrite <- IH.
    match goal with |- context [rmap ?f l] => destruct (rmap f l) end; reflexivity.
  - apply has_type_struct in HT. destruct HT as (d & Hd & HT). rewrite Hd. destruct (find_decl_in n d Hd) as [HI HN].
    rewrite (enc_spec_struct n d fs Hd HT). fold (jenv d fs).
    pose proof all_tot_ok as HA. rewrite forallb_forall in HA. specialize (HA d HI). unfold tot_ok in HA.
    pose proof (rt_ok_in d HI) as HR. unfold rt_ok in HR. unfold struct_tree.
    destruct (items_of d) as [its|]; [|discriminate].
    assert (is_ok (rbind (items_run time_tree (jenv d fs) its) (fun ms => Ok (if customised d then jsan (JObj ms) else JObj ms)))
       = is_ok (items_run time_tree (jenv d fs) its)) as -> by (destruct (items_run _ _ _); reflexivity).
    rewrite items_run_ok. repeat rewrite andb_true_iff in HA. destruct HA as [[[HA1 HA2] HA3] HA4].
    repeat rewrite andb_true_iff in HR.
    assert (HR1 : forallb (fun f => strmem (f_name f) (item_fields its)) (d_fields d) = true) by tauto. clear HR.
    apply eq_true_iff_eq. rewrite andb_true_iff, !forallb_forall. split.
    + intros HG. split.
      * unfold local_ok. apply andb_true_iff. split.
        -- apply forallb_forall. intros f Hf. rewrite <- HN in Hf. rewrite forallb_forall in HA2. specialize (HA2 f Hf).
           apply strmem_In in HA2. unfold req_fields in HA2. apply in_flat_map in HA2. destruct HA2 as (it & Hi & Hf').
           destruct it as [g m|]; [|destruct Hf']. destruct Hf' as [->|[]]. specialize (HG _ Hi). cbn [item_good] in HG.
           rewrite jenv_lookup in HG. unfold set_in. destruct (lookup f fs) as [v|]; [|reflexivity]. destruct v; try reflexivity. discriminate.
        -- destruct (String.eqb_spec n "csreq.IdTagInfo") as [E|E]; [|reflexivity].
           assert (String.eqb (d_name d) "csreq.IdTagInfo" = true) as HE by (rewrite HN, E; reflexivity). rewrite HE in HA4.
           cbn [negb orb] in HA4. apply existsb_exists in HA4. destruct HA4 as (it & Hi & HA4).
           destruct it as [|k f [] []]; try discriminate. apply String.eqb_eq in HA4. subst f.
           specialize (HG _ Hi). cbn [item_good skipped orb] in HG. rewrite jenv_lookup in HG. unfold set_in.
           destruct (lookup "ExpiryDate" fs) as [v|]; [|reflexivity]. destruct v; try reflexivity. discriminate.
      * intros [k x] Hx. cbn [fst snd]. destruct (field_of_member d fs k x HI HT Hx) as (f & Ef & Tf & Lf). rewrite Ef.
        destruct (time_ty (f_ty f)) eqn:ET; [apply (time_total _ _ Tf ET)|].
        pose proof Ef as Ef'. unfold find_field in Ef'. apply find_some in Ef'. destruct Ef' as [Ef1 Ef2].
        apply String.eqb_eq in Ef2. rewrite forallb_forall in HR1. specialize (HR1 f Ef1). rewrite Ef2 in HR1.
        apply strmem_In in HR1. unfold item_fields in HR1. apply in_flat_map in HR1. destruct HR1 as (it & Hi & Hf').
        destruct it as [|kk g tm c]; [destruct Hf'|]. destruct Hf' as [->|[]].
        rewrite forallb_forall in HA1. specialize (HA1 _ Hi). specialize (HG _ Hi). cbn [tot_item item_good] in HA1, HG.
        rewrite Ef in HA1. rewrite jenv_lookup, Lf, Ef in HG.
        destruct tm. { destruct (f_ty f) as [| | | | |[]| | ]; try discriminate; destruct c; discriminate. }
        apply andb_true_iff in HA1. destruct HA1 as [_ HC]. apply orb_true_iff in HG. destruct HG as [HG|HG].
        -- eapply skipped_spec; eassumption.
        -- rewrite Forall_forall in IH. specialize (IH _ Hx). cbn [snd] in IH. rewrite <- (IH (f_ty f) Tf); [exact HG|].
           eapply field_okty; eassumption.
    + intros [HL HF] it Hi. rewrite forallb_forall in HA1. specialize (HA1 _ Hi). unfold local_ok in HL.
      apply andb_true_iff in HL. destruct HL as [HL1 HL2].
      destruct it as [f m|k f tm c]; cbn [tot_item item_good] in *.
      * apply andb_true_iff in HA1. destruct HA1 as [HA1 HA5]. destruct (find_field d f) as [fd|] eqn:Ef; [|discriminate].
        unfold find_field in Ef. destruct (typed_lookup fs (d_fields d) f fd HT Ef) as (v & Lv & Tv & Iv).
        rewrite jenv_lookup, Lv. apply strmem_In in HA1. rewrite HN in HA1. rewrite forallb_forall in HL1. specialize (HL1 _ HA1).
        unfold set_in in HL1. rewrite Lv in HL1. destruct v; try reflexivity. discriminate.
      * destruct (find_field d f) as [fd|] eqn:Ef; [|discriminate].
        pose proof Ef as Ef'. unfold find_field in Ef'. destruct (typed_lookup fs (d_fields d) f fd HT Ef') as (v & Lv & Tv & Iv).
        rewrite jenv_lookup, Lv, Ef. destruct tm.
        -- destruct (f_ty fd) as [| | | | |[]| | ] eqn:ET; try discriminate.
           ++ destruct v; try discriminate. cbn [time_tree is_ok]. apply orb_true_r.
           ++ destruct v as [| | | | | |v| | ]; try discriminate.
              ** destruct c; try discriminate; [|reflexivity]. cbn [skipped orb].
                 apply andb_true_iff in HA1. destruct HA1 as [X1 X2]. rewrite HN in X1. rewrite X1 in HL2. apply String.eqb_eq in X2. subst f.
                 unfold set_in in HL2. rewrite Lv in HL2. discriminate.
              ** cbn [has_type] in Tv. destruct v; try discriminate. cbn [time_tree is_ok]. apply orb_true_r.
        -- apply andb_true_iff in HA1. destruct HA1 as [HA1 HC]. apply orb_true_iff. right.
           rewrite Forall_forall in IH. specialize (IH _ Iv). cbn [snd] in IH. rewrite (IH (f_ty fd) Tv).
           ++ specialize (HF _ Iv). cbn [fst snd] in HF. rewrite Ef in HF. exact HF.
           ++ eapply field_okty; [exact HI|exact Ef|]. destruct (time_ty (f_ty fd)); [discriminate|reflexivity].
Qed.

Theorem enc_panic v : forall t, has_type v t = true -> okty t = true -> jt t v = Panic -> expiry_present t v = false.
Proof.
  induction v as [s|z|x|b|x| |v IH|l IH|fs IH] using gval_ind'; intros t HT HO HP;
    destruct t as [|bits| | | |t|t|n]; try discriminate; cbn [jt] in HP; try discriminate.
  - destruct (fmt_float x); discriminate.
  - cbn [has_type] in HT. assert (okty t = true). { cbn [okty] in HO. destruct t; try discriminate; try exact HO. }
    unfold expiry_present. cbn [all_structs]. apply IH; assumption.
  - cbn [has_type okty] in *. unfold expiry_present. cbn [all_structs].
    assert (exists x, In x l /\ jt t x = Panic) as (x & Hx & Px).
    { clear -HP. induction l as [|x l IH]; [discriminate|]. cbn [rmap rbind] in HP.
      destruct (jt t x) as [y| |] eqn:E; cbn [rbind] in HP; [|discriminate|exists x; split; [left; reflexivity|exact E]].
      destruct IH as (x' & Hx & Px); [|exists x'; split; [right; exact Hx|exact Px]].
      match goal with |- context [rmap ?f l] => destruct (rmap f l) end; cbn [rbind] in *; congruence. }
    rewrite Forall_forall in IH. rewrite forallb_forall in HT. pose proof (IH x Hx t (HT x Hx) HO Px) as H.
    apply Bool.not_true_iff_false. rewrite forallb_forall. intros HH. specialize (HH x Hx). unfold expiry_present in H. congruence.
  - apply has_type_struct in HT. destruct HT as (d & Hd & HT). rewrite Hd in HP. destruct (find_decl_in n d Hd) as [HI HN].
    fold (jenv d fs) in HP.
    pose proof all_tot_ok as HA. rewrite forallb_forall in HA. specialize (HA d HI). unfold tot_ok in HA. unfold struct_tree in HP.
    destruct (items_of d) as [its|]; [|discriminate].
    repeat rewrite andb_true_iff in HA. destruct HA as [[[HA1 HA2] HA3] HA4].
    destruct (items_run time_tree (jenv d fs) its) eqn:ER; [discriminate|discriminate|].
    apply items_run_panic in ER. destruct ER as (k & f & tm & c & v & r & Hi & HL & HS & HE).
    rewrite forallb_forall in HA1. specialize (HA1 _ Hi). cbn [tot_item] in HA1.
    destruct (find_field d f) as [fd|] eqn:Ef; [|discriminate].
    rewrite jenv_lookup, Ef in HL. pose proof Ef as Ef'. unfold find_field in Ef'.
    destruct (typed_lookup fs (d_fields d) f fd HT Ef') as (w & Lw & Tw & Iw). rewrite Lw in HL. injection HL as -> <-.
    unfold expiry_present. cbn [all_structs]. rewrite Hd. destruct tm.
    + destruct (f_ty fd) as [| | | | |[]| | ] eqn:ET; try discriminate.
      { destruct v; discriminate. }
      destruct v as [| | | | | |v| | ]; try discriminate.
      2: { cbn [has_type] in Tw. destruct v; discriminate. }
      destruct c; try discriminate. apply andb_true_iff in HA1. destruct HA1 as [X1 X2]. rewrite HN in X1. rewrite X1.
      apply String.eqb_eq in X2. subst f. unfold set_in. rewrite Lw. reflexivity.
    + apply andb_true_iff in HA1. destruct HA1 as [HA1 HC].
      rewrite Forall_forall in IH. specialize (IH _ Iw). cbn [snd] in IH.
      assert (X : expiry_present (f_ty fd) v = false).
      { apply IH; [exact Tw| |exact HE]. eapply field_okty; [exact HI|exact Ef|]. destruct (time_ty (f_ty fd)); [discriminate|reflexivity]. }
      apply Bool.not_true_iff_false. rewrite andb_true_iff, forallb_forall. intros [_ HH]. specialize (HH _ Iw). cbn [fst snd] in HH.
      rewrite Ef in HH. unfold expiry_present in X. congruence.
Qed.

(** The same for json.Marshal of a message. *)
Lemma marshal_is_jt n v : has_type v (TStruct n) = true ->
  match marshal_msg n v with
  | Ok _ => is_ok (jt (TStruct n) v) = true
  | Err e => jt (TStruct n) v = Err e
  | Panic => jt (TStruct n) v = Panic
  end.
Proof.
  intros HT. unfold marshal_msg. cbn [enc].
  pose proof (enc_jt v (has_type_fcanon v _ HT) (TStruct n)) as HR.
  destruct (enc (TStruct n) v), (jt (TStruct n) v); cbn [rrel] in HR; try contradiction; try reflexivity. congruence.
Qed.

Theorem marshal_total n v : has_type v (TStruct n) = true ->
  ((exists s, marshal_msg n v = Ok s) <->
   finite_floats v = true /\ objects_present (TStruct n) v = true /\ expiry_present (TStruct n) v = true) /\
  (marshal_msg n v = Panic -> expiry_present (TStruct n) v = false) /\
  (expiry_present (TStruct n) v = true -> marshal_msg n v <> Panic).
Proof.
  intros HT. pose proof (marshal_is_jt n v HT) as HM. pose proof (enc_total v (TStruct n) HT eq_refl) as HE.
  unfold enc_spec in HE. split; [|split].
  - assert (X : is_ok (jt (TStruct n) v) = true <-> finite_floats v = true /\ objects_present (TStruct n) v = true /\ expiry_present (TStruct n) v = true).
    { rewrite HE, !andb_true_iff. tauto. }
    rewrite <- X. split.
    + intros [s Hs]. rewrite Hs in HM. exact HM.
    + intros H. destruct (marshal_msg n v); [eauto| |]; rewrite HM in H; discriminate.
  - intros HP. rewrite HP in HM. apply (enc_panic v (TStruct n) HT eq_refl HM).
  - intros H HP. rewrite HP in HM. rewrite (enc_panic v (TStruct n) HT eq_refl HM) in H. discriminate.
Qed.
