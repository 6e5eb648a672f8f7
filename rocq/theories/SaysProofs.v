(** What the encoders write, against SpecSays.v. *)
From Coq Require Import QArith Qabs Qpower Sorting.Permutation.
From Verif Require Import GoBase Utf8 Json JsonProofs JsonText Float64 Float64Proofs GoTime GoTimeProofs
  Lang Types Codec EncProofs Any AnyProofs DecProofs SpecCodec RoundTrip SpecEnc SpecSchema SchemaEmit
  SpecTime SpecNumber NearProofs NumberProofs ShortText ReadsProofs SpecSays FrameProofs.
From Verif Require PropsTime.
Open Scope string_scope.
Open Scope list_scope.
Local Open Scope Z_scope.

Lemma dec_int_denotes z : denotes (dec_int z) (z <? 0) (Z.abs z) 0.
Proof.
  unfold dec_int. exists (Float64.dec (Z.abs z)), "", "", "", 0. split.
  - rewrite !sapp_nil_r. destruct (z <? 0) eqn:E; [replace (Z.abs z) with (- z) by lia|replace (Z.abs z) with z by lia]; reflexivity.
  - split; [apply dec_int_part; lia|]. split; [constructor|]. split; [constructor|]. rewrite sapp_nil_r, dec_val by lia. split; reflexivity.
Qed.
Lemma nearest_integer z x : parse_float (dec_int z) = Some x -> exists m e, x = FFin (z <? 0) m e /\ nearest (inject_Z (Z.abs z)) m e.
Proof.
  intros H. pose proof (parse_taken _ _ _ _ (dec_int_denotes z)) as P. rewrite H in P. destruct P as (m & e & -> & P & _). exists m, e. split; [reflexivity|].
  eapply nearest_eq; [|exact P]. unfold decimal. cbn [Qpower]. apply Qmult_1_r.
Qed.

Lemma writable_wire x : writable x -> time_wire x = true.
Proof.
  intros (R & Y & O & A). apply PropsTime.C70_calendar in R. apply Z.mod_divide in O; [|lia].
  unfold time_wire. rewrite R, O. cbn [andb]. rewrite !andb_true_iff. repeat split; try reflexivity; lia.
Qed.

Lemma said_time t v j a : time_ty t = true -> has_type v t = true -> time_tree v = Ok j -> to_any (jsan j) = Some a -> says t v a.
Proof.
  intros HT HV HJ HA.
  assert (K : forall x, a = AStr (sanitize (format_rfc3339 x)) -> says TTime (VTime x) a).
  { intros x ->. apply sy_time. intros W. rewrite (format_sanitize x (writable_wire x W)).
    destruct W as (R & Y & O & A). exact (proj1 (PropsTime.C70_written x R Y O A)). }
  destruct t as [| | | | |t| | ]; try discriminate HT.
  - destruct v as [| | | |x| |v| | ]; try discriminate HV. cbn [time_tree] in HJ.
    assert (j = JStr (format_rfc3339 x)) as -> by congruence. cbn [jsan to_any] in HA. apply K. congruence.
  - destruct t; try discriminate HT. destruct v as [| | | |x| |v| | ]; try discriminate HV; [discriminate HJ|].
    destruct v as [| | | |x| | | | ]; try discriminate HV. cbn [time_tree] in HJ. apply sy_ptr.
    assert (j = JStr (format_rfc3339 x)) as -> by congruence. cbn [jsan to_any] in HA. apply K. congruence.
Qed.

Lemma lookup_nodup {A} k (l : list (string * A)) a : NoDup (map fst l) -> In (k, a) l -> lookup k l = Some a.
Proof.
  induction l as [|[k' a'] l IH]; intros HN HI; [destruct HI|]. cbn [map fst lookup] in *. inversion HN as [|? ? N1 N2]; subst.
  destruct HI as [E|HI]; [injection E as -> ->; rewrite String.eqb_refl; reflexivity|].
  destruct (String.eqb_spec k k') as [->|]; [|auto]. exfalso. apply N1, in_map_iff. exists (k', a). auto.
Qed.

Theorem jt_says v : forall t j a, okty t = true -> has_type v t = true -> jt t v = Ok j -> to_any (jsan j) = Some a -> says t v a.
Proof.
  induction v as [s|z|x|b|x| |v IH|l IH|fs IH] using gval_ind'; intros t j a HO HT HJ HA;
    destruct t as [|bits| | | |t|t|n]; try discriminate HT; try discriminate HO; cbn [jt] in HJ.
  - assert (j = JStr s) as -> by congruence. cbn [jsan to_any] in HA. assert (a = AStr (sanitize s)) as -> by congruence. constructor.
  - assert (j = JNum (dec_int z)) as -> by congruence. cbn [jsan to_any] in HA. unfold omap in HA.
    destruct (parse_float (dec_int z)) as [x|] eqn:EP; [|discriminate HA]. assert (a = ANum x) as -> by congruence.
    destruct (nearest_integer z x EP) as (m & e & -> & P). constructor. exact P.
  - destruct (fmt_float x) as [s|] eqn:EF; [|discriminate HJ]. assert (j = JNum s) as -> by congruence. cbn [jsan to_any] in HA. unfold omap in HA.
    cbn [has_type] in HT. rewrite (proj2 (nice_float x s HT EF)) in HA. assert (a = ANum x) as -> by congruence. constructor.
  - assert (j = JBool b) as -> by congruence. cbn [jsan to_any] in HA. assert (a = ABool b) as -> by congruence. constructor.
  - assert (j = JNull) as -> by congruence. cbn [jsan to_any] in HA. assert (a = ANull) as -> by congruence. constructor.
  - assert (j = JNull) as -> by congruence. cbn [jsan to_any] in HA. assert (a = ANull) as -> by congruence. constructor.
  - constructor. cbn [has_type] in HT. eapply IH; [|exact HT|exact HJ|exact HA]. cbn [okty] in HO. destruct t; try discriminate HO; exact HO.
  - destruct (rmap _ l) as [js| |] eqn:ER; try discriminate HJ. cbn [rbind] in HJ. assert (j = JArr js) as -> by congruence.
    cbn [jsan to_any] in HA. unfold omap in HA.
    match type of HA with match ?x with _ => _ end = _ => destruct x as [xs|] eqn:EO; [|discriminate HA] end. assert (a = AArr xs) as -> by congruence.
    apply rmap_forall in ER. rewrite map_map in EO. apply oall_map in EO. constructor. cbn [has_type] in HT. cbn [okty] in HO.
    clear HJ HA. revert xs EO IH HT. induction ER as [|v0 j0 l js E _ IHE]; intros xs EO IH HT.
    + inversion EO; subst. constructor.
    + inversion EO as [|? y ? ys E1 E2]; subst. inversion IH as [|? ? I1 I2]; subst. cbn [forallb] in HT. apply andb_true_iff in HT. destruct HT as [T1 T2].
      constructor; [eapply I1; eauto|apply IHE; assumption].
  - destruct (find_decl n) as [d|] eqn:Ed; [|discriminate HJ]. fold (jenv d fs) in HJ. unfold struct_tree in HJ.
    destruct (items_of d) as [its|] eqn:EI; [|discriminate HJ].
    destruct (items_run time_tree (jenv d fs) its) as [ms| |] eqn:ER; try discriminate HJ. cbn [rbind] in HJ.
    destruct (find_decl_in n d Ed) as [HI HNm].
    assert (HM : exists xs, a = AObj (kv_sort (dedup xs)) /\
      Forall2 (fun kv kx => fst kx = sanitize (fst kv) /\ to_any (jsan (snd kv)) = Some (snd kx)) ms xs).
    { assert (Ej : jsan j = jsan (JObj ms)).
      { assert (j = if customised d then jsan (JObj ms) else JObj ms) as -> by congruence. destruct (customised d); [apply jsan_idem|reflexivity]. }
      rewrite Ej in HA. cbn [jsan to_any] in HA. unfold omap at 1 in HA. rewrite map_map in HA.
      match type of HA with match ?x with _ => _ end = _ => destruct x as [xs|] eqn:EO; [|discriminate HA] end.
      exists xs. split; [congruence|]. apply oall_map in EO. clear -EO.
      induction EO as [|[k x] [k' y] ms xs E _ IHE]; [constructor|]. constructor; [|exact IHE]. cbn [fst snd] in *. unfold omap in E.
      destruct (to_any (jsan x)) as [z|]; [|discriminate E]. injection E as <- <-. auto. }
    destruct HM as (xs & -> & HX). clear HJ HA.
    pose proof all_keys_ok as HK. rewrite forallb_forall in HK. specialize (HK d HI). unfold keys_ok in HK. rewrite EI in HK.
    repeat rewrite andb_true_iff in HK. destruct HK as [[K1 K2] K3]. apply nodupb_spec in K1. rewrite forallb_forall in K2, K3.
    pose proof (names_distinct d HI) as NDn.
    assert (FF : forall fd, In fd (d_fields d) -> find_field d (f_name fd) = Some fd).
    { unfold find_field. intros f Hf. revert NDn Hf. generalize (d_fields d). intros ds. induction ds as [|g ds IHd]; intros H Hf; [destruct Hf|].
      cbn [map find] in *. inversion H as [|? ? M1 M2]; subst. destruct Hf as [->|Hf]; [rewrite String.eqb_refl; reflexivity|].
      destruct (String.eqb_spec (f_name g) (f_name f)) as [E|E]; [|auto]. exfalso. apply M1. rewrite E. apply in_map. exact Hf. }
    pose proof HT as HT0. apply has_type_struct in HT. destruct HT as (d' & Hd' & HT). assert (d' = d) by congruence. subst d'.
    destruct (items_run_nodup _ _ _ _ ER K1) as [N1 N2].
    (* an item of this list, its field and what it writes *)
    assert (IT : forall k f tm c, In (ItField k f tm c) its -> exists fd, In fd (d_fields d) /\ f_name fd = f /\ f_json fd = k /\ sanitize k = k /\
       (if tm then time_ty (f_ty fd) = true else okty (f_ty fd) = true) /\
       forall v, lookup f fs = Some v -> skipped c v = left_out n f v).
    { intros k f tm c Hi. pose proof (K3 _ Hi) as A3. cbn beta iota in A3. repeat rewrite andb_true_iff in A3. destruct A3 as [[[A1 A2] A3] A4].
      apply existsb_exists in A3. destruct A3 as (fd & F1 & F2). apply andb_true_iff in F2. destruct F2 as [F2 F3]. apply String.eqb_eq in F2, F3, A1.
      exists fd. repeat (split; [assumption|]). subst f. rewrite (FF fd F1) in A4. split.
      - pose proof (rt_ok_in d HI) as HR. unfold rt_ok in HR. rewrite EI in HR. repeat rewrite andb_true_iff in HR.
        assert (HKK : forallb (item_ok d) its = true) by tauto. rewrite forallb_forall in HKK. specialize (HKK _ Hi). cbn [item_ok] in HKK.
        apply andb_true_iff in HKK. destruct HKK as [_ KK]. rewrite (FF fd F1) in KK. repeat rewrite andb_true_iff in KK. destruct KK as [[[_ KK] _] _]. destruct tm; exact KK.
      - intros v Hv. pose proof (FF fd F1) as Ef. unfold find_field in Ef. destruct (typed_lookup fs (d_fields d) _ fd HT Ef) as (v1 & L1 & L2 & _).
        assert (v1 = v) by congruence. subst v1. rewrite HNm in A2. apply (skipped_left_out n (f_name fd) c fd v A2 L2). destruct c; [reflexivity|reflexivity|exact A4]. }
    (* members written *)
    assert (SEEN : forall k x, In (k, x) xs -> exists fd v, In fd (d_fields d) /\ f_json fd = k /\ lookup (f_name fd) fs = Some v /\
       left_out n (f_name fd) v = false /\ says (f_ty fd) v x).
    { intros k x Hk.
      assert (exists k0 j0, In (k0, j0) ms /\ k = sanitize k0 /\ to_any (jsan j0) = Some x) as (k0 & j0 & J1 & J2 & J3).
      { clear -HX Hk. induction HX as [|[k0 j0] [k1 x1] ms xs [E1 E2] _ IHE]; [destruct Hk|]. cbn [fst snd] in *. destruct Hk as [Hk|Hk].
        - injection Hk as -> ->. exists k0, j0. split; [left; reflexivity|auto].
        - destruct (IHE Hk) as (k' & j' & J1 & J2). exists k', j'. split; [right; exact J1|exact J2]. }
      destruct (items_run_in _ _ _ _ ER k0 j0 J1) as (f & tm & c & v & r & I1 & I2 & I3 & I4).
      destruct (IT _ _ _ _ I1) as (fd & F1 & F2 & F3 & F4 & F5 & F6). subst f. rewrite F4 in J2. subst k0.
      rewrite jenv_lookup in I2. destruct (lookup (f_name fd) fs) as [w|] eqn:EF; [|discriminate I2]. rewrite (FF fd F1) in I2.
      assert (w = v) by congruence. subst w. assert (r = jt (f_ty fd) v) by congruence. subst r.
      exists fd, v. split; [exact F1|]. split; [exact F3|]. split; [exact EF|]. split; [rewrite <- (F6 v eq_refl); exact I3|].
      pose proof (FF fd F1) as Ef. unfold find_field in Ef. destruct (typed_lookup fs (d_fields d) _ fd HT Ef) as (v1 & L1 & L2 & L3).
      assert (v1 = v) by congruence. subst v1. destruct tm; [exact (said_time _ v j0 x F5 L2 I4 J3)|].
      rewrite Forall_forall in IH. exact (IH _ L3 (f_ty fd) j0 x F5 L2 I4 J3). }
    (* fields left out *)
    assert (GONE : forall fd v, In fd (d_fields d) -> lookup (f_name fd) fs = Some v -> left_out n (f_name fd) v = false -> In (f_json fd) (map fst xs)).
    { intros fd v F1 F2 F3. specialize (K2 fd F1). apply existsb_exists in K2. destruct K2 as (it & I1 & I2).
      destruct it as [|k0 g tm c]; [discriminate I2|]. repeat rewrite andb_true_iff in I2. destruct I2 as [[E1 E2] E3]. apply String.eqb_eq in E1, E2. subst k0 g.
      destruct (IT _ _ _ _ I1) as (fd' & _ & _ & _ & F4 & _ & F6).
      assert (Hm : In (f_json fd) (map fst ms)).
      { eapply (items_run_key _ _ _ _ ER (f_json fd) (f_name fd) tm c v); [exact I1|rewrite jenv_lookup, F2; reflexivity|]. rewrite (F6 v F2). exact F3. }
      clear -HX Hm F4. induction HX as [|[k0 j0] [k1 x1] ms xs [E1 E2] _ IHE]; [destruct Hm|]. cbn [map fst] in *.
      destruct Hm as [Hm|Hm]; [left; congruence|right; auto]. }
    assert (ND : NoDup (map fst (kv_sort (dedup xs)))).
    { eapply Permutation_NoDup; [|apply (dedup_nodup xs)]. apply Permutation_map. symmetry. apply sort_perm. }
    apply (sy_struct n d); [exact Ed|exact ND| |].
    + intros k Hk. apply in_map_iff in Hk. destruct Hk as ([k' x] & E & Hk). cbn [fst] in E. subst k'. apply sorted_in in Hk.
      destruct (SEEN k x Hk) as (fd & v & F1 & F2 & _). rewrite <- F2. apply in_map. exact F1.
    + assert (JJ : forall fd fd', In fd (d_fields d) -> In fd' (d_fields d) -> f_json fd = f_json fd' -> f_name fd = f_name fd').
      { intros fd fd' F1 F2 E. pose proof (K2 fd F1) as A. pose proof (K2 fd' F2) as B. apply existsb_exists in A, B.
        destruct A as (i1 & A1 & A2), B as (i2 & B1 & B2). destruct i1 as [|k1 g1 t1 c1]; [discriminate A2|]. destruct i2 as [|k2 g2 t2 c2]; [discriminate B2|].
        repeat rewrite andb_true_iff in A2, B2. destruct A2 as [[A2 A3] _], B2 as [[B2 B3] _]. apply String.eqb_eq in A2, A3, B2, B3. subst g1 g2.
        assert (k1 = k2) as -> by congruence. clear -K1 A1 B1. induction its as [|it its IHi]; [destruct A1|].
        cbn [item_keys flat_map] in K1.
        assert (X : forall f1 f2 ta tb ca cb, ItField k2 f1 ta ca = it -> In (ItField k2 f2 tb cb) its -> False).
        { intros f1 f2 ta tb ca cb <- Hin. cbn [app] in K1. inversion K1 as [|? ? M1 _]; subst. apply M1. apply in_flat_map. exists (ItField k2 f2 tb cb). split; [exact Hin|left; reflexivity]. }
        destruct A1 as [A1|A1], B1 as [B1|B1].
        - congruence.
        - exfalso. exact (X _ _ _ _ _ _ (eq_sym A1) B1).
        - exfalso. exact (X _ _ _ _ _ _ (eq_sym B1) A1).
        - apply IHi; [|assumption|assumption]. destruct it; [exact K1|]. cbn [app] in K1. inversion K1; assumption. }
      assert (G : forall fd kv, In fd (d_fields d) -> In kv fs -> fst kv = f_name fd -> lookup (f_name fd) fs = Some (snd kv) ->
        (forall a, lookup (f_json fd) (kv_sort (dedup xs)) = Some a -> says (f_ty fd) (snd kv) a) /\
        (lookup (f_json fd) (kv_sort (dedup xs)) = None <-> left_out n (f_name fd) (snd kv) = true)).
      { intros fd kv F1 _ E EL. split.
        - intros x Hx. apply lookup_In in Hx. apply sorted_in in Hx. destruct (SEEN _ _ Hx) as (fd' & v & G1 & G2 & G3 & G4 & G5).
          pose proof (JJ fd' fd G1 F1 G2) as EN. pose proof (FF fd F1) as X1. pose proof (FF fd' G1) as X2. rewrite EN in X2.
          assert (fd' = fd) by congruence. subst fd'. assert (v = snd kv) by congruence. subst v. exact G5.
        - split.
          + intros HN. destruct (left_out n (f_name fd) (snd kv)) eqn:EO; [reflexivity|]. exfalso. apply lookup_None in HN. apply HN.
            apply sorted_key. exact (GONE fd _ F1 EL EO).
          + intros HL. apply lookup_None. intros Hk. apply in_map_iff in Hk. destruct Hk as ([k' x] & E' & Hk). cbn [fst] in E'. subst k'.
            apply sorted_in in Hk. destruct (SEEN _ _ Hk) as (fd' & v & G1 & G2 & G3 & G4 & G5).
            rewrite (JJ fd' fd G1 F1 G2) in G3, G4. assert (v = snd kv) by congruence. subst v. rewrite HL in G4. discriminate G4. }
      assert (LK : forall fd kv, In kv fs -> fst kv = f_name fd -> lookup (f_name fd) fs = Some (snd kv)).
      { intros fd [k w] Hk E. cbn [fst snd] in *. subst k. apply lookup_nodup; [|exact Hk]. rewrite (typed_keys _ _ HT). exact NDn. }
      clear -HT G LK. assert (S1 : incl (d_fields d) (d_fields d)) by apply incl_refl. assert (S2 : incl fs fs) by apply incl_refl.
      revert S1 S2. revert HT. generalize (d_fields d) at 1 2 4. generalize fs at 1 2 4. intros fs1 ds1 HT. 
      induction HT as [|kv fd fs1 ds1 [E _] _ IHT]; intros S1 S2; [constructor|].
      assert (In kv fs) by (apply S2; left; reflexivity). assert (In fd (d_fields d)) by (apply S1; left; reflexivity).
      constructor; [|apply IHT; eapply incl_tran; try eassumption; apply incl_tl, incl_refl].
      split; [exact E|]. exact (G fd kv H0 H E (LK fd kv H E)).
Qed.

Theorem marshal_says ty v text a : has_type v (TStruct ty) = true -> marshal_msg ty v = Ok text -> unmarshal_any text = Some a ->
  says (TStruct ty) v a.
Proof.
  intros HT HM HA. destruct (marshal_msg_tree ty v text HT HM) as (j & HJ & -> & HWf). unfold unmarshal_any in HA. rewrite (parse_print j HWf) in HA.
  eapply (jt_says v (TStruct ty) j a); eauto.
Qed.
