(** What is read agrees with the element, whatever else the element contains (C68);
    elements written are recognisable (C69). *)
From Coq Require Import Arith Lia.
From Verif Require Import GoBase Utf8 Json Float64 GoTime Lang Types Codec SpecCodec SpecEnc SpecSchema Xml SpecSoap Wsdl SpecWsdl.
From Verif Require Import Float64Proofs FloatInt AnyProofs EncProofs DecProofs RoundTrip JsonText GoTimeProofs XmlProofs XmlTyped XmlWritten Soap SoapProofs WsdlRead.
Open Scope string_scope.
Open Scope list_scope.

Definition sound (ns : string) (w : wtype) : Prop := forall parent t x v, matches parent ns w t = true ->
  is_element x = true -> space x = ns -> local x = parent -> recognisable anything ns w x ->
  xdec x t (zero t) = Some v -> agrees parent w x v.

Lemma take_kids_sound d : In d all_decls -> forall ks fs fs', Forall (fun k => is_element k = true) ks ->
  take_kids d (slots ks) fs = Some fs' ->
  forall f cur, In f (d_fields d) -> lookup (f_name f) fs = Some cur ->
  exists v, lookup (f_name f) fs' = Some v /\ feed (f_ty f) (filter (taker d f) ks) cur = Some v.
Proof.
  intros HD. induction ks as [|k ks IH]; intros fs fs' HE HT f cur Hf HL.
  - cbn in HT. injection HT as <-. exists cur. auto.
  - inversion HE as [|? ? E1 E2]; subst. destruct k as [n l at_ kk|s]; [|discriminate E1].
    set (k := XE n l at_ kk) in *. change (slots (k :: ks)) with (((n, l), xdec k) :: slots ks) in HT. cbn [take_kids] in HT.
    assert (forall g, taker d g k = match find (takes d (n, l)) (d_fields d) with Some h => String.eqb (f_name h) (f_name g) | None => false end) as TK by reflexivity.
    cbn [filter]. rewrite (TK f). destruct (find (takes d (n, l)) (d_fields d)) as [g|] eqn:EF; [|exact (IH _ _ E2 HT f cur Hf HL)].
    pose proof (find_some _ _ EF) as [HG _].
    destruct (lookup (f_name g) fs) as [c0|] eqn:EL; [|discriminate HT].
    destruct (xdec k (f_ty g) c0) as [v1|] eqn:EX; [|discriminate HT].
    destruct (String.eqb_spec (f_name g) (f_name f)) as [EQ|NE].
    + assert (g = f) as -> by (apply (nodup_inj f_name (d_fields d)); auto; apply names_nodup; exact HD).
      assert (c0 = cur) as -> by congruence. cbn [feed]. rewrite EX.
      apply (IH _ _ E2 HT f v1 Hf). rewrite set_field_lookup, String.eqb_refl, HL. reflexivity.
    + apply (IH _ _ E2 HT f cur Hf). rewrite set_field_lookup.
      assert (String.eqb (f_name f) (f_name g) = false) as -> by (apply String.eqb_neq; congruence). exact HL.
Qed.

Lemma feed_slice_sound t l : forall us0 v, Forall (fun k => is_element k = true) l -> feed (TSlice t) l (VSlice us0) = Some v ->
  exists us, v = VSlice (us0 ++ us) /\ Forall2 (fun k u => xdec k t (zero t) = Some u) l us.
Proof.
  induction l as [|k l IH]; intros us0 v HE HF.
  - cbn in HF. injection HF as <-. exists []. rewrite app_nil_r. split; [reflexivity|constructor].
  - inversion HE; subst. cbn [feed] in HF. rewrite xdec_slice in HF by (rewrite elem_root by assumption; discriminate).
    destruct (xdec k t (zero t)) as [u|] eqn:EX; [|discriminate HF]. cbn [omap] in HF.
    destruct (IH _ _ ltac:(assumption) HF) as (us & -> & U). exists (u :: us). rewrite <- app_assoc. split; [reflexivity|].
    constructor; assumption.
Qed.

Lemma forall2_impl_in {A B} (P Q : A -> B -> Prop) l l' : Forall2 P l l' -> (forall x y, In x l -> P x y -> Q x y) -> Forall2 Q l l'.
Proof.
  induction 1 as [|x y l l' H1 H2 IH]; intros H; [constructor|]. constructor; [apply H; [left; reflexivity|exact H1]|].
  apply IH. intros a b Ha. apply H. right. exact Ha.
Qed.

Lemma sound_all ns w : sound ns w.
Proof.
  induction w as [m e| | | |ps IH|attrs] using wtype_ind'; intros parent t x v HM HE HS HL HD HX;
    try (destruct (readable_all ns _ parent t x HM HE HS HL HD) as (v' & V1 & V2);
         rewrite V1 in HX; injection HX as <-; exact V2).
  cbn [matches] in HM. destruct (struct_name t) as [n|] eqn:ES; [|discriminate HM].
  destruct (find_decl n) as [d|] eqn:ED; [|discriminate HM]. pose proof (find_decl_in _ _ ED) as [HDin _].
  apply andb_true_iff in HM. destruct HM as [HM M5]. apply andb_true_iff in HM. destruct HM as [HM M6].
  apply andb_true_iff in HM. destruct HM as [HM M4].
  apply andb_true_iff in HM. destruct HM as [HM M3]. apply andb_true_iff in HM. destruct HM as [M1 M2].
  apply negb_true_iff in M2. rewrite existsb_or in M2. apply orb_false_iff in M2. destruct M2 as [MT MA].
  assert (Forall (fun p => part_ok ns parent d p = true) ps) as OK.
  { clear - M5. induction ps as [|[[[nm rq] rp] w] ps IHp]; [constructor|]. apply andb_true_iff in M5. destruct M5 as [A B].
    constructor; [exact A|apply IHp; exact B]. }
  assert (exists fs, xdec x (TStruct n) (zero (TStruct n)) = Some (VStruct fs) /\ (v = VStruct fs \/ v = VPtr (VStruct fs))) as (fs & X1 & X2).
  { assert (exists u, xdec x (TStruct n) (zero (TStruct n)) = Some u /\ (v = u \/ v = VPtr u)) as (u & U1 & U2).
    { destruct t as [| | | | |t| |m]; try discriminate ES.
      - destruct t; try discriminate ES. injection ES as ->. change (zero (TPtr (TStruct n))) with VNil in HX.
        rewrite xdec_ptr in HX by (rewrite elem_root by exact HE; discriminate).
        destruct (xdec x (TStruct n) (zero (TStruct n))) as [u|]; [|discriminate HX]. cbn [omap] in HX. injection HX as <-.
        exists u. auto.
      - injection ES as ->. exists v. auto. }
    pose proof U1 as U3. rewrite (xdec_struct x n d ED HE) in U3. rewrite HS, HL, M1 in U3.
    match type of U3 with omap _ ?e = _ => destruct e as [fs|] end; [|discriminate U3]. cbn [omap] in U3.
    exists (take_text d (chars x) fs). assert (u = VStruct (take_text d (chars x) fs)) as -> by congruence. auto. }
  apply agrees_seq. exists fs. split; [exact X2|].
  rewrite (xdec_struct x n d ED HE), HS, HL, M1, no_attrs in X1 by exact MA. rewrite slots_elements in X1.
  destruct (take_kids d (slots (elements (children x))) _) as [fs1|] eqn:EK; [|discriminate X1]. cbn [omap] in X1.
  rewrite no_text in X1 by exact MT. injection X1 as ->.
  apply recognisable_seq in HD. destruct HD as [HR _].
  rewrite Forall_forall in OK, HR, IH. apply Forall_forall. intros p Hp. specialize (OK p Hp).
  destruct p as [[[nm rq] rp] w]. intros HU. unfold part_ok in OK.
  destruct (find (takes d (ns, nm)) (d_fields d)) as [f|] eqn:EF; [|congruence].
  apply andb_true_iff in OK. destruct OK as [OK OM]. apply andb_true_iff in OK. destruct OK as [OK ONS].
  apply andb_true_iff in OK. destruct OK as [_ ON]. apply negb_true_iff in ONS. apply String.eqb_eq in ON.
  pose proof (find_some _ _ EF) as [Hf HT]. specialize (HR _ Hp). cbv beta iota in HR. destruct HR as [HR1 HR2]. rewrite Forall_forall in HR1.
  destruct (take_kids_sound d HDin _ _ _ (elements_all _) EK f _ Hf (zero_fields d f HDin Hf)) as (u & U1 & U2).
  exists u. rewrite <- ON. split; [exact U1|].
  assert (forall k, In k (named nm (children x)) -> is_element k = true /\ local k = nm) as HNm.
  { intros k Hk. apply filter_In in Hk. destruct Hk as [_ Hk]. apply andb_true_iff in Hk. destruct Hk as [K1 K2].
    apply String.eqb_eq in K2. auto. }
  assert (filter (taker d f) (elements (children x)) = named nm (children x)) as HN.
  { rewrite (named_elements _ (children x)). unfold named. apply filter_ext_in. intros k Hk.
    pose proof (elements_all (children x)) as EA. rewrite Forall_forall in EA. rewrite (EA k Hk). cbn [andb].
    assert (x_name (f_xml f) = nm) as EN.
    { unfold takes in HT. destruct (x_kind (f_xml f)); try discriminate HT. apply andb_true_iff in HT. destruct HT as [HT _].
      apply String.eqb_eq in HT. exact HT. }
    destruct (String.eqb_spec (local k) nm) as [EQ|NE].
    - destruct (HR1 k) as [HS1 _].
      { rewrite named_elements. apply filter_In. split; [exact Hk|]. rewrite (EA k Hk), EQ, String.eqb_refl. reflexivity. }
      unfold taker. rewrite HS1, EQ, EF. apply String.eqb_refl.
    - apply taker_false; [exact HDin|exact Hf|]. intros _. congruence. }
  rewrite HN in U2. destruct (named nm (children x)) as [|k run].
  - cbn [feed] in U2. injection U2 as <-. apply unset_zero0. exact ONS.
  - destruct rp.
    + destruct (f_ty f) as [| | | | | |t'|] eqn:ET; try discriminate OM.
      assert (Forall (fun k => is_element k = true) (k :: run)) as HE1 by (apply Forall_forall; intros a Ha; apply HNm; exact Ha).
      cbn [zero0] in U2. rewrite feed_slice_nil in U2 by (inversion HE1; assumption).
      destruct (feed_slice_sound t' _ _ _ HE1 U2) as (us & -> & UF). exists us. split; [reflexivity|].
      eapply forall2_impl_in; [exact UF|]. intros k' u' Hk' HX'. destruct (HR1 k' Hk') as [A B]. destruct (HNm k' Hk') as [C D].
      apply (IH _ Hp nm t' k' u'); auto.
    + specialize (HR2 eq_refl). destruct run; [|cbn in HR2; lia]. exists k. split; [reflexivity|].
      cbn [feed] in U2. destruct (xdec k (f_ty f) (zero0 (f_ty f))) as [u'|] eqn:EX; [|discriminate U2]. injection U2 as <-.
      destruct (HR1 k (or_introl eq_refl)) as [A B]. destruct (HNm k (or_introl eq_refl)) as [C D].
      rewrite <- zero_zero0 in EX by exact ONS. apply (IH _ Hp nm (f_ty f) k u'); auto.
Qed.

Lemma services_sound ns el w ty x v : In (ns, el, w) services -> element_of el ns ty -> ty <> "cpresp.DataTransfer" ->
  is_element x = true -> local x = el -> space x = ns -> recognisable anything ns w x ->
  xdec x (TStruct ty) (zero (TStruct ty)) = Some v -> agrees el w x v.
Proof.
  intros HI HEl HC HE HL HS HD HX. apply String.eqb_neq in HC. pose proof services_match as M. rewrite forallb_forall in M. specialize (M _ HI). cbv beta iota in M.
  pose proof (type_names _ _ _ HEl) as HT.
  assert (In ty (map d_name all_decls)) as Hty.
  { unfold xmlname in HT. destruct (find_decl ty) as [d|] eqn:E; [|discriminate HT]. apply find_decl_in in E. destruct E as [E1 E2].
    rewrite <- E2. apply in_map. exact E1. }
  rewrite forallb_forall in M. specialize (M ty Hty). rewrite HT, !String.eqb_refl, HC in M. cbn [andb negb] in M.
  exact (sound_all ns w el (TStruct ty) x v M HE HS HL HD HX).
Qed.

(** ** Written elements *)

Lemma recognisable_any ok ns w : forall x, recognisable ok ns w x -> recognisable anything ns w x.
Proof.
  induction w as [m e| | | |ps IH|attrs] using wtype_ind'; intros x H; try exact H.
  apply recognisable_seq in H. apply recognisable_seq. destruct H as [A B]. split.
  - rewrite Forall_forall in *. intros [[[nm rq] rp] w] Hp. specialize (A _ Hp). cbv beta iota in A. destruct A as [A1 A2]. split; [|exact A2].
    eapply Forall_impl; [|exact A1]. intros k [K1 K2]. split; [exact K1|]. exact (IH _ Hp k K2).
  - eapply Forall_impl; [|exact B]. intros k [K|K]; [left; exact K|right; reflexivity].
Qed.

Lemma dec_int_text z : (- 2 ^ 31 <= z < 2 ^ 31)%Z -> int_text (dec_int z) z.
Proof.
  intros H. unfold dec_int. destruct (z <? 0)%Z eqn:E.
  - exists "", "-", (Float64.dec (- z)), "". rewrite sapp_nil_r. split; [reflexivity|]. split; [reflexivity|]. split; [reflexivity|].
    split; [apply dec_digits; lia|]. split.
    + destruct (dec_nominus (- z) "" ltac:(lia)) as (c & r & E1 & _). rewrite sapp_nil_r in E1. rewrite E1. discriminate.
    + split; [|lia]. right. rewrite dec_val by lia. split; [reflexivity|lia].
  - exists "", "", (Float64.dec z), "". rewrite sapp_nil_r. split; [reflexivity|]. split; [reflexivity|]. split; [reflexivity|].
    split; [apply dec_digits; lia|]. split.
    + destruct (dec_nominus z "" ltac:(lia)) as (c & r & E1 & _). rewrite sapp_nil_r in E1. rewrite E1. discriminate.
    + split; [|lia]. left. rewrite dec_val by lia. auto.
Qed.

Lemma fmt_g_text x z : canon x = true -> f64_toZ x = Some z -> (Z.abs z < 10 ^ 6)%Z -> int_text (fmt_g x) z.
Proof.
  intros C T B. destruct (Z.eq_dec z 0) as [->|NZ].
  - destruct x as [neg m e| |]; try discriminate T.
    assert (0 <= m /\ -1074 <= e)%Z as [Hm He] by (cbn [canon] in C; lia).
    pose proof (toZ_scaled neg m e 0 Hm He T) as S. rewrite Z.mul_0_l in S.
    assert (0 < 2 ^ (e + 1074))%Z as P by (apply Z.pow_pos_nonneg; lia).
    assert (m = 0)%Z as -> by (destruct neg; nia). unfold fmt_g. change (0 =? 0)%Z with true. cbv iota.
    destruct neg.
    + exists "", "-", "0", "". repeat split; try discriminate; try lia. right. split; reflexivity.
    + exists "", "", "0", "". repeat split; try discriminate; try lia. left. split; [left|]; reflexivity.
  - rewrite (fmt_g_integral x z C T) by lia. apply dec_int_text. lia.
Qed.

Lemma chars_text ns nm at_ s : chars (XE ns nm at_ (xtext s)) = s.
Proof. change (text_of (xtext s) = s). apply text_xtext. Qed.

Lemma ns_same d ns parent f : xname_ok d (ns, parent) = true -> inherit ns (field_ns d f) = ns.
Proof.
  unfold xname_ok, field_ns, inherit. destruct (d_xml d) as [[n l]|]; [|reflexivity]. cbn [fst snd].
  intros H. apply andb_true_iff in H. destruct H as [_ H]. destruct (untagged f); [reflexivity|].
  apply orb_true_iff in H. destruct H as [H|H]; [rewrite H; reflexivity|]. apply String.eqb_eq in H. subst n. destruct (String.eqb ns ""); reflexivity.
Qed.

Lemma omapl_Forall2 {A B} (f : A -> option B) l : forall ys, omapl f l = Some ys -> Forall2 (fun x y => f x = Some y) l ys.
Proof.
  induction l as [|x l IH]; intros ys; [intros H; injection H as <-; constructor|]. rewrite omapl_cons.
  destruct (f x) eqn:E; [|discriminate]. destruct (omapl f l) eqn:E2; [|discriminate]. intros H. injection H as <-. constructor; auto.
Qed.
Lemma forall2_in_r {A B} (P : A -> B -> Prop) l l' y : Forall2 P l l' -> In y l' -> exists x, In x l /\ P x y.
Proof.
  induction 1 as [|x z l l' H1 H2 IH]; intros H; [destruct H|]. destruct H as [->|H]; [exists x; split; [left; reflexivity|exact H1]|].
  destruct (IH H) as (x' & A1 & A2). exists x'. split; [right; exact A1|exact A2].
Qed.

Definition writable (ns : string) (w : wtype) : Prop := forall parent t v inh tag omit x, matches parent ns w t = true ->
  has_type v t = true -> wire_times v -> plain_numbers v = true -> xenc inh tag omit t v = Some [x] ->
  space x = ns -> local x = parent -> recognisable extension ns w x.

Lemma numbers_field fs kv : plain_numbers (VStruct fs) = true -> In kv fs -> plain_numbers (snd kv) = true.
Proof. cbn [plain_numbers]. rewrite forallb_forall. intros H. apply H. Qed.

(** Single values give at most one element. *)
Lemma xenc_single v : forall inh tag omit t l, single t = true -> has_type v t = true -> wire_times v -> xenc inh tag omit t v = Some l ->
  l = [] \/ exists x, l = [x] /\ xroot x = Some (elname inh tag t).
Proof.
  intros inh tag omit t l Hs HT HW HX. assert (v = VNil \/ v <> VNil) as [->|NN] by (destruct v; auto; right; discriminate).
  - left. cbn [xenc] in HX. destruct (omit && is_empty VNil); [injection HX as <-; reflexivity|].
    destruct t; try discriminate HX; injection HX as <-; reflexivity.
  - destruct (omit && is_empty v) eqn:EE.
    + left. destruct v; cbn [xenc] in HX; rewrite EE in HX; injection HX as <-; reflexivity.
    + destruct (proj1 (xml_rt v) t inh tag Hs NN HT HW) as (y & X1 & X2 & _). rewrite (X1 omit EE) in HX. injection HX as <-.
      right. exists y. auto.
Qed.

Lemma xenc_time u inh tag omit x : wire_times (VTime u) -> has_type (VTime u) TTime = true -> xenc inh tag omit TTime (VTime u) = Some [x] ->
  exists t, parse_rfc3339 (chars x) = Some t.
Proof.
  intros HW HT HX. destruct (proj1 (xml_rt (VTime u)) TTime inh tag eq_refl ltac:(discriminate) HT HW) as (y & X1 & X2 & X3).
  destruct (omit && is_empty (VTime u)) eqn:EE; [cbn [xenc] in HX; rewrite EE in HX; discriminate HX|].
  rewrite (X1 omit EE) in HX. injection HX as ->. destruct x as [n l at_ ks|s]; [|discriminate X2].
  specialize (X3 (VTime u) I). cbn [xdec xat] in X3. change (text_of ks) with (chars (XE n l at_ ks)) in X3.
  destruct (parse_rfc3339 _) as [t|]; [eauto|discriminate X3].
Qed.

(** All elements that a field gives. *)
Lemma field_elements ns nm w rp t v inh tag omit l k : writable ns w -> (if rp : bool then True else single t = true) ->
  (if rp then match t with TSlice t' => single t' && matches nm ns w t' | _ => false end else matches nm ns w t) = true ->
  has_type v t = true -> wire_times v -> plain_numbers v = true -> xenc inh tag omit t v = Some l ->
  In k l -> space k = ns -> local k = nm -> recognisable extension ns w k.
Proof.
  intros HW HS HM HT HWT HP HX HI HK1 HK2. destruct rp.
  - destruct t as [| | | | | |t'|]; try discriminate HM. apply andb_true_iff in HM. destruct HM as [HS' HM].
    destruct v; try discriminate HT; cbn [xenc] in HX; (destruct (omit && _); [injection HX as <-; destruct HI|]); try discriminate HX.
    + injection HX as <-. destruct HI.
    + destruct (omapl _ l0) as [ls|] eqn:EO; [|discriminate HX]. cbn [omap] in HX. injection HX as <-.
      apply in_concat in HI. destruct HI as (lk & L1 & L2). apply omapl_Forall2 in EO.
      destruct (forall2_in_r _ _ _ _ EO L1) as (v & V1 & V2). cbn [has_type] in HT. rewrite forallb_forall in HT.
      cbn [plain_numbers] in HP. rewrite forallb_forall in HP.
      pose proof (times_in l0 v HWT V1) as HWv.
      destruct (xenc_single v _ _ _ _ _ HS' (HT v V1) HWv V2) as [E|(x & E & _)].
      * subst lk. destruct L2.
      * subst lk. destruct L2 as [->|[]]. exact (HW nm t' v _ _ _ k HM (HT v V1) HWv (HP v V1) V2 HK1 HK2).
  - destruct (xenc_single v _ _ _ _ _ HS HT HWT HX) as [E|(x & E & _)].
    + subst l. destruct HI.
    + subst l. destruct HI as [->|[]]. exact (HW nm t v _ _ _ k HM HT HWT HP HX HK1 HK2).
Qed.

Lemma xty_single t : xty t = true -> match t with TSlice t' => single t' = true | _ => single t = true end.
Proof. destruct t as [| | | | |t|t|]; cbn; try (intros; reflexivity || assumption); try discriminate. destruct t; cbn; try discriminate; auto. Qed.

Lemma writable_all ns w : writable ns w.
Proof.
  induction w as [m e| | | |ps IH|attrs] using wtype_ind'; intros parent t v inh tag omit x HM HT HW HP HX HS HL; cbn [matches] in HM.
  - exact I.
  - destruct t; try discriminate HM; destruct v; try discriminate HT; cbn [xenc] in HX; (destruct (omit && _); [discriminate HX|]); injection HX as <-.
    + eexists. rewrite chars_text. apply dec_int_text. cbn [plain_numbers] in HP. lia.
    + cbn [plain_numbers] in HP. destruct (f64_toZ x0) as [z|] eqn:E; [|discriminate HP]. exists z. rewrite chars_text.
      apply fmt_g_text; [exact HT|exact E|lia].
  - destruct t; try discriminate HM; destruct v; try discriminate HT; cbn [xenc] in HX; (destruct (omit && _); [discriminate HX|]); injection HX as <-.
    exists b. rewrite chars_text. exists "", (if b then "true" else "false"), "". destruct b; repeat split; auto.
  - destruct t as [| | | | |t| |]; try discriminate HM.
    + destruct v; try discriminate HT. exact (xenc_time _ _ _ _ _ HW HT HX).
    + destruct t; try discriminate HM. destruct v; try discriminate HT.
      * cbn [xenc] in HX. destruct (omit && _); discriminate HX.
      * cbn [xenc] in HX. destruct (omit && _); [discriminate HX|]. destruct v; try discriminate HT. exact (xenc_time _ _ _ _ _ HW HT HX).
  - destruct (struct_name t) as [n|] eqn:ES; [|discriminate HM].
    destruct (find_decl n) as [d|] eqn:ED; [|discriminate HM]. pose proof (find_decl_in _ _ ED) as [HDin _].
    apply andb_true_iff in HM. destruct HM as [HM M5]. apply andb_true_iff in HM. destruct HM as [HM M6].
    apply andb_true_iff in HM. destruct HM as [HM M4].
    apply andb_true_iff in HM. destruct HM as [HM M3]. apply andb_true_iff in HM. destruct HM as [M1 M2].
    apply negb_true_iff in M2. rewrite existsb_or in M2. apply orb_false_iff in M2. destruct M2 as [MT MA].
    rewrite forallb_forall in M4.
    assert (Forall (fun p => part_ok ns parent d p = true) ps) as OK.
    { clear - M5. induction ps as [|[[[nm rq] rp] w] ps IHp]; [constructor|]. apply andb_true_iff in M5. destruct M5 as [A B].
      constructor; [exact A|apply IHp; exact B]. }
    (* the struct *)
    assert (exists fs omit', has_type (VStruct fs) (TStruct n) = true /\ wire_times (VStruct fs) /\ plain_numbers (VStruct fs) = true /\
      xenc inh tag omit' (TStruct n) (VStruct fs) = Some [x]) as (fs & omit' & T' & W' & P' & X').
    { destruct t as [| | | | |t| |m]; try discriminate ES.
      - destruct t; try discriminate ES. injection ES as ->. destruct v; try discriminate HT.
        + cbn [xenc] in HX. destruct (omit && _); discriminate HX.
        + destruct v; try discriminate HT. cbn [xenc] in HX. destruct (omit && _); [discriminate HX|]. exists fs, false. auto.
      - injection ES as ->. destruct v; try discriminate HT. exists fs, omit. auto. }
    clear HX HT HW HP. cbn [xenc] in X'. destruct (omit' && _); [discriminate X'|]. rewrite ED in X'.
    set (nm0 := match d_xml d with Some x => x | None => tag end) in *.
    change (omapl _ fs) with (omapl (fenc d (inherit inh (fst nm0))) fs) in X'.
    destruct (omapl (fenc d (inherit inh (fst nm0))) fs) as [cs|] eqn:EO; [|discriminate X'].
    injection X' as <-. cbn [space local] in HS, HL. rewrite HS in *.
    apply has_type_struct in T'. destruct T' as (d' & ED' & T'). rewrite ED in ED'. injection ED' as <-. change (Forall2 typed fs (d_fields d)) in T'.
    apply omapl_Forall2 in EO.
    assert (NoDup (map fst fs)) as NDf by (rewrite (typed_keys _ _ T'); apply names_nodup; exact HDin).
    pose proof (xdecl_in d HDin) as XOK. unfold xdecl_ok in XOK.
    repeat (apply andb_true_iff in XOK; destruct XOK as [XOK ?]).
    match goal with K : nodupb (map _ (filter (of_kind XElem) _)) = true |- _ => apply nodupb_spec in K; rename K into NDX end.
    match goal with K : forallb (xfield_ok d) _ = true |- _ => rename K into XF end. rewrite forallb_forall in XF.
    (* each contribution *)
    assert (forall kv c, In kv fs -> fenc d ns kv = Some c ->
      exists f, find_field d (fst kv) = Some f /\ In f (d_fields d) /\ f_name f = fst kv /\ has_type (snd kv) (f_ty f) = true /\
        (snd c = [] \/ (x_kind (f_xml f) = XElem /\ xenc ns (field_ns d f, x_name (f_xml f)) (x_omit (f_xml f)) (f_ty f) (snd kv) = Some (snd c) /\
           xty (f_ty f) = true /\ Forall (fun k => xroot k = Some (ns, x_name (f_xml f))) (snd c)))) as HC.
    { intros kv c Hkv Hc. unfold fenc in Hc. destruct (find_field d (fst kv)) as [f|] eqn:Ef; [|discriminate Hc].
      assert (In f (d_fields d) /\ f_name f = fst kv) as [Hf Hn].
      { unfold find_field in Ef. apply find_some in Ef. destruct Ef as [A B]. apply String.eqb_eq in B. auto. }
      exists f. split; [reflexivity|]. split; [exact Hf|]. split; [exact Hn|].
      assert (has_type (snd kv) (f_ty f) = true) as Tv.
      { destruct (typed_lookup fs (d_fields d) (fst kv) f T' Ef) as (v' & Lv & Tv & Iv).
        assert (snd kv = v') as ->; [|exact Tv]. destruct kv as [k0 w0]. cbn [fst snd] in *. exact (nodup_val _ _ _ _ NDf Hkv Iv). }
      split; [exact Tv|]. specialize (XF f Hf). unfold xfield_ok in XF.
      destruct (x_kind (f_xml f)) eqn:EK.
      - right. split; [reflexivity|]. destruct (xenc _ _ _ _ (snd kv)) as [ks|] eqn:Ex; [|discriminate Hc]. cbn [omap] in Hc. injection Hc as <-. cbn [snd].
        split; [reflexivity|]. apply andb_true_iff in XF. destruct XF as [XF XF4]. apply andb_true_iff in XF. destruct XF as [XF _].
        apply andb_true_iff in XF. destruct XF as [XF1 _]. split; [exact XF1|].
        destruct (proj2 (xml_rt (snd kv)) (f_ty f) ns (field_ns d f, x_name (f_xml f)) (x_omit (f_xml f)) XF1 XF4 Tv (times_field fs kv W' Hkv)) as (ks' & K1 & K2 & _).
        rewrite Ex in K1. injection K1 as <-. cbn [fst snd] in K2. rewrite (ns_same d ns parent f M1) in K2. exact K2.
      - left. destruct (xattr f (snd kv)); [|discriminate Hc]. cbn [omap] in Hc. injection Hc as <-. reflexivity.
      - exfalso. assert (existsb (of_kind XChar) (d_fields d) = true) as K.
        { apply existsb_exists. exists f. split; [exact Hf|]. unfold of_kind. rewrite EK. reflexivity. }
        rewrite K in MT. discriminate MT.
      - left. injection Hc as <-. reflexivity. }
    assert (forall k, In k (concat (map snd cs)) -> exists kv c f, In kv fs /\ fenc d ns kv = Some c /\ In k (snd c) /\ In f (d_fields d) /\ f_name f = fst kv /\
      has_type (snd kv) (f_ty f) = true /\ x_kind (f_xml f) = XElem /\
      xenc ns (field_ns d f, x_name (f_xml f)) (x_omit (f_xml f)) (f_ty f) (snd kv) = Some (snd c) /\ xty (f_ty f) = true /\
      xroot k = Some (ns, x_name (f_xml f))) as HK.
    { intros k Hk. apply in_concat in Hk. destruct Hk as (l & L1 & L2). apply in_map_iff in L1. destruct L1 as (c & <- & L1).
      destruct (forall2_in_r _ _ _ _ EO L1) as (kv & V1 & V2). destruct (HC kv c V1 V2) as (f & F1 & F2 & F3 & F4 & F5).
      destruct F5 as [F5|(F5 & F6 & F7 & F8)]; [rewrite F5 in L2; destruct L2|]. rewrite Forall_forall in F8.
      exists kv, c, f. repeat (split; [assumption|]). apply F8. exact L2. }
    assert (forall f g, In f (d_fields d) -> In g (d_fields d) -> x_kind (f_xml f) = XElem -> x_kind (f_xml g) = XElem ->
      x_name (f_xml f) = x_name (f_xml g) -> f = g) as HU.
    { intros f g Hf Hg Kf Kg E. apply (nodup_inj (fun f => x_name (f_xml f)) (filter (of_kind XElem) (d_fields d)) f g NDX); [| |exact E];
        apply filter_In; (split; [assumption|]); unfold of_kind; [rewrite Kf|rewrite Kg]; reflexivity. }
    apply recognisable_seq. cbn [children]. split.
    + apply Forall_forall. intros p Hp. rewrite Forall_forall in OK, IH. specialize (OK p Hp). specialize (IH p Hp).
      destruct p as [[[nm rq] rp] w]. cbn [snd] in IH. unfold part_ok in OK. split.
      * apply Forall_forall. intros k Hk. apply filter_In in Hk. destruct Hk as [Hk HN]. apply andb_true_iff in HN. destruct HN as [HN1 HN2].
        apply String.eqb_eq in HN2. destruct (HK k Hk) as (kv & c & f & V1 & V2 & V3 & F2 & F3 & F4 & F5 & F6 & F7 & F8).
        rewrite (elem_root k HN1) in F8. injection F8 as S1 S2. split; [exact S1|].
        assert (takes d (ns, nm) f = true) as TK.
        { unfold takes. rewrite F5. cbn [fst snd]. rewrite <- S2, HN2, String.eqb_refl. cbn [andb].
          pose proof (ns_same d ns parent f M1) as NS. unfold inherit in NS. destruct (String.eqb (field_ns d f) "") eqn:E0; [reflexivity|].
          rewrite NS. apply String.eqb_refl. }
        destruct (find (takes d (ns, nm)) (d_fields d)) as [g|] eqn:EF.
        2:{ exfalso. pose proof (find_none _ _ EF f F2) as K. rewrite TK in K. discriminate K. }
        pose proof (find_some _ _ EF) as [Hg Tg].
        assert (g = f) as ->.
        { unfold takes in Tg. destruct (x_kind (f_xml g)) eqn:Kg; try discriminate Tg. apply andb_true_iff in Tg. destruct Tg as [Tg _].
          apply String.eqb_eq in Tg. cbn [snd] in Tg. apply HU; auto. congruence. }
        apply andb_true_iff in OK. destruct OK as [_ OM]. pose proof (xty_single _ F7) as SG.
        refine (field_elements ns nm w rp (f_ty f) (snd kv) _ _ _ _ k IH _ _ F4 (times_field fs kv W' V1) (numbers_field fs kv P' V1) F6 V3 S1 HN2).
        -- destruct rp; [exact I|]. destruct (f_ty f) eqn:ET; try exact SG. destruct w; discriminate OM.
        -- destruct rp; [|exact OM]. destruct (f_ty f) eqn:ET; try discriminate OM. rewrite SG. exact OM.
      * intros ->. clear IH.
        destruct (find (takes d (ns, nm)) (d_fields d)) as [g|] eqn:EF.
        -- apply andb_true_iff in OK. destruct OK as [_ OM]. pose proof (find_some _ _ EF) as [Hg Tg].
           assert (x_kind (f_xml g) = XElem /\ x_name (f_xml g) = nm) as [Kg Ng].
           { unfold takes in Tg. destruct (x_kind (f_xml g)) eqn:Kg; try discriminate Tg. apply andb_true_iff in Tg. destruct Tg as [Tg _].
             apply String.eqb_eq in Tg. auto. }
           assert (forall kv c, In kv fs -> fenc d ns kv = Some c -> if String.eqb (fst kv) (f_name g) then (length (named nm (snd c)) <= 1)%nat else named nm (snd c) = []) as HCC.
           { intros kv c V1 V2. destruct (HC kv c V1 V2) as (f & F1 & F2 & F3 & F4 & F5).
             destruct F5 as [F5|(F5 & F6 & F7 & F8)]; [rewrite F5; destruct (String.eqb _ _); [cbn; lia|reflexivity]|].
             destruct (String.eqb_spec (fst kv) (f_name g)) as [EQ|NE].
             - assert (f = g) as -> by (apply (nodup_inj f_name (d_fields d)); auto; [apply names_nodup; exact HDin|congruence]).
               assert (single (f_ty g) = true) as SG.
               { pose proof (xty_single _ F7) as SG. destruct (f_ty g) eqn:ET; try exact SG. destruct w; discriminate OM. }
               destruct (xenc_single _ _ _ _ _ _ SG F4 (times_field fs kv W' V1) F6) as [E|(y & E & _)]; rewrite E; [cbn; lia|].
               unfold named. cbn [filter]. destruct (is_element y && _); cbn; lia.
             - apply named_none. apply Forall_forall. intros k Hk EQ. rewrite Forall_forall in F8. specialize (F8 k Hk).
               destruct k as [kn kl ka kk|]; [|discriminate F8]. cbn [xroot] in F8. injection F8 as _ F8. cbn [local] in EQ.
               apply NE. rewrite <- F3. f_equal. apply HU; auto. congruence. }
           clear - EO HCC NDf. induction EO as [|kv c fs cs H1 H2 IHf]; [cbn; lia|]. cbn [map] in NDf. inversion NDf as [|? ? N1 N2]; subst.
           cbn [map concat]. rewrite named_app, app_length. pose proof (HCC kv c (or_introl eq_refl) H1) as K.
           specialize (IHf N2 (fun kv' c' Hi => HCC kv' c' (or_intror Hi))).
           destruct (String.eqb_spec (fst kv) (f_name g)) as [EQ|NE]; [|rewrite K; exact IHf].
           assert (named nm (concat (map snd cs)) = []) as ->; [|cbn [length]; lia].
           assert (forall kv' c', In kv' fs -> fenc d ns kv' = Some c' -> named nm (snd c') = []) as K2.
           { intros kv' c' Hi Hc'. pose proof (HCC kv' c' (or_intror Hi) Hc') as K3. destruct (String.eqb_spec (fst kv') (f_name g)) as [EQ'|_]; [|exact K3].
             exfalso. apply N1. rewrite EQ, <- EQ'. apply in_map. exact Hi. }
           clear - H2 K2. induction H2 as [|kv c fs cs H1 H2 IHf]; [reflexivity|]. cbn [map concat]. rewrite named_app, (K2 kv c (or_introl eq_refl) H1).
           apply IHf. intros kv' c' Hi. apply K2. right. exact Hi.
        -- rewrite named_none; [cbn; lia|]. apply Forall_forall. intros k Hk E.
           destruct (HK k Hk) as (kv & c & f & V1 & V2 & V3 & F2 & F3 & F4 & F5 & F6 & F7 & F8).
           destruct k as [kn kl ka kk|]; [|discriminate F8]. cbn [xroot] in F8. injection F8 as F8a F8b. cbn [local] in E.
           pose proof (find_none _ _ EF f F2) as K. unfold takes in K. rewrite F5 in K. cbn [fst snd] in K. rewrite <- F8b, E, String.eqb_refl in K. cbn [andb] in K.
           pose proof (ns_same d ns parent f M1) as NS. unfold inherit in NS. destruct (String.eqb (field_ns d f) "") eqn:E0; [discriminate K|].
           rewrite NS, String.eqb_refl in K. discriminate K.
    + apply Forall_forall. intros k Hk. apply filter_In in Hk. destruct Hk as [Hk HE].
      destruct (HK k Hk) as (kv & c & f & V1 & V2 & V3 & F2 & F3 & F4 & F5 & F6 & F7 & F8).
      rewrite (elem_root k HE) in F8. injection F8 as S1 S2. rewrite S2. cbn [local]. rewrite HL.
      specialize (M4 f F2). unfold of_kind in M4. rewrite F5 in M4. cbn [negb orb] in M4.
      apply orb_true_iff in M4. destruct M4 as [M4|M4]; [left|right; exact M4].
      apply existsb_exists in M4. destruct M4 as (p & Hp & E). apply String.eqb_eq in E. rewrite E.
      apply (in_map (fun p => fst (fst (fst p)))). exact Hp.
  - exact I.
Qed.
