(** Which child elements a written message has. *)
From Coq Require Import Arith Lia.
From Verif Require Import GoBase Utf8 Json Float64 GoTime Lang Types Codec SpecCodec SpecSchema SpecEnc Xml SpecSoap Wsdl SpecWsdl.
From Verif Require Import Float64Proofs FloatInt AnyProofs EncProofs DecProofs RoundTrip JsonText XmlProofs XmlTyped XmlWritten Soap SoapProofs WsdlRead WsdlSound.
Open Scope string_scope.
Open Scope list_scope.

(** ** Single values *)

Lemma left_out_empty u t : single t = true -> has_type u t = true -> left_out u = is_empty u.
Proof. destruct u, t; try discriminate; reflexivity. Qed.

Lemma xenc_nil u inh tag omit t l : single t = true -> has_type u t = true -> wire_times u -> xenc inh tag omit t u = Some l ->
  (l = [] <-> left_out u = true /\ (omit = true \/ u = VNil)).
Proof.
  intros Hs HT HW HX. rewrite (left_out_empty u t Hs HT). assert (u = VNil \/ u <> VNil) as [->|NN] by (destruct u; auto; right; discriminate).
  - split; [intros _; split; [reflexivity|right; reflexivity]|]. intros _. cbn [xenc is_empty andb] in HX.
    destruct (omit && true); [injection HX as <-; reflexivity|]. destruct t; try discriminate HX; injection HX as <-; reflexivity.
  - destruct (omit && is_empty u) eqn:EE.
    + apply andb_true_iff in EE. destruct EE as [-> EE]. rewrite EE. split; [auto|]. intros _.
      destruct u; cbn [xenc] in HX; rewrite EE in HX; cbn [andb] in HX; injection HX as <-; reflexivity.
    + destruct (proj1 (xml_rt u) t inh tag Hs NN HT HW) as (y & X1 & X2 & _). rewrite (X1 omit EE) in HX. injection HX as <-.
      split; [discriminate|]. intros [K1 [->|K2]]; [|contradiction]. rewrite K1 in EE. discriminate EE.
Qed.

(** ** Lists *)

Lemma xenc_list us inh tag t l : single t = true -> has_type (VSlice us) (TSlice t) = true -> wire_times (VSlice us) ->
  xenc inh tag true (TSlice t) (VSlice us) = Some l ->
  Forall2 (fun k u => In u us /\ xenc inh tag true t u = Some [k]) l (filter (fun u => negb (left_out u)) us).
Proof.
  intros Hs HT HW HX. cbn [has_type] in HT. rewrite forallb_forall in HT.
  assert (forall u, In u us -> wire_times u) as HW'.
  { intros u Hu. unfold wire_times in *. cbn [times leaves] in HW. rewrite Forall_forall in *. intros x Hx. apply HW. apply in_flat_map. exists u. auto. }
  destruct us as [|u0 us0] eqn:EU.
  { cbn in HX. injection HX as <-. constructor. }
  rewrite <- EU in *. cbn [xenc] in HX. replace (true && is_empty (VSlice us)) with false in HX by (rewrite EU; reflexivity).
  destruct (omapl _ us) as [ls|] eqn:EO; [|discriminate HX]. cbn [omap] in HX. injection HX as <-. apply omapl_Forall2 in EO. clear EU u0 us0 HW.
  assert (forall u, In u us -> has_type u t = true /\ wire_times u /\ In u us) as HH by auto. clear HT HW'. revert HH.
  generalize us at 2 3 as all. intros all HH. induction EO as [|u c us ls H1 H2 IH]; [constructor|].
  destruct (HH u (or_introl eq_refl)) as (T1 & T2 & T3). cbn [concat filter]. pose proof (xenc_nil u inh tag true t c Hs T1 T2 H1) as K.
  assert (Forall2 (fun k u => In u all /\ xenc inh tag true t u = Some [k]) (concat ls) (filter (fun u => negb (left_out u)) us)) as IH'
    by (apply IH; intros; apply HH; right; assumption).
  destruct (left_out u); cbn [negb].
  - rewrite (proj2 K (conj eq_refl (or_introl eq_refl))). exact IH'.
  - destruct (xenc_single _ _ _ _ _ _ Hs T1 T2 H1) as [->|(y & -> & _)].
    + destruct (proj1 K eq_refl). discriminate.
    + constructor; [auto|exact IH'].
Qed.

(** ** The children of a struct *)

Lemma struct_named n d fs inh tag omit x ns parent : find_decl n = Some d -> In d all_decls ->
  has_type (VStruct fs) (TStruct n) = true -> wire_times (VStruct fs) -> xenc inh tag omit (TStruct n) (VStruct fs) = Some [x] ->
  space x = ns -> xname_ok d (ns, parent) = true -> existsb (of_kind XChar) (d_fields d) = false ->
  forall f u, In f (d_fields d) -> x_kind (f_xml f) = XElem -> In (f_name f, u) fs ->
  exists l, xenc ns (field_ns d f, x_name (f_xml f)) (x_omit (f_xml f)) (f_ty f) u = Some l /\
    named (x_name (f_xml f)) (children x) = l /\ has_type u (f_ty f) = true /\ xty (f_ty f) = true /\
    Forall (fun k => xroot k = Some (ns, x_name (f_xml f))) l.
Proof.
  intros ED HDin T' W' X' HS M1 MT g u Hg Kg Hu. cbn [xenc] in X'. destruct (omit && _); [discriminate X'|]. rewrite ED in X'.
  set (nm0 := match d_xml d with Some x => x | None => tag end) in *.
  change (omapl _ fs) with (omapl (fenc d (inherit inh (fst nm0))) fs) in X'.
  destruct (omapl (fenc d (inherit inh (fst nm0))) fs) as [cs|] eqn:EO; [|discriminate X'].
  injection X' as <-. cbn [space] in HS. rewrite HS in *. cbn [children].
  apply has_type_struct in T'. destruct T' as (d' & ED' & T'). rewrite ED in ED'. injection ED' as <-. change (Forall2 typed fs (d_fields d)) in T'.
  apply omapl_Forall2 in EO.
  assert (NoDup (map fst fs)) as NDf by (rewrite (typed_keys _ _ T'); apply names_nodup; exact HDin).
  pose proof (xdecl_in d HDin) as XOK. unfold xdecl_ok in XOK.
  repeat (apply andb_true_iff in XOK; destruct XOK as [XOK ?]).
  match goal with K : nodupb (map _ (filter (of_kind XElem) _)) = true |- _ => apply nodupb_spec in K; rename K into NDX end.
  match goal with K : forallb (xfield_ok d) _ = true |- _ => rename K into XF end. rewrite forallb_forall in XF.
  assert (forall kv c, In kv fs -> fenc d ns kv = Some c ->
    exists f, find_field d (fst kv) = Some f /\ In f (d_fields d) /\ f_name f = fst kv /\ has_type (snd kv) (f_ty f) = true /\
      ((snd c = [] /\ x_kind (f_xml f) <> XElem) \/ (x_kind (f_xml f) = XElem /\ xenc ns (field_ns d f, x_name (f_xml f)) (x_omit (f_xml f)) (f_ty f) (snd kv) = Some (snd c) /\
         xty (f_ty f) = true /\ Forall (fun k => xroot k = Some (ns, x_name (f_xml f))) (snd c)))) as HC.
  { intros kv c Hkv Hc. unfold fenc in Hc. destruct (find_field d (fst kv)) as [f|] eqn:Ef; [|discriminate Hc].
    assert (In f (d_fields d) /\ f_name f = fst kv) as [Hf Hn].
    { unfold find_field in Ef. apply find_some in Ef. destruct Ef as [A B]. apply String.eqb_eq in B. auto. }
    exists f. split; [reflexivity|]. split; [exact Hf|]. split; [exact Hn|].
    assert (has_type (snd kv) (f_ty f) = true) as Tv.
    { destruct (typed_lookup fs (d_fields d) (fst kv) f T' Ef) as (v' & Lv & Tv & Iv).
      assert (snd kv = v') as ->; [|exact Tv]. destruct kv as [k0 w0]. cbn [fst snd] in *. exact (nodup_val _ _ _ _ NDf Hkv Iv). }
    split; [exact Tv|]. specialize (XF f Hf). unfold xfield_ok in XF.
    destruct (x_kind (f_xml f)) eqn:EK.
    - right. split; [reflexivity|]. destruct (xenc _ _ _ _ (snd kv)) as [ks|] eqn:Ex; [|discriminate Hc]. cbn [omap] in Hc. injection Hc as <-. cbn [snd].
      split; [reflexivity|]. apply andb_true_iff in XF. destruct XF as [XF XF4]. apply andb_true_iff in XF. destruct XF as [XF _].
      apply andb_true_iff in XF. destruct XF as [XF1 _]. split; [exact XF1|].
      destruct (proj2 (xml_rt (snd kv)) (f_ty f) ns (field_ns d f, x_name (f_xml f)) (x_omit (f_xml f)) XF1 XF4 Tv (times_field fs kv W' Hkv)) as (ks' & K1 & K2 & _).
      rewrite Ex in K1. injection K1 as <-. cbn [fst snd] in K2. rewrite (ns_same d ns parent f M1) in K2. exact K2.
    - left. destruct (xattr f (snd kv)); [|discriminate Hc]. cbn [omap] in Hc. injection Hc as <-. split; [reflexivity|discriminate].
    - exfalso. assert (existsb (of_kind XChar) (d_fields d) = true) as K.
      { apply existsb_exists. exists f. split; [exact Hf|]. unfold of_kind. rewrite EK. reflexivity. }
      rewrite K in MT. discriminate MT.
    - left. injection Hc as <-. split; [reflexivity|discriminate]. }
  assert (forall f, In f (d_fields d) -> x_kind (f_xml f) = XElem -> x_name (f_xml f) = x_name (f_xml g) -> f = g) as HU.
  { intros f Hf Kf E. apply (nodup_inj (fun f => x_name (f_xml f)) (filter (of_kind XElem) (d_fields d)) f g NDX); [| |exact E];
      apply filter_In; (split; [assumption|]); unfold of_kind; [rewrite Kf|rewrite Kg]; reflexivity. }
  (* the contribution of our field *)
  assert (exists c, fenc d ns (f_name g, u) = Some c) as (c & Hc).
  { clear - EO Hu. induction EO as [|kv c fs cs H1 H2 IH]; [destruct Hu|]. destruct Hu as [->|Hu]; [exists c; exact H1|exact (IH Hu)]. }
  destruct (HC _ c Hu Hc) as (f & F1 & F2 & F3 & F4 & F5). cbn [fst snd] in *.
  assert (f = g) as -> by (apply (nodup_inj f_name (d_fields d)); auto; apply names_nodup; exact HDin).
  destruct F5 as [[_ F5]|(_ & F6 & F7 & F8)]; [contradiction|]. exists (snd c). split; [exact F6|]. split; [|auto].
  assert (forall kv c, In kv fs -> fenc d ns kv = Some c -> fst kv <> f_name g -> named (x_name (f_xml g)) (snd c) = []) as HO.
  { intros kv c' V1 V2 NE. destruct (HC kv c' V1 V2) as (f & G1 & G2 & G3 & G4 & G5). destruct G5 as [[G5 _]|(G5 & G6 & G7 & G8)]; [rewrite G5; reflexivity|].
    apply named_none. apply Forall_forall. intros k Hk EQ. rewrite Forall_forall in G8. specialize (G8 k Hk).
    destruct k as [kn kl ka kk|]; [|discriminate G8]. cbn [xroot] in G8. injection G8 as _ G8. cbn [local] in EQ.
    apply NE. rewrite <- G3. f_equal. apply HU; auto. congruence. }
  assert (named (x_name (f_xml g)) (snd c) = snd c) as HN.
  { apply named_all. all: (eapply Forall_impl; [|exact F8]); intros k Hk; (destruct k; [|discriminate Hk]); cbn [xroot] in Hk; injection Hk as _ ->; reflexivity. }
  clear - EO HO HN Hu Hc NDf. induction EO as [|kv c' fs cs H1 H2 IHf]; [destruct Hu|]. cbn [map] in NDf. inversion NDf as [|? ? N1 N2]; subst.
  cbn [map concat]. rewrite named_app. destruct Hu as [->|Hu].
  - rewrite Hc in H1. injection H1 as <-. rewrite HN.
    assert (forall kv' c', In kv' fs -> fenc d ns kv' = Some c' -> named (x_name (f_xml g)) (snd c') = []) as K2.
    { intros kv' c' Hi Hc'. apply (HO kv' c' (or_intror Hi) Hc'). intros E. apply N1. cbn [fst]. rewrite <- E. apply in_map. exact Hi. }
    clear - H2 K2. assert (named (x_name (f_xml g)) (concat (map snd cs)) = []) as ->; [|apply app_nil_r].
    induction H2 as [|kv c' fs cs H1 H2 IHf]; [reflexivity|]. cbn [map concat]. rewrite named_app, (K2 kv c' (or_introl eq_refl) H1).
    apply IHf. intros kv' c'' Hi. apply K2. right. exact Hi.
  - rewrite (HO kv c' (or_introl eq_refl) H1).
    + apply IHf; [exact Hu|exact N2|]. intros kv1 c1 A B C. exact (HO kv1 c1 (or_intror A) B C).
    + intros E. apply N1. rewrite E. change (f_name g) with (fst (f_name g, u)). apply in_map. exact Hu.
Qed.

(** ** Options of the fields against the descriptions *)

(** The field for a part is left out when empty exactly if the part is optional or
    the message is for the central system. *)
Definition option_ok (ns : string) (rq rp : bool) (f : field) : bool :=
  match f_ty f with
  | TTime => true
  | TSlice _ => rp && x_omit (f_xml f) && (negb rq || String.eqb ns "urn://Ocpp/Cs/2012/06/")
  | TPtr _ => negb rp && (negb rq || String.eqb ns "urn://Ocpp/Cs/2012/06/")
  | _ => negb rp && Bool.eqb (x_omit (f_xml f)) (negb rq || String.eqb ns "urn://Ocpp/Cs/2012/06/")
  end.
Fixpoint options (parent ns : string) (w : wtype) (t : gty) {struct w} : bool :=
  match w with
  | WSeq parts =>
    match struct_name t with
    | None => false
    | Some n =>
      match find_decl n with
      | None => false
      | Some d =>
        (fix all (ps : list (string * bool * bool * wtype)) : bool :=
           match ps with
           | [] => true
           | (nm, rq, rp, w') :: r =>
             match find (takes d (ns, nm)) (d_fields d) with
             | None => true
             | Some f => option_ok ns rq rp f && options nm ns w' (match f_ty f with TSlice t' => t' | t' => t' end)
             end && all r
           end) parts
      end
    end
  | _ => true
  end.
Lemma services_options : forallb (fun s => match s with (ns, el, w) =>
    forallb (fun ty => match xmlname ty with Some (ns', el') => if String.eqb ns ns' && String.eqb el el' && negb (String.eqb ty "cpresp.DataTransfer")
      then options el ns w (TStruct ty) else true | None => true end) (map d_name all_decls) end) services = true.
Proof. vm_compute. reflexivity. Qed.

Lemma present_all ns w : forall parent t v inh tag omit x, matches parent ns w t = true -> options parent ns w t = true ->
  has_type v t = true -> wire_times v -> xenc inh tag omit t v = Some [x] -> space x = ns -> local x = parent -> present ns parent w x v.
Proof.
  induction w as [m e| | | |ps IH|attrs] using wtype_ind'; intros parent t v inh tag omit x HM HOp HT HW HX HS HL; try exact I.
  cbn [matches] in HM. destruct (struct_name t) as [n|] eqn:ES; [|discriminate HM].
  destruct (find_decl n) as [d|] eqn:ED; [|discriminate HM]. pose proof (find_decl_in _ _ ED) as [HDin _].
  apply andb_true_iff in HM. destruct HM as [HM M5]. apply andb_true_iff in HM. destruct HM as [HM M6].
  apply andb_true_iff in HM. destruct HM as [HM M4].
  apply andb_true_iff in HM. destruct HM as [HM M3]. apply andb_true_iff in HM. destruct HM as [M1 M2].
  apply negb_true_iff in M2. rewrite existsb_or in M2. apply orb_false_iff in M2. destruct M2 as [MT MA].
  assert (Forall (fun p => part_ok ns parent d p = true) ps) as OK.
  { clear - M5. induction ps as [|[[[nm rq] rp] w] ps IHp]; [constructor|]. apply andb_true_iff in M5. destruct M5 as [A B].
    constructor; [exact A|apply IHp; exact B]. }
  cbn [options] in HOp. rewrite ES, ED in HOp.
  assert (exists fs omit', (v = VStruct fs \/ v = VPtr (VStruct fs)) /\ has_type (VStruct fs) (TStruct n) = true /\ wire_times (VStruct fs) /\
    xenc inh tag omit' (TStruct n) (VStruct fs) = Some [x]) as (fs & omit' & V' & T' & W' & X').
  { destruct t as [| | | | |t| |m]; try discriminate ES.
    - destruct t; try discriminate ES. injection ES as ->. destruct v; try discriminate HT.
      + cbn [xenc] in HX. destruct (omit && _); discriminate HX.
      + destruct v; try discriminate HT. cbn [xenc] in HX. destruct (omit && _); [discriminate HX|]. exists fs, false. auto.
    - injection ES as ->. destruct v; try discriminate HT. exists fs, omit. auto. }
  cbn [present]. exists fs. split; [exact V'|]. clear M5 M6 M4 M3.
  pose proof (struct_named n d fs inh tag omit' x ns parent ED HDin T' W' X' HS M1 MT) as SN.
  pose proof T' as T2. apply has_type_struct in T2. destruct T2 as (d' & ED' & T2). rewrite ED in ED'. injection ED' as <-. change (Forall2 typed fs (d_fields d)) in T2.
  induction ps as [|[[[nm rq] rp] w] ps IHp]; [exact I|].
  inversion IH as [|? ? IH1 IH2]; subst. inversion OK as [|? ? OK1 OK2]; subst. apply andb_true_iff in HOp. destruct HOp as [HO1 HO2].
  split; [|apply IHp; assumption]. clear IHp IH2 OK2 HO2. cbn [snd] in IH1. unfold part_ok in OK1. intros NU.
  destruct (find (takes d (space x, nm)) (d_fields d)) as [f|] eqn:EF; [|rewrite OK1 in NU; discriminate NU].
  apply andb_true_iff in HO1. destruct HO1 as [HO1 HO3]. apply andb_true_iff in OK1. destruct OK1 as [OK1 OM]. apply andb_true_iff in OK1. destruct OK1 as [OK1 _].
  apply andb_true_iff in OK1. destruct OK1 as [_ OK1]. apply String.eqb_eq in OK1.
  pose proof (find_some _ _ EF) as [Hf Tf].
  assert (x_kind (f_xml f) = XElem /\ x_name (f_xml f) = nm) as [Kf Nf].
  { unfold takes in Tf. destruct (x_kind (f_xml f)) eqn:Kg; try discriminate Tf. apply andb_true_iff in Tf. destruct Tf as [Tf _].
    apply String.eqb_eq in Tf. auto. }
  assert (exists u, lookup (f_name f) fs = Some u /\ In (f_name f, u) fs) as (u & Lu & Iu).
  { destruct (typed_lookup fs (d_fields d) (f_name f) f T2) as (u & L1 & _ & L2); [|exists u; auto].
    exact (field_found d f HDin Hf). }
  exists u. rewrite <- OK1. split; [exact Lu|]. destruct (SN f u Hf Kf Iu) as (l & X1 & X2 & Tu & Xt & XR). rewrite Nf in X2, XR. rewrite X2.
  pose proof (times_field fs (f_name f, u) W' Iu) as Wu. cbn [snd] in Wu.
  pose proof (xty_single _ Xt) as SG. unfold option_ok in HO1.
  assert (forall k, In k l -> space k = space x /\ local k = nm) as HK.
  { intros k Hk. rewrite Forall_forall in XR. specialize (XR k Hk). destruct k; [|discriminate XR]. cbn [xroot] in XR. injection XR as -> ->. auto. }
  destruct rp.
  - destruct (f_ty f) as [| | | | | |t'|] eqn:ET; try discriminate OM. cbn [andb] in HO1. apply andb_true_iff in HO1. destruct HO1 as [HO1 HO2]. rewrite HO1 in X1.
    assert (rq = false \/ space x = "urn://Ocpp/Cs/2012/06/") as HR.
    { apply orb_true_iff in HO2. destruct HO2 as [K|K]; [left; destruct rq; [discriminate K|reflexivity]|right; apply String.eqb_eq; exact K]. }
    destruct u; try discriminate Tu.
    + cbn in X1. injection X1 as <-. split; [split; auto|]. intros us E. discriminate E.
    + pose proof (xenc_list _ _ _ _ _ SG Tu Wu X1) as K. split.
      * cbn [left_out]. split.
        -- intros ->. split; [|exact HR]. apply forallb_forall. intros u Hu. destruct (left_out u) eqn:EL; [reflexivity|].
           assert (In u (filter (fun u => negb (left_out u)) l0)) as K3 by (apply filter_In; rewrite EL; auto). destruct (filter _ l0); [destruct K3|inversion K].
        -- intros [K2 _]. rewrite forallb_forall in K2. inversion K as [|k u l1 l2 [Q1 Q2] Q3 Q4 Q5]; [reflexivity|]. exfalso.
           assert (In u (filter (fun u => negb (left_out u)) l0)) as K3 by (rewrite <- Q5; left; reflexivity). apply filter_In in K3.
           rewrite (K2 u Q1) in K3. destruct K3 as [_ K3]. discriminate K3.
      * intros us E. injection E as <-. cbn [has_type] in Tu. rewrite forallb_forall in Tu.
        assert (forall u, In u l0 -> wire_times u) as Wl.
        { intros u Hu. unfold wire_times in *. cbn [times leaves] in Wu. rewrite Forall_forall in *. intros z Hz. apply Wu. apply in_flat_map. exists u. auto. }
        revert K HK. clear X2 X1 XR. generalize (filter (fun u => negb (left_out u)) l0). intros l2 K HK. induction K as [|k u l1 l2 [Q1 Q2] Q3 IHk]; [constructor|].
        constructor; [|apply IHk; intros; apply HK; right; assumption]. destruct (HK k (or_introl eq_refl)) as [HK1 HK2].
        exact (IH1 nm t' u _ _ _ k OM HO3 (Tu u Q1) (Wl u Q1) Q2 HK1 HK2).
  - assert (single (f_ty f) = true) as Sf.
    { destruct (f_ty f) eqn:ET; try exact SG. discriminate HO1. }
    pose proof (xenc_nil _ _ _ _ _ _ Sf Tu Wu X1) as K. split.
    + rewrite K. split; intros [A B]; (split; [exact A|]).
      * destruct (f_ty f) eqn:ET; try discriminate Sf; destruct u; try discriminate Tu; try discriminate A; cbn [negb andb] in HO1;
          try (destruct B as [B|B]; [|discriminate B]; rewrite B in HO1; apply Bool.eqb_prop in HO1; symmetry in HO1);
          (apply orb_true_iff in HO1; destruct HO1 as [K1|K1]; [left; destruct rq; [discriminate K1|reflexivity]|right; apply String.eqb_eq; exact K1]).
      * destruct (f_ty f) eqn:ET; try discriminate Sf; destruct u; try discriminate Tu; try discriminate A; cbn [negb andb] in HO1; try (right; reflexivity);
          left; apply Bool.eqb_prop in HO1; rewrite HO1; (destruct B as [B|B]; rewrite B; [reflexivity|rewrite String.eqb_refl; apply orb_true_r]).
    + intros k ->. destruct (HK k (or_introl eq_refl)) as [HK1 HK2].
      refine (IH1 nm (f_ty f) u _ _ _ k OM _ Tu Wu X1 HK1 HK2). destruct (f_ty f); try exact HO3. discriminate Sf.
Qed.
