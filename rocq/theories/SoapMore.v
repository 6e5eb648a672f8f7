(** Sent envelopes as they are read, and the two ends of a SOAP exchange. *)
From Verif Require Import GoBase Utf8 Json Float64 GoTime Lang Types Codec EncProofs Tables Registry
  SpecCodec SpecEnc RoundTrip DecTyped Xml XmlProofs XmlTyped Soap SpecSoap SoapProofs.
Open Scope string_scope.
Open Scope list_scope.

(** ** Values that arrive unchanged *)

Lemma xnorm_id v : forall t, has_type v t = true -> xml_faithful v = true -> xnorm t v = v.
Proof.
  induction v as [s|z|x|b|x| |v IH|l IH|fs IH] using gval_ind'; intros t HT HF.
  - cbn [xml_faithful] in HF. apply String.eqb_eq in HF. destruct t; try discriminate HT. cbn [xnorm]. rewrite HF. reflexivity.
  - destruct t; reflexivity.
  - destruct t; reflexivity.
  - destruct t; reflexivity.
  - destruct t; reflexivity.
  - destruct t; reflexivity.
  - destruct t; try discriminate HT. cbn [xnorm has_type xml_faithful] in *. rewrite (IH t HT HF). reflexivity.
  - destruct t; try discriminate HT. rewrite xnorm_slice. cbn [has_type xml_faithful] in *.
    apply andb_true_iff in HF. destruct HF as [HN HF].
    assert (flat_map (fun x => if sent_element x then [xnorm t x] else []) l = l) as E.
    { clear HN. induction IH as [|x l IHx _ IHl]; [reflexivity|]. cbn [forallb] in HT, HF. apply andb_true_iff in HT. destruct HT as [T1 T2].
      apply andb_true_iff in HF. destruct HF as [F1 F2]. apply andb_true_iff in F1. destruct F1 as [F0 F1].
      cbn [flat_map]. rewrite F0, (IHx t T1 F1), (IHl T2 F2). reflexivity. }
    rewrite E. destruct l; [discriminate HN|reflexivity].
  - destruct t as [| | | | | | |n]; try discriminate HT.
    destruct (has_type_struct fs n HT) as (d & HD & HF2). destruct (find_decl_in n d HD) as [HI HDn].
    cbn [xnorm]. rewrite HD. f_equal. cbn [xml_faithful] in HF.
    assert (forall l ds, Forall2 (fun kv f => fst kv = f_name f /\ has_type (snd kv) (f_ty f) = true) l ds -> incl ds (d_fields d) ->
      Forall (fun kv => forall t, has_type (snd kv) t = true -> xml_faithful (snd kv) = true -> xnorm t (snd kv) = snd kv) l ->
      forallb (fun kv => xml_faithful (snd kv) && (if String.eqb (fst kv) "Phase" then match snd kv with VStr s => String.eqb s "" | _ => true end else true)) l = true ->
      map (fun kv => match find_field d (fst kv) with
        | Some f => (fst kv, if not_sent n (fst kv) then VStr ""
                             else if optional_number n (fst kv) && fzero (snd kv) then VF64 (FFin false 0 (-1074))
                             else xnorm (f_ty f) (snd kv))
        | None => kv end) l = l) as K; [|exact (K fs (d_fields d) HF2 (incl_refl _) IH HF)].
    clear HF IH HT HF2. intros l ds H2. induction H2 as [|[k x] f l ds [E1 E2] _ IHl]; intros HL HA HF; [reflexivity|].
    cbn [fst snd] in *. subst k. inversion HA as [|? ? A1 A2]; subst. cbn [fst snd] in *. cbn [forallb fst snd] in HF.
    apply andb_true_iff in HF. destruct HF as [F1 F2]. apply andb_true_iff in F1. destruct F1 as [F0 F1].
    cbn [map fst snd]. rewrite (IHl (fun g Hg => HL g (or_intror Hg)) A2 F2).
    assert (In f (d_fields d)) as Hf by (apply HL; left; reflexivity).
    rewrite (field_found d f HI Hf). f_equal. f_equal.
    destruct (not_sent (d_name d) (f_name f)) eqn:EN.
    + unfold not_sent in EN. apply andb_true_iff in EN. destruct EN as [EN EP]. rewrite EP in F1.
      assert (f_ty f = TStr) as ET.
      { clear - EN EP HI Hf. apply String.eqb_eq in EN. apply String.eqb_eq in EP.
        assert (forallb (fun d => negb (String.eqb (d_name d) "cpreq.SampledValue") || forallb (fun f => negb (String.eqb (f_name f) "Phase") ||
           match f_ty f with TStr => true | _ => false end) (d_fields d)) all_decls = true) as K by (vm_compute; reflexivity).
        rewrite forallb_forall in K. specialize (K d HI). rewrite EN in K. cbn in K. rewrite forallb_forall in K. specialize (K f Hf).
        rewrite EP in K. cbn in K. destruct (f_ty f); try discriminate K. reflexivity. }
      rewrite ET in E2. destruct x; try discriminate E2. apply String.eqb_eq in F1. subst. reflexivity.
    + destruct (optional_number (d_name d) (f_name f) && fzero x) eqn:EO; [|exact (A1 _ E2 F0)].
      apply andb_true_iff in EO. destruct EO as [_ EZ]. destruct x as [| |y| | | | | |]; try discriminate EZ. destruct y as [s m e| |]; try discriminate EZ.
      cbn [fzero] in EZ. apply Z.eqb_eq in EZ. subst m. cbn [xml_faithful] in F0. destruct s; [discriminate F0|].
      destruct (f_ty f); try discriminate E2. cbn [has_type canon] in E2.
      assert (e = -1074)%Z as ->; [|reflexivity]. cbn in E2. rewrite ?andb_false_r, ?andb_true_r in E2. cbn in E2. apply Z.eqb_eq in E2. exact E2.
Qed.

(** ** Sent messages *)

Lemma struct_value m : msg_ok m = true -> m_val m <> VNil.
Proof. unfold msg_ok. destruct m as [t v]; cbn [m_val m_ty]. intros H E. subst v. discriminate H. Qed.

Lemma content_rt m nm ns : element_of nm ns (m_ty m) -> msg_ok m = true -> wire_times (m_val m) ->
  exists x, content m = Some [x] /\ local x = nm /\ space x = ns /\ is_element x = true /\
    xdec x (TStruct (m_ty m)) (zero (TStruct (m_ty m))) = Some (xnorm (TStruct (m_ty m)) (m_val m)).
Proof.
  intros HE HM HW. pose proof (type_names _ _ _ HE) as HX.
  destruct (proj1 (xml_rt (m_val m)) (TStruct (m_ty m)) "" ("", "Content") eq_refl (struct_value m HM) HM HW) as (x & E1 & E2 & E3).
  exists x. assert (content m = Some [x]) as -> by (exact (E1 false eq_refl)).
  unfold xmlname in HX. cbn [elname] in E2. destruct (find_decl (m_ty m)) as [d|]; [|discriminate HX]. rewrite HX in E2.
  destruct x as [n l a ks|]; [|discriminate E2]. cbn [xroot fst snd] in E2. injection E2 as -> ->.
  split; [reflexivity|]. split; [reflexivity|]. cbn [space is_element].
  assert (inherit "" ns = ns) as EI by (unfold inherit; destruct (String.eqb_spec ns ""); congruence).
  rewrite EI in E3. rewrite EI.
  split; [reflexivity|]. split; [reflexivity|]. apply E3. reflexivity.
Qed.

(** Any message can be encoded; its element has the name of the type. *)
Lemma content_any m : msg_ok m = true -> wire_times (m_val m) -> xmlname (m_ty m) <> None ->
  exists x, content m = Some [x] /\ is_element x = true /\ omap snd (xmlname (m_ty m)) = Some (local x).
Proof.
  intros HM HW HX.
  destruct (proj1 (xml_rt (m_val m)) (TStruct (m_ty m)) "" ("", "Content") eq_refl (struct_value m HM) HM HW) as (x & E1 & E2 & _).
  exists x. split; [exact (E1 false eq_refl)|]. unfold xmlname in *. cbn [elname] in E2. destruct (find_decl (m_ty m)) as [d|]; [|contradiction].
  destruct (d_xml d) as [[ns nm]|]; [|contradiction]. destruct x as [n l a ks|]; [|discriminate E2].
  cbn [xroot fst snd] in E2. injection E2 as -> ->. auto.
Qed.

Lemma v15_names ty : v15 ty = true -> exists nm ns, element_of nm ns ty.
Proof.
  unfold v15. intros H. apply orb_true_iff in H. destruct H as [H|H]; apply existsb_exists in H; destruct H as (a & HI & H);
    apply orb_true_iff in H; destruct H as [H|H]; apply String.eqb_eq in H; subst ty; do 2 eexists; [apply ByCPReq|apply ByCPResp|apply ByCSReq|apply ByCSResp]; exact HI.
Qed.

(** Fault text as read. *)
Definition read_fault (reason : string) : string := fault_text (children (fault reason)).
Lemma fault_lost reason : read_fault reason = "".
Proof. unfold read_fault, fault. destruct (String.eqb reason ""); reflexivity. Qed.

Lemma body_one ns0 x : is_element x = true -> body_elements (XE soap_ns "Envelope" [] [XE ns0 "Body" [] [x]]) = [x].
Proof. intros H. unfold body_elements. cbn. rewrite H. reflexivity. Qed.

(** Reading a reply written by this library. *)
Lemma read_reply m err x : msg_ok m = true -> wire_times (m_val m) -> v15 (m_ty m) = true -> charge_point_transfer (m_ty m) = false ->
  marshal_reply (Some m) err = Some x ->
  dec_envelope (Some x) = Some (MkE None (Some (MkMsg (m_ty m) (xnorm (TStruct (m_ty m)) (m_val m)))) (omap (fun _ => "") err)).
Proof.
  intros HM HW HV HT. destruct (v15_names _ HV) as (nm & ns & HE). destruct (content_rt m nm ns HE HM HW) as (c & E1 & E2 & E3 & E4 & E5).
  unfold marshal_reply. rewrite E1. intros H. injection H as <-.
  assert (lookup (local c) soap_names = Some (m_ty m)) as HL by (apply table_names; exists ns; rewrite E2; auto).
  assert (is_fault c = false) as HNF.
  { unfold is_fault. destruct (String.eqb_spec (local c) "Fault") as [E|]; [|reflexivity]. rewrite E in HL. vm_compute in HL. discriminate HL. }
  assert (reads c (MkMsg (m_ty m) (xnorm (TStruct (m_ty m)) (m_val m)))) as HR by (split; [exact HL|exact E5]).
  apply dec_envelope_run. split; [reflexivity|]. unfold body_elements, stated_identity. cbn [children named filter is_element local andb String.eqb].
  cbn. rewrite E4. destruct err as [e|]; cbn.
  - apply (BMsg _ _ _ _ _ HNF HR). apply BFault; [reflexivity|]. cbn [e_header e_content e_fault omap].
    change (Some (fault_text _)) with (Some (read_fault e)). rewrite fault_lost. constructor.
  - apply (BMsg _ _ _ _ _ HNF HR). constructor.
Qed.

Lemma read_bare err x : marshal_reply None err = Some x -> dec_envelope (Some x) = Some (MkE None None (omap (fun _ => "") err)).
Proof.
  intros H. injection H as <-. apply dec_envelope_run. split; [reflexivity|]. destruct err as [e|]; cbn; [|constructor].
  apply BFault; [reflexivity|]. change (Some (fault_text _)) with (Some (read_fault e)). rewrite fault_lost. constructor.
Qed.

Lemma text_clean s : text_of (xtext (xml_clean s)) = xml_clean s.
Proof. apply text_xtext. Qed.

(** Reading a request sent by this library. *)
Lemma read_request url a mid from id m x : msg_ok m = true -> wire_times (m_val m) -> v15 (m_ty m) = true -> charge_point_transfer (m_ty m) = false ->
  request_envelope url a mid from id m = Some x ->
  dec_envelope (Some x) = Some (MkE (Some (xml_clean id)) (Some (MkMsg (m_ty m) (xnorm (TStruct (m_ty m)) (m_val m)))) None).
Proof.
  intros HM HW HV HT. destruct (v15_names _ HV) as (nm & ns & HE). destruct (content_rt m nm ns HE HM HW) as (c & E1 & E2 & E3 & E4 & E5).
  unfold request_envelope. rewrite E1. intros H. injection H as <-.
  assert (lookup (local c) soap_names = Some (m_ty m)) as HL by (apply table_names; exists ns; rewrite E2; auto).
  assert (is_fault c = false) as HNF.
  { unfold is_fault. destruct (String.eqb_spec (local c) "Fault") as [E|]; [|reflexivity]. rewrite E in HL. vm_compute in HL. discriminate HL. }
  assert (reads c (MkMsg (m_ty m) (xnorm (TStruct (m_ty m)) (m_val m)))) as HR by (split; [exact HL|exact E5]).
  apply dec_envelope_run. split; [reflexivity|].
  assert (forall d, stated_identity d = Some (xml_clean id) -> body_elements d = [c] -> body_run (body_elements d) (MkE (stated_identity d) None None)
    (MkE (Some (xml_clean id)) (Some (MkMsg (m_ty m) (xnorm (TStruct (m_ty m)) (m_val m)))) None)) as K.
  { intros d -> ->. apply (BMsg _ _ _ _ _ HNF HR). constructor. }
  apply K.
  - unfold stated_identity, leaf. cbn. change (fold_right _ "" (xtext (xml_clean id))) with (text_of (xtext (xml_clean id))).
    rewrite text_clean. reflexivity.
  - unfold body_elements. cbn. rewrite E4. reflexivity.
Qed.

(** Envelopes of other messages are rejected. *)
Lemma body_rejected doc c : local doc = "Envelope" -> body_elements doc = [c] -> is_fault c = false -> (forall m, ~ reads c m) ->
  dec_envelope (Some doc) = None.
Proof.
  intros HL HB HF HR. destruct (dec_envelope (Some doc)) as [e|] eqn:E; [|reflexivity]. exfalso.
  apply dec_envelope_run in E. destruct E as [_ E]. rewrite HB in E.
  destruct (body_run_each _ _ _ E c (or_introl eq_refl)) as [K|[m K]]; [congruence|exact (HR m K)].
Qed.
