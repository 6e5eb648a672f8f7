(** Property theorems C68, C69: the SOAP messages and the service descriptions of
    OCPP 1.5. *)
From Verif Require Import GoBase Utf8 Json Float64 GoTime Lang Types Codec EncProofs Tables Registry Leaves
  SpecCodec SpecEnc SpecSchema RoundTrip DecTyped Xml XmlProofs XmlTyped Soap SpecSoap SoapProofs SoapMore
  XmlWritten PropsSoap PropsSoapWire Wsdl SpecWsdl WsdlRead WsdlSound WsdlPresent.
Open Scope string_scope.
Open Scope list_scope.

(** *** C68: described messages are understood *)

(** The elements of the service descriptions are those of the Go types. *)
Theorem C68_covered : forall ns el, (exists w, In (ns, el, w) services) <-> exists ty, element_of el ns ty.
Proof.
  intros ns el. split.
  - intros [w HI].
    assert (forallb (fun s : string * string * wtype =>
       (String.eqb (fst (fst s)) "urn://Ocpp/Cs/2012/06/" &&
        existsb (fun a => String.eqb (snd (fst s)) (decap a +++ "Request") || String.eqb (snd (fst s)) (decap a +++ "Response")) from_charge_point) ||
       (String.eqb (fst (fst s)) "urn://Ocpp/Cp/2012/06/" &&
        existsb (fun a => String.eqb (snd (fst s)) (decap a +++ "Request") || String.eqb (snd (fst s)) (decap a +++ "Response")) from_central_system))
       services = true) as K by (vm_compute; reflexivity).
    rewrite forallb_forall in K. specialize (K _ HI). cbn [fst snd] in K. apply orb_true_iff in K.
    destruct K as [K|K]; apply andb_true_iff in K; destruct K as [K1 K]; apply String.eqb_eq in K1; apply existsb_exists in K;
      destruct K as (a & Ha & K); apply orb_true_iff in K; destruct K as [K|K]; apply String.eqb_eq in K; rewrite K1, K; eexists.
    + exact (ByCPReq a Ha).
    + exact (ByCPResp a Ha).
    + exact (ByCSReq a Ha).
    + exact (ByCSResp a Ha).
  - intros [ty HE].
    assert (existsb (fun s => String.eqb ns (fst (fst s)) && String.eqb el (snd (fst s))) services = true) as K.
    { assert (forall f, forallb f from_charge_point = true -> forall a, In a from_charge_point -> f a = true) as F1 by (intros f H; apply forallb_forall; exact H).
      assert (forall f, forallb f from_central_system = true -> forall a, In a from_central_system -> f a = true) as F2 by (intros f H; apply forallb_forall; exact H).
      destruct HE as [a HA|a HA|a HA|a HA]; revert a HA; [apply F1|apply F1|apply F2|apply F2]; vm_compute; reflexivity. }
    apply existsb_exists in K. destruct K as ([[ns' el'] w] & HI & HB). cbn [fst snd] in HB. apply andb_true_iff in HB. destruct HB as [H1 H2].
    apply String.eqb_eq in H1, H2. subst. exists w. exact HI.
Qed.

Lemma not_transfer ty : charge_point_transfer ty = false -> ty <> "cpresp.DataTransfer".
Proof. intros H ->. discriminate H. Qed.
(** A body element as its service description says, not of a charge point's data
    transfer: it holds a message, of the type that the library has for that element,
    and the value says what the element says. *)
Theorem C68_read : forall ns el w ty x, In (ns, el, w) services -> element_of el ns ty -> charge_point_transfer ty = false ->
  is_element x = true -> local x = el -> space x = ns -> described ns w x ->
  exists v, holds x (MkMsg ty v) /\ agrees el w x v.
Proof.
  intros ns el w ty x HI HEl HC HE HL HS HD.
  destruct (services_read ns el w ty x HI HEl (not_transfer _ HC) HE HL HS (services_recognisable _ _ _ _ _ HI HD)) as (v & H1 & H2).
  exists v. split; [|exact H2]. split; [cbn [m_ty]; rewrite HL, HS; exact HEl|]. split; [exact HC|exact H1].
Qed.
(** Also if the child elements come in another order, required ones are missing or
    unknown ones are there, except for the names this library adds. *)
Theorem C68_any_order : forall ns el w ty x, In (ns, el, w) services -> element_of el ns ty -> charge_point_transfer ty = false ->
  is_element x = true -> local x = el -> space x = ns -> recognisable no_extension ns w x ->
  exists v, holds x (MkMsg ty v) /\ agrees el w x v.
Proof.
  intros ns el w ty x HI HEl HC HE HL HS HD.
  destruct (services_read ns el w ty x HI HEl (not_transfer _ HC) HE HL HS HD) as (v & H1 & H2).
  exists v. split; [|exact H2]. split; [cbn [m_ty]; rewrite HL, HS; exact HEl|]. split; [exact HC|exact H1].
Qed.
(** Whenever such an element is accepted, the message says what the element says. *)
Theorem C68_agrees : forall ns el w x m, In (ns, el, w) services -> is_element x = true -> local x = el -> space x = ns ->
  recognisable anything ns w x -> holds x m -> agrees el w x (m_val m).
Proof.
  intros ns el w x m HI HE HL HS HD (H1 & H2 & H3). rewrite HL, HS in H1.
  exact (services_sound ns el w (m_ty m) x (m_val m) HI H1 (not_transfer _ H2) HE HL HS HD H3).
Qed.
(** So a request of the service descriptions, in an envelope with an identity,
    reaches the handler with what it says. *)
Theorem C68_delivered : forall app dir serve ns el w ty doc x id, server app dir serve ->
  In (ns, el, w) services -> element_of el ns ty -> charge_point_transfer ty = false -> dir ty = true ->
  local doc = "Envelope" -> body_elements doc = [x] -> stated_identity doc = Some id ->
  local x = el -> space x = ns -> described ns w x ->
  exists v, agrees el w x v /\ o_calls (serve (Some doc)) = [(MkMsg ty v, id)].
Proof.
  intros app dir serve ns el w ty doc x id HSv HI HEl HC HDir HL0 HB HId HL HS HD.
  assert (is_element x = true) as HE.
  { assert (el <> "") as N by (destruct HEl as [a Ha|a Ha|a Ha|a Ha]; destruct (decap a); discriminate).
    destruct x; [reflexivity|]. contradiction N. rewrite <- HL. reflexivity. }
  destruct (C68_read ns el w ty x HI HEl HC HE HL HS HD) as (v & HH & HA). exists v. split; [exact HA|].
  destruct (proj2 (C50_accepted doc)) as [e HDe].
  { split; [exact HL0|]. rewrite HB. intros k [<-|[]]. right. eauto. }
  assert (e_content e = Some (MkMsg ty v)) as EC.
  { pose proof (C50_last_wins doc e HDe) as K. destruct (e_content e) as [m|].
    - destruct K as (a & k & b & K1 & K2 & K3 & K4). rewrite HB in K1. destruct a as [|? a]; [|destruct a; discriminate K1].
      injection K1 as <- <-. apply holds_reads in K3. apply holds_reads in HH. rewrite (reads_fun _ _ _ K3 HH). reflexivity.
    - exfalso. specialize (K x). rewrite HB in K. specialize (K (or_introl eq_refl)). destruct HH as (HH & _). rewrite K in HH.
      assert (lookup "Fault" soap_names = Some ty) as L by (apply table_names; eauto). vm_compute in L. discriminate L. }
  pose proof (C53_reached app dir serve doc e (MkMsg ty v) HSv HDe EC HDir) as K. rewrite HId in K. exact (proj1 K).
Qed.

(** What of the descriptions is lost.  A field whose element does not occur stays as it was. *)
Lemma untouched x n d f v : find_decl n = Some d -> is_element x = true -> In f (d_fields d) -> x_kind (f_xml f) = XElem ->
  existsb (of_kind XAttr) (d_fields d) = false -> existsb (of_kind XChar) (d_fields d) = false ->
  Forall (fun k => local k <> x_name (f_xml f)) (elements (children x)) ->
  xdec x (TStruct n) (zero (TStruct n)) = Some v -> exists fs, v = VStruct fs /\ lookup (f_name f) fs = Some (zero0 (f_ty f)).
Proof.
  intros HD HE HF HK NA NC HN HX. rewrite (xdec_struct x n d HD HE) in HX. destruct (xname_ok d _); [|discriminate HX].
  rewrite no_attrs, slots_elements in HX by exact NA. destruct (find_decl_in _ _ HD) as [HDin _].
  destruct (take_kids d (slots (elements (children x))) _) as [fs|] eqn:EK; [|discriminate HX]. cbn [omap] in HX.
  rewrite no_text in HX by exact NC. injection HX as <-. exists fs. split; [reflexivity|].
  destruct (take_kids_sound d HDin _ _ _ (elements_all _) EK f _ HF (zero_fields d f HDin HF)) as (u & U1 & U2).
  assert (filter (taker d f) (elements (children x)) = []) as E.
  { revert HN. generalize (elements (children x)). induction 1 as [|k l K F IH]; [reflexivity|]. cbn [filter].
    rewrite taker_false; [exact IH|exact HDin|exact HF|]. intros _. exact K. }
  rewrite E in U2. cbn [feed] in U2. rewrite U1. symmetry. exact U2.
Qed.
Lemma names_of ns ps x : described ns (WSeq ps) x -> forall nm, existsb (String.eqb nm) (map (fun p => fst (fst (fst p))) ps) = false ->
  Forall (fun k => local k <> nm) (elements (children x)).
Proof.
  intros HD nm HN. apply described_seq in HD. apply seq_names in HD. eapply Forall_impl; [|exact HD].
  intros k HI E. cbv beta in HI. rewrite E in HI. assert (existsb (String.eqb nm) (map (fun p => fst (fst (fst p))) ps) = true) as K; [|rewrite K in HN; discriminate HN].
  apply existsb_exists. exists nm. split; [exact HI|apply String.eqb_refl].
Qed.
(** The authorisation list of a SendLocalList request that is as described: always lost. *)
Theorem C68_local_list_refuted : forall x m, described ns_charge_point w_cp_sendLocalListRequest x -> local x = "sendLocalListRequest" ->
  holds x m -> exists fs, m_val m = VStruct fs /\ lookup "LocalAuthorizationList" fs = Some VNil.
Proof.
  intros x m HD HL (H1 & H2 & H3).
  assert (is_element x = true) as HE by (destruct x; [reflexivity|discriminate HL]).
  assert (m_ty m = "csreq.SendLocalList") as ET.
  { assert (lookup "sendLocalListRequest" soap_names = Some (m_ty m)) as L by (apply table_names; rewrite HL in H1; exists (space x); split; assumption).
    vm_compute in L. injection L as L. symmetry. exact L. }
  rewrite ET in H3.
  refine (untouched x "csreq.SendLocalList" d_csreq_SendLocalList
    (MkF "LocalAuthorizationList" (TSlice (TPtr (TStruct "csreq.LocalAuthorizationListItems"))) "localAuthorizationList" true (MkX XElem "localAuthorizationList" true))
    _ eq_refl HE _ eq_refl eq_refl eq_refl _ H3).
  - right. left. reflexivity.
  - exact (names_of _ _ _ HD "localAuthorizationList" eq_refl).
Qed.
(** The meter readings of a StopTransaction request that is as described: each
    becomes a reading without values at the zero time. *)
Theorem C68_readings_refuted : forall x m, described "urn://Ocpp/Cs/2012/06/" w_cs_stopTransactionRequest x -> local x = "stopTransactionRequest" ->
  space x = "urn://Ocpp/Cs/2012/06/" ->
  holds x m -> exists fs, m_val m = VStruct fs /\
    lookup "TransactionData" fs = Some (match named "transactionData" (children x) with
      | [] => VNil
      | l => VSlice (map (fun _ => VPtr (VStruct [("SampledValues", VNil); ("Timestamp", VTime time_zero)])) l)
      end).
Proof.
  intros x m HD HL HS (H1 & H2 & H3).
  assert (is_element x = true) as HE by (destruct x; [reflexivity|discriminate HL]).
  assert (m_ty m = "cpreq.StopTransaction") as ET.
  { assert (lookup "stopTransactionRequest" soap_names = Some (m_ty m)) as L by (apply table_names; rewrite HL in H1; exists (space x); split; assumption).
    vm_compute in L. injection L as L. symmetry. exact L. }
  rewrite ET in H3. set (d := d_cpreq_StopTransaction).
  assert (find_decl "cpreq.StopTransaction" = Some d) as HDc by reflexivity. destruct (find_decl_in _ _ HDc) as [HDin _].
  rewrite (xdec_struct x _ d HDc HE), HS, HL in H3. change (xname_ok d _) with true in H3. cbv iota in H3.
  rewrite no_attrs, slots_elements in H3 by reflexivity.
  destruct (take_kids d (slots (elements (children x))) _) as [fs|] eqn:EK; [|discriminate H3]. cbn [omap] in H3.
  rewrite no_text in H3 by reflexivity. injection H3 as H3. exists fs. split; [symmetry; exact H3|].
  set (f := MkF "TransactionData" (TSlice (TPtr (TStruct "cpreq.TransactionDataItems"))) "transactionData" true (MkX XElem "transactionData" true)).
  assert (In f (d_fields d)) as HF by (do 4 right; left; reflexivity).
  destruct (take_kids_sound d HDin _ _ _ (elements_all _) EK f _ HF (zero_fields d f HDin HF)) as (u & U1 & U2).
  change (f_name f) with "TransactionData" in U1. rewrite U1. f_equal.
  pose proof (services_recognisable anything "urn://Ocpp/Cs/2012/06/" "stopTransactionRequest" w_cs_stopTransactionRequest x ltac:(unfold services; do 4 right; left; reflexivity) HD) as HR.
  apply recognisable_seq in HR. destruct HR as [HR _].
  assert (forall k, In k (named "transactionData" (children x)) -> is_element k = true /\ local k = "transactionData" /\ space k = "urn://Ocpp/Cs/2012/06/" /\
    Forall (fun j => local j <> "sampledValue") (elements (children k)) /\ Forall (fun j => local j <> "timestamp") (elements (children k))) as HK.
  { intros k Hk. pose proof Hk as Hk0. apply filter_In in Hk. destruct Hk as [Hk1 Hk]. apply andb_true_iff in Hk. destruct Hk as [K1 K2]. apply String.eqb_eq in K2.
    split; [exact K1|]. split; [exact K2|].
    assert (exists ps, space k = "urn://Ocpp/Cs/2012/06/" /\ described "urn://Ocpp/Cs/2012/06/" (WSeq [("values", false, true, WSeq ps)]) k) as (ps & HKs & HDk).
    { apply described_seq in HD. cbn [in_seq] in HD.
      destruct HD as (r1 & l1 & E1 & F1 & _ & _ & r2 & l2 & E2 & F2 & _ & _ & r3 & l3 & E3 & F3 & _ & _ & r4 & l4 & E4 & F4 & _ & _ & r5 & l5 & E5 & F5 & _ & _ & E6).
      subst. assert (In k (elements (children x))) as HIn by (apply filter_In; split; [exact Hk1|exact K1]). rewrite E1 in HIn.
      assert (forall nm (r : list xml) w, Forall (fun k => space k = "urn://Ocpp/Cs/2012/06/" /\ local k = nm /\ described "urn://Ocpp/Cs/2012/06/" w k) r -> nm <> "transactionData" -> In k r -> False) as NO.
      { intros nm r w F N I'. rewrite Forall_forall in F. destruct (F k I') as (_ & E & _). congruence. }
      apply in_app_or in HIn; destruct HIn as [HIn|HIn]; [exfalso; exact (NO _ _ _ F1 ltac:(discriminate) HIn)|].
      apply in_app_or in HIn; destruct HIn as [HIn|HIn]; [exfalso; exact (NO _ _ _ F2 ltac:(discriminate) HIn)|].
      apply in_app_or in HIn; destruct HIn as [HIn|HIn]; [exfalso; exact (NO _ _ _ F3 ltac:(discriminate) HIn)|].
      apply in_app_or in HIn; destruct HIn as [HIn|HIn]; [exfalso; exact (NO _ _ _ F4 ltac:(discriminate) HIn)|].
      rewrite app_nil_r in HIn.
      rewrite Forall_forall in F5. destruct (F5 k HIn) as (A & _ & B). eexists. split; [exact A|exact B]. }
    split; [exact HKs|]. split; [exact (names_of _ _ _ HDk "sampledValue" eq_refl)|exact (names_of _ _ _ HDk "timestamp" eq_refl)]. }
  assert (filter (taker d f) (elements (children x)) = named "transactionData" (children x)) as HN.
  { rewrite (named_elements _ (children x)). unfold named. apply filter_ext_in. intros k Hk.
    pose proof (elements_all (children x)) as EA. rewrite Forall_forall in EA. rewrite (EA k Hk). cbn [andb].
    destruct (String.eqb_spec (local k) "transactionData") as [EQ|NE].
    - destruct (HK k) as (_ & _ & HS1 & _).
      { rewrite named_elements. apply filter_In. split; [exact Hk|]. rewrite (EA k Hk), EQ. reflexivity. }
      unfold taker. rewrite HS1, EQ. reflexivity.
    - apply taker_false; [exact HDin|exact HF|]. intros _. exact NE. }
  rewrite HN in U2. clear HN HR EK HD. revert HK U2. generalize (named "transactionData" (children x)). intros l HK U2.
  destruct l as [|k run]; [cbn [feed] in U2; injection U2 as <-; reflexivity|].
  assert (Forall (fun k => is_element k = true) (k :: run)) as HE1 by (apply Forall_forall; intros a Ha; apply HK; exact Ha).
  change (zero0 (f_ty f)) with VNil in U2. change (f_ty f) with (TSlice (TPtr (TStruct "cpreq.TransactionDataItems"))) in U2.
  rewrite feed_slice_nil in U2 by (inversion HE1; assumption).
  destruct (feed_slice_sound _ _ _ _ HE1 U2) as (us & -> & UF). f_equal. change ([] ++ us) with us.
  revert HK UF. generalize (k :: run). intros l HK UF. clear - HK UF. induction UF as [|k u l us HX UF IH]; [reflexivity|].
  cbn [map]. f_equal; [|apply IH; intros a Ha; apply HK; right; exact Ha].
  destruct (HK k (or_introl eq_refl)) as (A & B & C & D & E).
  change (zero (TPtr (TStruct "cpreq.TransactionDataItems"))) with VNil in HX.
  rewrite xdec_ptr in HX by (rewrite elem_root by exact A; discriminate).
  destruct (xdec k (TStruct "cpreq.TransactionDataItems") (zero (TStruct "cpreq.TransactionDataItems"))) as [w|] eqn:EX; [|discriminate HX].
  cbn [omap] in HX. injection HX as <-. f_equal.
  set (n := "cpreq.TransactionDataItems") in EX. set (dd := d_cpreq_TransactionDataItems). assert (find_decl n = Some dd) as HDD by reflexivity.
  pose proof EX as EX2. rewrite (xdec_struct k n dd HDD A) in EX2.
  destruct (xname_ok dd _); [|discriminate EX2]. rewrite no_attrs, slots_elements in EX2 by reflexivity.
  assert (forall j f0, In j (elements (children k)) -> In f0 (d_fields dd) -> takes dd (space j, local j) f0 = false) as NT.
  { intros j f0 Hj Hf0. rewrite Forall_forall in D, E. specialize (D j Hj). specialize (E j Hj).
    apply String.eqb_neq in D. apply String.eqb_neq in E. unfold takes. rewrite String.eqb_sym in D. rewrite String.eqb_sym in E.
    destruct Hf0 as [<-|[<-|[]]]; cbn [f_xml x_kind x_name snd]; [rewrite D|rewrite E]; reflexivity. }
  assert (forall js fs0, (forall j f0, In j js -> In f0 (d_fields dd) -> takes dd (space j, local j) f0 = false) -> take_kids dd (slots js) fs0 = Some fs0) as TK.
  { clear. induction js as [|j js IH]; intros fs0 H; [reflexivity|]. unfold slots in *. cbn [flat_map].
    destruct j as [n0 l a kk|s]; [|apply IH; intros; apply H; [right|]; assumption].
    cbn [app take_kids]. assert (find (takes dd (n0, l)) (d_fields dd) = None) as ->.
    { destruct (find _ _) as [g|] eqn:EF; [|reflexivity]. apply find_some in EF. destruct EF as [G1 G2]. pose proof (H (XE n0 l a kk) g (or_introl eq_refl) G1) as G3. cbn [space local] in G3. rewrite G3 in G2. discriminate G2. }
    apply IH. intros; apply H; [right|]; assumption. }
  rewrite (TK _ _ NT) in EX2. cbn [omap] in EX2. rewrite no_text in EX2 by reflexivity. injection EX2 as <-. reflexivity.
Qed.
(** A time that is not of RFC 3339 (XML Schema also allows times without zone, and
    white space around) makes the whole document fail. *)
Lemma feed_each t ks : forall cur v k, feed t ks cur = Some v -> In k ks -> exists c u, xdec k t c = Some u.
Proof.
  induction ks as [|k0 ks IH]; intros cur v k HF HI; [destruct HI|]. cbn [feed] in HF. destruct (xdec k0 t cur) as [u|] eqn:E; [|discriminate HF].
  destruct HI as [->|HI]; [eauto|exact (IH u v k HF HI)].
Qed.
Theorem C68_time_rejected : forall ns el ps nm rq x k, In (ns, el, WSeq ps) services -> In (nm, rq, false, WTime) ps ->
  local x = el -> space x = ns -> In k (children x) -> local k = nm -> space k = ns -> unread el nm = false ->
  parse_rfc3339 (chars k) = None -> forall m, ~ holds x m.
Proof.
  intros ns el ps nm rq x k HI HP HL HS HK HKL HKS HU HN m (H1 & H2 & H3). rewrite HL, HS in H1. pose proof (proj2 (String.eqb_neq _ _) (not_transfer _ H2)) as HC'.
  pose proof services_match as M. rewrite forallb_forall in M. specialize (M _ HI). cbv beta iota in M.
  pose proof (type_names _ _ _ H1) as HT.
  assert (el <> "") as NE by (clear - H1; destruct H1 as [a Ha|a Ha|a Ha|a Ha]; destruct (decap a); discriminate).
  assert (is_element x = true) as HE by (destruct x; [reflexivity|contradiction NE; rewrite <- HL; reflexivity]).
  assert (exists d, find_decl (m_ty m) = Some d) as [d ED] by (unfold xmlname in HT; destruct (find_decl (m_ty m)) as [d|]; [eauto|discriminate HT]).
  destruct (find_decl_in _ _ ED) as [HDin HDn].
  rewrite forallb_forall in M. specialize (M (m_ty m) ltac:(rewrite <- HDn; apply in_map; exact HDin)). rewrite HT, !String.eqb_refl, HC' in M. cbn [andb negb] in M.
  cbn [matches struct_name] in M. rewrite ED in M.
  apply andb_true_iff in M. destruct M as [M M5]. apply andb_true_iff in M. destruct M as [M M6].
  apply andb_true_iff in M. destruct M as [M M4]. apply andb_true_iff in M. destruct M as [M M3]. apply andb_true_iff in M. destruct M as [M1 M2].
  apply negb_true_iff in M2. rewrite existsb_or in M2. apply orb_false_iff in M2. destruct M2 as [MT MA].
  assert (part_ok ns el d (nm, rq, false, WTime) = true) as OK.
  { clear - M5 HP. induction ps as [|[[[nm' rq'] rp'] w'] ps IHp]; [destruct HP|]. apply andb_true_iff in M5. destruct M5 as [A B].
    destruct HP as [HP|HP]; [injection HP as -> -> -> ->; exact A|exact (IHp HP B)]. }
  unfold part_ok in OK. rewrite HU in OK. destruct (find (takes d (ns, nm)) (d_fields d)) as [f|] eqn:EF; [|discriminate OK].
  apply andb_true_iff in OK. destruct OK as [OK OM]. pose proof (find_some _ _ EF) as [Hf HTk].
  rewrite (xdec_struct x _ d ED HE), HS, HL, M1, no_attrs, slots_elements in H3 by exact MA.
  destruct (take_kids d (slots (elements (children x))) _) as [fs|] eqn:EK; [|discriminate H3].
  destruct (take_kids_sound d HDin _ _ _ (elements_all _) EK f _ Hf (zero_fields d f HDin Hf)) as (u & _ & U2).
  assert (is_element k = true) as HEk.
  { destruct k; [reflexivity|]. exfalso. cbn [local] in HKL. subst nm. clear - HP HI.
    assert (forallb (fun s : string * string * wtype => match snd s with WSeq ps => forallb (fun p => negb (String.eqb (fst (fst (fst p))) "")) ps | _ => true end) services = true) as K by (vm_compute; reflexivity).
    rewrite forallb_forall in K. specialize (K _ HI). cbn [snd] in K. rewrite forallb_forall in K. specialize (K _ HP). discriminate K. }
  destruct (feed_each _ _ _ _ k U2) as (c & v & HX).
  { apply filter_In. split; [apply filter_In; split; assumption|]. unfold taker. rewrite HKS, HKL, EF. apply String.eqb_refl. }
  destruct k as [n l at_ kk|s]; [|discriminate HEk]. cbn [xdec] in HX. change (chars (XE n l at_ kk)) with (text_of kk) in HN.
  cbn [matches] in OM. destruct (f_ty f) as [| | | | |t| |]; try discriminate OM.
  - cbn [xat] in HX. rewrite HN in HX. discriminate HX.
  - destruct t; try discriminate OM. cbn [xat] in HX. rewrite HN in HX. destruct c; discriminate HX.
Qed.
Example C68_ex_zone : parse_rfc3339 "2020-02-29T12:00:01" = None /\ parse_rfc3339 " 2020-02-29T12:00:01Z" = None /\
  In ("timestamp", true, false, WTime) (match w_cs_startTransactionRequest with WSeq ps => ps | _ => [] end).
Proof. split; [vm_compute; reflexivity|]. split; [vm_compute; reflexivity|]. cbn. tauto. Qed.

(** Examples: the startTransactionRequest of the service description; one in
    another order, with a sign, leading zeros, white space, an attribute and an
    unknown element, in which required elements are missing; one with a float field. *)
Definition odd_start (ns : string) : xml := XE ns "startTransactionRequest" [("", "version", "1")]
  [XE ns "meterStart" [] [XT " +007 "]; XT "text"; XE "" "vendor" [] [XE "" "x" [] []]; XE ns "idTag" [] [XT "tag"]].
Definition boot_answer (ns n : string) : xml := XE ns "bootNotificationResponse" []
  [XE ns "status" [] [XT "Accepted"]; XE ns "currentTime" [] [XT "2020-02-29T12:00:01Z"]; XE ns "heartbeatInterval" [] [XT n]].
Lemma int_7 : int_text " +007 " 7.
Proof. exists " ", "+", "007", " ". repeat split; try reflexivity; try lia; try discriminate. left. split; [right|]; reflexivity. Qed.
Lemma int_900 : int_text "-0900" (-900).
Proof. exists "", "-", "0900", "". repeat split; try reflexivity; try lia; try discriminate. right. split; reflexivity. Qed.
Example C68_ex :
  (In ("urn://Ocpp/Cs/2012/06/", "startTransactionRequest", w_cs_startTransactionRequest) services /\
   element_of "startTransactionRequest" ocpp_cs "cpreq.StartTransaction" /\ described ocpp_cs w_cs_startTransactionRequest (start_doc ocpp_cs)) /\
  (recognisable no_extension ocpp_cs w_cs_startTransactionRequest (odd_start ocpp_cs) /\
   holds (odd_start ocpp_cs) (MkMsg "cpreq.StartTransaction" (VStruct [("ConnectorId", VInt 0); ("IdTag", VStr "tag"); ("MeterStart", VInt 7);
     ("ReservationId", VInt 0); ("Timestamp", VTime time_zero)]))) /\
  (described ocpp_cs w_cs_bootNotificationResponse (boot_answer ocpp_cs "-0900") /\
   exists y, f64_toZ y = Some (-900)%Z /\
     holds (boot_answer ocpp_cs "-0900") (MkMsg "cpresp.BootNotification" (VStruct [("Status", VStr "Accepted");
       ("CurrentTime", VTime (MkTime 2020 2 29 12 0 1 0 0)); ("Interval", VF64 y)]))).
Proof.
  assert (forall n s, s = " " \/ s = "" -> str_forall is_digit n = true -> n <> "" -> (digits_val 0 n < 2 ^ 31)%Z -> (0 <= digits_val 0 n)%Z ->
    int_text (s +++ n +++ s) (digits_val 0 n)) as IT.
  { intros n s HS HN1 HN2 HN3 HN4. exists s, "", n, s. split; [reflexivity|]. repeat split; try assumption; try lia.
    - destruct HS as [->| ->]; reflexivity.
    - destruct HS as [->| ->]; reflexivity.
    - left. auto. }
  split; [|split].
  - split; [cbn; tauto|]. split; [exact (ByCPReq "StartTransaction" ltac:(cbn; tauto))|].
    apply described_seq. cbn [in_seq]. unfold start_doc. cbn [children elements filter is_element].
    eexists [_], _. split; [reflexivity|]. split; [constructor; [|constructor]; split; [reflexivity|]; split; [reflexivity|]; exact (ex_intro _ 1%Z (IT "1" "" (or_intror eq_refl) eq_refl ltac:(discriminate) ltac:(cbn; lia) ltac:(cbn; lia)))|].
    split; [discriminate|]. split; [cbn; lia|].
    eexists [_], _. split; [reflexivity|]. split; [constructor; [|constructor]; split; [reflexivity|]; split; [reflexivity|]; exact I|].
    split; [discriminate|]. split; [cbn; lia|].
    eexists [_], _. split; [reflexivity|]. split; [constructor; [|constructor]; split; [reflexivity|]; split; [reflexivity|]; eexists; vm_compute; reflexivity|].
    split; [discriminate|]. split; [cbn; lia|].
    eexists [_], _. split; [reflexivity|]. split; [constructor; [|constructor]; split; [reflexivity|]; split; [reflexivity|]; exact (ex_intro _ 7%Z (IT "7" " " (or_introl eq_refl) eq_refl ltac:(discriminate) ltac:(cbn; lia) ltac:(cbn; lia)))|].
    split; [discriminate|]. split; [cbn; lia|].
    exists [], []. split; [reflexivity|]. split; [constructor|]. split; [discriminate|]. split; [cbn; lia|]. reflexivity.
  - split.
    + apply recognisable_seq. split; [|repeat constructor; cbn; tauto].
      repeat constructor; cbn; try lia.
      exact (ex_intro _ _ int_7).
    + split; [exact (ByCPReq "StartTransaction" ltac:(cbn; tauto))|]. split; vm_compute; reflexivity.
  - split.
    + apply described_seq. cbn [in_seq]. unfold boot_answer. cbn [children elements filter is_element].
      eexists [_], _. split; [reflexivity|]. split; [constructor; [|constructor]; split; [reflexivity|]; split; [reflexivity|]; exact I|].
      split; [discriminate|]. split; [cbn; lia|].
      eexists [_], _. split; [reflexivity|]. split; [constructor; [|constructor]; split; [reflexivity|]; split; [reflexivity|]; eexists; vm_compute; reflexivity|].
      split; [discriminate|]. split; [cbn; lia|].
      eexists [_], _. split; [reflexivity|]. split; [constructor; [|constructor]; split; [reflexivity|]; split; [reflexivity|]; exact (ex_intro _ _ int_900)|].
      split; [discriminate|]. split; [cbn; lia|]. reflexivity.
    + eexists. split; [|split; [exact (ByCPResp "BootNotification" ltac:(cbn; tauto))|]; split; vm_compute; reflexivity]. vm_compute. reflexivity.
Qed.

(** *** C69: messages are sent as described *)

(** Every message of OCPP 1.5 (but the answer to a charge point's data transfer) whose times and
    numbers the service descriptions can express is sent as one element, of the
    name and namespace of its description, whose child elements are of the
    description or one of the [extension]s, at most once unless they may repeat,
    each with a text of its simple type; and it says what the message says. *)
Theorem C69_sent : forall m ns el w, In (ns, el, w) services -> element_of el ns (m_ty m) -> m_ty m <> "cpresp.DataTransfer" ->
  msg_ok m = true -> wire_times (m_val m) -> plain_numbers (m_val m) = true ->
  exists x, content m = Some [x] /\ local x = el /\ space x = ns /\ recognisable extension ns w x /\
    agrees el w x (xnorm (TStruct (m_ty m)) (m_val m)).
Proof.
  intros m ns el w HI HEl HC HM HW HP. pose proof (proj2 (String.eqb_neq _ _) HC) as HC'. destruct (content_rt m el ns HEl HM HW) as (x & H1 & H2 & H3 & H4 & H5).
  exists x. split; [exact H1|]. split; [exact H2|]. split; [exact H3|].
  assert (recognisable extension ns w x) as HR.
  { pose proof services_match as M. rewrite forallb_forall in M. specialize (M _ HI). cbv beta iota in M.
    pose proof (type_names _ _ _ HEl) as HT.
    assert (In (m_ty m) (map d_name all_decls)) as Hty.
    { unfold xmlname in HT. destruct (find_decl (m_ty m)) as [d|] eqn:E; [|discriminate HT]. apply find_decl_in in E. destruct E as [E1 E2].
      rewrite <- E2. apply in_map. exact E1. }
    rewrite forallb_forall in M. specialize (M _ Hty). rewrite HT, !String.eqb_refl, HC' in M. cbn [andb negb] in M.
    refine (writable_all ns w el (TStruct (m_ty m)) (m_val m) "" ("", "Content") false x M HM HW HP _ H3 H2).
    exact H1. }
  split; [exact HR|].
  exact (services_sound ns el w (m_ty m) x _ HI HEl HC H4 H2 H3 (recognisable_any _ _ _ _ HR) H5).
Qed.
(** The child elements that are sent: those for which the message has something to
    say, and in messages to a charge point also the required ones. *)
Theorem C69_present : forall m ns el w, In (ns, el, w) services -> element_of el ns (m_ty m) -> m_ty m <> "cpresp.DataTransfer" ->
  msg_ok m = true -> wire_times (m_val m) ->
  exists x, content m = Some [x] /\ present ns el w x (m_val m).
Proof.
  intros m ns el w HI HEl HC HM HW. pose proof (proj2 (String.eqb_neq _ _) HC) as HC'. destruct (content_rt m el ns HEl HM HW) as (x & H1 & H2 & H3 & H4 & H5).
  exists x. split; [exact H1|]. pose proof (type_names _ _ _ HEl) as HT.
  assert (In (m_ty m) (map d_name all_decls)) as Hty.
  { unfold xmlname in HT. destruct (find_decl (m_ty m)) as [d|] eqn:E; [|discriminate HT]. apply find_decl_in in E. destruct E as [E1 E2].
    rewrite <- E2. apply in_map. exact E1. }
  pose proof services_match as M. rewrite forallb_forall in M. specialize (M _ HI). cbv beta iota in M.
  rewrite forallb_forall in M. specialize (M _ Hty). rewrite HT, !String.eqb_refl, HC' in M. cbn [andb negb] in M.
  pose proof services_options as O. rewrite forallb_forall in O. specialize (O _ HI). cbv beta iota in O.
  rewrite forallb_forall in O. specialize (O _ Hty). rewrite HT, !String.eqb_refl, HC' in O. cbn [andb negb] in O.
  exact (present_all ns w el (TStruct (m_ty m)) (m_val m) "" ("", "Content") false x M O HM HW H1 H3 H2).
Qed.
(** And the answer to a charge point's data transfer has an element that its description does not have. *)
Theorem C69_transfer_refuted : forall m x, m_ty m = "cpresp.DataTransfer" -> msg_ok m = true -> content m = Some [x] ->
  ~ recognisable extension "urn://Ocpp/Cs/2012/06/" w_cs_dataTransferResponse x.
Proof.
  intros [ty v] x ET HM HX HD. cbn [m_ty] in ET. subst ty. unfold msg_ok in HM. cbn [m_ty m_val] in HM. unfold content in HX. cbn [m_ty m_val] in HX.
  destruct v; try discriminate HM. apply has_type_struct in HM. destruct HM as (d & ED & HT).
  assert (d = d_cpresp_DataTransfer) as -> by (injection ED as <-; reflexivity). clear ED.
  unfold d_cpresp_DataTransfer in HT. cbn [d_fields] in HT.
  repeat match goal with H : Forall2 _ _ (_ :: _) |- _ => inversion H; clear H; subst | H : Forall2 _ _ [] |- _ => inversion H; clear H; subst end.
  repeat match goal with H : _ /\ _ |- _ => destruct H end.
  repeat match goal with kv : (string * gval)%type |- _ => destruct kv as [? ?] end. cbn [fst snd f_name f_ty] in *. subst.
  repeat match goal with H : has_type ?v _ = true |- _ => destruct v; try discriminate H; clear H end.
  cbn [xenc andb is_empty] in HX. change (find_decl "cpresp.DataTransfer") with (Some d_cpresp_DataTransfer) in HX. cbv iota in HX.
  cbn [omapl] in HX.
  repeat match type of HX with context [find_field ?d (fst (?a, ?b))] => let r := eval vm_compute in (find_field d a) in change (find_field d (fst (a, b))) with r in HX end.
  cbv iota in HX. cbn [f_xml x_kind x_omit f_ty snd] in HX. cbn [xenc andb is_empty simple] in HX.
  assert (exists k r, elements (children x) = k :: r /\ local k = "Data" /\ local x = "dataTransferResponse") as (k & r & EL & EK & EX).
  { destruct (String.eqb s0 ""), (String.eqb s ""); cbn [omap] in HX; injection HX as <-; cbn [children elements filter is_element concat map snd fst app]; eexists _, _; repeat split; reflexivity. }
  destruct HD as [_ HD]. rewrite EL in HD. inversion HD as [|? ? HD1 _]; subst. destruct HD1 as [HD1|HD1]; [|rewrite EK, EX in HD1; discriminate HD1].
  rewrite EK in HD1. repeat (destruct HD1 as [HD1|HD1]; [discriminate HD1|]). destruct HD1.
Qed.
(** But no StartTransaction request is sent as its description says: the timestamp
    comes after the meter value, which is left out if it is 0. *)
Theorem C69_order_refuted : forall m x, m_ty m = "cpreq.StartTransaction" -> msg_ok m = true -> content m = Some [x] ->
  ~ described "urn://Ocpp/Cs/2012/06/" w_cs_startTransactionRequest x.
Proof.
  intros [ty v] x ET HM HX HD. cbn [m_ty] in ET. subst ty. unfold msg_ok in HM. cbn [m_ty m_val] in HM. unfold content in HX. cbn [m_ty m_val] in HX.
  destruct v; try discriminate HM. apply has_type_struct in HM. destruct HM as (d & ED & HT).
  assert (d = d_cpreq_StartTransaction) as -> by (injection ED as <-; reflexivity). clear ED.
  unfold d_cpreq_StartTransaction in HT. cbn [d_fields] in HT.
  repeat match goal with H : Forall2 _ _ (_ :: _) |- _ => inversion H; clear H; subst | H : Forall2 _ _ [] |- _ => inversion H; clear H; subst end.
  repeat match goal with H : _ /\ _ |- _ => destruct H end.
  repeat match goal with kv : (string * gval)%type |- _ => destruct kv as [? ?] end. cbn [fst snd f_name f_ty] in *. subst.
  repeat match goal with H : has_type ?v _ = true |- _ => destruct v; try discriminate H; clear H end.
  apply described_seq in HD. cbn [in_seq] in HD.
  destruct HD as (r1 & l1 & E1 & F1 & _ & _ & r2 & l2 & E2 & F2 & _ & _ & r3 & l3 & E3 & F3 & N3 & _ & r4 & l4 & E4 & F4 & N4 & _ & r5 & l5 & E5 & F5 & _ & _ & E6).
  subst. specialize (N3 eq_refl). specialize (N4 eq_refl).
  cbn [xenc andb is_empty] in HX. change (find_decl "cpreq.StartTransaction") with (Some d_cpreq_StartTransaction) in HX. cbv iota in HX.
  cbn [omapl] in HX.
  repeat match type of HX with context [find_field ?d (fst (?a, ?b))] => let r := eval vm_compute in (find_field d a) in change (find_field d (fst (a, b))) with r in HX end.
  cbv iota in HX. cbn [f_xml x_kind x_omit f_ty snd] in HX.
  cbn [xenc andb is_empty simple] in HX.
  assert (exists l k, elements (children x) = l ++ [k] /\ local k = "timestamp") as (l & k & EL & EK).
  { destruct ((0 <=? t_year t)%Z && (t_year t <=? 9999)%Z); [|exfalso; clear - HX;
      destruct (z1 =? 0)%Z, (String.eqb s ""), (z0 =? 0)%Z, (z =? 0)%Z; discriminate HX].
    clear - HX. destruct (z1 =? 0)%Z, (String.eqb s ""), (z0 =? 0)%Z, (z =? 0)%Z; cbn [omap] in HX; injection HX as <-;
      cbn [children elements filter is_element concat map snd fst app];
      match goal with |- exists l k, ?L = _ /\ _ => exists (removelast L), (last L (XT "")) end; split; reflexivity. }
  assert (exists l' k', elements (children x) = l' ++ [k'] /\ (local k' = "meterStart" \/ local k' = "reservationId")) as (l' & k' & EL' & EK').
  { rewrite app_nil_r in E1. rewrite E1. destruct (exists_last N4) as (a & b & E). subst r4.
    destruct r5 as [|c r5] using rev_ind.
    - exists (r1 ++ r2 ++ r3 ++ a), b. split; [rewrite app_nil_r, !app_assoc; reflexivity|]. left.
      rewrite Forall_forall in F4. apply (F4 b). apply in_or_app. right. left. reflexivity.
    - exists (r1 ++ r2 ++ r3 ++ (a ++ [b]) ++ r5), c. split; [rewrite !app_assoc; reflexivity|]. right.
      rewrite Forall_forall in F5. apply (F5 c). apply in_or_app. right. left. reflexivity. }
  rewrite EL in EL'. apply app_inj_tail in EL'. destruct EL' as [_ <-]. rewrite EK in EK'. destruct EK' as [K|K]; discriminate K.
Qed.
(** Whole numbers from a million on, where the Go type is a double, are sent in a
    form that is not an integer's: here a heartbeat interval of 30 days. *)
Lemma not_int s : str_forall (fun c => negb (N.eqb (code c) 101)) s = false -> forall z, ~ int_text s z.
Proof.
  intros H z (l & sg & ds & r & -> & HL & HR & HD & _ & HS & _). apply Bool.not_true_iff_false in H. apply H. clear H.
  assert (forall (p q : ascii -> bool) s, (forall c, p c = true -> q c = true) -> str_forall p s = true -> str_forall q s = true) as imp.
  { intros p q s' I. induction s' as [|c s' IH]; [reflexivity|]. cbn [str_forall]. intros K. apply andb_true_iff in K. destruct K as [K1 K2]. rewrite (I c K1), (IH K2). reflexivity. }
  assert (forall (p : ascii -> bool) a b, str_forall p a = true -> str_forall p b = true -> str_forall p (a +++ b) = true) as app.
  { intros p a b Ha Hb. induction a as [|c a IH]; [exact Hb|]. cbn [str_forall] in Ha. apply andb_true_iff in Ha. destruct Ha as [H1 H2].
    change (String c a +++ b) with (String c (a +++ b)). cbn [str_forall]. rewrite H1, (IH H2). reflexivity. }
  assert (forall s, blank s -> str_forall (fun c => negb (N.eqb (code c) 101)) s = true) as B.
  { intros s'. apply imp. intros c Hc. apply negb_true_iff, N.eqb_neq. intros E. rewrite E in Hc. discriminate Hc. }
  apply app; [exact (B l HL)|]. apply app; [destruct HS as [[[->| ->] _]|[-> _]]; reflexivity|]. apply app; [|exact (B r HR)].
  revert HD. apply imp. intros c Hc. apply negb_true_iff, N.eqb_neq. intros E. unfold is_digit, between in Hc. rewrite E in Hc. discriminate Hc.
Qed.
Definition month : f64 := match parse_float "2592000" with Some x => x | None => FNaN end.
Definition month_boot : msg := MkMsg "cpresp.BootNotification" (VStruct [("Status", VStr "Accepted");
  ("CurrentTime", VTime (MkTime 2020 2 29 12 0 1 0 0)); ("Interval", VF64 month)]).
Theorem C69_large_refuted : f64_toZ month = Some (30 * 24 * 3600)%Z /\ msg_ok month_boot = true /\
  exists x, content month_boot = Some [x] /\ map chars (named "heartbeatInterval" (children x)) = ["2.592e+06"] /\
    ~ recognisable extension "urn://Ocpp/Cs/2012/06/" w_cs_bootNotificationResponse x.
Proof.
  split; [vm_compute; reflexivity|]. split; [vm_compute; reflexivity|].
  eexists. split; [vm_compute; reflexivity|]. split; [vm_compute; reflexivity|]. intros HR. apply recognisable_seq in HR. destruct HR as [HR _].
  rewrite Forall_forall in HR. specialize (HR ("heartbeatInterval", true, false, WInt) ltac:(cbn; tauto)). cbv beta iota in HR. destruct HR as [HR _].
  rewrite Forall_forall in HR. destruct (HR _ (or_introl eq_refl)) as [_ HR']. cbn [recognisable] in HR'. destruct HR' as [z Hz].
  revert Hz. apply not_int. vm_compute. reflexivity.
Qed.
Example C69_ex : In ("urn://Ocpp/Cs/2012/06/", "startTransactionRequest", w_cs_startTransactionRequest) services /\
  element_of "startTransactionRequest" "urn://Ocpp/Cs/2012/06/" (m_ty start_msg) /\ m_ty start_msg <> "cpresp.DataTransfer" /\
  msg_ok start_msg = true /\ wire_times (m_val start_msg) /\ plain_numbers (m_val start_msg) = true.
Proof.
  split; [cbn; tauto|]. split; [exact (ByCPReq "StartTransaction" ltac:(cbn; tauto))|]. split; [discriminate|]. split; [vm_compute; reflexivity|].
  split; [exact (proj1 C52_ex_times)|]. vm_compute. reflexivity.
Qed.
