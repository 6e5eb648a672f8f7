(** Property theorems C50 - C56, C63: the SOAP transport. *)
From Verif Require Import GoBase Utf8 Json Float64 GoTime Lang Types Codec EncProofs Tables Registry Leaves
  SpecCodec SpecEnc RoundTrip DecTyped Xml XmlProofs XmlTyped Soap SpecSoap SoapProofs SoapMore.
Open Scope string_scope.
Open Scope list_scope.

Ltac both := repeat match goal with |- _ /\ _ => split end.

(** A body element that holds message [m]: named after the type of [m] as in the
    service descriptions, in the right namespace, and with content that decodes
    as [m]. *)
Definition holds (k : xml) (m : msg) : Prop :=
  element_of (local k) (space k) (m_ty m) /\ charge_point_transfer (m_ty m) = false /\
  xdec k (TStruct (m_ty m)) (zero (TStruct (m_ty m))) = Some (m_val m).

Lemma holds_reads k m : holds k m <-> reads k m.
Proof.
  rewrite reads_spec. split.
  - intros (H1 & H2 & H3). exists (space k). auto.
  - intros (ns & H1 & H2 & H3 & H4). subst ns. split; auto.
Qed.
Lemma fault_name k : is_fault k = true <-> local k = "Fault".
Proof. apply String.eqb_eq. Qed.
Lemma not_fault_name k : is_fault k = false <-> local k <> "Fault".
Proof. apply String.eqb_neq. Qed.

(** *** C50: what is accepted, and as what *)
Theorem C50_accepted : forall doc, (exists e, dec_envelope (Some doc) = Some e) <->
  local doc = "Envelope" /\ forall k, In k (body_elements doc) -> local k = "Fault" \/ exists m, holds k m.
Proof.
  intros doc. split.
  - intros [e H]. apply dec_envelope_run in H. destruct H as [H1 H2]. split; [exact H1|]. intros k HI.
    destruct (body_run_each _ _ _ H2 k HI) as [K|[m K]]; [left; apply fault_name; exact K|right; exists m; apply holds_reads; exact K].
  - intros [H1 H2]. destruct (body_run_total (body_elements doc)) with (e := MkE (stated_identity doc) None None) as [e H].
    + intros k HI. destruct (H2 k HI) as [K|[m K]]; [left; apply fault_name; exact K|right; exists m; apply holds_reads; exact K].
    + exists e. apply dec_envelope_run. auto.
Qed.
Theorem C50_last_wins : forall doc e, dec_envelope (Some doc) = Some e ->
  match e_content e with
  | None => forall k, In k (body_elements doc) -> local k = "Fault"
  | Some m => exists a k b, body_elements doc = a ++ k :: b /\ local k <> "Fault" /\ holds k m /\ forall k', In k' b -> local k' = "Fault"
  end.
Proof.
  intros doc e H. apply dec_envelope_run in H. destruct H as [_ H].
  destruct (body_run_content _ _ _ H) as [[H1 H2]|(m & H1 & a & k & b & H2 & H3 & H4 & H5)].
  - rewrite H2. cbn [e_content]. rewrite forallb_forall in H1. intros k HI. apply fault_name. auto.
  - rewrite H1. exists a, k, b. split; [exact H2|]. split; [apply not_fault_name; exact H3|]. split; [apply holds_reads; exact H5|].
    rewrite forallb_forall in H4. intros k' HI. apply fault_name. auto.
Qed.
Theorem C50_fault : forall doc e, dec_envelope (Some doc) = Some e ->
  (e_fault e <> None <-> exists k, In k (body_elements doc) /\ local k = "Fault").
Proof.
  intros doc e H. apply dec_envelope_run in H. destruct H as [_ H]. rewrite (body_run_fault _ _ _ H). cbn [e_fault].
  destruct (rev (filter is_fault (body_elements doc))) as [|k l] eqn:E.
  - split; [intros K; contradiction K; reflexivity|]. intros (k & HI & HF).
    assert (In k (rev (filter is_fault (body_elements doc)))) as K by (apply in_rev; rewrite rev_involutive; apply filter_In; split; [exact HI|apply fault_name; exact HF]).
    rewrite E in K. destruct K.
  - split; [|discriminate]. intros _. exists k. assert (In k (rev (filter is_fault (body_elements doc)))) as K by (rewrite E; left; reflexivity).
    apply in_rev in K. apply filter_In in K. destruct K as [K1 K2]. split; [exact K1|apply fault_name; exact K2].
Qed.
(** What a fault says: the text of the last Text inside its Reason, whatever the namespaces. *)
Definition said (f : xml) : string := last (map chars (flat_map (fun r => named "Text" (children r)) (named "Reason" (children f)))) "".
Lemma last_app_d (l : list string) : forall d x, last (l ++ [x]) d = x.
Proof. induction l as [|y l IH]; intros d x; [reflexivity|]. destruct l as [|z l]; [reflexivity|]. exact (IH d x). Qed.
Lemma last_rev (l : list string) d : last l d = match rev l with [] => d | x :: _ => x end.
Proof. rewrite <- (rev_involutive l) at 1. destruct (rev l) as [|x r]; [reflexivity|]. cbn [rev]. apply last_app_d. Qed.
Lemma fault_text_said kids ns l at_ : fault_text kids = said (XE ns l at_ kids).
Proof.
  assert (L : forall ks cur, last_text "Text" ks cur = last (map chars (named "Text" ks)) cur).
  { intros ks cur. rewrite last_text_spec, last_rev, <- map_rev. destruct (rev (named "Text" ks)); reflexivity. }
  assert (A : forall a b d, last (a ++ b : list string) d = last b (last a d)).
  { intros a b d. rewrite (last_rev (a ++ b)), rev_app_distr, (last_rev b), (last_rev a). destruct (rev b); reflexivity. }
  assert (G : forall ks cur, fold_left (fun cur k => match k with XE _ l _ ks => if String.eqb l "Reason" then last_text "Text" ks cur else cur | XT _ => cur end) ks cur
    = last (map chars (flat_map (fun r => named "Text" (children r)) (named "Reason" ks))) cur).
  { induction ks as [|k ks IH]; intros cur; [reflexivity|]. cbn [fold_left]. rewrite IH. destruct k as [n l' a' kk|t]; [|reflexivity].
    unfold named at 4. cbn [filter is_element local andb]. destruct (String.eqb l' "Reason"); [|reflexivity]. cbn [flat_map children]. rewrite map_app, A, <- L. reflexivity. }
  exact (G kids "").
Qed.
Theorem C50_fault_text : forall doc e t, dec_envelope (Some doc) = Some e -> e_fault e = Some t ->
  exists a f b, body_elements doc = a ++ f :: b /\ local f = "Fault" /\ (forall k, In k b -> local k <> "Fault") /\ t = said f.
Proof.
  intros doc e t H HF. apply dec_envelope_run in H. destruct H as [_ H]. rewrite (body_run_fault _ _ _ H) in HF. cbn [e_fault] in HF.
  assert (G : forall l f r, rev (filter is_fault l) = f :: r -> exists a b, l = a ++ f :: b /\ is_fault f = true /\ forall k, In k b -> is_fault k = false).
  { induction l as [|x l IH]; intros f r E; [discriminate E|]. cbn [filter] in E. destruct (is_fault x) eqn:EX.
    - cbn [rev] in E. destruct (rev (filter is_fault l)) as [|y r'] eqn:ER.
      + injection E as <- _. exists [], l. split; [reflexivity|]. split; [exact EX|]. intros k HI. destruct (is_fault k) eqn:EK; [|reflexivity].
        assert (In k (rev (filter is_fault l))) as K by (apply in_rev; rewrite rev_involutive; apply filter_In; auto). rewrite ER in K. destruct K.
      + injection E as <- _. destruct (IH _ _ eq_refl) as (a & b & -> & K). exists (x :: a), b. split; [reflexivity|exact K].
    - destruct (IH _ _ E) as (a & b & -> & K). exists (x :: a), b. split; [reflexivity|exact K]. }
  destruct (rev (filter is_fault (body_elements doc))) as [|f r] eqn:E; [discriminate HF|]. injection HF as <-. destruct (G _ _ _ E) as (a & b & E1 & E2 & E3).
  exists a, f, b. split; [exact E1|]. split; [apply fault_name; exact E2|]. split; [intros k HI HK; apply fault_name in HK; rewrite (E3 _ HI) in HK; discriminate HK|].
  destruct f as [n l' a' ks|s]; [apply fault_text_said|reflexivity].
Qed.
(** What is accepted is a value of its Go type. *)
Theorem C50_typed : forall doc e m, dec_envelope (Some doc) = Some e -> e_content e = Some m -> msg_ok m = true.
Proof.
  intros doc e m H HC. pose proof (C50_last_wins doc e H) as K. rewrite HC in K. destruct K as (a & k & b & _ & _ & HK & _).
  apply holds_reads in HK. destruct HK as [H1 H2]. unfold msg_ok. pose proof (table_xmlname _ _ H1) as (ns & _ & HX).
  unfold xmlname in HX. assert (tyok (TStruct (m_ty m)) = true) as HT by (cbn [tyok]; destruct (find_decl (m_ty m)); [reflexivity|discriminate HX]).
  exact (xdec_typed k _ _ _ HT (zero_typed _ HT) H2).
Qed.
(** Not XML, another root, an unknown element: rejected. *)
Theorem C50_rejected : forall doc, match doc with
  | None => True
  | Some d => local d <> "Envelope" \/ exists k, In k (body_elements d) /\ local k <> "Fault" /\ forall ns ty, ~ element_of (local k) ns ty
  end -> dec_envelope doc = None.
Proof.
  intros [d|]; [|reflexivity]. intros H. destruct (dec_envelope (Some d)) as [e|] eqn:E; [|reflexivity]. exfalso.
  destruct (proj1 (C50_accepted d) (ex_intro _ e E)) as [H1 H2]. destruct H as [H|(k & HI & HF & HN)]; [contradiction|].
  destruct (H2 k HI) as [K|[m K]]; [contradiction|]. exact (HN _ _ (proj1 K)).
Qed.

Definition ocpp_cs := "urn://Ocpp/Cs/2012/06/".
Definition envelope_with (header : list xml) (body : list xml) : xml :=
  XE soap_ns "Envelope" [] [XE soap_ns "Header" [] header; XE soap_ns "Body" [] body].
Definition start_doc (ns : string) : xml := XE ns "startTransactionRequest" []
  [XE ns "connectorId" [] [XT "1"]; XE ns "idTag" [] [XT "tag"]; XE ns "timestamp" [] [XT "2020-02-29T12:00:01.5Z"]; XE ns "meterStart" [] [XT " 7 "]].
Definition start_msg : msg := MkMsg "cpreq.StartTransaction"
  (VStruct [("ConnectorId", VInt 1); ("IdTag", VStr "tag"); ("MeterStart", VInt 7); ("ReservationId", VInt 0);
            ("Timestamp", VTime (MkTime 2020 2 29 12 0 1 500000000 0))]).
Definition id_header : list xml := [XE ocpp_cs "chargeBoxIdentity" [] [XT "box"]].
Example C50_ex : holds (start_doc ocpp_cs) start_msg /\
  dec_envelope (Some (envelope_with id_header [XT "x"; start_doc ocpp_cs])) = Some (MkE (Some "box") (Some start_msg) None) /\
  dec_envelope (Some (envelope_with id_header [start_doc ocpp_cs; XE "" "clearCache" [] []])) = None.
Proof.
  split; [|split; vm_compute; reflexivity]. split; [|split; vm_compute; reflexivity].
  exact (ByCPReq "StartTransaction" ltac:(cbn; tauto)).
Qed.

Example C50_fault_ex : let f := XE soap_ns "Fault" [] [XE soap_ns "Reason" [] [XE soap_ns "Text" [] [XT "no such tag"]]] in
  said f = "no such tag" /\ dec_envelope (Some (envelope_with id_header [f])) = Some (MkE (Some "box") None (Some "no such tag")).
Proof. cbv zeta. split; vm_compute; reflexivity. Qed.

(** *** C51: namespaces *)
Theorem C51_wrong_namespace : forall doc k ns ty, In k (body_elements doc) -> element_of (local k) ns ty ->
  charge_point_transfer ty = false -> space k <> ns -> dec_envelope (Some doc) = None.
Proof.
  intros doc k ns ty HI HE HT HS. destruct (dec_envelope (Some doc)) as [e|] eqn:E; [|reflexivity]. exfalso.
  destruct (proj1 (C50_accepted doc) (ex_intro _ e E)) as [_ H2].
  assert (lookup (local k) soap_names = Some ty) as L by (apply table_names; eauto).
  destruct (H2 k HI) as [K|[m K]]; [rewrite K in L; vm_compute in L; discriminate L|].
  assert (m_ty m = ty) as E1 by (apply holds_reads in K; destruct K as [K _]; congruence).
  destruct K as (K & _). rewrite E1 in K. apply type_names in K. apply type_names in HE. rewrite HE in K. congruence.
Qed.
(** A charge point's data transfer is never received ... *)
Theorem C51_no_data_transfer : forall doc e m, dec_envelope doc = Some e -> e_content e = Some m ->
  m_ty m <> "cpreq.DataTransfer" /\ m_ty m <> "cpresp.DataTransfer".
Proof.
  intros [doc|] e m H HC; [|discriminate H]. pose proof (C50_last_wins doc e H) as K. rewrite HC in K. destruct K as (a & k & b & _ & _ & (_ & HT & _) & _).
  unfold charge_point_transfer in HT. apply orb_false_iff in HT. destruct HT as [H1 H2]. apply String.eqb_neq in H1. apply String.eqb_neq in H2. auto.
Qed.
(** ... and makes the document that carries it fail, as do the messages that OCPP 1.5 does not have. *)
Lemma foreign_names d : In d all_decls -> negb (String.eqb (d_marker d) "") = true -> v15 (d_name d) = false \/ charge_point_transfer (d_name d) = true ->
  exists ns nm, d_xml d = Some (ns, nm) /\ nm <> "Fault" /\
    (lookup nm soap_names = None \/ exists ty ns', lookup nm soap_names = Some ty /\ xmlname ty = Some (ns', nm) /\ ns' <> "" /\ ns' <> ns).
Proof.
  intros HI HM HV.
  assert (forallb (fun d => String.eqb (d_marker d) "" || (v15 (d_name d) && negb (charge_point_transfer (d_name d))) ||
     match d_xml d with
     | Some (ns, nm) => negb (String.eqb nm "Fault") && match lookup nm soap_names with
                        | None => true
                        | Some ty => match xmlname ty with Some (ns', nm') => String.eqb nm nm' && negb (String.eqb ns' "") && negb (String.eqb ns' ns) | None => false end
                        end
     | None => false
     end) all_decls = true) as K by (vm_compute; reflexivity).
  rewrite forallb_forall in K. specialize (K d HI). apply negb_true_iff in HM. rewrite HM in K. cbn [orb] in K.
  assert (v15 (d_name d) && negb (charge_point_transfer (d_name d)) = false) as E by (destruct HV as [-> | ->]; [reflexivity|apply andb_false_r]).
  rewrite E in K. cbn [orb] in K. destruct (d_xml d) as [[ns nm]|]; [|discriminate K]. exists ns, nm. split; [reflexivity|].
  apply andb_true_iff in K. destruct K as [K1 K2]. apply negb_true_iff, String.eqb_neq in K1. split; [exact K1|].
  destruct (lookup nm soap_names) as [ty|] eqn:EL; [|left; reflexivity]. right. exists ty.
  destruct (xmlname ty) as [[ns' nm']|] eqn:EX; [|discriminate K2]. exists ns'. split; [reflexivity|].
  apply andb_true_iff in K2. destruct K2 as [K2 K3]. apply andb_true_iff in K2. destruct K2 as [K2 K4].
  apply String.eqb_eq in K2. subst nm'. apply negb_true_iff, String.eqb_neq in K3. apply negb_true_iff, String.eqb_neq in K4. auto.
Qed.
Lemma foreign_content m : msg_ok m = true -> is_request (m_ty m) || is_response (m_ty m) = true ->
  v15 (m_ty m) = false \/ charge_point_transfer (m_ty m) = true ->
  match content m with None => True | Some l => exists c, l = [c] /\ is_element c = true /\ is_fault c = false /\ forall m', ~ reads c m' end.
Proof.
  intros HM HR HV. unfold msg_ok in HM. destruct m as [ty v]. cbn [m_ty m_val] in *. destruct v as [| | | | | | | |fs]; try discriminate HM.
  destruct (has_type_struct fs ty HM) as (d & HD & _). destruct (find_decl_in ty d HD) as [HI HN].
  destruct (foreign_names d) as (ns & nm & HX & HF & HT); [exact HI| |rewrite HN; exact HV|].
  { unfold is_request, is_response, is_cp_request, is_cs_request, is_cp_response, is_cs_response, marker_of in HR. rewrite HD in HR.
    destruct (String.eqb_spec (d_marker d) "") as [E|]; [|reflexivity]. rewrite E in HR. cbn in HR. discriminate HR. }
  unfold content. cbn [m_ty m_val xenc andb is_empty]. rewrite HD, HX. cbn [fst snd inherit].
  destruct (omapl _ fs) as [l|]; [|exact I]. eexists. split; [reflexivity|]. split; [reflexivity|].
  assert (inherit "" ns = ns) as EI by (unfold inherit; destruct (String.eqb_spec ns ""); congruence).
  split; [apply String.eqb_neq; exact HF|]. intros m' [H1 H2]. cbn [local] in H1.
  destruct HT as [HT|(ty' & ns' & HT1 & HT2 & HT3 & HT4)]; [rewrite HT in H1; discriminate H1|].
  rewrite HT1 in H1. injection H1 as H1. rewrite <- H1 in H2.
  destruct (xdec_name _ _ _ H2 ns' nm HT2 HT3) as [_ K]. cbn [space] in K. rewrite EI in K. congruence.
Qed.
Theorem C51_not_received : forall m, msg_ok m = true -> is_request (m_ty m) || is_response (m_ty m) = true ->
  v15 (m_ty m) = false \/ charge_point_transfer (m_ty m) = true ->
  (forall url a mid from id x, request_envelope url a mid from id m = Some x -> dec_envelope (Some x) = None) /\
  (forall err x, marshal_reply (Some m) err = Some x -> dec_envelope (Some x) = None).
Proof.
  intros m HM HR HV. pose proof (foreign_content m HM HR HV) as K. unfold request_envelope, marshal_reply.
  destruct (content m) as [l|]; [|split; discriminate]. destruct K as (c & -> & K1 & K2 & K3). split.
  - intros url a mid from id x H. injection H as <-. apply (body_rejected _ c); [reflexivity| |exact K2|exact K3]. unfold body_elements. cbn. rewrite K1. reflexivity.
  - intros err x H. injection H as <-. match goal with |- dec_envelope (Some ?d) = None => destruct (dec_envelope (Some d)) as [e|] eqn:E; [|reflexivity] end. exfalso.
    apply dec_envelope_run in E. destruct E as [_ E]. destruct (body_run_each _ _ _ E c) as [X|[m' X]]; [|congruence|exact (K3 m' X)].
    unfold body_elements. cbn. rewrite K1. left. reflexivity.
Qed.
Definition transfer_msg : msg := MkMsg "cpreq.DataTransfer" (VStruct [("Data", VStr "d"); ("MessageId", VStr ""); ("VendorId", VStr "v")]).
Example C51_ex : msg_ok transfer_msg = true /\ is_request (m_ty transfer_msg) = true /\ charge_point_transfer (m_ty transfer_msg) = true /\
  (exists x, request_envelope "u" "DataTransfer" "m" "" "box" transfer_msg = Some x) /\
  dec_envelope (Some (envelope_with id_header [start_doc "urn://Ocpp/Cp/2012/06/"])) = None.
Proof. both; try (vm_compute; reflexivity). eexists. vm_compute. reflexivity. Qed.

(** *** C52: messages arrive as they were sent *)
Theorem C52_round_trip : forall m, msg_ok m = true -> wire_times (m_val m) -> v15 (m_ty m) = true -> charge_point_transfer (m_ty m) = false ->
  let arrived := MkMsg (m_ty m) (xnorm (TStruct (m_ty m)) (m_val m)) in
  (forall url a mid from id, exists x, request_envelope url a mid from id m = Some x /\
     dec_envelope (Some x) = Some (MkE (Some (xml_clean id)) (Some arrived) None)) /\
  (exists x, marshal_reply (Some m) None = Some x /\ dec_envelope (Some x) = Some (MkE None (Some arrived) None)).
Proof.
  intros m HM HW HV HT arrived. destruct (v15_names _ HV) as (nm & ns & HE). destruct (content_rt m nm ns HE HM HW) as (c & E1 & _). split.
  - intros. unfold request_envelope. rewrite E1. eexists. split; [reflexivity|].
    apply (read_request url a mid from id m); try assumption. unfold request_envelope. rewrite E1. reflexivity.
  - unfold marshal_reply. rewrite E1. eexists. split; [reflexivity|].
    apply (read_reply m None); try assumption. unfold marshal_reply. rewrite E1. reflexivity.
Qed.
(** Also for single elements of the charge point's data transfer. *)
Theorem C52_element : forall m nm ns, element_of nm ns (m_ty m) -> msg_ok m = true -> wire_times (m_val m) ->
  exists x, content m = Some [x] /\ local x = nm /\ space x = ns /\
    xdec x (TStruct (m_ty m)) (zero (TStruct (m_ty m))) = Some (xnorm (TStruct (m_ty m)) (m_val m)).
Proof. intros m nm ns HE HM HW. destruct (content_rt m nm ns HE HM HW) as (x & H1 & H2 & H3 & _ & H5). eauto. Qed.
Theorem C52_unchanged : forall m, msg_ok m = true -> xml_faithful (m_val m) = true -> xnorm (TStruct (m_ty m)) (m_val m) = m_val m.
Proof. intros m HM HF. exact (xnorm_id _ _ HM HF). Qed.
(** An id-tag info that the peer puts into its answer to StopTransaction under the
    name of the service description is not seen, whatever it is. *)
Definition stop_answer (infos : list xml) : xml := XE ocpp_cs "stopTransactionResponse" [] infos.
Theorem C52_stop_answer_refuted : forall infos, (forall k, In k infos -> local k = "idTagInfo") ->
  xdec (stop_answer infos) (TStruct "cpresp.StopTransaction") (zero (TStruct "cpresp.StopTransaction")) = Some (VStruct [("IdTagInfo", VNil)]).
Proof.
  intros infos H. unfold stop_answer, ocpp_cs. cbn [xdec xat zero].
  match goal with |- match ?f with _ => _ end = _ => let f' := eval vm_compute in f in change f with f' end. cbv iota.
  unfold zero_struct. cbn [d_fields map f_name f_ty zero0]. cbn [fold_left].
  match goal with |- (if ?b then _ else _) = _ => change b with true end. cbv iota.
  match goal with |- omap _ (take_kids ?d ?l ?fs) = _ =>
    assert (take_kids d l fs = Some fs) as -> end.
  { induction infos as [|k ks IH]; [reflexivity|]. cbn [flat_map]. assert (local k = "idTagInfo") as K by (apply H; left; reflexivity).
    destruct k as [n l a kk|s]; cbn [local] in K; [|discriminate K]. subst l. cbn [app take_kids].
    match goal with |- match ?f with _ => _ end = _ => let f' := eval cbn in f in change f with f' end. cbv iota.
    apply IH. intros k' Hk. apply H. right. exact Hk. }
  vm_compute. reflexivity.
Qed.
Definition tag_info (st : string) : gval := VPtr (VStruct [("ExpiryDate", VNil); ("ParentIdTag", VStr ""); ("Status", VStr st)]).
Definition stop_msg : msg := MkMsg "cpresp.StopTransaction" (VStruct [("IdTagInfo", tag_info "Accepted")]).
Example C52_ex : msg_ok stop_msg = true /\ v15 (m_ty stop_msg) = true /\ xml_faithful (m_val stop_msg) = true /\ charge_point_transfer (m_ty stop_msg) = false /\
  (exists x, marshal_reply (Some stop_msg) None = Some x /\ dec_envelope (Some x) = Some (MkE None (Some stop_msg) None)) /\
  (exists x, request_envelope "u" "StartTransaction" "m" "" "box" start_msg = Some x /\ dec_envelope (Some x) = Some (MkE (Some "box") (Some start_msg) None)) /\
  dec_envelope (Some (envelope_with [] [stop_answer [XE ocpp_cs "idTagInfo" [] [XE ocpp_cs "status" [] [XT "Invalid"]]]])) =
    Some (MkE (Some "") (Some (MkMsg "cpresp.StopTransaction" (VStruct [("IdTagInfo", VNil)]))) None).
Proof.
  split; [vm_compute; reflexivity|]. split; [vm_compute; reflexivity|]. split; [vm_compute; reflexivity|]. split; [vm_compute; reflexivity|].
  split; [eexists; split; [vm_compute; reflexivity|]; vm_compute; reflexivity|]. split; [eexists; split; [vm_compute; reflexivity|]; vm_compute; reflexivity|].
  vm_compute. reflexivity.
Qed.
Example C52_ex_times : wire_times (m_val start_msg) /\ wire_times (m_val stop_msg).
Proof. split; repeat constructor. Qed.

(** *** C53: the handler gets the request and the stated identity, once *)
Lemma handle_cases h doc : handle h doc =
  match dec_envelope doc with
  | None => MkO [] None false
  | Some e =>
    match e_content e with
    | None => MkO [] None false
    | Some m =>
      if is_request (m_ty m) then
        match e_header e with
        | None => MkO [] None true
        | Some id => MkO (snd (h m id)) (marshal_reply (fst (fst (h m id))) (snd (fst (h m id)))) false
        end
      else MkO [] None false
    end
  end.
Proof.
  unfold handle. destruct (dec_envelope doc) as [e|]; [|reflexivity]. destruct (e_content e) as [m|]; [|reflexivity].
  destruct (is_request (m_ty m)); [|reflexivity]. destruct (e_header e) as [id|]; [|reflexivity].
  destruct (h m id) as [[r er] cs]. cbn [fst snd]. destruct (marshal_reply r er); reflexivity.
Qed.
Lemma header_identity doc e : dec_envelope (Some doc) = Some e -> e_header e = stated_identity doc.
Proof. intros H. apply dec_envelope_run in H. destruct H as [_ H]. exact (body_run_header _ _ _ H). Qed.

(** The two servers of the library, alike up to the direction of requests. *)
Inductive server : (msg -> string -> answer) -> (string -> bool) -> (option xml -> outcome) -> Prop :=
| CentralSystemServer app : server app is_cp_request (cs_soap app)
| ChargePointServer app : server (fun m _ => app m) is_cs_request (cp_soap app).
Lemma server_is app dir serve : server app dir serve -> serve = handle (guarded dir app) /\ forall ty, dir ty = true -> is_request ty = true.
Proof.
  intros []; split; try reflexivity; unfold is_request; intros ty ->; [reflexivity|apply orb_true_r].
Qed.

Theorem C53_called_with : forall app dir serve doc m id, server app dir serve -> In (m, id) (o_calls (serve doc)) ->
  exists d e, doc = Some d /\ dec_envelope doc = Some e /\ e_content e = Some m /\ stated_identity d = Some id /\
    dir (m_ty m) = true /\ msg_ok m = true.
Proof.
  intros app dir serve doc m id HS H. destruct (server_is _ _ _ HS) as [-> _]. rewrite handle_cases in H.
  destruct (dec_envelope doc) as [e|] eqn:ED; [|destruct H]. destruct doc as [d|]; [|discriminate ED].
  destruct (e_content e) as [m'|] eqn:EC; [|destruct H]. destruct (is_request (m_ty m')); [|destruct H].
  destruct (e_header e) as [id'|] eqn:EH; [|destruct H]. cbn [o_calls] in H. unfold guarded in H. destruct (dir (m_ty m')) eqn:EDir; [|destruct H].
  destruct H as [H|[]]. injection H as <- <-. exists d, e. rewrite <- (header_identity d e ED). both; try assumption; try reflexivity.
  exact (C50_typed d e m' ED EC).
Qed.
Theorem C53_at_most_once : forall app dir serve doc, server app dir serve -> (List.length (o_calls (serve doc)) <= 1)%nat.
Proof.
  intros app dir serve doc HS. destruct (server_is _ _ _ HS) as [-> _]. rewrite handle_cases.
  destruct (dec_envelope doc) as [e|]; [|cbn; auto]. destruct (e_content e) as [m|]; [|cbn; auto]. destruct (is_request (m_ty m)); [|cbn; auto].
  destruct (e_header e) as [id|]; [|cbn; auto]. cbn [o_calls]. unfold guarded. destruct (dir (m_ty m)); cbn; auto.
Qed.
Theorem C53_reached : forall app dir serve d e m, server app dir serve -> dec_envelope (Some d) = Some e -> e_content e = Some m -> dir (m_ty m) = true ->
  match stated_identity d with
  | Some id => o_calls (serve (Some d)) = [(m, id)] /\ o_panic (serve (Some d)) = false
  | None => serve (Some d) = MkO [] None true
  end.
Proof.
  intros app dir serve d e m HS HE HC HD. destruct (server_is _ _ _ HS) as [-> HR]. rewrite handle_cases, HE, HC, (HR _ HD), (header_identity d e HE).
  destruct (stated_identity d) as [id|]; [|reflexivity]. cbn [o_calls o_panic]. unfold guarded. rewrite HD. split; reflexivity.
Qed.
(** Only a request in an envelope without header makes the server panic. *)
Theorem C53_panic : forall app dir serve doc, server app dir serve -> (o_panic (serve doc) = true <->
  exists d e m, doc = Some d /\ dec_envelope doc = Some e /\ e_content e = Some m /\ is_request (m_ty m) = true /\ stated_identity d = None).
Proof.
  intros app dir serve doc HS. destruct (server_is _ _ _ HS) as [-> HR]. rewrite handle_cases. split.
  - intros H. destruct (dec_envelope doc) as [e|] eqn:ED; [|discriminate H]. destruct doc as [d|]; [|discriminate ED].
    destruct (e_content e) as [m|] eqn:EC; [|discriminate H]. destruct (is_request (m_ty m)) eqn:EQ; [|discriminate H].
    destruct (e_header e) as [id|] eqn:EH; [discriminate H|]. exists d, e, m. rewrite <- (header_identity d e ED). auto 10.
  - intros (d & e & m & -> & HE & HC & HQ & HI). rewrite HE, HC, HQ, (header_identity d e HE), HI. reflexivity.
Qed.
Definition accept_all : msg -> string -> answer := fun m id => (Some (MkMsg "cpresp.StartTransaction" (VStruct [("IdTagInfo", tag_info "Accepted"); ("TransactionId", VInt 5)])), None).
Example C53_ex : server accept_all is_cp_request (cs_soap accept_all) /\
  o_calls (cs_soap accept_all (Some (envelope_with id_header [start_doc ocpp_cs]))) = [(start_msg, "box")] /\
  cs_soap accept_all (Some (XE soap_ns "Envelope" [] [XE soap_ns "Body" [] [start_doc ocpp_cs]])) = MkO [] None true.
Proof. split; [constructor|]. both; vm_compute; reflexivity. Qed.

(** *** C54: errors of the handler *)
Definition reason_of (f : xml) : string := match named "reason" (children f) with [] => "" | r :: _ => chars r end.
Theorem C54_fault_written : forall app dir serve doc m id r e x, server app dir serve -> In (m, id) (o_calls (serve doc)) -> app m id = (r, Some e) ->
  o_written (serve doc) = Some x ->
  exists c f, body_elements x = c ++ [f] /\ local f = "Fault" /\ reason_of f = xml_clean e.
Proof.
  intros app dir serve doc m id r e x HS HI HA HW. destruct (C53_called_with _ _ _ _ _ _ HS HI) as (d & en & -> & HE & HC & HID & HD & _).
  destruct (server_is _ _ _ HS) as [-> HR]. rewrite handle_cases, HE, HC, (HR _ HD), (header_identity d en HE), HID in HW.
  cbn [o_written] in HW. unfold guarded in HW. rewrite HD, HA in HW. cbn [fst snd] in HW. unfold marshal_reply in HW.
  destruct (match r with Some m0 => content m0 | None => Some [] end) as [c|]; [|discriminate HW]. injection HW as <-.
  exists (elements c), (fault e). unfold body_elements. cbn. rewrite app_nil_r. unfold elements. rewrite filter_app.
  split; [reflexivity|]. split; [reflexivity|]. unfold reason_of, fault. cbn [children]. destruct (String.eqb_spec e "") as [->|NE]; [reflexivity|].
  cbn. change (fold_right _ "" (xtext (xml_clean e))) with (Xml.text_of (xtext (xml_clean e))). apply text_xtext.
Qed.
(** Without a response value something is always written. *)
Theorem C54_always_written : forall app dir serve doc m id e, server app dir serve -> In (m, id) (o_calls (serve doc)) -> app m id = (None, Some e) ->
  o_written (serve doc) <> None.
Proof.
  intros app dir serve doc m id e HS HI HA. destruct (C53_called_with _ _ _ _ _ _ HS HI) as (d & en & -> & HE & HC & HID & HD & _).
  destruct (server_is _ _ _ HS) as [-> HR]. rewrite handle_cases, HE, HC, (HR _ HD), (header_identity d en HE), HID.
  cbn [o_written]. unfold guarded. rewrite HD, HA. discriminate.
Qed.
(** What the library's client makes of a document with a fault: an error, with
    the text of Reason/Text. *)
Theorem C54_client_error : forall url mid from id req post, url <> "" -> is_request (m_ty req) = true ->
  (forall x, match post x with HDoc _ (Some d) => exists k, In k (body_elements d) /\ local k = "Fault" | HDoc _ None => True | HError => True | HEmpty _ => True end) ->
  exists t, fst (soap_send url mid from id req post) = Err t.
Proof.
  intros url mid from id req post HU HQ HP. unfold soap_send.
  destruct (request_total (m_ty req) HQ) as (a & r & HA & HR). rewrite HA, HR. unfold call. apply String.eqb_neq in HU. rewrite HU.
  destruct (request_envelope url a mid from id req) as [x|]; [|eexists; reflexivity]. cbn [fst]. specialize (HP x).
  destruct (post x) as [|st|st doc]; [eexists; reflexivity|destruct (Z.eqb st 200); eexists; reflexivity|].
  destruct doc as [d|]; [|eexists; reflexivity]. destruct (dec_envelope (Some d)) as [e|] eqn:E; [|eexists; reflexivity].
  apply (C50_fault d e E) in HP. destruct (e_fault e) as [t|]; [eexists; reflexivity|contradiction HP; reflexivity].
Qed.
(** The caller is told what the fault says, whatever else is in the reply. *)
Theorem C54_client_text : forall url mid from id req post d e t, url <> "" -> is_request (m_ty req) = true ->
  (forall x, exists st, post x = HDoc st (Some d)) -> dec_envelope (Some d) = Some e -> e_fault e = Some t ->
  fst (soap_send url mid from id req post) = Err t \/ snd (soap_send url mid from id req post) = None.
Proof.
  intros url mid from id req post d e t HU HQ HP HD HF. unfold soap_send. destruct (request_total (m_ty req) HQ) as (a & r & -> & ->). unfold call. apply String.eqb_neq in HU. rewrite HU.
  destruct (request_envelope url a mid from id req) as [x|]; [|right; reflexivity]. left. cbn [fst]. destruct (HP x) as [st ->]. rewrite HD, HF. reflexivity.
Qed.
(** One exchange of the library's client with a server of the library. *)
Definition exchange (serve : option xml -> outcome) (url mid from id : string) (req : msg) : res msg :=
  fst (soap_send url mid from id req (fun x => reply_of (serve (Some x)))).
Lemma written_has_fault app dir serve d m id r e : server app dir serve -> In (m, id) (o_calls (serve (Some d))) -> app m id = (r, Some e) ->
  match reply_of (serve (Some d)) with HDoc _ (Some d) => exists k, In k (body_elements d) /\ local k = "Fault" | HDoc _ None => True | HError => True | HEmpty _ => True end.
Proof.
  intros HS HI HA. unfold reply_of. destruct (o_panic (serve (Some d))); [exact I|]. destruct (o_written (serve (Some d))) as [x|] eqn:EW; [|exact I].
  destruct (C54_fault_written _ _ _ _ _ _ _ _ _ HS HI HA EW) as (c & f & HB & HF & _). exists f. split; [|exact HF]. rewrite HB. apply in_or_app. right. left. reflexivity.
Qed.
(** The text of the handler's error does not reach the caller. *)
Theorem C54_text_lost_refuted : forall url mid from id e, url <> "" ->
  exchange (cs_soap (fun _ _ => (None, Some e))) url mid from id start_msg = Err "".
Proof.
  intros url mid from id e HU. unfold exchange, soap_send. cbn [m_ty start_msg].
  change (action_of "cpreq.StartTransaction") with (Some "StartTransaction"). change (response_of "cpreq.StartTransaction") with (Some "cpresp.StartTransaction"). cbv iota.
  unfold call. apply String.eqb_neq in HU. rewrite HU.
  assert (msg_ok start_msg = true) as HM by (vm_compute; reflexivity).
  assert (v15 (m_ty start_msg) = true) as HV by (vm_compute; reflexivity).
  assert (charge_point_transfer (m_ty start_msg) = false) as HT by (vm_compute; reflexivity).
  destruct (proj1 (C52_round_trip start_msg HM (proj1 C52_ex_times) HV HT) url "StartTransaction" mid from id) as (x & HX & HDX).
  rewrite HX. cbn [fst]. unfold cs_soap. rewrite handle_cases, HDX. cbn [e_content e_header m_ty].
  change (is_request (m_ty start_msg)) with true. cbv iota. unfold reply_of. cbn [o_panic o_written]. unfold guarded. cbn [m_ty].
  change (is_cp_request (m_ty start_msg)) with true. cbv iota. cbn [fst snd].
  destruct (marshal_reply None (Some e)) as [y|] eqn:EY; [|discriminate EY]. rewrite (read_bare _ _ EY). reflexivity.
Qed.
Example C54_ex : let refuse := fun _ _ => (None, Some "no such tag") in
  (exists x, o_written (cs_soap refuse (Some (envelope_with id_header [start_doc ocpp_cs]))) = Some x /\ body_elements x = [fault "no such tag"] /\ reason_of (fault "no such tag") = "no such tag") /\
  exchange (cs_soap refuse) "http://h" "m" "" "box" start_msg = Err "".
Proof. split; [|vm_compute; reflexivity]. eexists. both; vm_compute; reflexivity. Qed.

(** *** C55: the result of Send *)
Theorem C55_result : forall url mid from id req post m, is_request (m_ty req) = true ->
  (fst (soap_send url mid from id req post) = Ok m <->
   url <> "" /\ exists a x st d, action_of (m_ty req) = Some a /\ request_envelope url a mid from id req = Some x /\ post x = HDoc st (Some d) /\
     local d = "Envelope" /\ response_of (m_ty req) = Some (m_ty m) /\
     (forall k, In k (body_elements d) -> exists m', holds k m') /\
     exists b k, body_elements d = b ++ [k] /\ holds k m).
Proof.
  intros url mid from id req post m HQ. unfold soap_send. destruct (request_total (m_ty req) HQ) as (a & r & HA & HR). rewrite HA, HR. unfold call.
  destruct (String.eqb_spec url "") as [EU|NU]; [split; [discriminate|intros [K _]; contradiction]|].
  destruct (request_envelope url a mid from id req) as [x|] eqn:EX; cbn [fst].
  2: { split; [discriminate|]. intros (_ & a' & x & st & d & E1 & E2 & _). injection E1 as <-. congruence. }
  split.
  - intros H. split; [exact NU|]. destruct (post x) as [|st|st doc] eqn:EP; [discriminate H|destruct (Z.eqb st 200); discriminate H|].
    destruct (dec_envelope doc) as [e|] eqn:ED; [|discriminate H]. destruct doc as [d|]; [|discriminate ED].
    destruct (e_fault e) as [t|] eqn:EF; [discriminate H|]. destruct (e_content e) as [m'|] eqn:EC; [|discriminate H].
    destruct (String.eqb_spec (m_ty m') r) as [EM|]; [|discriminate H]. injection H as ->. subst r.
    assert (forall k, In k (body_elements d) -> local k <> "Fault") as NF.
    { intros k HI HF. apply (fun P => proj2 (C50_fault d e ED) P EF). eauto. }
    destruct (proj1 (C50_accepted d) (ex_intro _ e ED)) as [HL HE].
    exists a, x, st, d. split; [reflexivity|]. split; [exact EX|]. split; [exact EP|]. split; [exact HL|]. split; [reflexivity|]. split.
    + intros k HI. destruct (HE k HI) as [K|K]; [destruct (NF k HI K)|exact K].
    + pose proof (C50_last_wins d e ED) as K. rewrite EC in K. destruct K as (b & k & c & HB & _ & HK & HC). exists b, k. split; [|exact HK].
      destruct c as [|y c]; [exact HB|]. exfalso. apply (NF y); [rewrite HB; apply in_or_app; right; right; left; reflexivity|apply HC; left; reflexivity].
  - intros (_ & a' & x' & st & d & E1 & E2 & EP & HL & HRm & HE & b & k & HB & HK). injection E1 as <-. rewrite EX in E2. injection E2 as <-.
    injection HRm as ->.
    assert (forall k, In k (body_elements d) -> is_fault k = false) as NF.
    { intros k0 HI. destruct (HE k0 HI) as [m' K]. apply holds_reads in K. destruct K as [K _]. unfold is_fault.
      destruct (String.eqb_spec (local k0) "Fault") as [E|]; [|reflexivity]. rewrite E in K. vm_compute in K. discriminate K. }
    destruct (proj2 (C50_accepted d)) as [e ED]; [split; [exact HL|intros k0 HI; right; exact (HE k0 HI)]|].
    rewrite EP, ED.
    assert (e_fault e = None) as ->.
    { destruct (e_fault e) as [t|] eqn:EF; [|reflexivity]. exfalso. destruct (proj1 (C50_fault d e ED)) as (k0 & HI & HF); [rewrite EF; discriminate|].
      specialize (NF k0 HI). apply not_fault_name in NF. contradiction. }
    pose proof (C50_last_wins d e ED) as K. destruct (e_content e) as [m'|].
    + destruct K as (b' & k' & c & HB' & _ & HK' & HC). assert (k' = k /\ c = []) as [-> ->].
      { destruct c as [|y c].
        - rewrite HB in HB'. apply app_inj_tail in HB'. destruct HB' as [_ ->]. auto.
        - exfalso. assert (In y (body_elements d)) as HI by (rewrite HB'; apply in_or_app; right; right; left; reflexivity).
          specialize (NF y HI). apply not_fault_name in NF. apply NF, HC. left. reflexivity. }
      apply holds_reads in HK. apply holds_reads in HK'. rewrite (reads_fun _ _ _ HK' HK). rewrite String.eqb_refl. reflexivity.
    + exfalso. assert (In k (body_elements d)) as HI by (rewrite HB; apply in_or_app; right; left; reflexivity).
      specialize (NF k HI). apply not_fault_name in NF. apply NF, K, HI.
Qed.
(** Another message, or none: the caller panics. *)
Theorem C55_panic : forall url mid from id req post, is_request (m_ty req) = true ->
  (fst (soap_send url mid from id req post) = Panic <->
   url <> "" /\ exists a x st d e, action_of (m_ty req) = Some a /\ request_envelope url a mid from id req = Some x /\ post x = HDoc st (Some d) /\
     dec_envelope (Some d) = Some e /\ (forall k, In k (body_elements d) -> local k <> "Fault") /\
     match e_content e with None => True | Some m => response_of (m_ty req) <> Some (m_ty m) end).
Proof.
  intros url mid from id req post HQ. unfold soap_send. destruct (request_total (m_ty req) HQ) as (a & r & HA & HR). rewrite HA, HR. unfold call.
  destruct (String.eqb_spec url "") as [EU|NU]; [split; [discriminate|intros [K _]; contradiction]|].
  destruct (request_envelope url a mid from id req) as [x|] eqn:EX; cbn [fst].
  2: { split; [discriminate|]. intros (_ & a' & x & st & d & e & E1 & E2 & _). injection E1 as <-. congruence. }
  split.
  - intros H. split; [exact NU|]. destruct (post x) as [|st|st doc] eqn:EP; [discriminate H|destruct (Z.eqb st 200); discriminate H|].
    destruct (dec_envelope doc) as [e|] eqn:ED; [|discriminate H]. destruct doc as [d|]; [|discriminate ED].
    destruct (e_fault e) as [t|] eqn:EF; [discriminate H|].
    exists a, x, st, d, e. split; [reflexivity|]. split; [exact EX|]. split; [exact EP|]. split; [exact ED|]. split.
    + intros k HI HF. apply (fun P => proj2 (C50_fault d e ED) P EF). eauto.
    + destruct (e_content e) as [m'|]; [|exact I]. destruct (String.eqb_spec (m_ty m') r) as [|NE]; [discriminate H|]. congruence.
  - intros (_ & a' & x' & st & d & e & E1 & E2 & EP & ED & NF & HC). injection E1 as <-. rewrite EX in E2. injection E2 as <-. rewrite EP, ED.
    assert (e_fault e = None) as ->.
    { destruct (e_fault e) as [t|] eqn:EF; [|reflexivity]. exfalso. destruct (proj1 (C50_fault d e ED)) as (k0 & HI & HF); [rewrite EF; discriminate|]. exact (NF k0 HI HF). }
    destruct (e_content e) as [m'|]; [|reflexivity]. destruct (String.eqb_spec (m_ty m') r) as [E|]; [congruence|reflexivity].
Qed.
Definition answers (k : list xml) : xml -> http := fun _ => HDoc 200 (Some (XE soap_ns "Envelope" [] [XE soap_ns "Body" [] k])).
Definition heartbeat_answer : xml := XE ocpp_cs "heartbeatResponse" [] [XE ocpp_cs "currentTime" [] [XT "2020-02-29T12:00:01Z"]].
Definition heartbeat : msg := MkMsg "cpreq.Heartbeat" (VStruct []).
Example C55_ex : is_request (m_ty heartbeat) = true /\
  fst (soap_send "http://h" "m" "" "box" heartbeat (answers [heartbeat_answer])) =
    Ok (MkMsg "cpresp.Heartbeat" (VStruct [("CurrentTime", VTime (MkTime 2020 2 29 12 0 1 0 0))])) /\
  fst (soap_send "http://h" "m" "" "box" heartbeat (answers [stop_answer []])) = Panic /\
  fst (soap_send "http://h" "m" "" "box" heartbeat (answers [])) = Panic.
Proof. both; vm_compute; reflexivity. Qed.

(** *** C56: other documents do not reach the handler *)
Theorem C56_not_reached : forall app dir serve doc e, server app dir serve -> dec_envelope doc = Some e ->
  match e_content e with None => True | Some m => dir (m_ty m) = false end -> o_calls (serve doc) = [].
Proof.
  intros app dir serve doc e HS HE HC. destruct (server_is _ _ _ HS) as [-> _]. rewrite handle_cases, HE. destruct (e_content e) as [m|]; [|reflexivity].
  destruct (is_request (m_ty m)); [|reflexivity]. destruct (e_header e) as [id|]; [|reflexivity]. cbn [o_calls]. unfold guarded. rewrite HC. reflexivity.
Qed.
Theorem C56_undecodable : forall app dir serve doc, server app dir serve -> dec_envelope doc = None -> serve doc = MkO [] None false.
Proof. intros app dir serve doc HS HE. destruct (server_is _ _ _ HS) as [-> _]. rewrite handle_cases, HE. reflexivity. Qed.
(** No request: nothing is answered; a request of the other direction is answered with a fault. *)
Theorem C56_answer : forall app dir serve d e m, server app dir serve -> dec_envelope (Some d) = Some e -> e_content e = Some m -> dir (m_ty m) = false ->
  if is_request (m_ty m) then match stated_identity d with
    | None => serve (Some d) = MkO [] None true
    | Some _ => exists x f, serve (Some d) = MkO [] (Some x) false /\ body_elements x = [f] /\ local f = "Fault" /\ reason_of f = "request is not a cprequest"
    end
  else serve (Some d) = MkO [] None false.
Proof.
  intros app dir serve d e m HS HE HC HD. destruct (server_is _ _ _ HS) as [-> _]. rewrite handle_cases, HE, HC. destruct (is_request (m_ty m)); [|reflexivity].
  rewrite (header_identity d e HE). destruct (stated_identity d) as [id|]; [|reflexivity]. unfold guarded. rewrite HD. cbn [fst snd].
  eexists. eexists. split; [reflexivity|]. both; vm_compute; reflexivity.
Qed.
Example C56_ex : server (fun _ _ => (None, None)) is_cs_request (cp_soap (fun _ => (None, None))) /\
  o_calls (cp_soap (fun _ => (None, None)) (Some (envelope_with id_header [start_doc ocpp_cs]))) = [] /\
  o_calls (cs_soap accept_all (Some (envelope_with id_header [heartbeat_answer]))) = [] /\
  cs_soap accept_all (Some (XE "" "hello" [] [])) = MkO [] None false.
Proof. split; [exact (ChargePointServer (fun _ => (None, None)))|]. both; vm_compute; reflexivity. Qed.

(** *** C63: the library's client against the library's server *)
Lemma response_v15 ty r : v15 ty = true -> charge_point_transfer ty = false -> response_of ty = Some r -> v15 r = true /\ charge_point_transfer r = false.
Proof.
  intros HV HT HR. apply lookup_In in HR.
  assert (forallb (fun p => negb (v15 (fst p)) || charge_point_transfer (fst p) || (v15 (snd p) && negb (charge_point_transfer (snd p)))) response_table = true) as K by (vm_compute; reflexivity).
  rewrite forallb_forall in K. specialize (K _ HR). cbn [fst snd] in K. rewrite HV, HT in K. cbn in K. apply andb_true_iff in K. destruct K as [K1 K2].
  split; [exact K1|apply negb_true_iff; exact K2].
Qed.
Definition arrived (m : msg) : msg := MkMsg (m_ty m) (xnorm (TStruct (m_ty m)) (m_val m)).

(** The request is one the transport carries, for the server it is sent to. *)
Definition sendable (dir : string -> bool) (req : msg) : Prop :=
  msg_ok req = true /\ wire_times (m_val req) /\ v15 (m_ty req) = true /\ charge_point_transfer (m_ty req) = false /\ dir (m_ty req) = true.

Lemma exchange_steps app dir serve url mid from id req : server app dir serve -> sendable dir req -> url <> "" ->
  exists a r x, action_of (m_ty req) = Some a /\ response_of (m_ty req) = Some r /\ request_envelope url a mid from id req = Some x /\
    o_calls (serve (Some x)) = [(arrived req, xml_clean id)] /\ o_panic (serve (Some x)) = false /\
    o_written (serve (Some x)) = marshal_reply (fst (app (arrived req) (xml_clean id))) (snd (app (arrived req) (xml_clean id))) /\
    exchange serve url mid from id req = fst (call url mid from id a req r (fun x => reply_of (serve (Some x)))).
Proof.
  intros HS (HM & HW & HV & HT & HD) HU. destruct (server_is _ _ _ HS) as [E HR]. destruct (request_total (m_ty req) (HR _ HD)) as (a & r & HA & HRsp).
  destruct (proj1 (C52_round_trip req HM HW HV HT) url a mid from id) as (x & HX & HDX). exists a, r, x.
  split; [exact HA|]. split; [exact HRsp|]. split; [exact HX|]. subst serve. rewrite handle_cases, HDX. cbn [e_content e_header m_ty]. rewrite (HR _ HD).
  cbn [o_calls o_panic o_written]. unfold guarded. cbn [m_ty]. rewrite HD. cbn [fst snd]. fold (arrived req).
  split; [reflexivity|]. split; [reflexivity|]. split; [reflexivity|]. unfold exchange, soap_send. rewrite HA, HRsp. reflexivity.
Qed.

Theorem C63_handler_called : forall app dir serve url mid from id req, server app dir serve -> sendable dir req -> url <> "" ->
  exists x, snd (soap_send url mid from id req (fun x => reply_of (serve (Some x)))) = Some x /\ o_calls (serve (Some x)) = [(arrived req, xml_clean id)].
Proof.
  intros app dir serve url mid from id req HS HQ HU. destruct (exchange_steps app dir serve url mid from id req HS HQ HU) as (a & r & x & HA & HR & HX & HC & _).
  exists x. split; [|exact HC]. unfold soap_send. rewrite HA, HR. unfold call. apply String.eqb_neq in HU. rewrite HU, HX. reflexivity.
Qed.
Theorem C63_answered : forall app dir serve url mid from id req resp, server app dir serve -> sendable dir req -> url <> "" ->
  app (arrived req) (xml_clean id) = (Some resp, None) -> msg_ok resp = true -> wire_times (m_val resp) -> v15 (m_ty resp) = true -> charge_point_transfer (m_ty resp) = false ->
  exchange serve url mid from id req = if match response_of (m_ty req) with Some r => String.eqb r (m_ty resp) | None => false end then Ok (arrived resp) else Panic.
Proof.
  intros app dir serve url mid from id req resp HS HQ HU HApp HM HW HV HT.
  destruct (exchange_steps app dir serve url mid from id req HS HQ HU) as (a & r & x & HA & HR & HX & _ & HP & HWr & ->). rewrite HApp in HWr. cbn [fst snd] in HWr.
  destruct (proj2 (C52_round_trip resp HM HW HV HT)) as (y & HY & HDY). rewrite HY in HWr.
  unfold call. apply String.eqb_neq in HU. rewrite HU, HX, HR. cbn [fst]. unfold reply_of. rewrite HP, HWr, HDY. cbn [e_fault e_content m_ty].
  rewrite String.eqb_sym. destruct (String.eqb r (m_ty resp)); reflexivity.
Qed.
(** In particular: the response the request calls for is what Send returns. *)
Theorem C63_response : forall app dir serve url mid from id req resp, server app dir serve -> sendable dir req -> url <> "" ->
  app (arrived req) (xml_clean id) = (Some resp, None) -> msg_ok resp = true -> wire_times (m_val resp) -> response_of (m_ty req) = Some (m_ty resp) ->
  exchange serve url mid from id req = Ok (arrived resp).
Proof.
  intros app dir serve url mid from id req resp HS HQ HU HApp HM HW HR. destruct HQ as (Q1 & Q2 & Q3 & Q4 & Q5).
  destruct (response_v15 _ _ Q3 Q4 HR) as [HV HT].
  rewrite (C63_answered app dir serve url mid from id req resp HS (conj Q1 (conj Q2 (conj Q3 (conj Q4 Q5)))) HU HApp HM HW HV HT), HR, String.eqb_refl. reflexivity.
Qed.
Theorem C63_error : forall app dir serve url mid from id req resp e, server app dir serve -> sendable dir req -> url <> "" ->
  app (arrived req) (xml_clean id) = (resp, Some e) -> exists t, exchange serve url mid from id req = Err t.
Proof.
  intros app dir serve url mid from id req resp e HS HQ HU HApp.
  destruct (exchange_steps app dir serve url mid from id req HS HQ HU) as (a & r & x & HA & HR & HX & HC & HP & HWr & ->).
  unfold call. apply String.eqb_neq in HU. rewrite HU, HX. cbn [fst].
  assert (In (arrived req, xml_clean id) (o_calls (serve (Some x)))) as HI by (rewrite HC; left; reflexivity).
  pose proof (written_has_fault app dir serve x _ _ _ _ HS HI HApp) as K.
  destruct (reply_of (serve (Some x))) as [|st|st doc]; [eexists; reflexivity|destruct (Z.eqb st 200); eexists; reflexivity|].
  destruct doc as [d|]; [|eexists; reflexivity]. destruct (dec_envelope (Some d)) as [en|] eqn:E; [|eexists; reflexivity].
  apply (C50_fault d en E) in K. destruct (e_fault en) as [t|]; [eexists; reflexivity|contradiction K; reflexivity].
Qed.
(** A handler that answers with neither response nor error makes its peer's Send panic. *)
Theorem C63_nothing_panics : forall app dir serve url mid from id req, server app dir serve -> sendable dir req -> url <> "" ->
  app (arrived req) (xml_clean id) = (None, None) -> exchange serve url mid from id req = Panic.
Proof.
  intros app dir serve url mid from id req HS HQ HU HApp.
  destruct (exchange_steps app dir serve url mid from id req HS HQ HU) as (a & r & x & HA & HR & HX & HC & HP & HWr & ->).
  rewrite HApp in HWr. cbn [fst snd] in HWr. unfold call. apply String.eqb_neq in HU. rewrite HU, HX. cbn [fst]. unfold reply_of. rewrite HP, HWr.
  destruct (marshal_reply None None) as [y|] eqn:EY; [|discriminate EY]. rewrite (read_bare _ _ EY). reflexivity.
Qed.
(** Without a header identity the client states the empty one: the server does not panic for its peers. *)
Theorem C63_no_panic_at_server : forall app dir serve url a mid from id req x, server app dir serve ->
  msg_ok req = true -> wire_times (m_val req) -> is_request (m_ty req) = true -> request_envelope url a mid from id req = Some x -> o_panic (serve (Some x)) = false.
Proof.
  intros app dir serve url a mid from id req x HS HM HW HQ HX. destruct (o_panic (serve (Some x))) eqn:EP; [|reflexivity]. exfalso.
  apply (C53_panic app dir serve (Some x) HS) in EP. destruct EP as (d & e & m & E & _ & _ & _ & HI). injection E as <-.
  unfold request_envelope in HX. destruct (content req); [|discriminate HX]. injection HX as <-. unfold stated_identity in HI. cbn in HI. discriminate HI.
Qed.
Definition reset_msg : msg := MkMsg "csreq.Reset" (VStruct [("Type", VStr "Soft")]).
Definition reset_app : msg -> answer := fun _ => (Some (MkMsg "csresp.Reset" (VStruct [("Status", VStr "Accepted")])), None).
Example C63_ex : sendable is_cp_request start_msg /\ sendable is_cs_request reset_msg /\
  exchange (cs_soap accept_all) "http://h" "m" "" "box" start_msg =
    Ok (MkMsg "cpresp.StartTransaction" (VStruct [("IdTagInfo", tag_info "Accepted"); ("TransactionId", VInt 5)])) /\
  exchange (cp_soap reset_app) "http://h" "m" "" "box" reset_msg = Ok (MkMsg "csresp.Reset" (VStruct [("Status", VStr "Accepted")])) /\
  exchange (cs_soap (fun _ _ => (None, None))) "http://h" "m" "" "box" start_msg = Panic.
Proof.
  split; [|split]; [| |both; vm_compute; reflexivity].
  - split; [vm_compute; reflexivity|]. split; [exact (proj1 C52_ex_times)|]. both; vm_compute; reflexivity.
  - split; [vm_compute; reflexivity|]. split; [repeat constructor|]. both; vm_compute; reflexivity.
Qed.
