(** Property theorems C66, C67: what the SOAP transport puts on the wire. *)
From Verif Require Import GoBase Utf8 Json Float64 GoTime Lang Types Codec EncProofs Tables Registry Leaves
  SpecCodec SpecEnc RoundTrip DecTyped Xml XmlProofs XmlTyped Soap SpecSoap SoapProofs SoapMore
  SpecXmlText XmlText XmlWritten PropsSoap.
Open Scope string_scope.
Open Scope list_scope.

(** *** C66: the envelope of a request *)

Definition ns_soap := "http://www.w3.org/2003/05/soap-envelope".
Definition ns_addressing := "http://www.w3.org/2005/08/addressing".
Definition ns_charge_point := "urn://Ocpp/Cp/2012/06/".

(** [states h nm ns text]: [h] has exactly one element [nm], it is in [ns], without
    attributes, and contains [text] (as far as XML can carry it) and nothing else. *)
Definition states (h : xml) (nm ns text : string) : Prop :=
  exists k, named nm (children h) = [k] /\ space k = ns /\ chars k = xml_clean text /\
    forall c, In c (children k) -> is_element c = false.

Lemma leaf_states ns nm s : space (leaf ns nm s) = ns /\ chars (leaf ns nm s) = xml_clean s /\
  forall c, In c (children (leaf ns nm s)) -> is_element c = false.
Proof.
  unfold leaf. cbn [space children]. split; [reflexivity|]. split.
  - unfold chars. cbn [children]. apply text_clean.
  - intros c HI. unfold xtext in HI. destruct (String.eqb _ _); [destruct HI|]. destruct HI as [<-|[]]. reflexivity.
Qed.

Lemma action_type ty a : action_of ty = Some a -> ty = "cpreq." +++ a \/ ty = "csreq." +++ a.
Proof.
  intros H. apply lookup_In in H.
  assert (forallb (fun p => String.eqb (fst p) ("cpreq." +++ snd p) || String.eqb (fst p) ("csreq." +++ snd p)) action_table = true) as K by (vm_compute; reflexivity).
  rewrite forallb_forall in K. specialize (K _ H). cbn [fst snd] in K. apply orb_true_iff in K.
  destruct K as [K|K]; apply String.eqb_eq in K; auto.
Qed.

(** A request is posted in one envelope: a header that states where it goes, the
    action, the message identifier, where answers go and the identity of the
    charge point; and a body with the one element of the request. *)
Theorem C66_envelope : forall url mid from id req post x, is_request (m_ty req) = true -> snd (soap_send url mid from id req post) = Some x ->
  exists action h b c, (m_ty req = "cpreq." +++ action \/ m_ty req = "csreq." +++ action) /\
    local x = "Envelope" /\ space x = ns_soap /\ children x = [h; b] /\
    local h = "Header" /\ space h = ns_soap /\ local b = "Body" /\ space b = ns_soap /\
    map local (children h) = ["To"; "Action"; "MessageID"; "From"; "chargeBoxIdentity"] /\
    states h "To" ns_addressing url /\
    states h "Action" ns_addressing ("/" +++ action) /\
    states h "MessageID" ns_addressing ("uuid:" +++ mid) /\
    (exists f, named "From" (children h) = [f] /\ space f = ns_addressing /\ states f "Address" ns_addressing from) /\
    states h "chargeBoxIdentity" ns_charge_point id /\
    children b = [c] /\ content req = Some [c] /\ is_element c = true.
Proof.
  intros url mid from id req post x HQ HX. unfold soap_send in HX.
  destruct (action_of (m_ty req)) as [a|] eqn:EA; [|discriminate HX].
  destruct (response_of (m_ty req)) as [r|]; [|discriminate HX]. unfold call in HX.
  destruct (String.eqb url ""); [discriminate HX|]. destruct (request_envelope url a mid from id req) as [y|] eqn:ER; [|discriminate HX].
  injection HX as ->. unfold request_envelope in ER. destruct (content req) as [l|] eqn:EC; [|discriminate ER].
  assert (exists c, l = [c] /\ is_element c = true) as (c & -> & HE).
  { unfold content in EC. cbn [xenc andb is_empty] in EC. destruct (m_val req); try discriminate EC. cbn [xenc andb] in EC. destruct (find_decl (m_ty req)) as [d|]; [|discriminate EC].
    destruct (omapl _ fs) as [ls|]; [|discriminate EC]. injection EC as <-. eexists. split; reflexivity. }
  injection ER as <-. do 4 eexists. split; [|split; [reflexivity|]; split; [reflexivity|]; split; [reflexivity|]].
  - exact (action_type _ _ EA).
  - repeat (split; [first [reflexivity | eexists; split; [reflexivity|]; apply leaf_states]|]).
    split; [exists (XE wsa_ns "From" [] [leaf wsa_ns "Address" from]); split; [reflexivity|]; split; [reflexivity|]; eexists; split; [reflexivity|]; apply leaf_states|].
    split; [eexists; split; [reflexivity|]; apply leaf_states|]. split; [reflexivity|]. split; [reflexivity|exact HE].
Qed.
(** The action is in the header as it is. *)
Theorem C66_action_exact : forall ty action, is_request ty = true -> ty = "cpreq." +++ action \/ ty = "csreq." +++ action ->
  xml_clean ("/" +++ action) = "/" +++ action.
Proof.
  intros ty a HQ H. destruct (request_total ty HQ) as (a' & r & HA & _).
  assert (a = a') as ->.
  { assert (forall x y z : string, x +++ y = x +++ z -> y = z) as inj.
    { induction x as [|c x IH]; intros y z E; [exact E|]. cbn in E. injection E as E. exact (IH y z E). }
    destruct (action_type _ _ HA) as [K|K], H as [H|H]; rewrite H in K; try discriminate K; exact (inj _ _ _ K). }
  apply lookup_In in HA.
  assert (forallb (fun p => String.eqb (xml_clean ("/" +++ snd p)) ("/" +++ snd p)) action_table = true) as K by (vm_compute; reflexivity).
  rewrite forallb_forall in K. specialize (K _ HA). apply String.eqb_eq in K. exact K.
Qed.
(** Nothing is posted without an address; otherwise exactly the requests that can
    be encoded are posted, once, whatever comes back. *)
Theorem C66_posted : forall url mid from id req post, is_request (m_ty req) = true ->
  (snd (soap_send url mid from id req post) <> None <-> url <> "" /\ content req <> None).
Proof.
  intros url mid from id req post HQ. unfold soap_send. destruct (request_total (m_ty req) HQ) as (a & r & -> & ->). unfold call.
  destruct (String.eqb_spec url "") as [EU|NU].
  - cbn [snd]. split; [intros K; contradiction K; reflexivity|intros [K _]; contradiction].
  - unfold request_envelope. destruct (content req) as [c|]; cbn [snd].
    + split; [intros _; split; [exact NU|]; discriminate|discriminate].
    + split; [intros K; contradiction K; reflexivity|intros [_ K]; contradiction K; reflexivity].
Qed.
Theorem C66_same_whatever_answered : forall url mid from id req post post', snd (soap_send url mid from id req post) = snd (soap_send url mid from id req post').
Proof.
  intros. unfold soap_send. destruct (action_of (m_ty req)) as [a|], (response_of (m_ty req)) as [r|]; try reflexivity. unfold call.
  destruct (String.eqb url ""); [reflexivity|]. destruct (request_envelope url a mid from id req); reflexivity.
Qed.
(** The identity header of a charge point's requests is not in the namespace of
    the central system's service description, in which the request itself is. *)
Theorem C66_identity_namespace_refuted : forall url mid from id req post x nm ns, is_cp_request (m_ty req) = true -> element_of nm ns (m_ty req) ->
  snd (soap_send url mid from id req post) = Some x ->
  exists h k c, children x = [h; k] /\ children k = [c] /\ space c = ns /\ ns = "urn://Ocpp/Cs/2012/06/" /\
    forall i, In i (named "chargeBoxIdentity" (children h)) -> space i <> ns.
Proof.
  intros url mid from id req post x nm ns HQ HE HX.
  assert (is_request (m_ty req) = true) as HQ' by (unfold is_request; rewrite HQ; reflexivity).
  destruct (C66_envelope url mid from id req post x HQ' HX) as (a & h & b & c & HT & _ & _ & HC & _ & _ & _ & _ & _ & _ & _ & _ & _ & HI & HB & HCc & _).
  assert (ns = "urn://Ocpp/Cs/2012/06/") as EN.
  { destruct HE as [a' _|a' _|a' _|a' _]; try reflexivity; exfalso; unfold is_cp_request, marker_of in HQ;
      destruct HT as [HT|HT]; try discriminate HT; cbn [m_ty] in *.
    destruct (find_decl ("csreq." +++ a')) as [d|] eqn:ED; [|discriminate HQ]. destruct (find_decl_in _ _ ED) as [HI' HN].
    assert (forallb (fun d => negb (String.eqb (d_marker d) "chargepointRequest" && String.prefix "csreq." (d_name d))) all_decls = true) as K by (vm_compute; reflexivity).
    rewrite forallb_forall in K. specialize (K d HI'). rewrite HN, HQ in K. cbn in K. destruct a'; discriminate K. }
  exists h, b, c. split; [exact HC|]. split; [exact HB|]. split; [|split; [exact EN|]].
  - apply type_names in HE. unfold xmlname in HE. unfold content in HCc. cbn [xenc andb is_empty] in HCc.
    destruct (m_val req); try discriminate HCc. cbn [xenc andb] in HCc. destruct (find_decl (m_ty req)) as [d|]; [|discriminate HCc].
    destruct (omapl _ fs); [|discriminate HCc]. rewrite HE in HCc. injection HCc as <-. cbn [space fst]. rewrite EN. reflexivity.
  - destruct HI as (k & HI & HS & _). rewrite HI. intros i [<-|[]]. rewrite HS, EN. discriminate.
Qed.
Definition ex_url := "http://cs.example/ocpp".
Example C66_ex : is_request (m_ty start_msg) = true /\ is_cp_request (m_ty start_msg) = true /\
  element_of "startTransactionRequest" "urn://Ocpp/Cs/2012/06/" (m_ty start_msg) /\
  exists x, snd (soap_send ex_url "42" "http://cp" "box" start_msg (fun _ => HError)) = Some x /\
    exists h b, children x = [h; b] /\ states h "Action" ns_addressing "/StartTransaction" /\
      map (fun k => (local k, chars k)) (flat_map children (children b)) =
        [("connectorId", "1"); ("idTag", "tag"); ("meterStart", "7"); ("timestamp", "2020-02-29T12:00:01.5Z")].
Proof.
  split; [reflexivity|]. split; [reflexivity|]. split; [exact (ByCPReq "StartTransaction" ltac:(cbn; tauto))|].
  eexists. split; [vm_compute; reflexivity|]. do 2 eexists. split; [reflexivity|]. split; [|vm_compute; reflexivity].
  eexists. split; [reflexivity|]. split; [reflexivity|]. split; [reflexivity|]. intros c [<-|[]]. reflexivity.
Qed.

(** *** C67: only characters of XML *)

(** Whatever strings the application uses, every piece of text and every attribute
    the library writes consists of characters XML documents may contain. *)
Theorem C67_request_text : forall url mid from id req post x, msg_ok req = true -> snd (soap_send url mid from id req post) = Some x ->
  forall s, In s (texts x) -> xml_text s.
Proof.
  intros url mid from id req post x HM HX. unfold soap_send in HX.
  destruct (action_of (m_ty req)) as [a|] eqn:EA; [|discriminate HX].
  destruct (response_of (m_ty req)) as [r|]; [|discriminate HX]. unfold call in HX.
  destruct (String.eqb url ""); [discriminate HX|]. destruct (request_envelope url a mid from id req) as [y|] eqn:ER; [|discriminate HX].
  injection HX as ->. apply Forall_forall. exact (request_written_xml _ _ _ _ _ _ _ HM ER).
Qed.
Theorem C67_reply_text : forall app dir serve doc x, server app dir serve ->
  (forall m id r e, app m id = (Some r, e) -> msg_ok r = true) ->
  o_written (serve doc) = Some x -> forall s, In s (texts x) -> xml_text s.
Proof.
  intros app dir serve doc x HS HA HW. destruct (server_is _ _ _ HS) as [-> _]. rewrite handle_cases in HW.
  destruct (dec_envelope doc) as [e|]; [|discriminate HW]. destruct (e_content e) as [m|]; [|discriminate HW].
  destruct (is_request (m_ty m)); [|discriminate HW]. destruct (e_header e) as [id|]; [|discriminate HW]. cbn [o_written] in HW.
  apply Forall_forall. refine (reply_written _ _ _ _ HW). intros r Hr. unfold guarded in Hr. destruct (dir (m_ty m)); cbn [fst] in Hr.
  - destruct (app m id) as [r' e'] eqn:EA. cbn [fst] in Hr. subst r'. exact (HA _ _ _ _ EA).
  - discriminate Hr.
Qed.
(** A string arrives as it is exactly when XML can carry it; otherwise it arrives
    as text XML can carry. *)
Theorem C67_strings : forall s, (xml_text s <-> xml_clean s = s) /\ xml_text (xml_clean s) /\ xml_clean (xml_clean s) = xml_clean s.
Proof. intros s. split; [apply clean_id|]. split; [apply clean_text|]. apply clean_id, clean_text. Qed.
Definition odd_msg : msg := MkMsg "csreq.ChangeConfiguration" (VStruct [("Key", VStr (String (chr 7) "k")); ("Value", VStr (String (chr 255) "<&"))]).
Example C67_ex : msg_ok odd_msg = true /\ ~ xml_text (String (chr 7) "k") /\ xml_text (fffd +++ "k") /\
  exists x, snd (soap_send ex_url "m" "" "box" odd_msg (fun _ => HError)) = Some x /\ In (fffd +++ "<&") (texts x).
Proof.
  split; [reflexivity|]. split; [intros H; apply clean_id in H; vm_compute in H; discriminate H|]. split; [apply clean_id; reflexivity|].
  eexists. split; [vm_compute; reflexivity|]. vm_compute. tauto.
Qed.
