(** Property theorems C10, C11, C12, C15, C16: payloads and the bundled JSON
    schemas. *)
From Verif Require Import GoBase Utf8 Json JsonProofs Float64 GoTime Lang Types Codec EncProofs Any AnyProofs
  DecProofs SpecCodec RoundTrip Tables Registry Frame SpecFrame FrameMore Leaves SpecEnc EncTotal DecTyped Schemas SpecSchema
  SchemaProofs SchemaMore SchemaEmit.
From Verif Require Import PropsFrame PropsCodec.
Open Scope string_scope.
Open Scope list_scope.

(** *** C10: encoding succeeds except for the stated reasons ... *)
Theorem C10_total : forall n v, has_type v (TStruct n) = true ->
  ((exists s, marshal_msg n v = Ok s) <->
   finite_floats v = true /\ objects_present (TStruct n) v = true /\ expiry_present (TStruct n) v = true).
Proof. intros n v HT. exact (proj1 (marshal_total n v HT)). Qed.
Print Assumptions C10_total.
Theorem C10_no_crash : forall n v, has_type v (TStruct n) = true -> expiry_present (TStruct n) v = true -> marshal_msg n v <> Panic.
Proof. intros n v HT. exact (proj2 (proj2 (marshal_total n v HT))). Qed.
Print Assumptions C10_no_crash.
(** ... and gives one JSON object with the type's property names, each once,
    except those left out. *)
Theorem C10_keys : forall n d fs text, find_decl n = Some d -> has_type (VStruct fs) (TStruct n) = true ->
  marshal_msg n (VStruct fs) = Ok text ->
  exists l, parse text = Some (JObj l) /\ NoDup (map fst l) /\
    forall k, In k (map fst l) <->
      exists f v, In f (d_fields d) /\ f_json f = k /\ lookup (f_name f) fs = Some v /\ left_out n (f_name f) v = false.
Proof. exact encoded_keys. Qed.
Print Assumptions C10_keys.
Definition ex_status (ts : gval) : gval :=
  VStruct [("ConnectorId", VInt 1); ("ErrorCode", VStr "NoError"); ("Info", VStr ""); ("Status", VStr "Available");
           ("Timestamp", ts); ("VendorErrorCode", VStr ""); ("VendorId", VStr "")].
Example C10_ex : has_type (ex_status VNil) (TStruct "cpreq.StatusNotification") = true /\
  marshal_msg "cpreq.StatusNotification" (ex_status VNil) =
    Ok "{""connectorId"":1,""errorCode"":""NoError"",""info"":"""",""status"":""Available"",""vendorErrorCode"":"""",""vendorId"":""""}" /\
  is_ok (marshal_msg "cpreq.StatusNotification" (ex_status (VPtr (VTime time_zero)))) = true.
Proof. vm_compute. auto. Qed.

(** *** C11: unknown properties of a message are rejected ... *)
Theorem C11_unknown_rejected : forall ty props req add m k text,
  In ty msg_types -> reflective ty = false -> schema_of ty = Some (SObj props req add) -> add = false ->
  wf_any (AObj m) -> marshal_any (AObj m) = Ok text ->
  In k (map fst m) -> ~ In k (map fst props) -> unmarshal_msg ty text = None.
Proof.
  intros ty props req add m k text HI HR HS HA HW HM HK HN. destruct (unmarshal_msg ty text) as [v|] eqn:E; [exfalso|reflexivity].
  pose proof (accepted_shaped ty _ _ text v HI HS HW HM E) as H. unfold demanded in H. rewrite HR, shaped_obj in H.
  apply andb_true_iff in H. destruct H as [H _]. rewrite forallb_forall in H. apply in_map_iff in HK. destruct HK as ([k' a] & E1 & HK).
  cbn [fst] in E1. subst k'. specialize (H _ HK). cbn [fst snd] in H. destruct (find_schema props k) as [s|] eqn:EF; [|congruence].
  apply find_schema_in in EF. apply HN, in_map_iff. exists (k, s). auto.
Qed.
Print Assumptions C11_unknown_rejected.
(** Every schema of a message type forbids additional properties. *)
Theorem C11_schemas_closed : forall ty, In ty msg_types ->
  exists props req, schema_of ty = Some (SObj props req false).
Proof.
  intros ty HI.
  assert (H : forallb (fun ty => match schema_of ty with Some (SObj _ _ false) => true | _ => false end) msg_types = true) by (vm_compute; reflexivity).
  rewrite forallb_forall in H. specialize (H ty HI). destruct (schema_of ty) as [[| | | | |props req []]|]; try discriminate. eauto.
Qed.
Print Assumptions C11_schemas_closed.
(** ... but ignored by the two types without a decoder of their own, and by all
    nested object types: they change nothing, whatever they hold. *)
Theorem C11_unknown_ignored : forall n d l1 k x l2 c, find_decl n = Some d -> dec_strict d = false ->
  Forall (fun f => fold_key (f_json f) <> fold_key k) (d_fields d) ->
  NoDup (map fst (l1 ++ (k, x) :: l2)) ->
  dec (JObj (l1 ++ (k, x) :: l2)) (TStruct n) c = dec (JObj (l1 ++ l2)) (TStruct n) c.
Proof. exact unknown_ignored. Qed.
Print Assumptions C11_unknown_ignored.
Theorem C11_lenient_types : forall d, In d all_decls ->
  dec_strict d = false <-> (reflective (d_name d) = true \/ ~ In (d_name d) msg_types).
Proof.
  intros d HI.
  assert (H : forallb (fun d => Bool.eqb (negb (dec_strict d)) (reflective (d_name d) || negb (strmem (d_name d) msg_types))) all_decls = true) by (vm_compute; reflexivity).
  rewrite forallb_forall in H. specialize (H d HI). apply Bool.eqb_prop in H. rewrite <- strmem_In.
  destruct (dec_strict d), (reflective (d_name d)), (strmem (d_name d) msg_types); try discriminate; intuition discriminate.
Qed.
Print Assumptions C11_lenient_types.
Example C11_ex : In "cpreq.Heartbeat" msg_types /\ reflective "cpreq.Heartbeat" = false /\
  unmarshal_msg "cpreq.Heartbeat" "{""x"":1}" = None /\ unmarshal_msg "cpreq.Heartbeat" "{}" = Some (VStruct []).
Proof. conjs; vm_compute; intuition. Qed.

(** *** C12: required properties, at any depth; known properties have the
    schema's JSON type or are null. *)
Theorem C12_accepted_shape : forall ty s a text v, In ty msg_types -> schema_of ty = Some s -> wf_any a ->
  marshal_any a = Ok text -> unmarshal_msg ty text = Some v -> shaped (demanded ty s) a = true.
Proof. exact accepted_shaped. Qed.
Print Assumptions C12_accepted_shape.
Theorem C12_required : forall ty props req add m k text,
  In ty msg_types -> reflective ty = false -> schema_of ty = Some (SObj props req add) ->
  wf_any (AObj m) -> marshal_any (AObj m) = Ok text ->
  In k req -> ~ In k (map fst m) -> unmarshal_msg ty text = None.
Proof.
  intros ty props req add m k text HI HR HS HW HM HK HN. destruct (unmarshal_msg ty text) as [v|] eqn:E; [exfalso|reflexivity].
  pose proof (accepted_shaped ty _ _ text v HI HS HW HM E) as H. unfold demanded in H. rewrite HR, shaped_obj in H.
  apply andb_true_iff in H. destruct H as [_ H]. rewrite forallb_forall in H. specialize (H k HK). apply has_key_In in H. contradiction.
Qed.
Print Assumptions C12_required.
Theorem C12_reflective_refuted :
  unmarshal_msg "csreq.RemoteStartTransaction" "{}" = Some (zero (TStruct "csreq.RemoteStartTransaction")) /\
  unmarshal_msg "csreq.RemoteStopTransaction" "{}" = Some (zero (TStruct "csreq.RemoteStopTransaction")).
Proof. vm_compute. auto. Qed.
Print Assumptions C12_reflective_refuted.
(** A required property may be null: any set of known properties including the
    required ones, all null, is accepted and gives the zero value. *)
Theorem C12_null_refuted : forall ty props req add m text, In ty msg_types -> schema_of ty = Some (SObj props req add) ->
  wf_any (AObj m) -> Forall (fun kv => snd kv = ANull /\ In (fst kv) (map fst props)) m ->
  Forall (fun k => In k (map fst m)) req ->
  marshal_any (AObj m) = Ok text -> unmarshal_msg ty text = Some (zero (TStruct ty)).
Proof. exact nulls_accepted. Qed.
Print Assumptions C12_null_refuted.
Example C12_null_ex : unmarshal_msg "cpreq.StartTransaction"
  "{""connectorId"":null,""idTag"":null,""meterStart"":null,""timestamp"":null}" = Some (zero (TStruct "cpreq.StartTransaction")) /\
  exists props, schema_of "cpreq.StartTransaction" = Some (SObj props ["connectorId"; "idTag"; "meterStart"; "timestamp"] false).
Proof.
  split; [vm_compute; exact eq_refl|].
  exists (match schema_of "cpreq.StartTransaction" with Some (SObj p _ _) => p | _ => [] end). vm_compute. exact eq_refl.
Qed.

(** *** C15: decoders against the schemas.  Payloads that fit are accepted ... *)
Theorem C15_fitting_accepted : forall ty s a text, In ty msg_types -> schema_of ty = Some s -> wf_any a -> fits s a = true ->
  marshal_any a = Ok text -> exists v, unmarshal_msg ty text = Some v.
Proof. exact schema_accepted. Qed.
Print Assumptions C15_fitting_accepted.
(** ... and accepted ones have the schema's shape and a well-typed value. *)
Theorem C15_accepted_shape : forall ty s a text v, In ty msg_types -> schema_of ty = Some s -> wf_any a ->
  marshal_any a = Ok text -> unmarshal_msg ty text = Some v -> shaped (demanded ty s) a = true /\ has_type v (TStruct ty) = true.
Proof.
  intros ty s a text v HI HS HW HM HV. split; [exact (accepted_shaped ty s a text v HI HS HW HM HV)|].
  destruct (find_decl ty) as [d|] eqn:Ed; [exact (unmarshal_msg_typed ty d text v Ed HV)|].
  unfold unmarshal_msg in HV. destruct (parse text); [|discriminate]. destruct j; cbn [dec at_ty] in HV; rewrite Ed in HV; discriminate.
Qed.
Print Assumptions C15_accepted_shape.
Theorem C15_every_type : forall ty, is_request ty = true \/ is_response ty = true -> In ty msg_types /\ schema_of ty <> None.
Proof.
  intros ty H.
  assert (HA : forallb (fun d => negb (is_request (d_name d) || is_response (d_name d)) ||
     (strmem (d_name d) msg_types && match schema_of (d_name d) with Some _ => true | None => false end)) all_decls = true) by (vm_compute; reflexivity).
  assert (HF : exists d, find_decl ty = Some d).
  { destruct (find_decl ty) as [d|] eqn:E; [eauto|]. unfold is_request, is_response, is_cp_request, is_cs_request, is_cp_response, is_cs_response, marker_of in H.
    rewrite E in H. destruct H as [H|H]; vm_compute in H; discriminate. }
  destruct HF as [d Hd]. destruct (find_decl_in ty d Hd) as [HI HN]. rewrite forallb_forall in HA. specialize (HA d HI). rewrite HN in HA.
  assert (is_request ty || is_response ty = true) as HO by (apply orb_true_iff; exact H). rewrite HO in HA. cbn [negb orb] in HA.
  apply andb_true_iff in HA. destruct HA as [A1 A2]. apply strmem_In in A1. split; [exact A1|]. destruct (schema_of ty); discriminate.
Qed.
Print Assumptions C15_every_type.
(** The requests and responses meant: every request has its response, and both have their marker. *)
Theorem C15_kinds : forall q, is_request q = true -> exists a r, action_of q = Some a /\ response_of q = Some r /\ is_response r = true.
Proof.
  intros q H.
  assert (HA : forallb (fun d => negb (is_request (d_name d)) ||
     match action_of (d_name d), response_of (d_name d) with Some _, Some r => is_response r | _, _ => false end) all_decls = true) by (vm_compute; reflexivity).
  assert (HF : exists d, find_decl q = Some d).
  { destruct (find_decl q) as [d|] eqn:E; [eauto|]. unfold is_request, is_cp_request, is_cs_request, marker_of in H. rewrite E in H. vm_compute in H. discriminate H. }
  destruct HF as [d Hd]. destruct (find_decl_in q d Hd) as [HI HN]. rewrite forallb_forall in HA. specialize (HA d HI). rewrite HN, H in HA. cbn [negb orb] in HA.
  destruct (action_of q) as [a|]; [|discriminate HA]. destruct (response_of q) as [r|]; [|discriminate HA]. exists a, r. auto.
Qed.
Print Assumptions C15_kinds.
Theorem C15_named : forall a q, req_from_action a = Some q -> is_request q = true /\ action_of q = Some a.
Proof.
  intros a q H. assert (HA : forallb (fun x => is_request (snd x) && match action_of (snd x) with Some b => String.eqb b (fst x) | None => false end) req_actions = true) by (vm_compute; reflexivity).
  apply lookup_In in H. rewrite forallb_forall in HA. specialize (HA _ H). cbn [fst snd] in HA. apply andb_true_iff in HA. destruct HA as [H1 H2]. split; [exact H1|].
  destruct (action_of q) as [b|]; [|discriminate H2]. apply String.eqb_eq in H2. subst. reflexivity.
Qed.
Print Assumptions C15_named.
Example C15_ex : exists s, schema_of "cpreq.StatusNotification" = Some s /\
  fits s (AObj [("connectorId", ANum t_call); ("errorCode", AStr "NoError"); ("status", AStr "Available"); ("timestamp", AStr "2020-01-01T00:00:00Z")]) = true.
Proof.
  exists (match schema_of "cpreq.StatusNotification" with Some s => s | None => SBool end). conjs; vm_compute; exact eq_refl.
Qed.

(** *** C16: what is sent against the schemas. *)
Theorem C16_sent_shape : forall ty s v text a, In ty msg_types -> schema_of ty = Some s -> has_type v (TStruct ty) = true -> wire_times v ->
  marshal_msg ty v = Ok text -> unmarshal_any text = Some a -> sent_as s a = true.
Proof. exact sent_shape. Qed.
Print Assumptions C16_sent_shape.
Example C16_ex : In "cpreq.StatusNotification" msg_types /\ wire_times (ex_status (VPtr (VTime time_zero))).
Proof. split; [vm_compute; tauto|]. repeat constructor. Qed.
(** Schema validity is refuted: a null list, and a value outside an enumeration. *)
Theorem C16_valid_refuted :
  (exists s text a, schema_of "cpreq.MeterValues" = Some s /\
    has_type (VStruct [("ConnectorId", VInt 1); ("MeterValue", VNil); ("TransactionId", VInt 0)]) (TStruct "cpreq.MeterValues") = true /\
    marshal_msg "cpreq.MeterValues" (VStruct [("ConnectorId", VInt 1); ("MeterValue", VNil); ("TransactionId", VInt 0)]) = Ok text /\
    unmarshal_any text = Some a /\ fits s a = false) /\
  marshal_msg "csreq.Reset" (VStruct [("Type", VStr "Warm")]) = Ok "{""type"":""Warm""}".
Proof.
  split; [|vm_compute; reflexivity].
  pose (tx := "{""connectorId"":1,""meterValue"":null,""transactionId"":0}").
  exists (match schema_of "cpreq.MeterValues" with Some s => s | None => SBool end).
  exists tx. exists (match unmarshal_any tx with Some a => a | None => ANull end).
  conjs; vm_compute; exact eq_refl.
Qed.
Print Assumptions C16_valid_refuted.
