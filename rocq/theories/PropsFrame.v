(** Property theorems C01 - C05: OCPP-J frames. *)
From Verif Require Import GoBase Utf8 Json JsonProofs JsonText Float64 Lang Types Codec Any AnyProofs
  SpecCodec Tables Registry Frame FrameProofs SpecFrame FrameMore Leaves.
Open Scope string_scope.
Open Scope list_scope.

(** A non-trivial request and a response used to show that hypotheses can be met. *)
Definition ex_request : msg := MkMsg "cpreq.StartTransaction"
  (VStruct [("ConnectorId", VInt 3); ("IdTag", VStr "t""ag"); ("MeterStart", VInt (-7));
            ("ReservationId", VInt 0); ("Timestamp", VTime (GoTime.MkTime 2020 2 29 12 0 1 5 0))]).
Definition ex_response : msg := MkMsg "cpresp.Heartbeat"
  (VStruct [("CurrentTime", VTime (GoTime.MkTime 2020 2 29 12 0 1 5 60))]).
Ltac conjs := repeat match goal with |- _ /\ _ => apply conj end.

(** *** C01: what is written is read back as the same message. *)

(** A request: the frame read is a CALL with the id, the action of the request's
    type and the JSON value of the request's encoding. *)
Theorem C01_call : forall id q s, msg_ok q = true -> request_text id q = Ok s ->
  exists text a p, marshal_msg (m_ty q) (m_val q) = Ok text /\ action_of (m_ty q) = Some a /\
    unmarshal_any text = Some p /\ read_text s = Ok (MCall (sanitize id) a p).
Proof. exact request_written. Qed.
Print Assumptions C01_call.
Example C01_call_ex : msg_ok ex_request = true /\ is_ok (request_text "id-1" ex_request) = true.
Proof. vm_compute. auto. Qed.

Theorem C01_result : forall id q s, msg_ok q = true -> response_text id q = Ok s ->
  exists text p, marshal_msg (m_ty q) (m_val q) = Ok text /\ unmarshal_any text = Some p /\
    read_text s = Ok (MResult (sanitize id) (PAny p)).
Proof. exact response_written. Qed.
Print Assumptions C01_result.
Example C01_result_ex : msg_ok ex_response = true /\ is_ok (response_text "id-1" ex_response) = true.
Proof. vm_compute. auto. Qed.

Theorem C01_error : forall id c desc, exists s, marshal_message (new_call_error id c desc) = Ok s /\
  read_text s = Ok (MError (sanitize id) (sanitize c) (sanitize desc) (AObj [])).
Proof. exact error_written. Qed.
Print Assumptions C01_error.

(** Frames with an arbitrary untyped payload, not only those the library builds. *)
Theorem C01_any_call : forall id action m, wf_any (AObj m) ->
  exists s, marshal_message (MCall id action (AObj m)) = Ok s /\
    read_text s = Ok (MCall (sanitize id) (sanitize action) (AObj m)).
Proof. exact call_frame. Qed.
Print Assumptions C01_any_call.
Theorem C01_any_error : forall id c desc m, wf_any (AObj m) ->
  exists s, marshal_message (MError id c desc (AObj m)) = Ok s /\
    read_text s = Ok (MError (sanitize id) (sanitize c) (sanitize desc) (AObj m)).
Proof. exact error_frame. Qed.
Print Assumptions C01_any_error.
Example C01_any_ex : exists m, m <> [] /\ wf_any (AObj m).
Proof. exists [("a", AArr [ANull; AStr "x"])]. split; [discriminate|]. cbn. repeat constructor; vm_compute; intuition discriminate. Qed.

(** Not every message the library writes can be read back: the answer of a
    handler that returns no response and no error is rejected by the peer. *)
Theorem C01_nil_result_refuted : forall id, exists s, marshal_message (response_message id (inl None)) = Ok s /\
  parse s = Some (JArr [JNum "3"; JStr (sanitize id); JNull]) /\ exists e, read_text s = Err e.
Proof. exact nil_response. Qed.
Print Assumptions C01_nil_result_refuted.

(** *** C02: what becomes of any received byte string. *)
Theorem C02_read_any_text : forall s, verdict_is (read_text s) (text_verdict (parse (normalise s))).
Proof. exact read_exact. Qed.
Print Assumptions C02_read_any_text.

(** In particular a peer can crash the process. *)
Theorem C02_no_crash_refuted : read_text "[]" = Panic /\ read_text "null" = Panic /\ read_text "[3,""id""]" = Panic.
Proof. vm_compute. auto. Qed.
Print Assumptions C02_no_crash_refuted.

(** *** C03: message types other than 2, 3, 4. *)
Theorem C03_unknown_type : forall s l t id rest xs,
  parse (normalise s) = Some (JArr l) -> oall (map to_any l) = Some xs ->
  xs = ANum t :: AStr id :: rest ->
  f64_is t 2 = false -> f64_is t 3 = false -> f64_is t 4 = false ->
  read_text s = Panic.
Proof.
  intros s l t id rest xs HP HX HE H2 H3 H4. pose proof (read_exact s) as H. rewrite HP in H.
  cbn [text_verdict] in H. rewrite HX, HE in H. cbn [frame_verdict] in H. rewrite H2, H3, H4 in H. exact H.
Qed.
Print Assumptions C03_unknown_type.
Example C03_ex : read_text "[5,""id"",""x"",{}]" = Panic /\ read_text "[2.5,""id"",""x"",{}]" = Panic.
Proof. vm_compute. auto. Qed.

(** *** C04: trimming and newline replacement. *)
Theorem C04_normalise : forall s j, parse s = Some j -> parse (normalise s) = Some j.
Proof. exact normalise_parse. Qed.
Print Assumptions C04_normalise.
Example C04_ex : parse (" [1 ," +++ String "010"%char """a b""] ") = Some (JArr [JNum "1"; JStr "a b"]) /\
  normalise (" [1 ," +++ String "010"%char """a b""] ") = "[1 , ""a b""]".
Proof. vm_compute. auto. Qed.

(** *** C05: strings cannot break the framing. *)
Theorem C05_call_shape : forall id q s, msg_ok q = true -> request_text id q = Ok s ->
  exists text a jp p, marshal_msg (m_ty q) (m_val q) = Ok text /\ action_of (m_ty q) = Some a /\
    parse s = Some (JArr [JNum "2"; JStr (sanitize id); JStr a; jp]) /\ to_any jp = Some p /\ unmarshal_any text = Some p.
Proof. exact request_shape. Qed.
Print Assumptions C05_call_shape.
Theorem C05_result_shape : forall id q s, msg_ok q = true -> response_text id q = Ok s ->
  exists text jp p, marshal_msg (m_ty q) (m_val q) = Ok text /\
    parse s = Some (JArr [JNum "3"; JStr (sanitize id); jp]) /\ to_any jp = Some p /\ unmarshal_any text = Some p.
Proof. exact result_shape. Qed.
Print Assumptions C05_result_shape.
Theorem C05_error_shape : forall id c desc m, wf_any (AObj m) ->
  exists s jp, marshal_message (MError id c desc (AObj m)) = Ok s /\
    parse s = Some (JArr [JNum "4"; JStr (sanitize id); JStr (sanitize c); JStr (sanitize desc); jp]) /\ to_any jp = Some (AObj m).
Proof. exact error_shape. Qed.
Print Assumptions C05_error_shape.

(** Valid UTF-8 is untouched, and only valid UTF-8 is. *)
Theorem C05_valid_untouched : forall s, sanitize s = s <-> utf8_valid s = true.
Proof. exact sanitize_id_iff. Qed.
Print Assumptions C05_valid_untouched.

(** String fields of messages, at any depth and in any number. *)
Theorem C05_request_strings : forall id q s, msg_ok q = true -> carried (m_val q) = true ->
  (exists a, req_from_action a = Some (m_ty q)) -> lossy (m_ty q) = false -> request_text id q = Ok s ->
  exists v, received_request s = Ok (sanitize id, inl (MkMsg (m_ty q) v)) /\ strings v = map sanitize (strings (m_val q)).
Proof.
  intros id q s HT HC HA HL HS. exists (norm_at (TStruct (m_ty q)) (m_val q)).
  split; [exact (request_delivered id q s HT HC HA HS)|].
  rewrite (norm_at_norm _ (TStruct (m_ty q)) HT HL). apply strings_norm.
Qed.
Print Assumptions C05_request_strings.
Theorem C05_response_strings : forall id a rq q s, msg_ok q = true -> carried (m_val q) = true ->
  req_from_action a = Some rq -> response_of rq = Some (m_ty q) -> lossy (m_ty q) = false -> response_text id q = Ok s ->
  exists v, received_response a s = Ok (sanitize id, inl (MkMsg (m_ty q) v)) /\ strings v = map sanitize (strings (m_val q)).
Proof.
  intros id a rq q s HT HC HA HR HL HS. exists (norm_at (TStruct (m_ty q)) (m_val q)).
  split; [exact (response_delivered id a rq q s HT HC HA HR HS)|].
  rewrite (norm_at_norm _ (TStruct (m_ty q)) HT HL). apply strings_norm.
Qed.
Print Assumptions C05_response_strings.
Example C05_ex : msg_ok ex_request = true /\ carried (m_val ex_request) = true /\
  (exists a, req_from_action a = Some (m_ty ex_request)) /\ lossy (m_ty ex_request) = false /\
  strings (m_val ex_request) = ["t""ag"] /\ is_ok (request_text "a" ex_request) = true.
Proof. conjs; try (vm_compute; exact eq_refl). exists "StartTransaction". vm_compute. reflexivity. Qed.
