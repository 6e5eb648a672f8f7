(** Property theorems C19 - C36, C44: one websocket connection, all schedules. *)
From Coq Require Import Arith.
From Verif Require Import GoBase Utf8 Json JsonText Float64 Lang Types Codec Any Tables Registry Frame SpecFrame FrameRead SpecEnc Leaves
  Conn SpecConn ConnBase ConnInv ConnSend ConnEvid ConnMore ConnFate ConnLast ConnTop ConnServe.
Open Scope string_scope.
Open Scope list_scope.
Ltac conjs := repeat match goal with |- _ /\ _ => apply conj end.

(** Concrete runs used to show that hypotheses can be met. *)
Definition state_of ro es := match run ro es conn0 with Some (c, _) => c | None => conn0 end.
Definition trace_of ro es := match run ro es conn0 with Some (_, o) => o | None => [] end.
Definition runs ro es := match run ro es conn0 with Some _ => true | None => false end.
Lemma reached ro es : runs ro es = true -> reach ro (state_of ro es) (trace_of ro es).
Proof.
  unfold runs, state_of, trace_of. destruct (run ro es conn0) as [[c o]|] eqn:E; [|discriminate]. intros _. exact (reach_of_run _ _ _ _ E).
Qed.
Definition hb : msg := MkMsg "cpreq.Heartbeat" (VStruct []).
Definition dt : msg := MkMsg "cpreq.DataTransfer" (VStruct [("Data", VStr ""); ("MessageId", VStr ""); ("VendorId", VStr "v")]).
Definition hb_answer := "[3,""7"",{""currentTime"":""2020-02-29T12:00:01Z""}]".
Definition hb_resp : msg := MkMsg "cpresp.Heartbeat" (VStruct [("CurrentTime", VTime (GoTime.MkTime 2020 2 29 12 0 1 0 0))]).
Definition hb_call := "[2,""x"",""Heartbeat"",{}]".
Definition reset_call := "[2,""x"",""Reset"",{""type"":""Hard""}]".
(** Caller 0 writes its request and waits; then also with the reader started. *)
Definition sent (inh : bool) (q : msg) (n : nat) := [ESend inh "7" q; EStep 0; EStep 0; EStep 0; EChunk (WS 0) n; EWritten (WS 0); EStep 0].
Definition answered_run := sent false hb 50 ++ [ELoop; ERead 0 hb_answer; EReader 0; EReader 0; EReader 0; EReader 0; EReceive 0 0; EStep 0; EStep 0; EResult; ELoop].
Definition timeout_run := sent false hb 50 ++ [ELoop; ETimeout 0].
Definition served_run := [ELoop; ERead 0 hb_call; EReader 0; ETake 0; ELoop; EReturn (inl (Some hb_resp)); ELoop; EChunk WL 60; EWritten WL; ELoop].
Example runs_ok : runs CP answered_run = true /\ runs CP timeout_run = true /\ runs CS served_run = true.
Proof. conjs; vm_compute; exact eq_refl. Qed.

(** *** C19: responses have the type paired with the request *)
Theorem C19_response_type : forall ro c tr i id q m, reach ro c tr ->
  In (i, (id, q)) (sends tr) -> In (i, RResp m) (rets tr) ->
  response_of (m_ty q) = Some (m_ty m) /\ msg_ok m = true.
Proof. exact response_typed. Qed.
(** Hence the direction checks of internal/service/json.go succeed. *)
Theorem C19_direction : forall ro c tr i id q m, reach ro c tr ->
  In (i, (id, q)) (sends tr) -> In (i, RResp m) (rets tr) ->
  is_cp_response (m_ty m) = is_cp_request (m_ty q) /\ is_cs_response (m_ty m) = is_cs_request (m_ty q).
Proof.
  intros ro c tr i id q m HR HS HI. destruct (response_typed _ _ _ _ _ _ _ HR HS HI) as [H _]. destruct (directions _ _ H) as (D1 & D2 & _). auto.
Qed.
Example C19_ex : In (0, ("7", hb)) (sends (trace_of CP answered_run)) /\ In (0, RResp hb_resp) (rets (trace_of CP answered_run)).
Proof. split; vm_compute; left; reflexivity. Qed.

(** *** C20: correlation *)
(** A call that got an answer: its request was written, and the answer is that of
    a text read since the call began, or being dealt with at that moment, with
    the call's id. *)
Theorem C20_correlated : forall ro c tr i o, reach ro c tr -> In (i, o) (rets tr) -> answered o = true ->
  exists before after id q text, tr = before ++ OCall i id q :: after /\ In text (candidates before after) /\ justifies text id q o.
Proof. exact ret_evd. Qed.
Theorem C20_request_was_written : forall ro c tr i o, reach ro c tr -> In (i, o) (rets tr) -> answered o = true ->
  exists t id q, In (i, t) (sender_writes tr) /\ In (i, (id, q)) (sends tr) /\ request_text id q = Ok t.
Proof.
  intros ro c tr i o HR HI HA. destruct (answered_written _ _ _ _ _ HR HI (or_introl HA)) as [t HT].
  destruct (sender_text _ _ _ _ _ HR HT) as (id & q & H1 & H2 & _). eauto 6.
Qed.
(** Conversely a call that waits is answered by the response to it that arrives. *)
Theorem C20_answer_delivered : forall ro c tr r i id q sd text, reach ro c tr -> idle c r -> In (i, (id, q)) (sends tr) ->
  nth_error (c_senders c) i = Some sd -> (exists ch, sd_pc sd = SWait ch) -> is_dt (m_ty q) = false -> response_to text id ->
  exists es c' o x, run ro es c = Some (c', o) /\ o = [ORead text; ORet i x] /\ justifies text id q x /\ answered x = true /\
    ~ pending c' id /\ idle c' (length (c_readers c)).
Proof. exact answer_run. Qed.
Example C20_ex : In (0, RResp hb_resp) (rets (trace_of CP answered_run)) /\ answered (RResp hb_resp) = true.
Proof. split; [vm_compute; left|]; reflexivity. Qed.
Example C20_delivered_ex : let c := state_of CP (sent false hb 50 ++ [ELoop]) in
  runs CP (sent false hb 50 ++ [ELoop]) = true /\ idle c 0 /\ (exists sd, nth_error (c_senders c) 0 = Some sd /\ exists ch, sd_pc sd = SWait ch) /\
  is_dt (m_ty hb) = false /\ inbound_of hb_answer = IResult "7" (AObj [("currentTime", AStr "2020-02-29T12:00:01Z")]).
Proof.
  cbv zeta. split; [vm_compute; reflexivity|]. split; [unfold idle; conjs; vm_compute; reflexivity|]. split; [|split; vm_compute; reflexivity].
  eexists. split; [vm_compute; reflexivity|]. eexists. reflexivity.
Qed.

(** *** C21: one completion per request, one per response *)
Theorem C21_call_returns_once : forall ro c tr, reach ro c tr -> NoDup (map fst (rets tr)) /\
  (forall i o, In (i, o) (rets tr) -> exists id q, In (i, (id, q)) (sends tr)).
Proof.
  intros ro c tr HR. destruct (v_o _ _ _ (reach_inv _ _ _ HR)) as [_ O2]. split; [exact O2|].
  intros i o HI. destruct (ret_call _ _ _ _ _ HR HI) as (sd & _ & _ & H). eauto.
Qed.
Theorem C21_completions : forall ro c tr id, reach ro c tr ->
  length (completed tr id) <= 1 /\ length (completed tr id) <= count_occ string_dec (responses_in (reads tr)) id.
Proof. intros ro c tr id HR. split; [exact (completed_once _ _ _ _ HR)|exact (completed_read _ _ _ _ HR)]. Qed.
Example C21_ex : length (completed (trace_of CP answered_run) "7") = 1.
Proof. vm_compute. reflexivity. Qed.

(** *** C22: unsolicited responses *)
Theorem C22_unsolicited : forall ro c tr r text id, reach ro c tr -> idle c r ->
  (forall i q, ~ In (i, (id, q)) (sends tr)) -> response_to text id ->
  exists c', run ro [ERead r text; EReader r; EReader r; EResult; ELoop] c = Some (c', [ORead text]) /\
    intact c c' /\ idle c' (length (c_readers c)).
Proof. intros ro c tr r text id HR HI HS HT. exact (unsolicited_run _ _ _ _ _ HI (unused_pending _ _ _ _ HR HS) HT). Qed.
(** The same whatever the other goroutines do in between. *)
Theorem C22_any_schedule : forall ro c tr c' o r text id, reach ro c tr -> dealing c r text -> response_to text id ->
  (forall i q, ~ In (i, (id, q)) (sends tr)) -> step ro (EReader r) c = Some (c', o) ->
  o = [] /\ intact c c' /\ c_loop c' = c_loop c /\ (forall j, j <> r -> nth_error (c_readers c') j = nth_error (c_readers c) j) /\
  (dealing c' r text \/ nth_error (c_readers c') r = Some (RRes (Some false))).
Proof. intros ro c tr c' o r text id HR HD HT HS H. exact (unsolicited_step _ _ _ _ _ _ _ HD HT (unused_pending _ _ _ _ HR HS) H). Qed.
Example C22_ex : runs CP [ELoop] = true /\ idle (state_of CP [ELoop]) 0 /\ sends (trace_of CP [ELoop]) = [] /\ response_to hb_answer "7".
Proof. split; [vm_compute; reflexivity|]. split; [unfold idle; conjs; vm_compute; reflexivity|]. split; [vm_compute; reflexivity|]. left. eexists. vm_compute. reflexivity. Qed.

(** *** C23: requests are handled in arrival order, each once *)
Theorem C23_in_order : forall ro c tr, reach ro c tr -> exists rest, length rest <= 1 /\
  flat_map (seen ro) (requests_in (reads tr)) = handles tr ++ rest.
Proof. exact in_order. Qed.
Example C23_ex : reads (trace_of CS served_run) = [hb_call] /\ handles (trace_of CS served_run) = [("x", Some hb)].
Proof. conjs; vm_compute; reflexivity. Qed.
(** A request read on an idle connection reaches the handler and is answered. *)
Theorem C23_served : forall ro c r text id q x h t, idle c r -> c_lock c = None -> c_wbroken c = false -> c_closed c = false ->
  inbound_of text = IRequest id q -> seen ro (id, q) = [(id, x)] -> hret_ok ro h = true ->
  (forall i sd, nth_error (c_senders c) i = Some sd -> sd_inh sd = true -> sdone (sd_pc sd) = true) ->
  marshal_message (response_message id h) = Ok t ->
  exists c', run ro [ERead r text; EReader r; ETake r; ELoop; EReturn h; ELoop; EChunk WL (String.length t); EWritten WL; ELoop] c =
    Some (c', [ORead text; OTaken q id; OHandle x id; OReturn id h; OBytes t; OWrote WL t; OReply id h (Written t)]) /\
    intact c c' /\ idle c' (length (c_readers c)).
Proof. exact serve_run. Qed.

(** *** C24: one reader *)
Theorem C24_one_reader : forall ro c tr r1 r2 p1 p2, reach ro c tr ->
  nth_error (c_readers c) r1 = Some p1 -> nth_error (c_readers c) r2 = Some p2 -> busy p1 = true -> busy p2 = true -> r1 = r2.
Proof. exact one_reader. Qed.
Example C24_ex : length (c_readers (state_of CS served_run)) = 2 /\ nth_error (c_readers (state_of CS served_run)) 1 = Some RRead.
Proof. conjs; vm_compute; reflexivity. Qed.

(** *** C25: replies *)
Theorem C25_one_reply_each : forall ro c tr, reach ro c tr ->
  (exists rest, length (panics tr ++ rest) <= 1 /\ map fst (handles tr) = map fst (returns tr) ++ panics tr ++ rest) /\
  (exists rest, length rest <= 1 /\ returns tr = map fst (replies tr) ++ rest) /\
  loop_writes tr = written (map snd (replies tr)).
Proof.
  intros ro c tr HR. pose proof (reach_inv _ _ _ HR) as V. destruct (v_h _ _ _ V) as (_ & H2 & H3 & H4). destruct (v_t _ _ _ V) as (_ & _ & _ & _ & _ & T & _).
  split; [|split; [|exact T]].
  - exists (pend_run (c_loop c)). split; [rewrite app_length; destruct H4 as [H4|[H4 H5]]; [rewrite H4|rewrite H5]; destruct (c_loop c); try discriminate H4; cbn; lia|exact H2].
  - exists (pend_rep (c_loop c)). split; [destruct (c_loop c); cbn; lia|exact H3].
Qed.
Theorem C25_reply_content : forall ro c tr id r t, reach ro c tr -> In (id, r, Written t) (replies tr) -> reply_on_wire id r t.
Proof. exact reply_written. Qed.
(** The reply is dropped without a write only if the response cannot be encoded. *)
Theorem C25_not_encoded : forall ro c tr id r, reach ro c tr -> In (id, r, NotEncoded) (replies tr) ->
  exists m e, r = inl (Some m) /\ marshal_msg (m_ty m) (m_val m) = Err e.
Proof. exact reply_not_encoded. Qed.
Example C25_ex : replies (trace_of CS served_run) = [("x", inl (Some hb_resp), Written "[3,""x"",{""currentTime"":""2020-02-29T12:00:01Z""}]")].
Proof. vm_compute. reflexivity. Qed.

(** *** C26, C27: calls that are refused *)
Theorem C26_unsupported : forall text id a p, read_text text = Ok (MCall id a p) -> req_from_action a = None ->
  inbound_of text = IRefused id "NotSupported".
Proof. exact unsupported. Qed.
Theorem C26_data_transfer : req_from_action "DataTransfer" = None.
Proof. vm_compute. reflexivity. Qed.
Theorem C26_replies : forall ro c tr, reach ro c tr ->
  (exists rest, length rest <= 1 /\ refused_in (reads tr) = map fst (rejects tr) ++ rest) /\
  (forall id e x, In (id, e, x) (rejects tr) ->
     match x with Written t => read_text t = Ok (MError id e "on handling message" (AObj [])) | NotEncoded => False | WriteFailed => True end) /\
  reader_writes tr = written (map snd (rejects tr)).
Proof.
  intros ro c tr HR. split; [exact (refused_replies _ _ _ HR)|]. split; [intros id e x HI; exact (reject_written _ _ _ _ _ _ HR HI)|].
  destruct (v_t _ _ _ (reach_inv _ _ _ HR)) as (_ & _ & _ & _ & _ & _ & T). exact T.
Qed.
(** What was refused never reaches the handler: handler calls come from accepted ones. *)
Theorem C26_not_handled : forall ro c tr id q, reach ro c tr -> In (id, q) (handles tr) ->
  exists text q', In text (reads tr) /\ inbound_of text = IRequest id q' /\ In (id, q) (seen ro (id, q')).
Proof. exact handled_id. Qed.
(** The connection stays as it was and reads on. *)
Theorem C26_connection_stays : forall ro c r text id e, idle c r -> c_lock c = None -> c_wbroken c = false -> c_closed c = false ->
  inbound_of text = IRefused id e ->
  exists c' t, run ro [ERead r text; EReader r; EReader r; EChunk (WR r) (String.length t); EWritten (WR r); EResult; ELoop] c =
     Some (c', [ORead text; OBytes t; OWrote (WR r) t; OReject id e (Written t)]) /\
    read_text t = Ok (MError id e "on handling message" (AObj [])) /\ intact c c' /\ idle c' (length (c_readers c)).
Proof. exact refused_run. Qed.
Example C26_ex : inbound_of "[2,""x"",""DataTransfer"",{""vendorId"":""v""}]" = IRefused "x" "NotSupported" /\
  runs CS [ELoop; ERead 0 "[2,""x"",""Foo"",{}]"; EReader 0; EReader 0; EChunk (WR 0) 99; EWritten (WR 0)] = true /\
  rejects (trace_of CS [ELoop; ERead 0 "[2,""x"",""Foo"",{}]"; EReader 0; EReader 0; EChunk (WR 0) 99; EWritten (WR 0)]) =
    [("x", "NotSupported", Written "[4,""x"",""NotSupported"",""on handling message"",{}]")].
Proof. conjs; vm_compute; reflexivity. Qed.

(** Refused with FormationViolation: exactly the calls with a known action whose
    payload the decoder of that type does not accept. *)
Theorem C27_malformed : forall text id a p ty, read_text text = Ok (MCall id a p) -> req_from_action a = Some ty ->
  exists json, marshal_any p = Ok json /\
  (unmarshal_msg ty json = None <-> inbound_of text = IRefused id "FormationViolation") /\
  (forall v, unmarshal_msg ty json = Some v <-> inbound_of text = IRequest id (MkMsg ty v)).
Proof.
  intros text id a p ty HR HA. pose proof (read_wf _ _ HR) as W. destruct W as (_ & _ & _ & W). destruct (marshal_any_ok _ W) as [json HJ].
  exists json. split; [exact HJ|]. unfold inbound_of. rewrite HR. unfold call_to_request. rewrite HA, HJ.
  destruct (unmarshal_msg ty json) as [v|]; split; try (intros v'); split; intros H; try discriminate H; try reflexivity; congruence.
Qed.
Theorem C27_only_two_codes : forall text id e, inbound_of text = IRefused id e -> e = "NotSupported" \/ e = "FormationViolation".
Proof. intros text id e H. destruct (refused_code _ _ _ H) as (_ & _ & a & p & _ & [[-> _]|[-> _]]); [left|right]; reflexivity. Qed.
Example C27_ex : inbound_of hb_call = IRequest "x" hb /\ inbound_of "[2,""x"",""Heartbeat"",{""y"":1}]" = IRefused "x" "FormationViolation" /\ inbound_of "[2,""x"",""Reset"",{""type"":5}]" = IRefused "x" "FormationViolation".
Proof. conjs; vm_compute; reflexivity. Qed.

(** *** C28: bad frames *)
Theorem C28_bad_frame : forall ro c tr r text, reach ro c tr -> idle c r -> text_verdict (parse (normalise text)) = Reject ->
  exists c', run ro [ERead r text; EReader r; EResult; ELoop] c = Some (c', [ORead text]) /\ intact c c' /\ idle c' (length (c_readers c)).
Proof.
  intros ro c tr r text HR (HL & HN & HC & HB) HV. assert (HI : inbound_of text = IBad).
  { pose proof (FrameMore.read_exact text) as X. rewrite HV in X. destruct X as [e X]. unfold inbound_of. rewrite X. reflexivity. }
  destruct (bad_frame _ _ _ _ _ HR HC HB HL HN HI) as (c' & H1 & H2 & H3 & H4). exists c'. split; [exact H1|]. split; [exact H2|].
  destruct H2 as (_ & _ & _ & _ & _ & I1 & _ & _ & _ & I2). unfold idle. rewrite I1, I2. auto.
Qed.
Example C28_ex : text_verdict (parse (normalise "{oops")) = Reject /\ text_verdict (parse (normalise "[2,17,""a"",{}]")) = Reject.
Proof. conjs; vm_compute; reflexivity. Qed.

(** *** C29: crashes *)
Theorem C29_no_crash : forall ro c tr, reach ro c tr ->
  (forall text, In text (reads tr) -> text_verdict (parse (normalise text)) <> Crash) ->
  (forall i id q, In (i, (id, q)) (sends tr) -> is_dt (m_ty q) = false /\ expiry_present (TStruct (m_ty q)) (m_val q) = true) ->
  (ro = CP -> panics tr = []) -> ~ In OCrash tr.
Proof. exact no_crash. Qed.
Theorem C29_data_transfer_crash : forall ro c tr r i id q text p, reach ro c tr -> idle c r -> In (i, (id, q)) (sends tr) -> pending c id ->
  is_dt (m_ty q) = true -> inbound_of text = IResult id p ->
  exists c', run ro [ERead r text; EReader r; EReader r; EReader r] c = Some (c', [ORead text; OCrash]).
Proof. exact dt_crash. Qed.
Example C29_ex : let es := sent false dt 70 ++ [ELoop; ERead 0 "[3,""7"",{""status"":""Accepted""}]"; EReader 0; EReader 0; EReader 0] in
  runs CP es = true /\ In OCrash (trace_of CP es).
Proof. split; vm_compute; [reflexivity|]. tauto. Qed.
Example C29_no_crash_ex : runs CP answered_run = true /\ reads (trace_of CP answered_run) = [hb_answer] /\
  (forall text, In text (reads (trace_of CP answered_run)) -> text_verdict (parse (normalise text)) <> Crash) /\
  (forall i id q, In (i, (id, q)) (sends (trace_of CP answered_run)) -> is_dt (m_ty q) = false /\ expiry_present (TStruct (m_ty q)) (m_val q) = true).
Proof.
  assert (R : reads (trace_of CP answered_run) = [hb_answer]) by (vm_compute; reflexivity).
  assert (S : sends (trace_of CP answered_run) = [(0, ("7", hb))]) by (vm_compute; reflexivity).
  split; [vm_compute; reflexivity|]. split; [exact R|]. rewrite R, S. split.
  - intros text [<-|[]]. vm_compute. discriminate.
  - intros i id q [E|[]]. injection E as <- <- <-. vm_compute. auto.
Qed.

(** *** C30: a late response wedges the connection *)
Theorem C30_late_response : forall ro c tr r text i id q o c1 o1 es c2 o2, reach ro c tr ->
  In (i, (id, q)) (sends tr) -> In (i, o) (rets tr) -> gave_up o = true -> response_to text id ->
  step ro (ERead r text) c = Some (c1, o1) -> run ro es c1 = Some (c2, o2) ->
  reads o2 = [] /\ takens o2 = [] /\ handles o2 = [] /\ loop_writes o2 = [].
Proof. intros ro c tr r text i id q o c1 o1 es c2 o2 HR HS HI HG HT H HRun. exact (proj1 (late_silent _ _ _ _ _ _ _ _ _ _ _ _ _ _ HR HS HI HG HT H HRun)). Qed.
(** Nor is any Send begun afterwards ever answered. *)
Theorem C30_no_answer_after : forall ro c tr r text i id q o c1 o1 es c2 o2, reach ro c tr ->
  In (i, (id, q)) (sends tr) -> In (i, o) (rets tr) -> gave_up o = true -> response_to text id ->
  step ro (ERead r text) c = Some (c1, o1) -> run ro es c1 = Some (c2, o2) ->
  forall j x, In j (map fst (sends o2)) -> In (j, x) (rets o2) -> answered x = false.
Proof. intros ro c tr r text i id q o c1 o1 es c2 o2 HR HS HI HG HT H HRun. exact (proj2 (late_silent _ _ _ _ _ _ _ _ _ _ _ _ _ _ HR HS HI HG HT H HRun)). Qed.
Example C30_ex : runs CP timeout_run = true /\ In (0, ("7", hb)) (sends (trace_of CP timeout_run)) /\ In (0, RTimeout) (rets (trace_of CP timeout_run)) /\
  (exists c1 o1, step CP (ERead 0 hb_answer) (state_of CP timeout_run) = Some (c1, o1)).
Proof. split; [vm_compute; reflexivity|]. split; [vm_compute; left; reflexivity|]. split; [vm_compute; left; reflexivity|]. eexists _, _. vm_compute. reflexivity. Qed.

(** *** C31: Send from inside the handler *)
Theorem C31_handler_cannot_send : forall ro c tr id q c1 o1 es c2 o2, reach ro c tr ->
  step ro (ESend true id q) c = Some (c1, o1) -> run ro es c1 = Some (c2, o2) ->
  (exists id', c_loop c = LRun id') /\ exists i, In (OCall i id q) o1 /\ forall x, In (i, x) (rets (tr ++ o1 ++ o2)) -> answered x = false.
Proof. exact handler_call. Qed.
Theorem C31_no_read_while_handling : forall ro c tr id e c' o, reach ro c tr -> c_loop c = LRun id -> step ro e c = Some (c', o) -> reads o = [].
Proof. exact no_read_in_handler. Qed.
Example C31_ex : let c := state_of CS [ELoop; ERead 0 hb_call; EReader 0; ETake 0; ELoop] in
  c_loop c = LRun "x" /\ exists c1 o1, step CS (ESend true "7" (MkMsg "csreq.ClearCache" (VStruct []))) c = Some (c1, o1).
Proof. cbv zeta. split; [vm_compute; reflexivity|]. eexists _, _. vm_compute. reflexivity. Qed.

(** *** C32: frames are never interleaved *)
Theorem C32_whole_messages : forall ro c tr, reach ro c tr -> exists p, bytes tr = concat_all (writes tr) +++ p /\
  (p = "" \/ exists m t rest, marshal_message m = Ok t /\ t = p +++ rest).
Proof. exact wire. Qed.
Theorem C32_each_is_a_frame : forall ro c tr t, reach ro c tr -> In t (writes tr) -> is_frame t.
Proof. exact writes_frames. Qed.
Theorem C32_who_wrote : forall ro c tr t, reach ro c tr -> In t (writes tr) <->
  (exists i, In (i, t) (sender_writes tr)) \/ (exists id r, In (id, r, Written t) (replies tr)) \/ (exists id e, In (id, e, Written t) (rejects tr)).
Proof. intros ro c tr t HR. rewrite writes_split, (loop_text _ _ _ _ HR), (reader_text _ _ _ _ HR). reflexivity. Qed.
Theorem C32_sender_text : forall ro c tr i t, reach ro c tr -> In (i, t) (sender_writes tr) ->
  exists id q, In (i, (id, q)) (sends tr) /\ request_text id q = Ok t /\ msg_ok q = true /\ sanitize id = id.
Proof. exact sender_text. Qed.
Example C32_ex : bytes (trace_of CP [ESend false "7" hb; EStep 0; EStep 0; EStep 0; EChunk (WS 0) 4; EChunk (WS 0) 3]) = "[2,""7"",".
Proof. vm_compute. reflexivity. Qed.

(** *** C33: the table of pending requests *)
Theorem C33_after_return : forall ro c tr i id q o, reach ro c tr -> In (i, (id, q)) (sends tr) -> In (i, o) (rets tr) ->
  (pending c id <-> gave_up o = true).
Proof. exact pending_ret. Qed.
Theorem C33_while_waiting : forall ro c tr i id q t, reach ro c tr -> In (i, (id, q)) (sends tr) -> In (i, t) (sender_writes tr) ->
  ~ In i (map fst (rets tr)) -> pending c id \/ exists text, In text (reads tr) /\ response_to text id.
Proof. exact pending_waiting. Qed.
Theorem C33_only_sent : forall ro c tr id, reach ro c tr -> pending c id -> exists i q, In (i, (id, q)) (sends tr).
Proof. exact pending_sent. Qed.
(** The table keeps one entry for every call that gave up. *)
Theorem C33_bounded_table_refuted : forall ro c tr, reach ro c tr -> length (filter (fun x => gave_up (snd x)) (rets tr)) <= length (c_sent c).
Proof. exact pending_grows. Qed.
Example C33_ex : length (filter (fun x => gave_up (snd x)) (rets (trace_of CP timeout_run))) = 1 /\ c_sent (state_of CP timeout_run) = [("7", "Heartbeat")] /\
  c_sent (state_of CP answered_run) = [].
Proof. conjs; vm_compute; reflexivity. Qed.

(** *** C34: goroutines *)
Theorem C34_goroutines : forall ro c tr, reach ro c tr -> loop_left c = false -> goroutines c = length (takens tr) + awaits c.
Proof. exact goroutine_count. Qed.
Theorem C34_after_the_loop : forall ro c tr, reach ro c tr -> loop_left c = true -> length (takens tr) <= goroutines c.
Proof. exact goroutine_left. Qed.
(** All but the awaited one never end, even after the connection is closed. *)
Theorem C34_never_end : forall ro c tr r p, reach ro c tr -> nth_error (c_readers c) r = Some p -> p <> RDone -> ~ awaited c r ->
  loop_left c = false -> never_ends ro c r.
Proof. exact leaked. Qed.
Example C34_ex : goroutines (state_of CS served_run) = 2 /\ awaits (state_of CS served_run) = 1 /\ loop_left (state_of CS served_run) = false /\
  nth_error (c_readers (state_of CS served_run)) 0 = Some (RRes None) /\ c_loop (state_of CS served_run) = LSel 1.
Proof. conjs; vm_compute; reflexivity. Qed.

(** *** C35: map accesses *)
Theorem C35_write_race_refuted : exists es, runs CP es = true /\ write_race (state_of CP es).
Proof.
  exists [ESend false "7" hb; ESend false "8" hb]. split; [vm_compute; reflexivity|].
  exists (WS 0), (WS 1), Sent. split; [discriminate|]. split; vm_compute; reflexivity.
Qed.
Theorem C35_needs_two_callers : forall ro c tr, reach ro c tr -> write_race c -> exists i j, i <> j /\ running tr i /\ running tr j.
Proof. exact write_race_two. Qed.
Theorem C35_race_needs_a_caller : forall ro c tr, reach ro c tr -> race c -> exists i, running tr i.
Proof. exact race_running. Qed.
(** One caller at a time is not enough for the reader: it looks a late response up
    while the next caller registers. *)
Theorem C35_single_caller_race_refuted : exists es, runs CP es = true /\ race (state_of CP es) /\
  forall i j, running (trace_of CP es) i -> running (trace_of CP es) j -> i = j.
Proof.
  exists (timeout_run ++ [ERead 0 hb_answer; EReader 0; ESend false "8" hb]). split; [vm_compute; reflexivity|]. split.
  - exists (WS 1), (WR 0), Sent, Reads. split; [discriminate|]. split; vm_compute; reflexivity.
  - assert (S : map fst (sends (trace_of CP (timeout_run ++ [ERead 0 hb_answer; EReader 0; ESend false "8" hb]))) = [0; 1]) by (vm_compute; reflexivity).
    assert (R : map fst (rets (trace_of CP (timeout_run ++ [ERead 0 hb_answer; EReader 0; ESend false "8" hb]))) = [0]) by (vm_compute; reflexivity).
    intros i j [H1 H2] [H3 H4]. rewrite S in H1, H3. rewrite R in H2, H4. cbn [In] in *. intuition congruence.
Qed.

(** *** C36: closing *)
Theorem C36_signalled_why : forall ro c tr, reach ro c tr -> In ODone tr \/ In OClosed tr ->
  In OUserClose tr \/ (exists b, In (OReadErr b) tr) \/ In OStop tr \/ ro = CS /\ (exists id, In (OHPanic id) tr).
Proof. exact closed_why_role. Qed.
Theorem C36_stays_signalled : forall ro c tr, reach ro c tr -> (c_done c = true <-> In ODone tr).
Proof. exact done_seen. Qed.
(** After a failed read the signal is at most two steps of that reader away, at
    every later moment. *)
Theorem C36_after_read_error : forall ro c tr b, reach ro c tr -> In (OReadErr b) tr -> c_crash c = false ->
  exists es c' o, length es <= 2 /\ run ro es c = Some (c', o) /\ c_done c' = true.
Proof. exact error_done. Qed.
Example C36_ex : trace_of CS [ELoop; EReadErr 0 true; EReader 0; EReader 0] = [OReadErr true; OClosed; ODone] /\
  trace_of CS [EUserClose; EUserCancel] = [OUserClose; OClosed; ODone].
Proof. conjs; vm_compute; reflexivity. Qed.

(** *** C44: requests in the wrong direction *)
Theorem C44_handled : forall ro c tr id q, reach ro c tr -> In (id, q) (handles tr) ->
  match ro, q with
  | CS, Some m => is_cp_request (m_ty m) = true
  | CS, None => False
  | CP, Some m => is_cs_request (m_ty m) = true
  | CP, None => exists text m, In text (reads tr) /\ inbound_of text = IRequest id m /\ is_cs_request (m_ty m) = false
  end.
Proof. exact handled_direction. Qed.
(** Only calls are answered, by the central system only those of the right direction. *)
Theorem C44_answered : forall ro c tr id, reach ro c tr ->
  (In id (map (fun y => fst (fst y)) (replies tr)) \/ In id (map (fun y => fst (fst y)) (rejects tr))) ->
  exists text, In text (reads tr) /\ ((exists q, inbound_of text = IRequest id q /\ (ro = CS -> is_cp_request (m_ty q) = true)) \/
    exists e, inbound_of text = IRefused id e).
Proof. exact replied_why. Qed.
Theorem C44_every_call_answered_refuted : exists es, runs CS es = true /\ reads (trace_of CS es) = [reset_call] /\
  idle (state_of CS es) 1 /\ handles (trace_of CS es) = [] /\ writes (trace_of CS es) = [].
Proof.
  exists [ELoop; ERead 0 reset_call; EReader 0; ETake 0; ELoop; ELoop]. unfold idle. conjs; vm_compute; reflexivity.
Qed.
Theorem C44_never_nil_refuted : exists es, runs CP es = true /\ handles (trace_of CP es) = [("x", None)].
Proof. exists [ELoop; ERead 0 hb_call; EReader 0; ETake 0; ELoop]. split; vm_compute; reflexivity. Qed.

(** One tuple, so that one traversal covers every theorem above. *)
Definition conn_theorems := (C19_response_type,
  C19_direction,
  C20_correlated,
  C20_request_was_written,
  C20_answer_delivered,
  C21_call_returns_once,
  C21_completions,
  C22_unsolicited,
  C22_any_schedule,
  C23_in_order,
  C23_served,
  C24_one_reader,
  C25_one_reply_each,
  C25_reply_content,
  C25_not_encoded,
  C26_unsupported,
  C26_replies,
  C26_not_handled,
  C26_connection_stays,
  C27_malformed,
  C27_only_two_codes,
  C28_bad_frame,
  C29_no_crash,
  C29_data_transfer_crash,
  C30_late_response,
  C30_no_answer_after,
  C31_handler_cannot_send,
  C31_no_read_while_handling,
  C32_whole_messages,
  C32_each_is_a_frame,
  C32_who_wrote,
  C32_sender_text,
  C33_after_return,
  C33_while_waiting,
  C33_only_sent,
  C33_bounded_table_refuted,
  C34_goroutines,
  C34_after_the_loop,
  C34_never_end,
  C35_write_race_refuted,
  C35_needs_two_callers,
  C35_race_needs_a_caller,
  C35_single_caller_race_refuted,
  C36_signalled_why,
  C36_stays_signalled,
  C36_after_read_error,
  C44_handled,
  C44_answered,
  C44_every_call_answered_refuted,
  C44_never_nil_refuted).
Print Assumptions conn_theorems.
