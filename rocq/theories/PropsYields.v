(** Property theorem C102: exactly which JSON messages are accepted, and as what. *)
From Verif Require Import GoBase Utf8 Json JsonProofs Float64 GoTime Lang Types Codec Any AnyProofs SpecCodec
  Tables Registry Frame FrameProofs SpecFrame FrameRead EncProofs DecProofs Schemas SpecSchema SchemaProofs SpecTime SpecShort SpecReads ReadsProofs SpecYields YieldsProofs.
Open Scope string_scope.
Open Scope list_scope.
Local Open Scope Z_scope.
Opaque read_text unmarshal_msg marshal_any.

Lemma sendable m : wf_any (AObj m) -> exists text, marshal_any (AObj m) = Ok text.
Proof.
  intros HW. destruct (of_any_ok (AObj m) HW) as (j & Ej & _). exists (print j).
  Transparent marshal_any. unfold marshal_any. Opaque marshal_any. rewrite Ej. reflexivity.
Qed.

(** *** C102: a request is handed to the handler exactly if its members give it. *)

(** The two types without a decoder of their own: if no two members are meant for one field. *)
Theorem C102_request_if : forall s id a m, read_text s = Ok (MCall id a (AObj m)) ->
  (forall ty, req_from_action a = Some ty -> unambiguous ty (AObj m)) ->
  forall id' q, received_request s = Ok (id', inl q) <->
    id' = id /\ req_from_action a = Some (m_ty q) /\ yields (TStruct (m_ty q)) (AObj m) (m_val q).
Proof.
  intros s id a m HR HU id' [ty v]. pose proof (read_wf _ _ HR) as HW. cbn [wf_message] in HW. destruct HW as (_ & _ & _ & HW).
  destruct (sendable m HW) as [text HM]. unfold received_request. rewrite HR. cbn [rbind]. unfold call_to_request. rewrite HM. cbn [m_ty m_val].
  destruct (req_from_action a) as [ty'|].
  - specialize (HU ty' eq_refl). pose proof (unmarshal_yields ty' m text HW HM HU) as HY. destruct (unmarshal_msg ty' text) as [w|].
    + split.
      * intros H. injection H as -> -> ->. split; [reflexivity|]. split; [reflexivity|]. apply HY. reflexivity.
      * intros (-> & H & Y). assert (ty' = ty) as -> by congruence. apply HY in Y. congruence.
    + split; [discriminate|]. intros (_ & H & Y). assert (ty' = ty) as -> by congruence. apply HY in Y. discriminate Y.
  - split; [discriminate|intros (_ & H & _); discriminate H].
Qed.
Print Assumptions C102_request_if.

Lemma never_ambiguous ty a : reflective ty = false -> unambiguous ty a.
Proof. intros H d m fd k k' K. congruence. Qed.

(** All others: without condition. *)
Theorem C102_request : forall s id q, reflective (m_ty q) = false ->
  (received_request s = Ok (id, inl q) <->
   exists a m, read_text s = Ok (MCall id a (AObj m)) /\ req_from_action a = Some (m_ty q) /\
     yields (TStruct (m_ty q)) (AObj m) (m_val q)).
Proof.
  intros s id q HF. split.
  - intros H. assert (exists a m, read_text s = Ok (MCall id a (AObj m)) /\ req_from_action a = Some (m_ty q)) as (a & m & HR & HA).
    { unfold received_request in H. destruct (read_text s) as [msg|e|] eqn:E; cbn [rbind] in H; try discriminate H.
      pose proof (read_wf s msg E) as HW. destruct msg as [id' a p| |]; try discriminate H. injection H as -> H. cbn [wf_message] in HW.
      destruct HW as (_ & _ & [m ->] & HW). exists a, m. split; [reflexivity|]. unfold call_to_request in H.
      destruct (req_from_action a) as [ty|]; [|discriminate H]. destruct (marshal_any (AObj m)) as [text|?|]; try discriminate H.
      destruct (unmarshal_msg ty text) as [v|]; [|discriminate H]. injection H as <-. reflexivity. }
    exists a, m. split; [exact HR|]. split; [exact HA|].
    apply (C102_request_if s id a m HR) in H; [apply H|]. intros ty E. apply never_ambiguous. congruence.
  - intros (a & m & HR & HA & HY). apply (C102_request_if s id a m HR); [|auto]. intros ty E. apply never_ambiguous. congruence.
Qed.
Print Assumptions C102_request.

(** A response is handed to the caller of a request with action [a] exactly if its members give it. *)
Theorem C102_response : forall a s id q,
  received_response a s = Ok (id, inl q) <->
  exists ty m, read_text s = Ok (MResult id (PAny (AObj m))) /\ req_from_action a = Some ty /\ response_of ty = Some (m_ty q) /\
    yields (TStruct (m_ty q)) (AObj m) (m_val q).
Proof.
  intros a s id [rty v]. cbn [m_ty m_val].
  assert (NA : forall ty r m, response_of ty = Some r -> unambiguous r (AObj m)).
  { intros ty r m HR. apply never_ambiguous. revert HR. unfold response_of.
    assert (F : forallb (fun kv => negb (reflective (snd kv))) response_table = true) by (vm_compute; reflexivity).
    generalize response_table F. intros l. induction l as [|[k w] l IH]; cbn [forallb snd lookup]; [discriminate|]. intros F'. apply andb_true_iff in F'. destruct F' as [F1 F2].
    destruct (String.eqb ty k); [|exact (IH F2)]. intros E. apply negb_true_iff in F1. congruence. }
  unfold received_response. split.
  - intros H. destruct (read_text s) as [msg|e|] eqn:E; cbn [rbind] in H; try discriminate H.
    pose proof (read_wf s msg E) as HW. destruct msg as [|id' p|]; try discriminate H. cbn [wf_message] in HW. destruct HW as (_ & m & -> & HW).
    unfold result_to_response in H. destruct (req_from_action a) as [ty|]; [|discriminate H].
    destruct (response_of ty) as [r|] eqn:ER; [|discriminate H]. destruct (marshal_any (AObj m)) as [text|?|] eqn:EM; cbn [rbind] in H; try discriminate H.
    destruct (unmarshal_msg r text) as [w|] eqn:EU; [|discriminate H]. injection H as -> -> ->.
    exists ty, m. split; [reflexivity|]. split; [reflexivity|]. split; [exact ER|].
    apply (unmarshal_yields rty m text HW EM (NA ty rty m ER)). exact EU.
  - intros (ty & m & HR & HA & HB & HY). pose proof (read_wf _ _ HR) as HW. cbn [wf_message] in HW. destruct HW as (_ & m' & E & HW).
    assert (m' = m) as -> by congruence. destruct (sendable m HW) as [text HM]. rewrite HR. cbn [rbind]. unfold result_to_response. rewrite HA, HB, HM. cbn [rbind].
    apply (unmarshal_yields rty m text HW HM (NA ty rty m HB)) in HY. rewrite HY. reflexivity.
Qed.
Print Assumptions C102_response.

(** An object is one message at most. *)
Theorem C102_certain : forall ty m v w, wf_any (AObj m) -> unambiguous ty (AObj m) ->
  yields (TStruct ty) (AObj m) v -> yields (TStruct ty) (AObj m) w -> v = w.
Proof.
  intros ty m v w HW HU Hv Hw. destruct (sendable m HW) as [text HM].
  apply (unmarshal_yields ty m text HW HM HU) in Hv. apply (unmarshal_yields ty m text HW HM HU) in Hw. congruence.
Qed.
Print Assumptions C102_certain.

(** A member of another name anywhere among the members of a request or a response, or a member missing: refused. *)
Theorem C102_refused : forall s id a m ty, read_text s = Ok (MCall id a (AObj m)) -> req_from_action a = Some ty -> reflective ty = false ->
  (exists k, In k (map fst m) /\ forall d fd, find_decl ty = Some d -> In fd (d_fields d) -> f_json fd <> k) \/
  (exists k, In k (obligatory ty) /\ ~ In k (map fst m)) ->
  received_request s = Ok (id, inr FormationViolation).
Proof.
  intros s id a m ty HR HA HF HB.
  assert (HN : forall q, received_request s <> Ok (id, inl q)).
  { intros q H. apply (C102_request_if s id a m HR) in H; [|intros ty' E; apply never_ambiguous; congruence]. destruct H as (_ & E & Y).
    assert (m_ty q = ty) as EQ by congruence. rewrite EQ in Y.
    inversion Y as [| | | | | | | |n d m' fs Hd Y1 Y2 Y3]; subst. destruct HB as [(k & K1 & K2)|(k & K1 & K2)].
    - assert (closed (m_ty q) = true) as HC.
      { unfold closed. rewrite HF. revert HA. clear. unfold req_from_action.
        assert (F : forallb (fun kv => is_request (snd kv)) req_actions = true) by (vm_compute; reflexivity).
        generalize (m_ty q). intros ty HA. assert (is_request ty = true) as ->; [|reflexivity]. revert F HA. generalize req_actions. intros l.
        induction l as [|[k w] l IH]; cbn [forallb snd lookup]; [discriminate|]. intros F'. apply andb_true_iff in F'. destruct F' as [F1 F2].
        destruct (String.eqb a k); [|exact (IH F2)]. intros E. congruence. }
      destruct (Y1 HC k K1) as (fd & G1 & G2). exact (K2 d fd Hd G1 G2).
    - exact (K2 (Y2 k K1)). }
  pose proof (read_wf _ _ HR) as HW. cbn [wf_message] in HW. destruct HW as (_ & _ & _ & HW). destruct (sendable m HW) as [text HM].
  unfold received_request in *. rewrite HR in *. cbn [rbind] in *. unfold call_to_request in *. rewrite HA, HM in *.
  destruct (unmarshal_msg ty text) as [v|]; [|reflexivity]. contradiction (HN _ eq_refl).
Qed.
Print Assumptions C102_refused.

(** Whatever else is in the members of a request with a known action: a FormationViolation, and only then. *)
Theorem C102_otherwise : forall s id a m ty, read_text s = Ok (MCall id a (AObj m)) -> req_from_action a = Some ty -> unambiguous ty (AObj m) ->
  (received_request s = Ok (id, inr FormationViolation) <-> ~ exists v, yields (TStruct ty) (AObj m) v).
Proof.
  intros s id a m ty HR HA HU. pose proof (read_wf _ _ HR) as HW. cbn [wf_message] in HW. destruct HW as (_ & _ & _ & HW). destruct (sendable m HW) as [text HM].
  pose proof (unmarshal_yields ty m text HW HM HU) as HY.
  unfold received_request. rewrite HR. cbn [rbind]. unfold call_to_request. rewrite HA, HM.
  destruct (unmarshal_msg ty text) as [v|]; split.
  - discriminate.
  - intros H. contradiction H. exists v. apply HY. reflexivity.
  - intros _ (v & Y). apply HY in Y. discriminate Y.
  - reflexivity.
Qed.
Print Assumptions C102_otherwise.

(** The caller of a request with action [a] gets an error for a response with any other members. *)
Theorem C102_no_response : forall s id a m ty rty, read_text s = Ok (MResult id (PAny (AObj m))) -> req_from_action a = Some ty -> response_of ty = Some rty ->
  (received_response a s = Ok (id, inr FormationViolation) <-> ~ exists v, yields (TStruct rty) (AObj m) v).
Proof.
  intros s id a m ty rty HR HA HB. pose proof (read_wf _ _ HR) as HW. cbn [wf_message] in HW. destruct HW as (_ & m' & E & HW).
  assert (m' = m) as -> by congruence. destruct (sendable m HW) as [text HM].
  pose proof (fun v => C102_response a s id (MkMsg rty v)) as HC. cbn [m_ty m_val] in HC.
  unfold received_response in *. rewrite HR in *. cbn [rbind] in *. unfold result_to_response in *. rewrite HA, HB, HM in *.
  destruct (unmarshal_msg rty text) as [w|]; cbn [rbind] in *; split.
  - discriminate.
  - intros H. contradiction H. exists w. destruct (proj1 (HC w) eq_refl) as (ty' & m2 & E1 & _ & _ & Y). assert (m2 = m) as -> by congruence. exact Y.
  - intros _ (v & Y). assert (X : @Ok (string * (msg + string)) (id, inr FormationViolation) = Ok (id, inl (MkMsg rty v))); [|discriminate X].
    apply HC. exists ty, m. auto.
  - reflexivity.
Qed.
Print Assumptions C102_no_response.

(** Cases. *)
Transparent read_text unmarshal_msg marshal_any.
Example C102_ex : exists q, received_request "[2,""7"",""BootNotification"",{""chargePointVendor"":""V"",""chargePointModel"":null}]" = Ok ("7", inl q) /\
  reflective (m_ty q) = false.
Proof. eexists. split; [vm_compute; reflexivity|reflexivity]. Qed.
Example C102_conf_ex : exists q, received_response "StartTransaction" "[3,""7"",{""transactionId"":1e2,""idTagInfo"":{""status"":""Accepted"",""more"":{}}}]" = Ok ("7", inl q).
Proof. eexists. vm_compute. reflexivity. Qed.
Example C102_yields_ex : yields TTime (AStr "2020-02-29T12:00:01Z") (VTime (MkTime 2020 2 29 12 0 1 0 0)).
Proof. assert (H : parse_rfc3339 "2020-02-29T12:00:01Z" = Some (MkTime 2020 2 29 12 0 1 0 0)) by (vm_compute; reflexivity).
  apply PropsTime.C70_accepted_iff in H. destruct H. apply yl_time; assumption. Qed.
Example C102_refused_ex : forall k, k = "colour" -> forall d fd, find_decl "cpreq.Heartbeat" = Some d -> In fd (d_fields d) -> f_json fd <> k.
Proof.
  intros k -> d fd H. vm_compute in H. injection H as <-. intros HI. exfalso. exact HI.
Qed.
Example C102_refused_run : received_request "[2,""7"",""Heartbeat"",{""colour"":1}]" = Ok ("7", inr FormationViolation) /\
  received_request "[2,""7"",""Authorize"",{}]" = Ok ("7", inr FormationViolation) /\
  (exists q, received_request "[2,""7"",""Authorize"",{""idTag"":null}]" = Ok ("7", inl q)) /\
  received_request "[2,""7"",""Authorize"",{""idtag"":""x""}]" = Ok ("7", inr FormationViolation).
Proof. repeat split; try (eexists); vm_compute; reflexivity. Qed.
Example C102_ambiguous_ex : ~ unambiguous "csreq.RemoteStopTransaction" (AObj [("transactionID", ANull); ("TransactionId", ANull)]).
Proof.
  intros H. destruct (find_decl "csreq.RemoteStopTransaction") as [d|] eqn:E; [|vm_compute in E; discriminate E].
  assert (E0 : forall c, same_letter c c) by (left; reflexivity).
  assert (F : exists fd, d_fields d = [fd] /\ f_json fd = "transactionId" /\ reflective (d_name d) = true).
  { clear H. vm_compute in E. injection E as <-. eexists. split; [reflexivity|split; reflexivity]. }
  destruct F as (fd & F1 & F2 & F3).
  assert (A : forall k, k <> "transactionId" -> alike k "transactionId" -> named d fd k).
  { intros k N K. right. rewrite F1, F2. split; [exact F3|]. split; [|exact K]. intros fd' [<-|[]]. congruence. }
  assert (A1 : alike "transactionID" "transactionId").
  { do 12 (apply al_cons; [apply E0|]). apply al_cons; [right; right; split; [split; intros K; discriminate K|reflexivity]|constructor]. }
  assert (A2 : alike "TransactionId" "transactionId").
  { apply al_cons; [right; right; split; [split; intros K; discriminate K|reflexivity]|]. do 12 (apply al_cons; [apply E0|]). constructor. }
  assert (G : In fd (d_fields d)) by (rewrite F1; left; reflexivity).
  assert (B : "transactionID" = "TransactionId"); [|discriminate B].
  apply (H d [("transactionID", ANull); ("TransactionId", ANull)] fd); [reflexivity|exact E|reflexivity|exact G|left; reflexivity|right; left; reflexivity|apply A; [discriminate|exact A1]|apply A; [discriminate|exact A2]].
Qed.
Example C102_struct_ex : exists q m, wf_any (AObj m) /\ unambiguous (m_ty q) (AObj m) /\ yields (TStruct (m_ty q)) (AObj m) (m_val q) /\ m <> [].
Proof.
  destruct C102_ex as (q & E & F). destruct (proj1 (C102_request _ _ _ F) E) as (a & m & HR & HA & HY).
  exists q, m. split; [pose proof (read_wf _ _ HR) as HW; cbn [wf_message] in HW; apply HW|]. split; [apply never_ambiguous; exact F|]. split; [exact HY|].
  intros ->. vm_compute in HR. discriminate HR.
Qed.
Example C102_request_if_ex : exists m, read_text "[2,""7"",""RemoteStopTransaction"",{""TRANSACTIONID"":5}]" = Ok (MCall "7" "RemoteStopTransaction" (AObj m)) /\
  unambiguous "csreq.RemoteStopTransaction" (AObj m) /\ req_from_action "RemoteStopTransaction" = Some "csreq.RemoteStopTransaction".
Proof.
  eexists. split; [vm_compute; reflexivity|]. split; [|reflexivity]. intros d m' fd k k' _ _ E _ H1 H2 _ _.
  injection E as <-. destruct H1 as [<-|[]], H2 as [<-|[]]. reflexivity.
Qed.
Example C102_no_response_ex : received_response "Heartbeat" "[3,""7"",{""currentTime"":""2019-02-29T00:00:00Z""}]" = Ok ("7", inr FormationViolation) /\
  (exists m, read_text "[3,""7"",{""currentTime"":""2019-02-29T00:00:00Z""}]" = Ok (MResult "7" (PAny (AObj m)))).
Proof. split; [vm_compute; reflexivity|eexists; vm_compute; reflexivity]. Qed.
