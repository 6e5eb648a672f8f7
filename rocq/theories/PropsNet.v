(** Property theorems C57, C58, C64, C65: this library on both ends of a websocket. *)
From Coq Require Import Arith.
From Verif Require Import GoBase Utf8 Json JsonProofs Float64 Lang Types Codec Any Tables Registry Frame SpecCodec SpecFrame FrameRead FrameMore Leaves
  Conn SpecConn ConnBase ConnInv ConnSend ConnEvid ConnMore ConnFate ConnLast ConnTop ConnServe Net SpecNet NetProofs NetMore NetOrder NetLive PropsConn.
Open Scope string_scope.
Open Scope list_scope.
Opaque marshal_message read_text unmarshal_request call_to_request result_to_response utf8_valid msg_ok is_request action_of.

(** What the peer makes of a request: [q'] is [q] as encoded, sent and decoded. *)
Definition conveyed (id : string) (q q' : msg) : Prop := exists t, request_text id q = Ok t /\ received_request t = Ok (id, inl q').
(** Likewise of a response to a request of type [ty]. *)
Definition answer_conveyed (id ty : string) (m m' : msg) : Prop :=
  exists a t, action_of ty = Some a /\ response_text id m = Ok t /\ received_response a t = Ok (id, inl m').

Lemma req_found id q t : msg_ok q = true -> request_text id q = Ok t -> is_dt (m_ty q) = false -> exists a, action_of (m_ty q) = Some a /\ req_from_action a = Some (m_ty q).
Proof.
  intros HM HT HD. destruct (request_written _ _ _ HM HT) as (text & a & p & _ & HA & _ & _). destruct (not_dt _ HD) as [N1 N2]. exists a. split; [exact HA|exact (action_found _ _ HA N1 N2)].
Qed.
Lemma conveyed_norm id q q' : utf8_valid id = true -> msg_ok q = true -> is_request (m_ty q) = true -> conveyed id q q' -> carried (m_val q) = true ->
  q' = MkMsg (m_ty q) (norm_at (TStruct (m_ty q)) (m_val q)).
Proof.
  intros HU HM HQ (t & T1 & T2) HC. destruct (request_kind _ _ _ HM HQ HU T1) as [(q2 & K1 & K2 & K3 & K4 & _)|(e & K1 & _)]; [|rewrite T2 in K1; discriminate K1].
  assert (HA : exists a', req_from_action a' = Some (m_ty q)) by (destruct (req_found _ _ _ HM T1 K4) as (a' & _ & A4); eauto).
  pose proof (request_delivered id q t HM HC HA T1) as D. rewrite T2 in D. injection D as _ D. exact D.
Qed.

(** *** C57: what Send returns is what the remote handler answered *)
Theorem C57_response : forall n tr s i m, nreach n tr -> In (NObs s (ORet i (RResp m))) tr -> exists id q q' m',
  happened [NObs s (OCall i id q); NObs (other s) (OHandle (Some q') id); NObs (other s) (OReturn id (inl (Some m'))); NObs s (ORet i (RResp m))] tr /\
  conveyed id q q' /\ answer_conveyed id (m_ty q) m' m.
Proof.
  intros n tr s i m HR HI. destruct (answer_chain _ _ _ _ _ HR HI eq_refl) as (id & q & t & C1 & C2 & C3 & C4 & C5 & [(q' & r & t' & H1 & H2 & H3 & H4 & H5 & H6 & H7)|(e & _ & _ & H)]); [|discriminate H].
  cbn [justifies] in H7. destruct H7 as (p & a & J1 & J2 & J3). apply sanitize_id_iff in C5. pose proof (reply_text _ _ _ _ H6 C5 H5) as RT. destruct r as [[m'|]|e]; [|rewrite J1 in RT; discriminate RT..].
  destruct RT as (_ & _ & RT). exists id, q, q', m'. split; [exact H1|]. split; [exists t; auto|]. exists a, t'. split; [exact J2|]. split; [exact RT|].
  unfold received_response. apply inbound_result in J1. rewrite J1. cbn [rbind]. rewrite J3. reflexivity.
Qed.
(** When the values are ones the encoding can carry, the handler got the caller's
    request and the caller the handler's response, both normalised. *)
Theorem C57_same_values : forall n tr s i m, nreach n tr -> In (NObs s (ORet i (RResp m))) tr -> exists id q q' m',
  happened [NObs s (OCall i id q); NObs (other s) (OHandle (Some q') id); NObs (other s) (OReturn id (inl (Some m'))); NObs s (ORet i (RResp m))] tr /\
  (carried (m_val q) = true -> q' = MkMsg (m_ty q) (norm_at (TStruct (m_ty q)) (m_val q))) /\
  (carried (m_val m') = true -> response_of (m_ty q) = Some (m_ty m') -> m = MkMsg (m_ty m') (norm_at (TStruct (m_ty m')) (m_val m'))).
Proof.
  intros n tr s i m HR HI. destruct (answer_chain _ _ _ _ _ HR HI eq_refl) as (id & q & t & C1 & C2 & C3 & C4 & C5 & [(q' & r & t' & H1 & H2 & H3 & H4 & H5 & H6 & H7)|(e & _ & _ & H)]); [|discriminate H].
  cbn [justifies] in H7. destruct H7 as (p & a & J1 & J2 & J3). pose proof (proj2 (sanitize_id_iff _) C5) as C5'. pose proof (reply_text _ _ _ _ H6 C5' H5) as RT. destruct r as [[m'|]|e]; [|rewrite J1 in RT; discriminate RT..].
  destruct RT as (_ & RM & RT). exists id, q, q', m'. split; [exact H1|]. split.
  - exact (conveyed_norm _ _ _ C5 C2 C3 (ex_intro _ t (conj C1 H2))).
  - intros HC HY. destruct (req_found _ _ _ C2 C1 H4) as (a' & A3 & A4). assert (a' = a) by congruence. subst a'.
    pose proof (response_delivered id a (m_ty q) m' t' RM HC A4 HY RT) as D. unfold received_response in D. apply inbound_result in J1. rewrite J1 in D. cbn [rbind] in D. rewrite J3 in D. cbn [rbind] in D. injection D as _ D. exact D.
Qed.
(** A CALLERROR: the remote handler returned that error, or the peer refused the
    request without calling its handler. *)
Theorem C57_error : forall n tr s i id c d det, nreach n tr -> In (NObs s (ORet i (RCallErr id c d det))) tr -> det = AObj [] /\ exists q,
  (exists q' e, conveyed id q q' /\ c = "InternalError" /\ d = sanitize e /\
     happened [NObs s (OCall i id q); NObs (other s) (OHandle (Some q') id); NObs (other s) (OReturn id (inr e)); NObs s (ORet i (RCallErr id c d det))] tr) \/
  (happened [NObs s (OCall i id q); NObs s (ORet i (RCallErr id c d det))] tr /\ d = "on handling message" /\
     (forall x, ~ In (NObs (other s) (OHandle x id)) tr) /\
     ((c = "NotSupported" /\ action_of (m_ty q) = Some "DataTransfer") \/ (c = "FormationViolation" /\ carried (m_val q) = false))).
Proof.
  intros n tr s i id0 c d det HR HI. destruct (answer_chain _ _ _ _ _ HR HI eq_refl) as (id & q & t & C1 & C2 & C3 & C4 & C5 & [(q' & r & t' & H1 & H2 & H3 & H4 & H5 & H6 & H7)|(e & H1 & H2 & H3)]).
  - cbn [justifies] in H7. destruct H7 as [-> J1]. pose proof (proj2 (sanitize_id_iff _) C5) as C5'. pose proof (reply_text _ _ _ _ H6 C5' H5) as RT. destruct r as [[m'|]|e]; [destruct RT as [[p RT] _]; rewrite J1 in RT; discriminate RT|rewrite J1 in RT; discriminate RT|].
    rewrite J1 in RT. injection RT as -> -> ->. split; [reflexivity|]. exists q. left. exists q', e. split; [exists t; auto|]. auto.
  - injection H3 as -> -> -> ->. split; [reflexivity|]. exists q. right. split; [exact H1|]. split; [reflexivity|]. split.
    + intros x HX. destruct (handle_chain _ _ _ _ _ HR HX) as (i' & q1 & q1' & t1 & _ & E2 & _ & E4 & E5 & _).
      pose proof (happened_In _ _ _ E2 (or_introl eq_refl)) as IC. pose proof (happened_In _ _ _ H1 (or_introl eq_refl)) as IC0. destruct (same_call _ _ _ _ _ _ _ _ HR IC IC0) as [_ ->].
      assert (t1 = t) by congruence. subst t1. rewrite H2 in E5. discriminate E5.
    + destruct (request_kind _ _ _ C2 C3 C5 C1) as [(q2 & K1 & _)|(e2 & K1 & _ & K2)]; [rewrite H2 in K1; discriminate K1|]. rewrite H2 in K1. injection K1 as <-.
      destruct K2 as [[-> K2]|[-> K2]]; [left; split; [reflexivity|exact (dt_action _ K2)]|right; auto].
Qed.
(** The call fails with a code of its own when the handler's response does not
    decode as the response paired with the request. *)
Theorem C57_undecodable : forall n tr s i c, nreach n tr -> In (NObs s (ORet i (RCode c))) tr -> c = "FormationViolation" /\ exists id q q' m',
  happened [NObs s (OCall i id q); NObs (other s) (OHandle (Some q') id); NObs (other s) (OReturn id (inl (Some m'))); NObs s (ORet i (RCode c))] tr /\
  conveyed id q q' /\ (exists a t, action_of (m_ty q) = Some a /\ response_text id m' = Ok t /\ received_response a t = Ok (id, inr c)) /\
  ~ (carried (m_val m') = true /\ response_of (m_ty q) = Some (m_ty m')).
Proof.
  intros n tr s i c HR HI. destruct (answer_chain _ _ _ _ _ HR HI eq_refl) as (id & q & t & C1 & C2 & C3 & C4 & C5 & [(q' & r & t' & H1 & H2 & H3 & H4 & H5 & H6 & H7)|(e & _ & _ & H)]); [|discriminate H].
  cbn [justifies] in H7. destruct H7 as (p & a & J1 & J2 & J3). pose proof (proj2 (sanitize_id_iff _) C5) as C5'. pose proof (reply_text _ _ _ _ H6 C5' H5) as RT. destruct r as [[m'|]|e]; [|rewrite J1 in RT; discriminate RT..].
  destruct RT as (_ & RM & RT). pose proof (proj1 (inbound_result _ _ _) J1) as J1'.
  destruct (req_found _ _ _ C2 C1 H4) as (a' & A3 & A4). assert (a' = a) by congruence. subst a'.
  assert (EC : c = FormationViolation).
  { pose proof (read_wf _ _ J1') as (_ & l & W1 & HW). injection W1 as ->. pose proof (result_fate _ _ _ J2 HW) as F. rewrite H4 in F.
    destruct F as (rr & _ & [(v & F & _)|F]); rewrite J3 in F; [discriminate F|injection F as ->; reflexivity]. }
  split; [exact EC|]. exists id, q, q', m'. split; [exact H1|]. split; [exists t; auto|]. split.
  - exists a, t'. split; [exact J2|]. split; [exact RT|]. unfold received_response. rewrite J1'. cbn [rbind]. rewrite J3. reflexivity.
  - intros [HC HY]. pose proof (response_delivered id a (m_ty q) m' t' RM HC A4 HY RT) as D. unfold received_response in D. rewrite J1' in D. cbn [rbind] in D. rewrite J3 in D. discriminate D.
Qed.
(** Conversely a call that got an answer got the one its handler gave. *)
Theorem C57_agree : forall n tr s i id q r o, nreach n tr -> In (NObs s (OCall i id q)) tr -> In (NObs (other s) (OReturn id r)) tr ->
  In (NObs s (ORet i o)) tr -> answered o = true ->
  match r with
  | inl (Some m') => (exists m, o = RResp m /\ answer_conveyed id (m_ty q) m' m) \/ o = RCode "FormationViolation"
  | inl None => False
  | inr e => o = RCallErr id "InternalError" (sanitize e) (AObj [])
  end.
Proof.
  intros n tr s i id q r o HR HC HX HI HA. destruct o; try discriminate HA.
  - destruct (C57_response _ _ _ _ _ HR HI) as (id1 & q1 & q1' & m1 & B1 & B2 & B3). destruct (call_fun _ _ _ _ _ _ _ _ HR HC (happened_In _ _ _ B1 (or_introl eq_refl))) as [<- <-].
    rewrite (return_fun _ _ _ _ _ _ HR HX (happened_In _ _ _ B1 (or_intror (or_intror (or_introl eq_refl))))). left. eauto.
  - destruct (C57_undecodable _ _ _ _ _ HR HI) as (-> & id1 & q1 & q1' & m1 & B1 & B2 & B3). destruct (call_fun _ _ _ _ _ _ _ _ HR HC (happened_In _ _ _ B1 (or_introl eq_refl))) as [<- <-].
    rewrite (return_fun _ _ _ _ _ _ HR HX (happened_In _ _ _ B1 (or_intror (or_intror (or_introl eq_refl))))). right. reflexivity.
  - assert (EID : id = id0).
    { destruct (answer_chain _ _ _ _ _ HR HI eq_refl) as (id1 & q1 & t & _ & _ & _ & _ & _ & [(q' & r1 & t' & H1 & _ & _ & _ & _ & _ & H7)|(e & H1 & _ & H)]).
      - destruct (call_fun _ _ _ _ _ _ _ _ HR HC (happened_In _ _ _ H1 (or_introl eq_refl))) as [<- _]. destruct H7 as [-> _]. reflexivity.
      - destruct (call_fun _ _ _ _ _ _ _ _ HR HC (happened_In _ _ _ H1 (or_introl eq_refl))) as [<- _]. injection H as -> _ _ _. reflexivity. }
    subst id0. destruct (C57_error _ _ _ _ _ _ _ _ HR HI) as (-> & q1 & [(q' & e & _ & -> & -> & B1)|(B1 & _ & B2 & _)]).
    + rewrite (return_fun _ _ _ _ _ _ HR HX (happened_In _ _ _ B1 (or_intror (or_intror (or_introl eq_refl))))). reflexivity.
    + exfalso. destruct (return_moment _ _ _ _ _ HR HX) as (n0 & tr0 & rest & x & _ & E1 & E2). apply (B2 x). rewrite E1. apply in_or_app. left. exact E2.
Qed.
(** A handler that returns nil leaves the remote caller without an answer. *)
Theorem C57_nil_never_answers : forall n tr s i id q o, nreach n tr -> In (NObs s (OCall i id q)) tr -> In (NObs (other s) (OReturn id (inl None))) tr ->
  In (NObs s (ORet i o)) tr -> answered o = false.
Proof. intros n tr s i id q o HR HC HX HI. destruct (answered o) eqn:EA; [|reflexivity]. destruct (C57_agree _ _ _ _ _ _ _ _ HR HC HX HI EA). Qed.

(** *** C58: the handler's requests come from the peer's calls *)
Theorem C58_sent : forall n tr s x id, nreach n tr -> In (NObs (other s) (OHandle x id)) tr -> exists i q q',
  x = Some q' /\ happened [NObs s (OCall i id q); NObs (other s) (OHandle (Some q') id)] tr /\ conveyed id q q' /\ m_ty q' = m_ty q /\ may_send s q = true /\
  (carried (m_val q) = true -> q' = MkMsg (m_ty q) (norm_at (TStruct (m_ty q)) (m_val q))).
Proof.
  intros n tr s x id HR HX. destruct (handle_chain _ _ _ _ _ HR HX) as (i & q & q' & t & -> & E2 & E3 & E4 & E5 & E6 & E7 & E8 & E9 & _).
  assert (HC : conveyed id q q') by (exists t; auto).
  pose proof (happened_In _ _ _ E2 (or_introl eq_refl)) as IC. pose proof (n_may _ _ (nreach_inv _ _ HR) s) as MY.
  pose proof (proj2 (in_sends_view s tr i id q) IC) as IS.
  destruct (sends_in _ _ _ _ _ (v_i _ _ _ (reach_inv _ _ _ (n_reach _ _ (nreach_inv _ _ HR) s))) IS) as (sd & S1 & S2 & S3).
  assert (HU : utf8_valid id = true). { pose proof (v_c _ _ _ (reach_inv _ _ _ (n_reach _ _ (nreach_inv _ _ HR) s)) _ _ S1) as (U & _). congruence. }
  exists i, q, q'. split; [reflexivity|]. split; [exact E2|]. split; [exact HC|]. split; [exact E9|]. split; [exact (MY _ _ _ IS)|]. exact (conveyed_norm _ _ _ HU E6 E7 HC).
Qed.
Theorem C58_once : forall n tr s, nreach n tr -> NoDup (map fst (handles (view s tr))).
Proof. exact handled_once. Qed.
(** Requests are handled in the order in which they entered the network; a request
    that decodes is not overtaken. *)
Theorem C58_fifo : forall n tr s i ti idi qi qi' j tj idj qj x, nreach n tr -> happened [NSent s (WS i) ti; NSent s (WS j) tj] tr ->
  In (NObs s (OCall i idi qi)) tr -> In (NObs s (OCall j idj qj)) tr -> conveyed idi qi qi' ->
  In (NObs (other s) (OHandle x idj)) tr -> happened [NObs (other s) (OHandle (Some qi') idi); NObs (other s) (OHandle x idj)] tr.
Proof.
  intros n tr s i ti idi qi qi' j tj idj qj x HR HH HI HJ (t & T1 & T2) HX. pose proof (nreach_inv _ _ HR) as NV.
  assert (ti = t).
  { pose proof (happened_In _ _ _ HH (or_introl eq_refl)) as IS. apply in_sent in IS. pose proof (n_origin _ _ NV s _ _ IS) as (id & q & O1 & O2). apply in_sends_view in O1.
    destruct (call_fun _ _ _ _ _ _ _ _ HR HI O1) as [<- <-]. congruence. }
  subst ti. refine (fifo _ _ _ _ _ _ _ _ _ _ _ HR HH _ (proj2 (in_sends_view _ _ _ _ _) HJ) _ HX).
  unfold received_request in T2. unfold inbound_of. destruct (read_text t) as [[id a p| |]| |]; try discriminate T2. cbn [rbind] in T2. injection T2 as -> T2. rewrite T2. reflexivity.
Qed.
(** In particular, when one call ended before the other began. *)
Theorem C58_sequential : forall n tr s i idi qi oi j idj qj xi xj, nreach n tr ->
  In (NObs s (OCall i idi qi)) tr -> happened [NObs s (ORet i oi); NObs s (OCall j idj qj)] tr ->
  In (NObs (other s) (OHandle xi idi)) tr -> In (NObs (other s) (OHandle xj idj)) tr ->
  happened [NObs (other s) (OHandle xi idi); NObs (other s) (OHandle xj idj)] tr.
Proof.
  intros n tr s i idi qi oi j idj qj xi xj HR HC HH HI HJ.
  destruct (handle_chain _ _ _ _ _ HR HI) as (i' & q1 & q1' & t1 & -> & E2 & E3 & E4 & E5 & _). destruct (same_call _ _ _ _ _ _ _ _ HR HC (happened_In _ _ _ E2 (or_introl eq_refl))) as [<- <-].
  pose proof (happened_In _ _ _ HH (or_intror (or_introl eq_refl))) as HCJ.
  destruct (handle_chain _ _ _ _ _ HR HJ) as (j' & q2 & q2' & t2 & -> & F2 & F3 & F4 & F5 & _). destruct (same_call _ _ _ _ _ _ _ _ HR HCJ (happened_In _ _ _ F2 (or_introl eq_refl))) as [<- <-].
  refine (C58_fifo _ _ _ _ _ _ _ _ _ _ _ _ _ HR (sequential _ _ _ _ _ _ _ _ _ _ HR HH E3 F3) HC HCJ _ HJ). exists t1. auto.
Qed.

(** *** C64: calls can always complete *)
Theorem C64_completes : forall n tr s id q q' h t', nreach n tr -> quiet_net n ->
  ~ In id (map (fun x => fst (snd x)) (sends (view s tr))) -> utf8_valid id = true -> msg_ok q = true -> may_send s q = true ->
  conveyed id q q' -> h <> inl None -> hret_ok (role_of (other s)) h = true -> marshal_message (response_message id h) = Ok t' ->
  exists es n' o i x, nrun es n = Some (n', o) /\ quiet_net n' /\
    happened [NObs s (OCall i id q); NObs (other s) (OHandle (Some q') id); NObs (other s) (OReturn id h); NObs s (ORet i x)] o /\
    (forall s' m id0 q0, In (NObs s' (OCall m id0 q0)) o -> s' = s /\ id0 = id) /\
    match h with
    | inl (Some m') => (exists m, x = RResp m /\ answer_conveyed id (m_ty q) m' m) \/ x = RCode "FormationViolation"
    | inl None => False
    | inr e => x = RCallErr id "InternalError" (sanitize e) (AObj [])
    end.
Proof.
  intros n tr s id q q' h t' HR HQ HF HU HM HY (t & T1 & T2) HN HH HT.
  destruct (round _ _ _ _ _ _ _ _ _ HR HQ HF HU HM HY T1 T2 HN HH HT) as (es & n' & o & i & x & R1 & R2 & R3 & R5 & R4 & _).
  exists es, n', o, i, x. split; [exact R1|]. split; [exact R2|]. split; [exact R3|]. split; [exact R5|]. pose proof (nreach_run _ _ _ _ _ HR R1) as HR'.
  assert (IN : forall y, In y [NObs s (OCall i id q); NObs (other s) (OHandle (Some q') id); NObs (other s) (OReturn id h); NObs s (ORet i x)] -> In y (tr ++ o)) by (intros y Hy; apply in_or_app; right; exact (happened_In _ _ _ R3 Hy)).
  refine (C57_agree _ _ _ _ _ _ _ _ HR' (IN _ _) (IN _ _) (IN _ _) R4); cbn [In]; auto.
Qed.

(** *** C65: what was reported written is in the network *)
Theorem C65_written_is_sent : forall n tr s, nreach n tr -> exists l, map snd (sent_by s tr) = writes (view s tr) ++ l /\ length l <= 1.
Proof. intros n tr s HR. destruct (wrote_sent _ _ HR s) as (l & H1 & _ & H2). eauto. Qed.
Theorem C65_read_is_sent : forall n tr s, nreach n tr -> exists l, map snd (sent_by s tr) = reads (view (other s) tr) ++ l.
Proof. exact reads_prefix. Qed.

(** ** Concrete runs *)
Definition net_of es := match nrun es net0 with Some (n, _) => n | None => net0 end.
Definition net_trace es := match nrun es net0 with Some (_, o) => o | None => [] end.
Lemma net_reached es : (match nrun es net0 with Some _ => true | None => false end) = true -> nreach (net_of es) (net_trace es).
Proof. unfold net_of, net_trace. destruct (nrun es net0) as [[n o]|] eqn:E; [|discriminate]. intros _. exact (nreach_of_run _ _ _ E). Qed.
Definition start := [(Central, ELoop); (Point, ELoop)].
Definition hb_text (id : string) := "[2,""" +++ id +++ """,""Heartbeat"",{}]".
Definition put_on_wire (i : nat) (id : string) (q : msg) := map (pair Point) [ESend false id q; EStep i; EStep i; EStep i; EChunk (WS i) 200; EWritten (WS i); EStep i].
Definition serve (r : nat) (t : string) (h : hret) := map (pair Central) [ERead r t; EReader r; ETake r; ELoop; EReturn h; ELoop; EChunk WL 200; EWritten WL; ELoop].
Definition get_answer (r i : nat) (t : string) := map (pair Point) [ERead r t; EReader r; EReader r; EReader r; EReader r; EReceive r i; EStep i; EStep i; EResult; ELoop].
Definition round_run := start ++ put_on_wire 0 "7" hb ++ serve 0 (hb_text "7") (inl (Some hb_resp)) ++ get_answer 0 0 hb_answer.
Definition error_run := start ++ put_on_wire 0 "7" hb ++ serve 0 (hb_text "7") (inr "no") ++ map (pair Point) [ERead 0 "[4,""7"",""InternalError"",""no"",{}]"; EReader 0; EReader 0; EReader 0; EReceive 0 0; EStep 0; EStep 0; EResult; ELoop].
Definition nil_run := start ++ put_on_wire 0 "7" hb ++ serve 0 (hb_text "7") (inl None) ++ [(Point, ETimeout 0)].
Definition dt_text := "[2,""7"",""DataTransfer"",{""data"":"""",""messageId"":"""",""vendorId"":""v""}]".
Definition dt_refusal := "[4,""7"",""NotSupported"",""on handling message"",{}]".
Definition refused_run := start ++ put_on_wire 0 "7" dt ++
  map (pair Central) [ERead 0 dt_text; EReader 0; EReader 0; EChunk (WR 0) 200; EWritten (WR 0); EResult; ELoop] ++
  map (pair Point) [ERead 0 dt_refusal; EReader 0; EReader 0; EReader 0; EReceive 0 0; EStep 0; EStep 0; EResult; ELoop].
(** Call 0 times out; call 1 begins later; both are then served. *)
Definition two_run := start ++ put_on_wire 0 "7" hb ++ [(Point, ETimeout 0)] ++ put_on_wire 1 "8" hb ++
  serve 0 (hb_text "7") (inl (Some hb_resp)) ++ serve 1 (hb_text "8") (inl (Some hb_resp)).
Example net_runs_ok : map (fun es => match nrun es net0 with Some _ => true | None => false end) [start; round_run; error_run; nil_run; refused_run; two_run] = [true; true; true; true; true; true].
Proof. vm_compute. reflexivity. Qed.
Example C57_ex :
  In (NObs Point (ORet 0 (RResp hb_resp))) (net_trace round_run) /\
  In (NObs Point (ORet 0 (RCallErr "7" "InternalError" "no" (AObj [])))) (net_trace error_run) /\
  In (NObs Point (ORet 0 (RCallErr "7" "NotSupported" "on handling message" (AObj [])))) (net_trace refused_run) /\
  In (NObs Central (OReturn "7" (inl None))) (net_trace nil_run) /\ In (NObs Point (ORet 0 RTimeout)) (net_trace nil_run).
Proof. conjs; vm_compute; repeat first [left; reflexivity|right]. Qed.
Example C57_ex_conveyed : conveyed "7" hb hb /\ answer_conveyed "7" (m_ty hb) hb_resp hb_resp.
Proof.
  split; [exists (hb_text "7")|exists "Heartbeat", hb_answer]; conjs; vm_compute; reflexivity.
Qed.
(** A handler may return a response of another type, which does not decode. *)
Definition boot_resp : msg := MkMsg "cpresp.BootNotification" (VStruct [("Status", VStr "Accepted"); ("CurrentTime", VTime (GoTime.MkTime 2020 2 29 12 0 1 0 0)); ("Interval", VF64 (FFin false 0 (-1074)))]).
Definition code_run := start ++ put_on_wire 0 "7" hb ++ serve 0 (hb_text "7") (inl (Some boot_resp)) ++
  get_answer 0 0 "[3,""7"",{""currentTime"":""2020-02-29T12:00:01Z"",""interval"":0,""status"":""Accepted""}]".
Example C57_ex_code : In (NObs Point (ORet 0 (RCode "FormationViolation"))) (net_trace code_run).
Proof. vm_compute; repeat first [left; reflexivity|right]. Qed.
Example C58_ex : handles (view Central (net_trace two_run)) = [("7", Some hb); ("8", Some hb)] /\
  transmitted Point (net_trace two_run) = [0; 1] /\ rets (view Point (net_trace two_run)) = [(0, RTimeout)].
Proof. conjs; vm_compute; reflexivity. Qed.
Lemma settled_by c : (exists r, idle c r) -> c_lock c = None -> c_wbroken c = false -> c_closed c = false -> forallb (fun sd => negb (sd_inh sd) || sdone (sd_pc sd)) (c_senders c) = true -> settled c.
Proof.
  intros H1 H2 H3 H4 H5. unfold settled. conjs; try assumption. intros i sd HN HI. rewrite forallb_forall in H5. specialize (H5 _ (nth_error_In _ _ HN)). rewrite HI in H5. exact H5.
Qed.
Example C64_ex : quiet_net (net_of start) /\ quiet_net (net_of round_run) /\ sends (view Point (net_trace start)) = [] /\ map (fun x => fst (snd x)) (sends (view Point (net_trace round_run))) = ["7"] /\
  utf8_valid "8" = true /\ msg_ok hb = true /\ may_send Point hb = true /\ hret_ok CS (inl (Some hb_resp)) = true /\ marshal_message (response_message "7" (inl (Some hb_resp))) = Ok hb_answer.
Proof.
  unfold quiet_net. conjs; try (apply settled_by); try (vm_compute; reflexivity).
  - exists 0. unfold idle. conjs; vm_compute; reflexivity.
  - exists 0. unfold idle. conjs; vm_compute; reflexivity.
  - exists 1. unfold idle. conjs; vm_compute; reflexivity.
  - exists 1. unfold idle. conjs; vm_compute; reflexivity.
Qed.
Example C65_ex : map snd (sent_by Point (net_trace round_run)) = [hb_text "7"] /\ map snd (sent_by Central (net_trace round_run)) = [hb_answer].
Proof. split; vm_compute; reflexivity. Qed.

Definition net_theorems := (C57_response, C57_same_values, C57_error, C57_undecodable, C57_agree, C57_nil_never_answers,
  C58_sent, C58_once, C58_fifo, C58_sequential, C64_completes, C65_written_is_sent, C65_read_is_sent).
Print Assumptions net_theorems.
