(** Property theorem C103, continued: end to end, with this library on both ends. *)
From Coq Require Import Arith.
From Verif Require Import GoBase Utf8 Json JsonProofs Float64 GoTime Lang Types Codec Any Tables Registry Frame SpecCodec SpecFrame FrameRead FrameMore Leaves SpecTime
  Conn SpecConn ConnBase ConnInv ConnSend ConnEvid ConnMore ConnFate ConnLast ConnTop ConnServe Net SpecNet NetProofs NetMore NetOrder NetLive PropsConn PropsNet
  CentralSystem SpecCS CSInv CSMore ChargePoint SpecCP CPInv CPMore System SpecSys SysInv SysMore SysLive
  SpecSays SpecArrives ArriveProofs PropsArrive.
Open Scope string_scope.
Open Scope list_scope.
Opaque marshal_message read_text unmarshal_request call_to_request result_to_response utf8_valid msg_ok is_request action_of.

Lemma conveyed_arrives id q q' : utf8_valid id = true -> msg_ok q = true -> is_request (m_ty q) = true -> conveyed id q q' -> Forall writable (times (m_val q)) ->
  m_ty q' = m_ty q /\ arrives (TStruct (m_ty q)) (m_val q) (m_val q').
Proof.
  intros HU HM HQ (t & T1 & T2) HW. destruct (request_kind _ _ _ HM HQ HU T1) as [(q2 & K1 & K2 & K3 & K4 & _)|(e & K1 & _)]; [|rewrite T2 in K1; discriminate K1].
  assert (HA : exists a', req_from_action a' = Some (m_ty q)) by (destruct (req_found _ _ _ HM T1 K4) as (a' & _ & A4); eauto).
  destruct (proj1 (C103_request id q t HM HA HW T1 id q') T2) as (_ & H). exact H.
Qed.

(** What a handler gets is what arrives of the request sent, whatever its numbers. *)
Theorem C103_handled : forall n tr s x id, nreach n tr -> In (NObs (other s) (OHandle x id)) tr -> exists i q q',
  x = Some q' /\ happened [NObs s (OCall i id q); NObs (other s) (OHandle (Some q') id)] tr /\ m_ty q' = m_ty q /\
  (Forall writable (times (m_val q)) -> arrives (TStruct (m_ty q)) (m_val q) (m_val q')).
Proof.
  intros n tr s x id HR HX. destruct (handle_chain _ _ _ _ _ HR HX) as (i & q & q' & t & -> & E2 & E3 & E4 & E5 & E6 & E7 & E8 & E9 & _).
  assert (HC : conveyed id q q') by (exists t; auto).
  pose proof (happened_In _ _ _ E2 (or_introl eq_refl)) as IC. pose proof (proj2 (in_sends_view s tr i id q) IC) as IS.
  destruct (sends_in _ _ _ _ _ (v_i _ _ _ (reach_inv _ _ _ (n_reach _ _ (nreach_inv _ _ HR) s))) IS) as (sd & S1 & S2 & S3).
  assert (HU : utf8_valid id = true). { pose proof (v_c _ _ _ (reach_inv _ _ _ (n_reach _ _ (nreach_inv _ _ HR) s)) _ _ S1) as (U & _). congruence. }
  exists i, q, q'. split; [reflexivity|]. split; [exact E2|]. split; [exact E9|]. intros HW. exact (proj2 (conveyed_arrives _ _ _ HU E6 E7 HC HW)).
Qed.
Print Assumptions C103_handled.

(** What Send returns is what arrives of the response the handler returned, to what arrived of the request. *)
Theorem C103_returned : forall n tr s i m, nreach n tr -> In (NObs s (ORet i (RResp m))) tr -> exists id q q' m',
  happened [NObs s (OCall i id q); NObs (other s) (OHandle (Some q') id); NObs (other s) (OReturn id (inl (Some m'))); NObs s (ORet i (RResp m))] tr /\
  (Forall writable (times (m_val q)) -> m_ty q' = m_ty q /\ arrives (TStruct (m_ty q)) (m_val q) (m_val q')) /\
  (Forall writable (times (m_val m')) -> response_of (m_ty q) = Some (m_ty m') -> m_ty m = m_ty m' /\ arrives (TStruct (m_ty m')) (m_val m') (m_val m)).
Proof.
  intros n tr s i m HR HI. destruct (answer_chain _ _ _ _ _ HR HI eq_refl) as (id & q & t & C1 & C2 & C3 & C4 & C5 & [(q' & r & t' & H1 & H2 & H3 & H4 & H5 & H6 & H7)|(e & _ & _ & H)]); [|discriminate H].
  cbn [justifies] in H7. destruct H7 as (p & a & J1 & J2 & J3). pose proof (proj2 (sanitize_id_iff _) C5) as C5'. pose proof (reply_text _ _ _ _ H6 C5' H5) as RT. destruct r as [[m'|]|e]; [|rewrite J1 in RT; discriminate RT..].
  destruct RT as (_ & RM & RT). exists id, q, q', m'. split; [exact H1|]. split.
  - intros HW. exact (conveyed_arrives _ _ _ C5 C2 C3 (ex_intro _ t (conj C1 H2)) HW).
  - intros HW HY. destruct (req_found _ _ _ C2 C1 H4) as (a' & A3 & A4). assert (a' = a) by congruence. subst a'.
    assert (RR : received_response a t' = Ok (id, inl m)).
    { unfold received_response. apply inbound_result in J1. rewrite J1. cbn [rbind]. rewrite J3. reflexivity. }
    destruct (proj1 (C103_response id m' t' a (m_ty q) RM A4 HY HW RT id m) RR) as (_ & H). exact H.
Qed.
Print Assumptions C103_returned.

(** A request that can be written is refused by the peer's library exactly for an integer of 2^63 - 512 or more, or for being a DataTransfer. *)
Theorem C103_refused : forall n tr s i id c d det, nreach n tr -> In (NObs s (ORet i (RCallErr id c d det))) tr -> 
  (forall x, ~ In (NObs (other s) (OHandle x id)) tr) -> exists q,
  In (NObs s (OCall i id q)) tr /\
  ((c = "NotSupported" /\ action_of (m_ty q) = Some "DataTransfer") \/
   (c = "FormationViolation" /\ (Forall writable (times (m_val q)) -> ~ Forall (fun z => (Z.abs z < 2 ^ 63 - 512)%Z) (ints (m_val q))))).
Proof.
  intros n tr s i id0 c d det HR HI HN. destruct (answer_chain _ _ _ _ _ HR HI eq_refl) as (id & q & t & C1 & C2 & C3 & C4 & C5 & [(q' & r & t' & H1 & H2 & H3 & H4 & H5 & H6 & H7)|(e & H1 & H2 & H3)]).
  - exfalso. pose proof (happened_In _ _ _ H1 (or_intror (or_introl eq_refl))) as X. cbn [justifies] in H7. destruct H7 as [-> _]. exact (HN _ X).
  - injection H3 as -> -> -> ->. exists q. split; [exact (happened_In _ _ _ H1 (or_introl eq_refl))|].
    pose proof (proj2 (sanitize_id_iff _) C5) as C5'. destruct (is_dt (m_ty q)) eqn:ED.
    + left. pose proof (dt_action _ ED) as EA. split; [|exact EA].
      destruct (request_kind _ _ _ C2 C3 C5 C1) as [(q2 & K1 & _)|(e2 & K0 & K1 & K2)]; [rewrite H2 in K1; discriminate K1|]. assert (e2 = e) as -> by congruence. clear K2.
      destruct (request_text_inv _ _ _ C2 C1) as (text & a & EM & EA'). assert (a = "DataTransfer") as -> by congruence.
      destruct (request_frame id q text C2 EM _ EA) as (mm & s' & A1 & A2 & A3 & A4 & A5). unfold request_text in C1. rewrite A3 in C1. cbn [rbind] in C1. assert (s' = t) as -> by congruence.
      rewrite (action_sane _ _ EA) in A5. pose proof (unsupported _ _ _ _ A5 C26_data_transfer) as U. rewrite K1 in U. assert (e = NotSupported) as -> by congruence. reflexivity.
    + right. destruct (req_found _ _ _ C2 C1 ED) as (a & EA & EF).
      destruct (request_kind _ _ _ C2 C3 C5 C1) as [(q2 & K1 & _)|(e2 & K0 & K1 & K2)]; [rewrite H2 in K1; discriminate K1|]. assert (e2 = e) as -> by congruence.
      destruct K2 as [[_ K2]|[-> _]]; [congruence|]. split; [reflexivity|]. intros HW HZ.
      destruct (proj1 (C103_delivered id q t C2 (ex_intro _ a EF) HW C1) HZ) as [v V]. rewrite K0 in V. discriminate V.
Qed.
Print Assumptions C103_refused.

(** *** In the whole system *)
(** What a charge point's handler gets is what arrives of a request sent by the central system to its identity. *)
Theorem C103_point_handled : forall cfg y tr j i x id, yreach cfg y tr -> In (AtPoint j (QConn i (OHandle x id))) tr -> exists k cid n q q',
  x = Some q' /\ known_as cfg j cid /\ In (AtCentral (OArrived k cid)) tr /\
  in_turn [AtCentral (OConn k (OCall n id q)); AtPoint j (QConn i (OHandle (Some q') id))] tr /\ m_ty q' = m_ty q /\
  (Forall writable (times (m_val q)) -> arrives (TStruct (m_ty q)) (m_val q) (m_val q')).
Proof.
  intros cfg y tr j i x id HR HI. destruct (point_connected _ _ _ _ _ _ HR HI) as (k & HC).
  destruct (met_net _ _ _ _ _ _ HR HC) as (net & cid & NR & HK & HA). destruct (C103_handled _ _ Central x id NR) as (n & q & q' & H1 & H2 & H3 & H4); [apply in_wire; exact HI|].
  exists k, cid, n, q, q'. split; [exact H1|]. split; [exact HK|]. split; [exact HA|]. split; [exact (happened_whole _ _ _ _ _ H2)|]. split; [exact H3|exact H4].
Qed.
Print Assumptions C103_point_handled.
(** What the central system's handler gets is what arrives of a request sent by a charge point known under the identity it is told. *)
Theorem C103_central_handled : forall cfg y tr k cid x id, yreach cfg y tr -> In (AtCentral (OArrived k cid)) tr -> ours k tr -> In (AtCentral (OConn k (OHandle x id))) tr -> exists j i n q q',
  x = Some q' /\ known_as cfg j cid /\ In (Connected k j i) tr /\
  in_turn [AtPoint j (QConn i (OCall n id q)); AtCentral (OConn k (OHandle (Some q') id))] tr /\ m_ty q' = m_ty q /\
  (Forall writable (times (m_val q)) -> arrives (TStruct (m_ty q)) (m_val q) (m_val q')).
Proof.
  intros cfg y tr k cid x id HR HA HO HI. destruct (central_connected _ _ _ _ _ HR HO HI (or_intror (or_introl (ex_intro _ _ (ex_intro _ _ eq_refl))))) as (j & i & HC).
  destruct (met_net _ _ _ _ _ _ HR HC) as (net & _ & NR & _ & _). destruct (C103_handled _ _ Point x id NR) as (n & q & q' & H1 & H2 & H3 & H4); [apply in_wire; exact HI|].
  exists j, i, n, q, q'. split; [exact H1|]. split; [exact (connected_who _ _ _ _ _ _ _ HR HC HA)|]. split; [exact HC|]. split; [exact (happened_whole _ _ _ _ _ H2)|]. split; assumption.
Qed.
Print Assumptions C103_central_handled.
(** What the service of GetServiceOf(cid) returns is what arrives of the response of that charge point's handler. *)
Theorem C103_central_returned : forall cfg y tr cid v url k n m, yreach cfg y tr -> In (AtCentral (OService cid v url (inl (SvcJSON k)))) tr -> ours k tr ->
  In (AtCentral (OConn k (ORet n (RResp m)))) tr -> exists j i id q q' m',
  known_as cfg j cid /\ In (Connected k j i) tr /\
  in_turn [AtCentral (OConn k (OCall n id q)); AtPoint j (QConn i (OHandle (Some q') id)); AtPoint j (QConn i (OReturn id (inl (Some m')))); AtCentral (OConn k (ORet n (RResp m)))] tr /\
  (Forall writable (times (m_val q)) -> m_ty q' = m_ty q /\ arrives (TStruct (m_ty q)) (m_val q) (m_val q')) /\
  (Forall writable (times (m_val m')) -> response_of (m_ty q) = Some (m_ty m') -> m_ty m = m_ty m' /\ arrives (TStruct (m_ty m')) (m_val m') (m_val m)).
Proof.
  intros cfg y tr cid v url k n m HR HS HO HI. pose proof (yreach_inv _ _ _ HR) as V.
  destruct (central_connected _ _ _ _ _ HR HO HI (or_introl (ex_intro _ n (ex_intro _ _ (conj eq_refl eq_refl))))) as (j & i & HC).
  destruct (met_net _ _ _ _ _ _ HR HC) as (net & _ & NR & _ & _). apply in_central in HS. destruct (service_id _ _ _ _ _ _ (y_c _ _ _ V) HS) as [_ HA]. apply in_central in HA.
  destruct (C103_returned _ _ Central n m NR) as (id & q & q' & m' & H1 & H2 & H3); [apply in_wire; exact HI|].
  exists j, i, id, q, q', m'. split; [exact (connected_who _ _ _ _ _ _ _ HR HC HA)|]. split; [exact HC|]. split; [exact (happened_whole _ _ _ _ _ H1)|]. split; assumption.
Qed.
Print Assumptions C103_central_returned.
Theorem C103_point_returned : forall cfg y tr j i n m, yreach cfg y tr -> In (AtPoint j (QConn i (ORet n (RResp m)))) tr -> exists k cid id q q' m',
  known_as cfg j cid /\ In (AtCentral (OArrived k cid)) tr /\
  in_turn [AtPoint j (QConn i (OCall n id q)); AtCentral (OConn k (OHandle (Some q') id)); AtCentral (OConn k (OReturn id (inl (Some m')))); AtPoint j (QConn i (ORet n (RResp m)))] tr /\
  (Forall writable (times (m_val q)) -> m_ty q' = m_ty q /\ arrives (TStruct (m_ty q)) (m_val q) (m_val q')) /\
  (Forall writable (times (m_val m')) -> response_of (m_ty q) = Some (m_ty m') -> m_ty m = m_ty m' /\ arrives (TStruct (m_ty m')) (m_val m') (m_val m)).
Proof.
  intros cfg y tr j i n m HR HI. destruct (point_connected _ _ _ _ _ _ HR HI) as (k & HC). destruct (met_net _ _ _ _ _ _ HR HC) as (net & cid & NR & HK & HA).
  destruct (C103_returned _ _ Point n m NR) as (id & q & q' & m' & H1 & H2 & H3); [apply in_wire; exact HI|].
  exists k, cid, id, q, q', m'. split; [exact HK|]. split; [exact HA|]. split; [exact (happened_whole _ _ _ _ _ H1)|]. split; assumption.
Qed.
Print Assumptions C103_point_returned.

(** A run: a reservation number that is another one at the handler, the answer, and one that is refused. *)
Definition reserve_text (z : string) := "[2,""7"",""ReserveNow"",{""connectorId"":1,""expiryDate"":""2020-02-29T12:00:01+02:00"",""idTag"":""" +++ SpecJson.replacement +++ "x"",""parentIdTag"":"""",""reservationId"":" +++ z +++ "}]".
Definition reserve_sent (z : Z) := map (pair Central) [ESend false "7" (ex_reserve z); EStep 0; EStep 0; EStep 0; EChunk (WS 0) 400; EWritten (WS 0); EStep 0].
Definition reserve_resp : msg := MkMsg "csresp.ReserveNow" (VStruct [("Status", VStr "Accepted")]).
Definition reserve_run := start ++ reserve_sent (2 ^ 53 + 1) ++
  map (pair Point) [ERead 0 (reserve_text "9007199254740992"); EReader 0; ETake 0; ELoop; EReturn (inl (Some reserve_resp)); ELoop; EChunk WL 400; EWritten WL; ELoop] ++
  map (pair Central) [ERead 0 "[3,""7"",{""status"":""Accepted""}]"; EReader 0; EReader 0; EReader 0; EReader 0; EReceive 0 0; EStep 0; EStep 0; EResult; ELoop].
Definition reserve_refused := start ++ reserve_sent (2 ^ 63 - 1) ++
  map (pair Point) [ERead 0 (reserve_text "9223372036854776000"); EReader 0; EReader 0; EChunk (WR 0) 400; EWritten (WR 0); EResult; ELoop] ++
  map (pair Central) [ERead 0 "[4,""7"",""FormationViolation"",""on handling message"",{}]"; EReader 0; EReader 0; EReader 0; EReceive 0 0; EStep 0; EStep 0; EResult; ELoop].
Lemma reserve_reached : nreach (net_of reserve_run) (net_trace reserve_run).
Proof. apply net_reached. vm_compute. reflexivity. Qed.
Lemma refused_reached : nreach (net_of reserve_refused) (net_trace reserve_refused).
Proof. apply net_reached. vm_compute. reflexivity. Qed.
Example C103_net_ex : nreach (net_of reserve_run) (net_trace reserve_run) /\
  In (NObs Central (OCall 0 "7" (ex_reserve (2 ^ 53 + 1)))) (net_trace reserve_run) /\
  In (NObs Point (OHandle (Some (arrived_reserve (2 ^ 53))) "7")) (net_trace reserve_run) /\
  In (NObs Central (ORet 0 (RResp reserve_resp))) (net_trace reserve_run).
Proof.
  split; [exact reserve_reached|].
  split; [|split]; vm_compute; repeat first [left; reflexivity|right].
Qed.
Example C103_net_refused_ex : nreach (net_of reserve_refused) (net_trace reserve_refused) /\
  In (NObs Central (ORet 0 (RCallErr "7" "FormationViolation" "on handling message" (AObj [])))) (net_trace reserve_refused) /\
  (forall x, ~ In (NObs Point (OHandle x "7")) (net_trace reserve_refused)) /\
  ~ Forall (fun z => (Z.abs z < 2 ^ 63 - 512)%Z) (ints (m_val (ex_reserve (2 ^ 63 - 1)))).
Proof.
  split; [exact refused_reached|].
  split; [vm_compute; repeat first [left; reflexivity|right]|]. split.
  - intros x HX. assert (A : existsb (fun o => match o with NObs Point (OHandle _ _) => true | _ => false end) (net_trace reserve_refused) = false) by (vm_compute; reflexivity).
    assert (B : existsb (fun o => match o with NObs Point (OHandle _ _) => true | _ => false end) (net_trace reserve_refused) = true); [|rewrite A in B; discriminate B].
    apply existsb_exists. eexists. split; [exact HX|reflexivity].
  - intros H. unfold ints, ex_reserve in H. cbn [m_val leaves flat_map snd app] in H. inversion H as [|? ? _ H1]; subst. inversion H1 as [|? ? H2 _]; subst. vm_compute in H2. discriminate H2.
Qed.
