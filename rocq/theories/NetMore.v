(** Two connected ends: where requests and answers come from. *)
From Coq Require Import Arith.
From Verif Require Import GoBase Utf8 Json JsonProofs Float64 Lang Types Codec Any Tables Registry Frame SpecCodec SpecFrame FrameRead FrameMore Leaves
  Conn SpecConn ConnBase ConnInv ConnSend ConnEvid ConnMore ConnFate ConnLast ConnTop Net SpecNet NetProofs.
Open Scope string_scope.
Open Scope list_scope.

(** ** Texts *)
Lemma dt_action ty : is_dt ty = true -> action_of ty = Some "DataTransfer".
Proof. unfold is_dt. intros H. apply orb_true_iff in H. destruct H as [H|H]; apply String.eqb_eq in H; subst ty; reflexivity. Qed.
Lemma not_dt ty : is_dt ty = false -> ty <> "cpreq.DataTransfer" /\ ty <> "csreq.DataTransfer".
Proof. intros H. split; intros ->; discriminate H. Qed.
Lemma action_unique ty ty' a : action_of ty = Some a -> req_from_action a = Some ty' -> ty = ty' /\ is_dt ty = false.
Proof.
  intros H1 H2. destruct (is_dt ty) eqn:E.
  - rewrite (dt_action _ E) in H1. injection H1 as <-. discriminate H2.
  - split; [|reflexivity]. destruct (not_dt _ E) as [N1 N2]. rewrite (action_found _ _ H1 N1 N2) in H2. congruence.
Qed.
Opaque marshal_message read_text unmarshal_request call_to_request result_to_response utf8_valid msg_ok is_request action_of.

(** What the receiver makes of a request. *)
Lemma request_kind id q t : msg_ok q = true -> is_request (m_ty q) = true -> utf8_valid id = true -> request_text id q = Ok t ->
  (exists q', received_request t = Ok (id, inl q') /\ inbound_of t = IRequest id q' /\ m_ty q' = m_ty q /\ is_dt (m_ty q) = false /\ msg_ok q' = true) \/
  (exists e, received_request t = Ok (id, inr e) /\ inbound_of t = IRefused id e /\
     ((e = NotSupported /\ is_dt (m_ty q) = true) \/ (e = FormationViolation /\ carried (m_val q) = false))).
Proof.
  intros HT HQ HU HS. destruct (request_written _ _ _ HT HS) as (text & a & p & _ & HA & _ & HR). apply sanitize_id_iff in HU. rewrite HU in HR.
  pose proof (read_wf _ _ HR) as W. cbn [wf_message] in W. destruct W as (_ & _ & _ & WP). pose proof (call_fate a p WP) as F.
  assert (RR : received_request t = Ok (id, call_to_request a p)) by (unfold received_request; rewrite HR; reflexivity).
  assert (IO : inbound_of t = match call_to_request a p with inl q => IRequest id q | inr c => IRefused id c end) by (unfold inbound_of; rewrite HR; reflexivity).
  destruct (req_from_action a) as [ty|] eqn:EA.
  - destruct (action_unique _ _ _ HA EA) as [ET ED]. destruct F as [(v & F1 & F2)|F]; rewrite ?F1, ?F in *.
    + left. exists (MkMsg ty v). cbn [m_ty]. split; [exact RR|]. split; [exact IO|]. split; [symmetry; exact ET|]. split; [exact ED|exact F2].
    + right. exists FormationViolation. split; [exact RR|]. split; [exact IO|]. right. split; [reflexivity|].
      destruct (carried (m_val q)) eqn:EC; [|reflexivity]. exfalso.
      assert (HX : exists a, req_from_action a = Some (m_ty q)) by (exists a; rewrite ET; exact EA). pose proof (request_delivered id q t HT EC HX HS) as D. rewrite RR in D. injection D as _ D. discriminate D.
  - rewrite F in *. right. exists NotSupported. split; [exact RR|]. split; [exact IO|]. left. split; [reflexivity|].
    destruct (is_dt (m_ty q)) eqn:ED; [reflexivity|]. exfalso. destruct (not_dt _ ED) as [N1 N2]. rewrite (action_found _ _ HA N1 N2) in EA. discriminate EA.
Qed.
Lemma refused_text id e t : sanitize id = id -> sanitize e = e -> marshal_message (new_call_error id e reject_desc) = Ok t ->
  inbound_of t = IError id e reject_desc (AObj []).
Proof.
  intros S1 S2 H. destruct (error_written id e reject_desc) as (s & W1 & W2). rewrite H in W1. injection W1 as <-. apply inbound_error. rewrite W2, S1, S2. reflexivity.
Qed.
Lemma reply_text id r t ro : hret_ok ro r = true -> sanitize id = id -> marshal_message (response_message id r) = Ok t ->
  match r with
  | inl (Some m) => (exists p, inbound_of t = IResult id p) /\ msg_ok m = true /\ response_text id m = Ok t
  | inl None => inbound_of t = IBad
  | inr e => inbound_of t = IError id InternalError (sanitize e) (AObj [])
  end.
Proof.
  intros HK HS HT. destruct r as [[m|]|e].
  - cbn [hret_ok] in HK. apply andb_true_iff in HK. destruct HK as [HK _]. split; [|split; [exact HK|exact HT]].
    destruct (response_written id m t HK HT) as (text & p & _ & _ & H). exists p. apply inbound_result. rewrite H, HS. reflexivity.
  - destruct (nil_response id) as (s & S1 & _ & e & S2). rewrite HT in S1. injection S1 as <-. unfold inbound_of. rewrite S2. reflexivity.
  - cbn [response_message] in HT. destruct (error_written id InternalError e) as (s & W1 & W2). rewrite HT in W1. injection W1 as <-. apply inbound_error. rewrite W2, HS. reflexivity.
Qed.

(** ** What is read was sent *)
Lemma read_sent n tr s text : nreach n tr -> In text (reads (view s tr)) -> exists w, In (NSent (other s) w text) tr.
Proof.
  intros HR HI. pose proof (n_fifo _ _ (nreach_inv _ _ HR) (other s)) as F. rewrite other_other in F.
  assert (HX : In text (map snd (sent_by (other s) tr))) by (rewrite F; apply in_or_app; left; exact HI).
  apply in_map_iff in HX. destruct HX as ([w t] & <- & HX). exists w. apply in_sent. exact HX.
Qed.
Lemma sent_from n tr s w t : nreach n tr -> In (NSent s w t) tr -> exists n0 tr0 rest, nreach n0 tr0 /\ tr = tr0 ++ rest /\ origin (view s tr0) w t.
Proof.
  intros HR HI. destruct (moment_sent _ _ _ _ _ HR HI) as (n0 & tr0 & k & c' & oc & rest & r & x & A1 & A2 & A3 & A4).
  exists n0, tr0, (map (NObs s) oc ++ NSent s w t :: rest). split; [exact A1|]. split; [exact A4|].
  exact (writing_origin _ _ _ _ _ _ (reach_inv _ _ _ (n_reach _ _ (nreach_inv _ _ A1) s)) A3).
Qed.
(** A CALL that is read is the request of a call of Send at the other end. *)
Lemma origin_kind n tr s w t : nreach n tr -> origin (view s tr) w t ->
  match w with
  | WS i => exists id q, In (i, (id, q)) (sends (view s tr)) /\ request_text id q = Ok t /\ msg_ok q = true /\ is_request (m_ty q) = true /\ utf8_valid id = true /\ may_send s q = true
  | WL => exists id r, In (id, r) (returns (view s tr)) /\ marshal_message (response_message id r) = Ok t /\ hret_ok (role_of s) r = true /\ sanitize id = id
  | WR _ => exists text id e, In text (reads (view s tr)) /\ inbound_of text = IRefused id e /\ inbound_of t = IError id e reject_desc (AObj [])
  end.
Proof.
  intros HR HO. pose proof (n_reach _ _ (nreach_inv _ _ HR) s) as R. destruct w as [i|j|]; cbn [origin] in HO.
  - destruct HO as (id & q & H1 & H2). exists id, q. destruct (sends_id _ _ _ _ _ _ R H1) as (X1 & X2 & X3).
    repeat (split; [assumption|]). exact (n_may _ _ (nreach_inv _ _ HR) _ _ _ _ H1).
  - destruct HO as (text & id & e & H1 & H2 & H3). exists text, id, e. split; [exact H1|]. split; [exact H2|]. destruct (refused_code _ _ _ H2) as (S1 & S2 & _). exact (refused_text _ _ _ S1 S2 H3).
  - destruct HO as (id & r & H1 & H2). exists id, r. split; [exact H1|]. split; [exact H2|]. pose proof (returns_ok _ _ _ R) as K. rewrite Forall_forall in K. split; [exact (K _ H1)|].
    destruct (returned_handled _ _ _ _ _ R H1) as [q HQ]. exact (handled_sane _ _ _ _ _ R HQ).
Qed.
Definition is_call (x : inbound) : bool := match x with IRequest _ _ | IRefused _ _ => true | _ => false end.
Lemma call_origin n tr s text : nreach n tr -> In text (reads (view (other s) tr)) -> is_call (inbound_of text) = true ->
  exists i id q, In (NObs s (OCall i id q)) tr /\ In (NSent s (WS i) text) tr /\ request_text id q = Ok text /\ msg_ok q = true /\ is_request (m_ty q) = true /\ utf8_valid id = true /\ may_send s q = true.
Proof.
  intros HR HI HC. destruct (read_sent _ _ _ _ HR HI) as [w HS]. rewrite other_other in HS.
  pose proof (n_origin _ _ (nreach_inv _ _ HR) s w text (proj2 (in_sent _ _ _ _) HS)) as HO. apply (origin_kind _ _ _ _ _ HR) in HO. destruct w as [i|j|].
  - destruct HO as (id & q & H1 & H2). exists i, id, q. split; [|split; [exact HS|exact H2]]. apply in_view. apply pick_in in H1. destruct H1 as (o & O1 & O2). destruct o; try discriminate O2. injection O2 as -> -> ->. exact O1.
  - destruct HO as (tx & id & e & _ & _ & H). rewrite H in HC. discriminate HC.
  - exfalso. destruct HO as (id & r & _ & H2 & H3 & H4). pose proof (reply_text _ _ _ _ H3 H4 H2) as X. destruct r as [[m|]|e].
    + destruct X as ([p X] & _). rewrite X in HC. discriminate HC.
    + rewrite X in HC. discriminate HC.
    + rewrite X in HC. discriminate HC.
Qed.

(** ** The handler is called *)
Lemma handle_moment n tr s x id : nreach n tr -> In (NObs s (OHandle x id)) tr -> exists n0 tr0 rest,
  nreach n0 tr0 /\ tr = tr0 ++ NObs s (OHandle x id) :: rest /\
  exists text q', In text (reads (view s tr0)) /\ inbound_of text = IRequest id q' /\ In (id, x) (seen (role_of s) (id, q')).
Proof.
  intros HR HI. destruct (moment_obs _ _ _ _ HR HI) as (n0 & tr0 & e & c' & oc & rest & A1 & A2 & A3 & A4).
  assert (E : oc = [OHandle x id] /\ e = ELoop).
  { clear - A2 A3. revert A3. step_inv A2 e; cbn [In]; intros HI; repeat (destruct HI as [HI|HI]; try discriminate HI); try (destruct HI; fail); (split; [congruence|reflexivity]). }
  destruct E as [-> ->]. cbn [map finished app] in A4. exists n0, tr0, rest. split; [exact A1|]. split; [exact A4|].
  pose proof (reach_S _ _ _ _ _ _ (n_reach _ _ (nreach_inv _ _ A1) s) A2) as R1.
  assert (HH : In (id, x) (handles (view s tr0 ++ [OHandle x id]))) by (unfold handles; rewrite pick_app; apply in_or_app; right; left; reflexivity).
  destruct (handled_id _ _ _ _ _ R1 HH) as (text & q' & T1 & T2 & T3). exists text, q'. split; [|split; [exact T2|exact T3]].
  unfold reads in T1. rewrite pick_app in T1. apply in_app_or in T1. destruct T1 as [T1|[]]. exact T1.
Qed.
Lemma directed s q q' x id : may_send s q = true -> m_ty q' = m_ty q -> In (id, x) (seen (role_of (other s)) (id, q')) -> x = Some q'.
Proof.
  intros HM HT HI. unfold seen in HI. cbn [fst snd] in HI. destruct s; cbn [other role_of may_send] in *; rewrite HT, HM in HI; destruct HI as [HI|[]]; congruence.
Qed.
Lemma handle_chain n tr s x id : nreach n tr -> In (NObs (other s) (OHandle x id)) tr -> exists i q q' t,
  x = Some q' /\ happened [NObs s (OCall i id q); NObs (other s) (OHandle (Some q') id)] tr /\
  In (NSent s (WS i) t) tr /\ request_text id q = Ok t /\ received_request t = Ok (id, inl q') /\
  msg_ok q = true /\ is_request (m_ty q) = true /\ is_dt (m_ty q) = false /\ m_ty q' = m_ty q /\ msg_ok q' = true.
Proof.
  intros HR HI. destruct (handle_moment _ _ _ _ _ HR HI) as (n0 & tr0 & rest & A1 & A2 & text & q' & T1 & T2 & T3).
  destruct (call_origin n0 tr0 s text A1 T1 ltac:(rewrite T2; reflexivity)) as (i & id' & q & C1 & C2 & C3 & C4 & C5 & C6 & C7).
  destruct (request_kind _ _ _ C4 C5 C6 C3) as [(q2 & K1 & K2 & K3 & K4 & K5)|(e & _ & K2 & _)]; [|rewrite T2 in K2; discriminate K2].
  rewrite T2 in K2. injection K2 as <- <-. pose proof (directed _ _ _ _ _ C7 K3 T3) as ->.
  exists i, q, q', text. split; [reflexivity|]. split.
  { rewrite A2. apply (happened_snoc [NObs s (OCall i id q)]). apply happened_1. exact C1. }
  split; [rewrite A2; apply in_or_app; left; exact C2|]. auto 8.
Qed.

(** ** Send returns *)
Lemma return_moment n tr s id r : nreach n tr -> In (NObs s (OReturn id r)) tr -> exists n0 tr0 rest x,
  nreach n0 tr0 /\ tr = tr0 ++ NObs s (OReturn id r) :: rest /\ In (NObs s (OHandle x id)) tr0.
Proof.
  intros HR HI. destruct (moment_obs _ _ _ _ HR HI) as (n0 & tr0 & e & c' & oc & rest & A1 & A2 & A3 & A4).
  assert (E : oc = [OReturn id r] /\ finished e (conn_of s n0) = [] /\ c_loop (conn_of s n0) = LRun id).
  { clear - A2 A3. revert A3. step_inv A2 e; cbn [In]; intros HI; repeat (destruct HI as [HI|HI]; try discriminate HI); try (destruct HI; fail).
    injection HI as <- <-. repeat split. }
  destruct E as (-> & E2 & E3). rewrite E2 in A4. cbn [map app] in A4. exists n0, tr0, rest.
  pose proof (reach_inv _ _ _ (n_reach _ _ (nreach_inv _ _ A1) s)) as V. destruct (v_h _ _ _ V) as (_ & H & _). rewrite E3 in H. cbn [pend_run] in H.
  assert (X : In id (map fst (handles (view s tr0)))) by (rewrite H; apply in_or_app; right; apply in_or_app; right; left; reflexivity).
  apply in_map_iff in X. destruct X as ([id' x] & X1 & X2). cbn [fst] in X1. subst id'. exists x. split; [exact A1|]. split; [exact A4|].
  apply in_view. apply pick_in in X2. destruct X2 as (o & O1 & O2). destruct o; try discriminate O2. injection O2 as -> ->. exact O1.
Qed.
Lemma ret_moment n tr s i o : nreach n tr -> In (NObs s (ORet i o)) tr -> answered o = true -> exists n0 tr0 rest,
  nreach n0 tr0 /\ tr = tr0 ++ NObs s (ORet i o) :: rest /\
  exists id q text, In (i, (id, q)) (sends (view s tr0)) /\ In text (reads (view s tr0)) /\ justifies text id q o.
Proof.
  intros HR HI HA. destruct (moment_obs _ _ _ _ HR HI) as (n0 & tr0 & e & c' & oc & rest & A1 & A2 & A3 & A4).
  assert (E : oc = [ORet i o] /\ finished e (conn_of s n0) = [] /\ exists sd x, nth_error (c_senders (conn_of s n0)) i = Some sd /\ sd_pc sd = SDel2 x /\ o = outcome_of x).
  { clear - A2 A3 HA. revert A3. step_inv A2 e; cbn [In]; intros HI; repeat (destruct HI as [HI|HI]; try discriminate HI); try (destruct HI; fail); injection HI as <- <-; try discriminate HA.
    split; [reflexivity|]. split; [reflexivity|]. eexists _, _. split; [exact E|]. split; [exact E0|reflexivity]. }
  destruct E as (-> & E2 & sd & x & E3 & E4 & ->). rewrite E2 in A4. cbn [map app] in A4. exists n0, tr0, rest. split; [exact A1|]. split; [exact A4|].
  pose proof (reach_inv _ _ _ (n_reach _ _ (nreach_inv _ _ A1) s)) as V. destruct (v_e _ _ _ V) as [_ F]. specialize (F _ _ E3). rewrite E4 in F. cbn [sfact] in F.
  destruct (evd_sends _ _ _ F) as (id & q & text & S1 & S2 & S3). eauto 8.
Qed.
Lemma in_sends_view s tr i id q : In (i, (id, q)) (sends (view s tr)) <-> In (NObs s (OCall i id q)) tr.
Proof.
  rewrite <- in_view. unfold sends. split.
  - intros H. apply pick_in in H. destruct H as (o & O1 & O2). destruct o; try discriminate O2. injection O2 as -> -> ->. exact O1.
  - intros H. apply pick_in. eexists. split; [exact H|reflexivity].
Qed.
Lemma in_returns_view s tr id r : In (id, r) (returns (view s tr)) <-> In (NObs s (OReturn id r)) tr.
Proof.
  rewrite <- in_view. unfold returns. split.
  - intros H. apply pick_in in H. destruct H as (o & O1 & O2). destruct o; try discriminate O2. injection O2 as -> ->. exact O1.
  - intros H. apply pick_in. eexists. split; [exact H|reflexivity].
Qed.
Lemma in_handles_view s tr id r : In (id, r) (handles (view s tr)) <-> In (NObs s (OHandle r id)) tr.
Proof.
  rewrite <- in_view. unfold handles. split.
  - intros H. apply pick_in in H. destruct H as (o & O1 & O2). destruct o; try discriminate O2. injection O2 as -> ->. exact O1.
  - intros H. apply pick_in. eexists. split; [exact H|reflexivity].
Qed.
Lemma in_rets_view s tr i o : In (i, o) (rets (view s tr)) <-> In (NObs s (ORet i o)) tr.
Proof.
  rewrite <- in_view. unfold rets. split.
  - intros H. apply pick_in in H. destruct H as (x & O1 & O2). destruct x; try discriminate O2. injection O2 as -> ->. exact O1.
  - intros H. apply pick_in. eexists. split; [exact H|reflexivity].
Qed.
Lemma same_call n tr s i j id q q' : nreach n tr -> In (NObs s (OCall i id q)) tr -> In (NObs s (OCall j id q')) tr -> i = j /\ q = q'.
Proof.
  intros HR H1 H2. apply in_sends_view in H1. apply in_sends_view in H2. exact (sends_inj _ _ _ _ _ _ _ _ (n_reach _ _ (nreach_inv _ _ HR) s) H1 H2).
Qed.
Lemma call_fun n tr s i id id' q q' : nreach n tr -> In (NObs s (OCall i id q)) tr -> In (NObs s (OCall i id' q')) tr -> id = id' /\ q = q'.
Proof.
  intros HR H1 H2. apply in_sends_view in H1. apply in_sends_view in H2. exact (sends_fun _ _ _ _ _ _ _ _ (n_reach _ _ (nreach_inv _ _ HR) s) H1 H2).
Qed.
Lemma sub_in {A} (a b c : list A) x : a = b ++ c -> In x b -> In x a.
Proof. intros -> H. apply in_or_app. left. exact H. Qed.

Lemma answer_chain n tr s i o : nreach n tr -> In (NObs s (ORet i o)) tr -> answered o = true -> exists id q t,
  request_text id q = Ok t /\ msg_ok q = true /\ is_request (m_ty q) = true /\ may_send s q = true /\ utf8_valid id = true /\
  ((exists q' r t', happened [NObs s (OCall i id q); NObs (other s) (OHandle (Some q') id); NObs (other s) (OReturn id r); NObs s (ORet i o)] tr /\
      received_request t = Ok (id, inl q') /\ m_ty q' = m_ty q /\ is_dt (m_ty q) = false /\
      marshal_message (response_message id r) = Ok t' /\ hret_ok (role_of (other s)) r = true /\ justifies t' id q o) \/
   (exists e, happened [NObs s (OCall i id q); NObs s (ORet i o)] tr /\
      received_request t = Ok (id, inr e) /\ o = RCallErr id e reject_desc (AObj []))).
Proof.
  intros HR HI HA. destruct (ret_moment _ _ _ _ _ HR HI HA) as (n0 & tr0 & rest & A1 & A2 & id & q & text & S1 & S2 & S3).
  apply in_sends_view in S1. pose proof (justifies_response _ _ _ _ S3) as RT.
  destruct (read_sent _ _ _ _ A1 S2) as [w HS]. destruct (sent_from _ _ _ _ _ A1 HS) as (n1 & tr1 & rest1 & B1 & B2 & B3).
  apply (origin_kind _ _ _ _ _ B1) in B3. destruct w as [j|j|].
  - exfalso. destruct B3 as (id' & q' & _ & B4 & B5 & B6 & B7 & _). destruct (request_kind _ _ _ B5 B6 B7 B4) as [(q2 & _ & K & _)|(e & _ & K & _)];
      destruct RT as [[p RT]|(x & y & z & RT)]; rewrite RT in K; discriminate K.
  - destruct B3 as (text0 & id' & e & B4 & B5 & B6).
    assert (id' = id) as ->. { destruct RT as [[p RT]|(x & y & z & RT)]; rewrite RT in B6; [discriminate B6|]. injection B6 as ->. reflexivity. }
    destruct (call_origin n1 tr1 s text0 B1 B4 ltac:(rewrite B5; reflexivity)) as (i2 & id2 & q2 & C1 & C2 & C3 & C4 & C5 & C6 & C7).
    destruct (request_kind _ _ _ C4 C5 C6 C3) as [(q3 & _ & K2 & _)|(e2 & K1 & K2 & _)]; [rewrite B5 in K2; discriminate K2|]. rewrite B5 in K2. injection K2 as <- <-.
    destruct (same_call n0 tr0 s i i2 id q q2 A1 S1 (sub_in _ _ _ _ B2 C1)) as [<- <-].
    exists id, q, text0. repeat (split; [assumption|]). right. exists e. split; [rewrite A2; apply (happened_snoc [NObs s (OCall i id q)]); apply happened_1; exact S1|].
    split; [exact K1|]. destruct o; cbn [justifies] in S3; try (exfalso; exact S3).
    + destruct S3 as (p & a & S3 & _). rewrite S3 in B6. discriminate B6.
    + destruct S3 as (p & a & S3 & _). rewrite S3 in B6. discriminate B6.
    + destruct S3 as (-> & S3). rewrite S3 in B6. injection B6 as -> -> ->. reflexivity.
  - destruct B3 as (id' & r & B4 & B5 & B6 & B7). apply in_returns_view in B4.
    assert (id' = id) as ->.
    { pose proof (reply_text _ _ _ _ B6 B7 B5) as X. destruct r as [[m|]|e]; [destruct X as ([p X] & _)| |]; destruct RT as [[p' RT]|(x & y & z & RT)]; rewrite RT in X; congruence. }
    destruct (return_moment _ _ _ _ _ B1 B4) as (n2 & tr2 & rest2 & x & D1 & D2 & D3).
    destruct (handle_chain _ _ s _ _ D1 D3) as (i2 & q2 & q' & t & -> & E2 & E3 & E4 & E5 & E6 & E7 & E8 & E9 & E10).
    assert (IC : In (NObs s (OCall i2 id q2)) tr0). { eapply sub_in; [exact B2|]. rewrite D2. apply in_or_app. left. eapply happened_In; [exact E2|left; reflexivity]. }
    destruct (same_call n0 tr0 s i i2 id q q2 A1 S1 IC) as [<- <-]. clear IC.
    pose proof (proj2 (in_sends_view _ _ _ _ _) S1) as S1'. destruct (sends_id _ _ _ _ _ _ (n_reach _ _ (nreach_inv _ _ A1) s) S1') as (U1 & _).
    exists id, q, t. split; [exact E4|]. split; [exact E6|]. split; [exact E7|]. split; [exact (n_may _ _ (nreach_inv _ _ A1) _ _ _ _ S1')|]. split; [exact U1|]. left.
    exists q', r, text. split; [|repeat (split; [assumption|]); assumption].
    rewrite A2. apply (happened_snoc [NObs s (OCall i id q); NObs (other s) (OHandle (Some q') id); NObs (other s) (OReturn id r)]).
    rewrite B2. apply happened_app. rewrite D2. apply (happened_snoc [NObs s (OCall i id q); NObs (other s) (OHandle (Some q') id)]). exact E2.
Qed.
