(** Last lemmas for the connection properties. *)
From Coq Require Import Arith.
From Verif Require Import GoBase Utf8 Json Float64 Codec Any AnyProofs Tables Registry Frame SpecFrame FrameMore FrameRead SpecEnc Leaves
  Conn SpecConn ConnBase ConnInv ConnSend ConnEvid ConnMore ConnFate.
Open Scope string_scope.
Open Scope list_scope.

Lemma inbound_result text id p : inbound_of text = IResult id p <-> read_text text = Ok (MResult id (PAny p)).
Proof.
  unfold inbound_of. destruct (read_text text) as [m|e|]; [|split; discriminate..]. destruct m as [i a q|i pl|i c d x].
  - destruct (call_to_request a q); split; discriminate.
  - destruct pl; split; try discriminate; intros H; congruence.
  - split; discriminate.
Qed.
Lemma inbound_error text id c d x : inbound_of text = IError id c d x <-> read_text text = Ok (MError id c d x).
Proof.
  unfold inbound_of. destruct (read_text text) as [m|e|]; [|split; discriminate..]. destruct m as [i a q|i pl|i c' d' x'].
  - destruct (call_to_request a q); split; discriminate.
  - destruct pl; split; discriminate.
  - split; intros H; congruence.
Qed.
Lemma response_to_is text id : response_to text id <-> is_response text id.
Proof.
  unfold response_to, is_response. split; intros [H|H].
  - left. destruct H as [p H]. apply inbound_result in H. eauto.
  - right. destruct H as (c & d & x & H). apply inbound_error in H. eauto.
  - left. destruct H as [p H]. destruct (read_result _ _ _ H) as [z ->]. exists z. now apply inbound_result.
  - right. destruct H as (c & d & x & H). exists c, d, x. now apply inbound_error.
Qed.
Lemma inbound_refused text id c : inbound_of text = IRefused id c -> exists a p, read_text text = Ok (MCall id a p) /\ call_to_request a p = inr c.
Proof.
  unfold inbound_of. destruct (read_text text) as [m|e|]; try discriminate. destruct m as [i a q|i pl|i c' d' x']; try discriminate.
  - destruct (call_to_request a q) as [m|e] eqn:E; [discriminate|]. intros H. injection H as <- <-. eauto.
  - destruct pl; discriminate.
Qed.
Lemma inbound_request text id q : inbound_of text = IRequest id q -> exists a p, read_text text = Ok (MCall id a p) /\ call_to_request a p = inl q.
Proof.
  unfold inbound_of. destruct (read_text text) as [m|e|]; try discriminate. destruct m as [i a p|i pl|i c' d' x']; try discriminate.
  - destruct (call_to_request a p) as [m|e] eqn:E; [|discriminate]. intros H. injection H as <- <-. eauto.
  - destruct pl; discriminate.
Qed.
Lemma justifies_response text id q o : justifies text id q o -> response_to text id.
Proof.
  destruct o; cbn [justifies]; try tauto.
  - intros (p & a & H & _). left. eauto.
  - intros (p & a & H & _). left. eauto.
  - intros (-> & H). right. eauto.
Qed.
Opaque marshal_message read_text unmarshal_request call_to_request result_to_response utf8_valid msg_ok is_request action_of.

(** ** Handlers return what their type allows *)
Lemma returns_ok ro c tr : reach ro c tr -> Forall (fun x => hret_ok ro (snd x) = true) (returns tr).
Proof.
  induction 1 as [|c tr e c' o HR IH HS]; [constructor|]. unfold returns in *. rewrite pick_app. apply Forall_app. split; [exact IH|].
  clear - HS. step_inv HS e; cbn [pick flat_map app]; repeat constructor. cbn [snd]. exact (proj1 (return_ok_inv _ _ _ E0)).
Qed.
(** ** Everything written is a message *)
Lemma writes_ok ro c tr : reach ro c tr -> Forall (fun t => exists m, marshal_message m = Ok t) (writes tr).
Proof.
  induction 1 as [|c tr e c' o HR IH HS]; [constructor|]. unfold writes in *. rewrite pick_app. apply Forall_app. split; [exact IH|].
  destruct (reach_inv _ _ _ HR) as [_ _ _ _ (T1 & T2 & T3 & _) _ _ _ _ _ _ _ _ _ _ _ _].
  clear - HS T1 T2 T3. step_inv HS e; cbn [pick flat_map app]; repeat constructor; eauto.
Qed.
(** ** Ids *)
Lemma sends_id ro c tr i id q : reach ro c tr -> In (i, (id, q)) (sends tr) -> utf8_valid id = true /\ msg_ok q = true /\ is_request (m_ty q) = true.
Proof.
  intros HR HI. pose proof (reach_inv _ _ _ HR) as V. destruct (sends_in _ _ _ _ _ (v_i _ _ _ V) HI) as (sd & H1 & <- & <-).
  destruct (v_c _ _ _ V _ _ H1) as (A & B & C & _). auto.
Qed.
Lemma sends_inj ro c tr i j id q q' : reach ro c tr -> In (i, (id, q)) (sends tr) -> In (j, (id, q')) (sends tr) -> i = j /\ q = q'.
Proof.
  intros HR H1 H2. pose proof (reach_inv _ _ _ HR) as V. destruct (sends_in _ _ _ _ _ (v_i _ _ _ V) H1) as (s1 & A1 & A2 & A3).
  destruct (sends_in _ _ _ _ _ (v_i _ _ _ V) H2) as (s2 & B1 & B2 & B3). assert (i = j) by (apply (v_ids _ _ _ V _ _ _ _ A1 B1); congruence).
  split; [assumption|]. subst. congruence.
Qed.
Lemma sends_fun ro c tr i id id' q q' : reach ro c tr -> In (i, (id, q)) (sends tr) -> In (i, (id', q')) (sends tr) -> id = id' /\ q = q'.
Proof.
  intros HR H1 H2. pose proof (reach_inv _ _ _ HR) as V. destruct (sends_in _ _ _ _ _ (v_i _ _ _ V) H1) as (s1 & A1 & A2 & A3).
  destruct (sends_in _ _ _ _ _ (v_i _ _ _ V) H2) as (s2 & B1 & B2 & B3). rewrite A1 in B1. injection B1 as <-. split; congruence.
Qed.
Lemma isends_map k l : map fst (isends k l) = seq k (length l).
Proof. revert k. induction l as [|x l IH]; intros k; cbn [isends map fst length seq]; [reflexivity|]. now rewrite IH. Qed.
Lemma sends_nodup ro c tr : reach ro c tr -> NoDup (map fst (sends tr)).
Proof. intros HR. rewrite (v_i _ _ _ (reach_inv _ _ _ HR)), isends_map. apply seq_NoDup. Qed.
Lemma ret_call ro c tr i o : reach ro c tr -> In (i, o) (rets tr) -> exists sd, nth_error (c_senders c) i = Some sd /\ sd_pc sd = SDone o /\ In (i, (sd_id sd, sd_q sd)) (sends tr).
Proof.
  intros HR HI. pose proof (reach_inv _ _ _ HR) as V. destruct (v_o _ _ _ V) as [O1 _]. apply O1 in HI. destruct HI as (sd & H1 & H2).
  exists sd. split; [exact H1|]. split; [exact H2|]. exact (in_sends _ _ _ _ (v_i _ _ _ V) H1).
Qed.
Lemma ret_evd ro c tr i o : reach ro c tr -> In (i, o) (rets tr) -> answered o = true -> evd tr i o.
Proof.
  intros HR HI HA. pose proof (reach_inv _ _ _ HR) as V. destruct (ret_call _ _ _ _ _ HR HI) as (sd & H1 & H2 & _).
  destruct (v_e _ _ _ V) as [_ F2]. specialize (F2 _ _ H1). rewrite H2 in F2. exact (F2 HA).
Qed.
Lemma evd_sends tr i o : evd tr i o -> exists id q text, In (i, (id, q)) (sends tr) /\ In text (reads tr) /\ justifies text id q o.
Proof.
  intros (b & a & id & q & text & -> & H2 & H3). exists id, q, text. unfold sends, reads in *. rewrite !pick_app. split; [apply in_or_app; right; left; reflexivity|].
  split; [|exact H3]. unfold candidates, reads in H2. apply in_app_or in H2. apply in_or_app. destruct H2 as [H2|H2].
  - left. unfold last1 in H2. destruct (rev _) as [|x l] eqn:E; [exact (False_ind _ H2)|]. destruct H2 as [<-|[]]. apply in_rev. rewrite E. left. reflexivity.
  - right. exact H2.
Qed.

(** ** Answers have the right type *)
Lemma response_typed ro c tr i id q m : reach ro c tr -> In (i, (id, q)) (sends tr) -> In (i, RResp m) (rets tr) ->
  response_of (m_ty q) = Some (m_ty m) /\ msg_ok m = true.
Proof.
  intros HR HS HI. destruct (evd_sends _ _ _ (ret_evd _ _ _ _ _ HR HI eq_refl)) as (id' & q' & text & S1 & S2 & S3).
  destruct (sends_fun _ _ _ _ _ _ _ _ HR HS S1) as [<- <-]. destruct S3 as (p & a & J1 & J2 & J3). apply inbound_result in J1.
  apply read_wf in J1. destruct J1 as (_ & l & J1 & JW). injection J1 as ->. pose proof (result_fate _ _ _ J2 JW) as F.
  destruct (is_dt (m_ty q)); [congruence|]. destruct F as (r & R1 & [(v & R2 & R3)|R2]); [|congruence].
  assert (m = MkMsg r v) as -> by congruence. auto.
Qed.

(** ** Reading a text that is no request leaves everything else alone *)
Lemma intact_refl c : intact c c. Proof. repeat split. Qed.
Lemma bad_frame ro c tr r text : reach ro c tr -> c_crash c = false -> c_rbroken c = false ->
  c_loop c = LSel r -> nth_error (c_readers c) r = Some RRead -> inbound_of text = IBad ->
  exists c', run ro [ERead r text; EReader r; EResult; ELoop] c = Some (c', [ORead text]) /\ intact c c' /\
    c_loop c' = LSel (length (c_readers c)) /\ nth_error (c_readers c') (length (c_readers c)) = Some RRead.
Proof.
  intros HR HC HB HL HN HI. assert (HE : exists e, read_text text = Err e).
  { unfold inbound_of in HI. destruct (read_text text) as [m|e|] eqn:ER; [|eauto|discriminate HI]. exfalso. destruct m as [i a q|i pl|i x d x'].
    - destruct (call_to_request a q); discriminate HI.
    - destruct (read_result _ _ _ ER) as [z ->]. discriminate HI.
    - discriminate HI. }
  destruct HE as [e HE].
  eexists. split.
  - cbn [run]. unfold step at 1. rewrite HC, HN, HB. unfold step at 1. csimp. rewrite HC, (nth_upd_same _ _ _ _ HN). cbn [reader_step]. rewrite HE.
    unfold step at 1. csimp. rewrite HC, HL. rewrite (nth_upd_same _ _ _ _ (nth_upd_same _ _ _ _ HN)).
    unfold step at 1. csimp. rewrite HC. unfold loop_step. csimp. 
    replace (match ro with CS | _ => LTop end) with LTop by (destruct ro; reflexivity). cbn [app]. reflexivity.
  - csimp. rewrite !upd_length. split; [repeat split|]. split; [reflexivity|]. rewrite nth_error_app2; rewrite !upd_length; [|lia]. rewrite Nat.sub_diag. reflexivity.
Qed.
