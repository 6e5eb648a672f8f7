(** The connection properties, proved from the invariants. *)
From Coq Require Import Arith.
From Verif Require Import GoBase Utf8 Json JsonProofs JsonText Float64 Lang Types Codec Any AnyProofs Tables Registry Frame FrameProofs SpecFrame FrameMore FrameRead SpecEnc Leaves
  Conn SpecConn ConnBase ConnInv ConnSend ConnEvid ConnMore ConnFate ConnLast.
Open Scope string_scope.
Open Scope list_scope.
Opaque marshal_message read_text unmarshal_request call_to_request result_to_response utf8_valid msg_ok is_request action_of.

Lemma read_id text m : read_text text = Ok m -> sanitize (id_of m) = id_of m.
Proof. intros H. apply read_wf in H. destruct m; destruct H as [H _]; exact H. Qed.

(** ** At most one busy reader *)
Lemma one_reader ro c tr r1 r2 p1 p2 : reach ro c tr -> nth_error (c_readers c) r1 = Some p1 -> nth_error (c_readers c) r2 = Some p2 ->
  busy p1 = true -> busy p2 = true -> r1 = r2.
Proof.
  intros HR H1 H2 B1 B2. destruct (reach_inv_a _ _ _ HR) as [_ A2].
  destruct (A2 _ _ H1 B1) as [X1 _]. destruct (A2 _ _ H2 B2) as [X2 _]. lia.
Qed.
Lemma flat_active {A} (f : rpc -> list A) c : inv_a c -> (forall x, active x = false -> f x = []) -> (forall x, length (f x) <= 1) ->
  length (flat_map f (c_readers c)) <= 1.
Proof.
  intros HA HF HL. destruct (flat_map f (c_readers c)) as [|x l] eqn:E; [cbn; lia|].
  assert (HI : In x (flat_map f (c_readers c))) by (rewrite E; left; reflexivity). apply in_flat_map in HI. destruct HI as (p & P1 & P2).
  apply In_nth_error in P1. destruct P1 as [r P1]. assert (HP : active p = true). { destruct (active p) eqn:EA; [reflexivity|]. rewrite (HF _ EA) in P2. destruct P2. }
  pose proof (inv_a_only _ _ _ HA P1 HP) as HO. rewrite <- E. rewrite (flat_only f r p _ HF HO P1). apply HL.
Qed.

Lemma pend_req_1 x : length (pend_req x) <= 1.
Proof. destruct x; cbn [pend_req length]; try lia. unfold requests_in. cbn [flat_map]. rewrite app_nil_r. destruct (inbound_of _); cbn [length]; lia. Qed.
Lemma pend_rej_1 x : length (pend_rej x) <= 1.
Proof. destruct x; cbn [pend_rej length]; try lia. unfold refused_in. cbn [flat_map]. rewrite app_nil_r. destruct (inbound_of _); cbn [length]; lia. Qed.

(** ** Requests in order *)
Lemma in_order ro c tr : reach ro c tr -> exists rest, length rest <= 1 /\
  flat_map (seen ro) (requests_in (reads tr)) = handles tr ++ rest.
Proof.
  intros HR. pose proof (reach_inv _ _ _ HR) as V. destruct (v_h _ _ _ V) as (H1 & _).
  exists (pend_disp ro (c_loop c) ++ flat_map (seen ro) (flat_map pend_req (c_readers c))).
  split; [|rewrite (v_q _ _ _ V), flat_map_app, H1, app_assoc; reflexivity].
  assert (S1 : forall x, length (seen ro x) <= 1).
  { intros x. unfold seen. destruct ro; [destruct (is_cp_request _)|]; cbn; lia. }
  destruct (c_loop c) as [| |q id| | | | | |] eqn:EL; cbn [pend_disp app].
  3: { rewrite (flat_none pend_req); [|exact pend_req_inactive|].
       - cbn [flat_map]. rewrite app_nil_r. apply S1.
       - apply (inv_a_none _ (v_a _ _ _ V)); rewrite EL; [discriminate|reflexivity]. }
  all: assert (X : length (flat_map pend_req (c_readers c)) <= 1) by
    (apply flat_active; [exact (v_a _ _ _ V)|exact pend_req_inactive|exact pend_req_1]);
    destruct (flat_map pend_req (c_readers c)) as [|y [|z l]]; cbn [flat_map length] in *; try lia; rewrite app_nil_r; apply S1.
Qed.

(** ** Replies *)
Lemma handled_id ro c tr id q : reach ro c tr -> In (id, q) (handles tr) -> exists text q', In text (reads tr) /\ inbound_of text = IRequest id q' /\ In (id, q) (seen ro (id, q')).
Proof.
  intros HR HI. destruct (in_order _ _ _ HR) as (rest & _ & HO). assert (HX : In (id, q) (flat_map (seen ro) (requests_in (reads tr)))) by (rewrite HO; apply in_or_app; left; exact HI).
  apply in_flat_map in HX. destruct HX as ([id' q'] & X1 & X2). unfold requests_in in X1. apply in_flat_map in X1. destruct X1 as (t & T1 & T2).
  assert (id' = id) as ->. { unfold seen in X2. cbn [fst snd] in X2. destruct ro; [destruct (is_cp_request (m_ty q')); [|destruct X2]|]; destruct X2 as [X2|[]]; congruence. }
  exists t, q'. split; [exact T1|]. split; [|exact X2]. destruct (inbound_of t); try exact (False_ind _ T2). destruct T2 as [T2|[]]. congruence.
Qed.
Lemma handled_sane ro c tr id q : reach ro c tr -> In (id, q) (handles tr) -> sanitize id = id.
Proof.
  intros HR HI. destruct (handled_id _ _ _ _ _ HR HI) as (t & q' & _ & H & _). apply inbound_request in H. destruct H as (a & p & H & _).
  exact (read_id _ _ H).
Qed.
Lemma returned_handled ro c tr id r : reach ro c tr -> In (id, r) (returns tr) -> exists q, In (id, q) (handles tr).
Proof.
  intros HR HI. destruct (v_h _ _ _ (reach_inv _ _ _ HR)) as (_ & H & _). assert (X : In id (map fst (handles tr))).
  { rewrite H. apply in_or_app. left. apply in_map_iff. exists (id, r). auto. }
  apply in_map_iff in X. destruct X as ([i q] & X1 & X2). cbn [fst] in X1. subst i. eauto.
Qed.
Lemma replied_returned ro c tr id r x : reach ro c tr -> In (id, r, x) (replies tr) -> In (id, r) (returns tr).
Proof.
  intros HR HI. destruct (v_h _ _ _ (reach_inv _ _ _ HR)) as (_ & _ & H & _). rewrite H. apply in_or_app. left. apply in_map_iff. exists (id, r, x). auto.
Qed.
Lemma reply_written ro c tr id r t : reach ro c tr -> In (id, r, Written t) (replies tr) -> reply_on_wire id r t.
Proof.
  intros HR HI. pose proof (replied_returned _ _ _ _ _ _ HR HI) as H1. destruct (returned_handled _ _ _ _ _ HR H1) as [q H2].
  pose proof (handled_sane _ _ _ _ _ HR H2) as HS. destruct (v_t _ _ _ (reach_inv _ _ _ HR)) as (_ & _ & _ & HT & _).
  rewrite Forall_forall in HT. specialize (HT _ HI). cbn [fst snd sent_with] in HT.
  pose proof (returns_ok _ _ _ HR) as HK. rewrite Forall_forall in HK. specialize (HK _ H1). cbn [snd] in HK.
  destruct r as [[m|]|e]; cbn [reply_on_wire].
  - cbn [hret_ok] in HK. apply andb_true_iff in HK. destruct HK as [HK _].
    destruct (response_written id m t HK HT) as (text & p & P1 & P2 & P3). rewrite HS in P3. eauto.
  - destruct (nil_response id) as (s & S1 & S2 & _). rewrite HT in S1. injection S1 as <-. rewrite HS in S2. exact S2.
  - destruct (error_written id InternalError e) as (s & S1 & S2). cbn [response_message] in HT. rewrite HT in S1. injection S1 as <-. rewrite HS in S2. exact S2.
Qed.
Lemma reply_not_encoded ro c tr id r : reach ro c tr -> In (id, r, NotEncoded) (replies tr) ->
  exists m e, r = inl (Some m) /\ marshal_msg (m_ty m) (m_val m) = Err e.
Proof.
  intros HR HI. destruct (v_t _ _ _ (reach_inv _ _ _ HR)) as (_ & _ & _ & HT & _).
  rewrite Forall_forall in HT. specialize (HT _ HI). cbn [fst snd sent_with] in HT. destruct HT as [e HT].
  pose proof (returns_ok _ _ _ HR) as HK. rewrite Forall_forall in HK. specialize (HK _ (replied_returned _ _ _ _ _ _ HR HI)). cbn [snd] in HK.
  destruct r as [[m|]|x].
  - exists m. cbn [hret_ok] in HK. apply andb_true_iff in HK. destruct HK as [HK1 HK2]. destruct (marshal_msg (m_ty m) (m_val m)) as [text|e'|] eqn:EM; [exfalso|eauto|exfalso].
    + destruct (response_frame id m text HK1 EM) as (mm & s & A1 & A2 & A3 & A4). cbn [response_message] in HT. congruence.
    + cbn [response_message] in HT. rewrite response_fails, EM in HT. discriminate HT.
  - destruct (nil_response id) as (s & S1 & _). congruence.
  - destruct (error_written id InternalError x) as (s & S1 & _). cbn [response_message] in HT. congruence.
Qed.

(** ** Refused calls *)
Lemma refused_replies ro c tr : reach ro c tr -> exists rest, length rest <= 1 /\ refused_in (reads tr) = map fst (rejects tr) ++ rest.
Proof.
  intros HR. pose proof (reach_inv _ _ _ HR) as V. exists (flat_map pend_rej (c_readers c)). split; [|exact (v_r _ _ _ V)].
  apply flat_active; [exact (v_a _ _ _ V)|exact pend_rej_inactive|exact pend_rej_1].
Qed.
Lemma refused_code text id e : inbound_of text = IRefused id e -> sanitize id = id /\ sanitize e = e /\
  exists a p, read_text text = Ok (MCall id a p) /\
    ((e = NotSupported /\ req_from_action a = None) \/ (e = FormationViolation /\ exists ty, req_from_action a = Some ty)).
Proof.
  intros H. apply inbound_refused in H. destruct H as (a & p & H1 & H2). split; [exact (read_id _ _ H1)|].
  pose proof (read_wf _ _ H1) as W. cbn [wf_message] in W. destruct W as (_ & W). assert (WP : wf_any p) by (repeat destruct W as [? W]; subst; assumption).
  pose proof (call_fate a p WP) as F. destruct (req_from_action a) as [ty|] eqn:EA.
  - destruct F as [(v & F & _)|F]; [congruence|]. rewrite H2 in F. injection F as ->. split; [vm_compute; reflexivity|]. exists a, p. split; [exact H1|]. right. eauto.
  - rewrite H2 in F. injection F as ->. split; [vm_compute; reflexivity|]. exists a, p. eauto.
Qed.
Lemma reject_read ro c tr id e x : reach ro c tr -> In (id, e, x) (rejects tr) -> exists text, In text (reads tr) /\ inbound_of text = IRefused id e.
Proof.
  intros HR HI. destruct (refused_replies _ _ _ HR) as (rest & _ & H). apply in_refused. rewrite H. apply in_or_app. left. apply in_map_iff. exists (id, e, x). auto.
Qed.
Lemma reject_written ro c tr id e x : reach ro c tr -> In (id, e, x) (rejects tr) ->
  match x with Written t => read_text t = Ok (MError id e "on handling message" (AObj [])) | NotEncoded => False | WriteFailed => True end.
Proof.
  intros HR HI. destruct (reject_read _ _ _ _ _ _ HR HI) as (text & _ & H2). destruct (refused_code _ _ _ H2) as (S1 & S2 & _).
  destruct (v_t _ _ _ (reach_inv _ _ _ HR)) as (_ & _ & _ & _ & HT & _). rewrite Forall_forall in HT. specialize (HT _ HI). cbn [fst snd] in HT.
  destruct (error_written id e reject_desc) as (s & W1 & W2). destruct x; cbn [sent_with] in HT; [|destruct HT as [z HT]; congruence|exact I].
  rewrite HT in W1. injection W1 as <-. rewrite S1, S2 in W2. exact W2.
Qed.
Lemma unsupported text id a p : read_text text = Ok (MCall id a p) -> req_from_action a = None -> inbound_of text = IRefused id NotSupported.
Proof.
  intros H HA. unfold inbound_of. rewrite H. pose proof (read_wf _ _ H) as W. cbn [wf_message] in W. destruct W as (_ & W). assert (WP : wf_any p) by (repeat destruct W as [? W]; subst; assumption).
  pose proof (call_fate a p WP) as F. rewrite HA in F. rewrite F. reflexivity.
Qed.

(** One refused call, dealt with at once: nothing else changes. *)
Lemma refused_run ro c r text id e : idle c r -> c_lock c = None -> c_wbroken c = false -> c_closed c = false -> inbound_of text = IRefused id e ->
  exists c' t, run ro [ERead r text; EReader r; EReader r; EChunk (WR r) (String.length t); EWritten (WR r); EResult; ELoop] c =
     Some (c', [ORead text; OBytes t; OWrote (WR r) t; OReject id e (Written t)]) /\
    read_text t = Ok (MError id e "on handling message" (AObj [])) /\ intact c c' /\ idle c' (length (c_readers c)).
Proof.
  intros (HL & HN & HC & HB) HK HW HX HI. destruct (refused_code _ _ _ HI) as (S1 & S2 & _). pose proof (inbound_refused _ _ _ HI) as (a & p & R1 & R2).
  destruct (error_written id e reject_desc) as (t & W1 & W2). rewrite S1, S2 in W2.
  assert (T1 : forall s, sdrop (String.length s) s = "" /\ stake (String.length s) s = s).
  { induction s as [|x s [IH1 IH2]]; cbn; [auto|]. rewrite IH1, IH2. auto. }
  destruct (T1 t) as [T2 T3].
  eexists _, t. split; [|split; [exact W2|]].
  - cbn [run]. unfold step at 1. rewrite HC, HN, HB. unfold step at 1. csimp. rewrite HC, (nth_upd_same _ _ _ _ HN). cbn [reader_step]. rewrite R1, R2.
    unfold step at 1. csimp. rewrite HC, (nth_upd_same _ _ _ _ (nth_upd_same _ _ _ _ HN)). cbn [reader_step]. csimp. rewrite HK, W1.
    unfold step at 1. csimp. unfold writing. csimp. rewrite HC, (nth_upd_same _ _ _ _ (nth_upd_same _ _ _ _ (nth_upd_same _ _ _ _ HN))). rewrite HW, HX. cbn [orb]. rewrite T2, T3.
    unfold set_rest. csimp. rewrite (nth_upd_same _ _ _ _ (nth_upd_same _ _ _ _ (nth_upd_same _ _ _ _ HN))).
    unfold step at 1. csimp. unfold writing. csimp. rewrite HC, (nth_upd_same _ _ _ _ (nth_upd_same _ _ _ _ (nth_upd_same _ _ _ _ (nth_upd_same _ _ _ _ HN)))). rewrite HW.
    unfold end_write. csimp. rewrite (nth_upd_same _ _ _ _ (nth_upd_same _ _ _ _ (nth_upd_same _ _ _ _ (nth_upd_same _ _ _ _ HN)))).
    unfold step at 1. csimp. rewrite HC, HL, (nth_upd_same _ _ _ _ (nth_upd_same _ _ _ _ (nth_upd_same _ _ _ _ (nth_upd_same _ _ _ _ (nth_upd_same _ _ _ _ HN))))).
    unfold step at 1. csimp. rewrite HC. unfold loop_step. csimp.
    replace (match ro with CS | _ => LTop end) with LTop by (destruct ro; reflexivity). cbn [app]. reflexivity.
  - csimp. unfold intact, idle. csimp. rewrite !upd_length, ?HK, ?HC, ?HB. split; [repeat split|]. split; [reflexivity|]. split; [|auto]. rewrite nth_error_app2; rewrite !upd_length; [|lia]. rewrite Nat.sub_diag. reflexivity.
Qed.

(** ** Unsolicited responses *)
Lemma response_id text id m : response_to text id -> read_text text = Ok m -> is_resp m = true /\ id_of m = id.
Proof.
  intros H HM. apply response_to_is in H. destruct H as [[p H]|(x & y & z & H)]; rewrite H in HM; injection HM as <-; split; reflexivity.
Qed.
Lemma response_read text id : response_to text id -> exists m, read_text text = Ok m.
Proof. intros H. apply response_to_is in H. destruct H as [[p H]|(x & y & z & H)]; eauto. Qed.
Lemma response_fun text id id' : response_to text id -> response_to text id' -> id = id'.
Proof. intros H1 H2. destruct (response_read _ _ H1) as [m HM]. destruct (response_id _ _ _ H1 HM) as [_ <-]. destruct (response_id _ _ _ H2 HM) as [_ <-]. reflexivity. Qed.
Lemma unused_pending ro c tr id : reach ro c tr -> (forall i q, ~ In (i, (id, q)) (sends tr)) -> ~ pending c id.
Proof.
  intros HR HN HP. pose proof (reach_inv _ _ _ HR) as V. destruct (v_m _ _ _ V) as (_ & M2 & _). unfold pending in HP.
  destruct (lookup id (c_sent c)) as [a|] eqn:E; [|congruence]. destruct (M2 _ _ E) as (i & sd & S1 & S2).
  apply (HN i (sd_q sd)). rewrite <- S2. exact (in_sends _ _ _ _ (v_i _ _ _ V) S1).
Qed.
Lemma unsolicited_run ro c r text id : idle c r -> ~ pending c id -> response_to text id ->
  exists c', run ro [ERead r text; EReader r; EReader r; EResult; ELoop] c = Some (c', [ORead text]) /\
    intact c c' /\ idle c' (length (c_readers c)).
Proof.
  intros (HL & HN & HC & HB) HP HT. destruct (response_read _ _ HT) as [m HM]. destruct (response_id _ _ _ HT HM) as [M1 M2].
  assert (HLK : lookup (id_of m) (c_sent c) = None). { rewrite M2. unfold pending in HP. destruct (lookup id (c_sent c)); [exfalso; apply HP; discriminate|reflexivity]. }
  eexists. split.
  - cbn [run]. unfold step at 1. rewrite HC, HN, HB. unfold step at 1. csimp. rewrite HC, (nth_upd_same _ _ _ _ HN). cbn [reader_step]. rewrite HM.
    assert (X : (match m with | MCall id0 a pl => match call_to_request a pl with | inl q => Some (set_rpc r (RReq q id0) (set_rpc r (RDecode text) c), @nil obs) | inr e => Some (set_rpc r (RLock id0 e) (set_rpc r (RDecode text) c), []) end
                | _ => Some (set_rpc r (RLook m) (set_rpc r (RDecode text) c), []) end) = Some (set_rpc r (RLook m) (set_rpc r (RDecode text) c), [])).
    { destruct m; [discriminate M1|reflexivity|reflexivity]. }
    rewrite X. clear X.
    unfold step at 1. csimp. rewrite HC, (nth_upd_same _ _ _ _ (nth_upd_same _ _ _ _ HN)). cbn [reader_step]. csimp. rewrite HLK.
    unfold step at 1. csimp. rewrite HC, HL, (nth_upd_same _ _ _ _ (nth_upd_same _ _ _ _ (nth_upd_same _ _ _ _ HN))).
    unfold step at 1. csimp. rewrite HC. unfold loop_step. csimp.
    replace (match ro with CS | _ => LTop end) with LTop by (destruct ro; reflexivity). cbn [app]. reflexivity.
  - unfold intact, idle. csimp. rewrite !upd_length. split; [repeat split|]. split; [reflexivity|]. split; [|auto]. rewrite nth_error_app2; rewrite !upd_length; [|lia]. rewrite Nat.sub_diag. reflexivity.
Qed.
(** The same, whatever else is going on. *)
Lemma unsolicited_step ro c c' o r text id : dealing c r text -> response_to text id -> ~ pending c id ->
  step ro (EReader r) c = Some (c', o) ->
  o = [] /\ intact c c' /\ c_loop c' = c_loop c /\ (forall j, j <> r -> nth_error (c_readers c') j = nth_error (c_readers c) j) /\
  (dealing c' r text \/ nth_error (c_readers c') r = Some (RRes (Some false))).
Proof.
  intros HD HT HP H. destruct (response_read _ _ HT) as [m HM]. destruct (response_id _ _ _ HT HM) as [M1 M2].
  assert (HLK : lookup (id_of m) (c_sent c) = None). { rewrite M2. unfold pending in HP. destruct (lookup id (c_sent c)); [exfalso; apply HP; discriminate|reflexivity]. }
  unfold step in H. destruct (c_crash c) eqn:HC; [discriminate H|].
  assert (Q : forall p, intact c (set_rpc r p c) /\ c_loop (set_rpc r p c) = c_loop c /\ (forall j, j <> r -> nth_error (c_readers (set_rpc r p c)) j = nth_error (c_readers c) j)).
  { intros p. unfold intact. csimp. split; [repeat split|]. split; [reflexivity|]. intros j HJ. rewrite nth_upd. destruct (Nat.eqb_spec r j); congruence. }
  destruct HD as [HD|(m' & HD & HM')].
  - rewrite HD in H. cbn [reader_step] in H. rewrite HM in H.
    assert (X : Some (set_rpc r (RLook m) c, @nil obs) = Some (c', o)) by (destruct m; [discriminate M1|exact H|exact H]). injection X as <- <-.
    split; [reflexivity|]. destruct (Q (RLook m)) as (Q1 & Q2 & Q3). split; [exact Q1|]. split; [exact Q2|]. split; [exact Q3|]. left. right. exists m. split; [|exact HM]. csimp. exact (nth_upd_same _ _ _ _ HD).
  - rewrite HM in HM'. injection HM' as <-. rewrite HD in H. cbn [reader_step] in H. rewrite HLK in H. injection H as <- <-.
    split; [reflexivity|]. destruct (Q (RRes (Some false))) as (Q1 & Q2 & Q3). split; [exact Q1|]. split; [exact Q2|]. split; [exact Q3|]. right. csimp. exact (nth_upd_same _ _ _ _ HD).
Qed.

(** ** Completions *)
Lemma filter_le1 {A} (f : A -> bool) l : NoDup l -> (forall x y, In x l -> In y l -> f x = true -> f y = true -> x = y) -> length (filter f l) <= 1.
Proof.
  intros HN HU. destruct (filter f l) as [|x [|y r]] eqn:E; cbn [length]; try lia. exfalso.
  assert (HX : In x (filter f l)) by (rewrite E; left; reflexivity). assert (HY : In y (filter f l)) by (rewrite E; right; left; reflexivity).
  apply filter_In in HX. apply filter_In in HY. assert (x = y) by (apply HU; tauto). subst y.
  pose proof (NoDup_filter f HN) as ND. rewrite E in ND. inversion ND as [|? ? HI _]. apply HI. left. reflexivity.
Qed.
Lemma NoDup_fst {A B} (l : list (A * B)) : NoDup (map fst l) -> NoDup l.
Proof. apply NoDup_map_inv. Qed.
Lemma completed_once ro c tr id : reach ro c tr -> length (completed tr id) <= 1.
Proof.
  intros HR. pose proof (reach_inv _ _ _ HR) as V. destruct (v_o _ _ _ V) as [O1 O2]. apply filter_le1; [exact (NoDup_fst _ O2)|].
  assert (S : forall i o, In (i, o) (rets tr) -> answered o && existsb (fun s => Nat.eqb (fst s) i && String.eqb (fst (snd s)) id) (sends tr) = true -> exists q, In (i, (id, q)) (sends tr)).
  { intros i o _ H. apply andb_true_iff in H. destruct H as [_ H]. apply existsb_exists in H. destruct H as ([j [id' q]] & H1 & H2). cbn [fst snd] in H2.
    apply andb_true_iff in H2. destruct H2 as [H2 H3]. apply Nat.eqb_eq in H2. apply String.eqb_eq in H3. subst. eauto. }
  intros [i o] [j o'] H1 H2 F1 F2. cbn [fst snd] in F1, F2. destruct (S _ _ H1 F1) as [q S1]. destruct (S _ _ H2 F2) as [q' S2].
  destruct (sends_inj _ _ _ _ _ _ _ _ HR S1 S2) as [<- <-]. f_equal. apply O1 in H1. apply O1 in H2. destruct H1 as (s1 & A1 & A2). destruct H2 as (s2 & B1 & B2). congruence.
Qed.
Lemma responses_in_to texts text id : In text texts -> response_to text id -> In id (responses_in texts).
Proof.
  intros H1 H2. unfold responses_in. apply in_flat_map. exists text. split; [exact H1|].
  destruct H2 as [[p H]|(x & y & z & H)]; rewrite H; left; reflexivity.
Qed.
Lemma completed_read ro c tr id : reach ro c tr -> length (completed tr id) <= count_occ string_dec (responses_in (reads tr)) id.
Proof.
  intros HR. pose proof (completed_once _ _ _ id HR) as H1. destruct (completed tr id) as [|[i o] l] eqn:E; [cbn; lia|].
  assert (HI : In (i, o) (completed tr id)) by (rewrite E; left; reflexivity). unfold completed in HI. apply filter_In in HI. destruct HI as [HI HF].
  cbn [fst snd] in HF. apply andb_true_iff in HF. destruct HF as [HA HF]. apply existsb_exists in HF. destruct HF as ([j [id' q]] & F1 & F2). cbn [fst snd] in F2.
  apply andb_true_iff in F2. destruct F2 as [F2 F3]. apply Nat.eqb_eq in F2. apply String.eqb_eq in F3. subst.
  destruct (evd_sends _ _ _ (ret_evd _ _ _ _ _ HR HI HA)) as (id' & q' & text & S1 & S2 & S3).
  destruct (sends_fun _ _ _ _ _ _ _ _ HR F1 S1) as [<- <-].
  pose proof (responses_in_to _ _ _ S2 (justifies_response _ _ _ _ S3)) as HC. apply (count_occ_In string_dec) in HC. lia.
Qed.

(** ** No crash *)
Lemma no_crash ro c tr : reach ro c tr -> (forall text, In text (reads tr) -> text_verdict (parse (normalise text)) <> Crash) ->
  (forall i id q, In (i, (id, q)) (sends tr) -> is_dt (m_ty q) = false /\ expiry_present (TStruct (m_ty q)) (m_val q) = true) ->
  (ro = CP -> panics tr = []) -> ~ In OCrash tr.
Proof.
  intros HR HT HQ HP HC. destruct (crash_why _ _ _ HR HC) as [text H1 H2|i id q H1 H2|i id q call H1 H2 H3|text id p i q a H1 H2 H3 H4 H5|id r H1 H2|id H1 H2|text id e H1 H2 H3].
  - pose proof (read_exact text) as X. apply (HT _ H1). destruct (text_verdict (parse (normalise text))) as [| |m]; [reflexivity|exfalso..]; cbn [verdict_is] in X; unfold inbound_of in H2.
    + destruct X as [e X]. rewrite X in H2. discriminate H2.
    + rewrite X in H2. destruct m as [i a q|i pl|i x d x']; [destruct (call_to_request a q)|destruct pl|]; discriminate H2.
  - destruct (sends_id _ _ _ _ _ _ HR H1) as (_ & X1 & X2). destruct (request_crash id q X1 X2) as [X _]. destruct (HQ _ _ _ H1) as [_ Y]. rewrite (X H2) in Y. discriminate Y.
  - destruct (sends_id _ _ _ _ _ _ HR H1) as (_ & X1 & X2). destruct (request_crash id q X1 X2) as [_ X]. destruct (X _ H2) as [s Y]. congruence.
  - apply inbound_result in H2. apply read_wf in H2. destruct H2 as (_ & l & H2 & HW). injection H2 as ->. pose proof (result_fate _ _ _ H4 HW) as F.
    rewrite (proj1 (HQ _ _ _ H3)) in F. destruct F as (rr & _ & [(v & F & _)|F]); congruence.
  - pose proof (returns_ok _ _ _ HR) as HK. rewrite Forall_forall in HK. specialize (HK _ H1). cbn [snd] in HK.
    apply (response_no_crash id r); [|exact H2]. destruct r as [[m|]|]; [|exact I..]. cbn [hret_ok] in HK. apply andb_true_iff in HK. destruct HK as [K1 K2]. split; [exact K1|]. destruct ro; auto.
  - rewrite (HP H1) in H2. destruct H2.
  - destruct (error_written id e reject_desc) as (s & S1 & _). congruence.
Qed.
(** A response to a DataTransfer request crashes. *)
Lemma dt_crash ro c tr r i id q text p : reach ro c tr -> idle c r -> In (i, (id, q)) (sends tr) -> pending c id -> is_dt (m_ty q) = true ->
  inbound_of text = IResult id p ->
  exists c', run ro [ERead r text; EReader r; EReader r; EReader r] c = Some (c', [ORead text; OCrash]).
Proof.
  intros HR (HL & HN & HC & HB) HS HP HD HI. pose proof (reach_inv _ _ _ HR) as V. destruct (sends_in _ _ _ _ _ (v_i _ _ _ V) HS) as (sd & S1 & S2 & S3).
  destruct (v_m _ _ _ V) as (M1 & _). unfold pending in HP. pose proof (M1 _ _ S1) as HLK. rewrite S2 in HLK. destruct (regd (sd_pc sd)) eqn:ER; [|congruence].
  destruct (regd_call _ _ _ (v_c _ _ _ V) S1 ER) as (a & p' & A1 & A2). rewrite A2 in HLK. cbn [call_action] in HLK. rewrite S3 in A1.
  apply inbound_result in HI. pose proof (read_wf _ _ HI) as (_ & l & W1 & HW). injection W1 as ->.
  pose proof (result_fate _ _ _ A1 HW) as F. rewrite HD in F. eexists.
  cbn [run]. unfold step at 1. rewrite HC, HN, HB. unfold step at 1. csimp. rewrite HC, (nth_upd_same _ _ _ _ HN). cbn [reader_step]. rewrite HI.
  unfold step at 1. csimp. rewrite HC, (nth_upd_same _ _ _ _ (nth_upd_same _ _ _ _ HN)). cbn [reader_step id_of]. csimp. rewrite HLK.
  unfold step at 1. csimp. rewrite HC, (nth_upd_same _ _ _ _ (nth_upd_same _ _ _ _ (nth_upd_same _ _ _ _ HN))). cbn [reader_step]. csimp. rewrite HLK, F.
  unfold crash. cbn [app]. reflexivity.
Qed.

(** ** Late responses *)
Lemma gave_up_failed o : gave_up o = true <-> failed o.
Proof. unfold failed. destruct o; cbn [gave_up]; split; intros H; try discriminate H; auto; destruct H as [H|H]; discriminate H. Qed.
Lemma late_wedged ro c tr r text i id q o c1 o1 : reach ro c tr -> In (i, (id, q)) (sends tr) -> In (i, o) (rets tr) -> gave_up o = true ->
  response_to text id -> step ro (ERead r text) c = Some (c1, o1) -> wedged text id r i c1 /\ o1 = [ORead text].
Proof.
  intros HR HS HI HG HT H. pose proof (reach_inv _ _ _ HR) as V. destruct (ret_call _ _ _ _ _ HR HI) as (sd & S1 & S2 & S3).
  destruct (sends_fun _ _ _ _ _ _ _ _ HR HS S3) as [-> ->]. unfold step in H. destruct (c_crash c); [discriminate H|].
  destruct (nth_error (c_readers c) r) as [p|] eqn:EN; [|discriminate H]. destruct p; try discriminate H. destruct (c_rbroken c); [discriminate H|]. injection H as <- <-.
  split; [|reflexivity]. destruct (v_a _ _ _ V) as [_ A2]. destruct (A2 _ _ EN eq_refl) as [_ A3]. unfold wedged. csimp. split; [exact A3|]. split.
  - exists (RDecode text). split; [exact (nth_upd_same _ _ _ _ EN)|reflexivity].
  - exists sd, o. split; [exact S1|]. split; [reflexivity|]. split; [exact S2|]. apply gave_up_failed. exact HG.
Qed.
Lemma late_silent ro c tr r text i id q o c1 o1 es c2 o2 : reach ro c tr -> In (i, (id, q)) (sends tr) -> In (i, o) (rets tr) -> gave_up o = true ->
  response_to text id -> step ro (ERead r text) c = Some (c1, o1) -> run ro es c1 = Some (c2, o2) ->
  silent o2 /\ (forall j x, In j (map fst (sends o2)) -> In (j, x) (rets o2) -> answered x = false).
Proof.
  intros HR HS HI HG HT H HRun. destruct (late_wedged _ _ _ _ _ _ _ _ _ _ _ HR HS HI HG HT H) as [HW ->].
  pose proof (reach_S _ _ _ _ _ _ HR H) as HR1. destruct (wedge_run _ _ _ _ _ _ _ _ _ _ (proj1 (response_to_is _ _) HT) HR1 HW HRun) as [_ HSil]. split; [exact HSil|].
  intros j x HJ HX. destruct (answered x) eqn:EA; [exfalso|reflexivity]. pose proof (reach_run _ _ _ _ _ _ HR1 HRun) as HR2.
  assert (HX2 : In (j, x) (rets ((tr ++ [ORead text]) ++ o2))). { unfold rets in *. rewrite pick_app. apply in_or_app. right. exact HX. }
  destruct (ret_evd _ _ _ _ _ HR2 HX2 EA) as (b & a & id' & q' & t & E1 & E2 & E3).
  pose proof (sends_nodup _ _ _ HR2) as ND.
  assert (HJ1 : ~ In j (map fst (sends (tr ++ [ORead text])))).
  { unfold sends in *. rewrite pick_app, map_app in ND. intros HB. clear - ND HB HJ. induction (map fst (pick _ (tr ++ [ORead text]))) as [|y l IH]; [destruct HB|].
    cbn [app] in ND. inversion ND as [|? ? N1 N2]. subst. destruct HB as [->|HB]; [apply N1; apply in_or_app; right; exact HJ|auto]. }
  (* the call lies in o2 *)
  assert (HB : exists b2, b = (tr ++ [ORead text]) ++ b2 /\ o2 = b2 ++ OCall j id' q' :: a).
  { clear - E1 HJ1. remember (tr ++ [ORead text]) as t0 eqn:E0. clear E0. revert b E1 HJ1. induction t0 as [|y t0 IH]; intros b E1 HJ1; cbn [app] in *; [eauto|].
    destruct b as [|y' b].
    - cbn [app] in E1. injection E1 as -> _. exfalso. apply HJ1. left. reflexivity.
    - cbn [app] in E1. injection E1 as -> E1. destruct (IH b E1) as (b2 & -> & ->); [|eauto].
      intros HN. apply HJ1. unfold sends in *. destruct y'; cbn [pick flat_map app map] in *; auto. right. exact HN. }
  destruct HB as (b2 & -> & ->). destruct HSil as (R & _). unfold reads in R. rewrite pick_app in R. apply app_eq_nil in R. destruct R as [R1 R2].
  cbn [pick flat_map app] in R2. unfold candidates, reads in E2. rewrite !pick_app in E2. cbn [pick flat_map app] in E2. fold (pick (fun o => match o with ORead t => Some t | _ => None end) a) in E2.
  unfold pick in R1, R2, E2. rewrite R1, R2, !app_nil_r, last1_snoc in E2. destruct E2 as [<-|[]].
  pose proof (response_fun _ _ _ HT (justifies_response _ _ _ _ E3)) as <-.
  assert (In (j, (id, q')) (sends ((tr ++ [ORead text]) ++ b2 ++ OCall j id q' :: a))). { unfold sends. rewrite !pick_app. apply in_or_app. right. apply in_or_app. right. left. reflexivity. }
  assert (In (i, (id, q)) (sends ((tr ++ [ORead text]) ++ b2 ++ OCall j id q' :: a))). { unfold sends in *. rewrite !pick_app. apply in_or_app. left. apply in_or_app. left. exact HS. }
  assert (i = j) by (eapply sends_inj; eassumption). subst j. apply HJ1. unfold sends. rewrite pick_app, map_app. apply in_or_app. left. apply in_map_iff. exists (i, (id, q)). auto.
Qed.

(** ** Calls by the handler *)
Lemma no_read_in_handler ro c tr id e c' o : reach ro c tr -> c_loop c = LRun id -> step ro e c = Some (c', o) -> reads o = [].
Proof.
  intros HR HL H. pose proof (inv_a_none _ (reach_inv_a _ _ _ HR)) as HN. rewrite HL in HN. specialize (HN ltac:(discriminate) eq_refl).
  step_inv H e; try reflexivity. exfalso. discriminate (HN _ _ E).
Qed.
Lemma inh_keep ro e c c' o i sd : nth_error (c_senders c) i = Some sd -> sd_inh sd = true -> step ro e c = Some (c', o) ->
  exists sd', nth_error (c_senders c') i = Some sd' /\ sd_inh sd' = true.
Proof.
  intros HN HI H. step_inv H e; csimp; rewrite ?nth_upd, ?nth_app1; try (exists sd; split; [exact HN|exact HI]).
  all: match goal with |- context [Nat.eqb ?a ?b] => destruct (Nat.eqb_spec a b) as [EQ|EQ]; [subst|exists sd; split; [exact HN|exact HI]] end.
  all: try (rewrite nth_len in HN; discriminate HN).
  all: rewrite HN; eexists; (split; [reflexivity|]); csimp; congruence.
Qed.
Lemma inh_run ro es : forall c c' o i sd, nth_error (c_senders c) i = Some sd -> sd_inh sd = true -> run ro es c = Some (c', o) ->
  exists sd', nth_error (c_senders c') i = Some sd' /\ sd_inh sd' = true.
Proof.
  induction es as [|e es IH]; intros c c' o i sd HN HI H; cbn [run] in H; [injection H as <- <-; eauto|].
  destruct (step ro e c) as [[c1 o1]|] eqn:E; [|discriminate H]. destruct (run ro es c1) as [[c2 o2]|] eqn:E2; [|discriminate H]. injection H as <- <-.
  destruct (inh_keep _ _ _ _ _ _ _ HN HI E) as (sd' & N1 & N2). eapply IH; eassumption.
Qed.
Lemma handler_call ro c tr id q c1 o1 es c2 o2 : reach ro c tr -> step ro (ESend true id q) c = Some (c1, o1) -> run ro es c1 = Some (c2, o2) ->
  (exists id', c_loop c = LRun id') /\ exists i, In (OCall i id q) o1 /\ forall x, In (i, x) (rets (tr ++ o1 ++ o2)) -> answered x = false.
Proof.
  intros HR H HRun. pose proof (reach_S _ _ _ _ _ _ HR H) as HR1. pose proof (reach_run _ _ _ _ _ _ HR1 HRun) as HR2. rewrite <- app_assoc in HR2.
  assert (X : (exists id', c_loop c = LRun id') /\ exists sd, In (OCall (length (c_senders c)) id q) o1 /\ nth_error (c_senders c1) (length (c_senders c)) = Some sd /\ sd_inh sd = true).
  { unfold step in H. destruct (c_crash c); [discriminate H|]. unfold do_send in H. destruct (negb (send_ok true id q c)) eqn:ES; [discriminate H|].
    apply send_ok_inv in ES. destruct ES as (_ & _ & _ & _ & ES). split; [exact (proj1 (ES eq_refl))|].
    cbv zeta in H. destruct ro; destruct (unmarshal_request id q); injection H as <- <-; csimp; rewrite nth_app1, Nat.eqb_refl; eexists; (split; [left; reflexivity|]); (split; [reflexivity|reflexivity]). }
  destruct X as (X1 & sd & X2 & X3 & X4). split; [exact X1|]. exists (length (c_senders c)). split; [exact X2|]. intros x HX.
  destruct (inh_run _ _ _ _ _ _ _ X3 X4 HRun) as (sd' & N1 & N2). pose proof (reach_inv _ _ _ HR2) as V.
  destruct (v_o _ _ _ V) as [O1 _]. apply O1 in HX. destruct HX as (s & S1 & S2). rewrite N1 in S1. injection S1 as <-.
  destruct (v_x _ _ _ V _ _ N1 N2) as [U _]. rewrite S2 in U. cbn [unanswered] in U. now apply negb_true_iff in U.
Qed.

(** ** The wire *)
Lemma wire ro c tr : reach ro c tr -> exists p, bytes tr = concat_all (writes tr) +++ p /\
  (p = "" \/ exists m t rest, marshal_message m = Ok t /\ t = p +++ rest).
Proof.
  intros HR. pose proof (reach_inv _ _ _ HR) as V. destruct (v_b _ _ _ V) as (p & B1 & B2 & B3). exists p. split; [exact B1|].
  destruct (c_wbroken c); [right; destruct (B3 eq_refl) as (m & t & rest & X1 & X2); eauto|]. specialize (B2 eq_refl).
  destruct (c_lock c) as [w|]; [|auto]. destruct B2 as (t & rest & W1 & W2). destruct (writing_text _ _ _ _ _ (v_t _ _ _ V) W1) as [m X]. right. eauto.
Qed.
(** Who wrote what. *)
Lemma sender_text ro c tr i t : reach ro c tr -> In (i, t) (sender_writes tr) ->
  exists id q, In (i, (id, q)) (sends tr) /\ request_text id q = Ok t /\ msg_ok q = true /\ sanitize id = id.
Proof.
  intros HR HI. pose proof (reach_inv _ _ _ HR) as V. destruct (v_w _ _ _ V) as [W _]. apply W in HI. destruct HI as (sd & S1 & S2 & S3).
  exists (sd_id sd), (sd_q sd). split; [exact (in_sends _ _ _ _ (v_i _ _ _ V) S1)|]. destruct (v_c _ _ _ V _ _ S1) as (C1 & C2 & C3 & C4).
  assert (E : unmarshal_request (sd_id sd) (sd_q sd) = Ok (sd_call sd)).
  { destruct (sd_pc sd) as [| | | | | | | |o|]; cbn [wrote_pc] in S2; try discriminate S2; try exact C4. destruct o; cbn [answered] in S2; try discriminate S2; exact C4. }
  unfold request_text. rewrite E. cbn [rbind]. split; [exact S3|]. split; [exact C2|]. apply sanitize_id_iff. exact C1.
Qed.
Lemma writes_split tr t : In t (writes tr) <-> (exists i, In (i, t) (sender_writes tr)) \/ In t (loop_writes tr) \/ In t (reader_writes tr).
Proof.
  unfold writes, sender_writes, loop_writes, reader_writes. split.
  - intros H. apply pick_in in H. destruct H as (o & H1 & H2). destruct o; try discriminate H2. injection H2 as ->. destruct w as [i|r|].
    + left. exists i. apply pick_in. eauto.
    + right. right. apply pick_in. eauto.
    + right. left. apply pick_in. eauto.
  - intros [[i H]|[H|H]]; apply pick_in in H; destruct H as (o & H1 & H2); destruct o; try discriminate H2; destruct w; try discriminate H2; injection H2; intros; subst; apply pick_in; eauto.
Qed.
Lemma in_written t l : In t (written l) <-> In (Written t) l.
Proof.
  unfold written. rewrite in_flat_map. split.
  - intros (x & H1 & H2). destruct x; try exact (False_ind _ H2). destruct H2 as [<-|[]]. exact H1.
  - intros H. exists (Written t). split; [exact H|left; reflexivity].
Qed.
Lemma loop_text ro c tr t : reach ro c tr -> In t (loop_writes tr) <-> exists id r, In (id, r, Written t) (replies tr).
Proof.
  intros HR. destruct (v_t _ _ _ (reach_inv _ _ _ HR)) as (_ & _ & _ & _ & _ & T & _). rewrite T, in_written, in_map_iff. split.
  - intros ([[id r] x] & H1 & H2). cbn [snd] in H1. subst x. eauto.
  - intros (id & r & H). exists (id, r, Written t). auto.
Qed.
Lemma reader_text ro c tr t : reach ro c tr -> In t (reader_writes tr) <-> exists id e, In (id, e, Written t) (rejects tr).
Proof.
  intros HR. destruct (v_t _ _ _ (reach_inv _ _ _ HR)) as (_ & _ & _ & _ & _ & _ & T). rewrite T, in_written, in_map_iff. split.
  - intros ([[id r] x] & H1 & H2). cbn [snd] in H1. subst x. eauto.
  - intros (id & r & H). exists (id, r, Written t). auto.
Qed.
Lemma writes_frames ro c tr t : reach ro c tr -> In t (writes tr) -> is_frame t.
Proof.
  intros HR HI. apply writes_split in HI. destruct HI as [[i HI]|[HI|HI]].
  - destruct (sender_text _ _ _ _ _ HR HI) as (id & q & _ & H2 & H3 & _). destruct (request_shape _ _ _ H3 H2) as (text & a & jp & p & _ & _ & P & _). unfold is_frame. rewrite P. eexists _, _, _. split; [reflexivity|cbn; tauto].
  - apply (loop_text _ _ _ _ HR) in HI. destruct HI as (id & r & HI). destruct (v_t _ _ _ (reach_inv _ _ _ HR)) as (_ & _ & _ & T & _). rewrite Forall_forall in T. specialize (T _ HI). cbn [fst snd sent_with] in T.
    pose proof (returns_ok _ _ _ HR) as HK. rewrite Forall_forall in HK. specialize (HK _ (replied_returned _ _ _ _ _ _ HR HI)). cbn [snd] in HK.
    destruct r as [[m|]|e].
    + cbn [hret_ok] in HK. apply andb_true_iff in HK. destruct HK as [HK _]. destruct (result_shape _ _ _ HK T) as (text & jp & p & _ & P & _). unfold is_frame. rewrite P. eexists _, _, _. split; [reflexivity|cbn; tauto].
    + destruct (nil_response id) as (s & S1 & S2 & _). rewrite T in S1. injection S1 as <-. unfold is_frame. rewrite S2. eexists _, _, _. split; [reflexivity|cbn; tauto].
    + destruct (error_shape id InternalError e []) as (s & jp & S1 & S2 & _); [cbn; repeat constructor|]. cbn [response_message] in T. unfold new_call_error in T. rewrite T in S1. injection S1 as <-. unfold is_frame. rewrite S2. eexists _, _, _. split; [reflexivity|cbn; tauto].
  - apply (reader_text _ _ _ _ HR) in HI. destruct HI as (id & r & HI). destruct (v_t _ _ _ (reach_inv _ _ _ HR)) as (_ & _ & _ & _ & T & _). rewrite Forall_forall in T. specialize (T _ HI). cbn [fst snd sent_with] in T.
    destruct (error_shape id r reject_desc []) as (s & jp & S1 & S2 & _); [cbn; repeat constructor|]. unfold new_call_error in T. rewrite T in S1. injection S1 as <-. unfold is_frame. rewrite S2. eexists _, _, _. split; [reflexivity|cbn; tauto].
Qed.
Lemma answered_written ro c tr i o : reach ro c tr -> In (i, o) (rets tr) -> (answered o = true \/ o = RTimeout) -> exists t, In (i, t) (sender_writes tr).
Proof.
  intros HR HI HA. pose proof (reach_inv _ _ _ HR) as V. destruct (ret_call _ _ _ _ _ HR HI) as (sd & S1 & S2 & _).
  destruct (v_w _ _ _ V) as [W _]. destruct (v_c _ _ _ V _ _ S1) as (C1 & C2 & C3 & C4). rewrite S2 in C4.
  assert (E : unmarshal_request (sd_id sd) (sd_q sd) = Ok (sd_call sd)) by (destruct HA as [HA| ->]; [destruct o; try discriminate HA; exact C4|exact C4]).
  destruct (proj2 (request_crash (sd_id sd) (sd_q sd) C2 C3) _ E) as [s HS]. exists s. apply W. exists sd. split; [exact S1|]. split; [|exact HS]. rewrite S2. cbn [wrote_pc].
  destruct HA as [HA| ->]; [|reflexivity]. destruct o; try discriminate HA; reflexivity.
Qed.

(** ** Pending requests *)
Lemma pending_ret ro c tr i id q o : reach ro c tr -> In (i, (id, q)) (sends tr) -> In (i, o) (rets tr) -> (pending c id <-> gave_up o = true).
Proof.
  intros HR HS HI. pose proof (reach_inv _ _ _ HR) as V. destruct (ret_call _ _ _ _ _ HR HI) as (sd & S1 & S2 & S3).
  destruct (sends_fun _ _ _ _ _ _ _ _ HR HS S3) as [-> ->]. destruct (v_m _ _ _ V) as (M1 & _). unfold pending. rewrite (M1 _ _ S1), S2. cbn [regd].
  destruct o; cbn [gave_up]; split; intros H; try discriminate; try (discriminate H); try reflexivity; exfalso; apply H; reflexivity.
Qed.
Lemma pending_waiting ro c tr i id q t : reach ro c tr -> In (i, (id, q)) (sends tr) -> In (i, t) (sender_writes tr) -> ~ In i (map fst (rets tr)) ->
  pending c id \/ exists text, In text (reads tr) /\ response_to text id.
Proof.
  intros HR HS HI HN. pose proof (reach_inv _ _ _ HR) as V. destruct (v_w _ _ _ V) as [W _]. apply W in HI. destruct HI as (sd & S1 & S2 & S3).
  destruct (sends_in _ _ _ _ _ (v_i _ _ _ V) HS) as (sd' & S4 & <- & <-). rewrite S1 in S4. injection S4 as <-.
  destruct (v_m _ _ _ V) as (M1 & _). unfold pending. rewrite (M1 _ _ S1). destruct (v_e _ _ _ V) as [_ F]. specialize (F _ _ S1).
  destruct (sd_pc sd) as [| | | | | | |x|o|] eqn:EP; cbn [wrote_pc] in S2; try discriminate S2; cbn [regd sfact] in *; try (left; discriminate).
  - right. destruct (evd_sends _ _ _ F) as (id' & q' & text & E1 & E2 & E3). destruct (sends_fun _ _ _ _ _ _ _ _ HR HS E1) as [<- <-]. exists text. split; [exact E2|exact (justifies_response _ _ _ _ E3)].
  - exfalso. apply HN. destruct (v_o _ _ _ V) as [O1 _]. apply in_map_iff. exists (i, o). split; [reflexivity|]. apply O1. eauto.
Qed.
Lemma pending_sent ro c tr id : reach ro c tr -> pending c id -> exists i q, In (i, (id, q)) (sends tr).
Proof.
  intros HR HP. pose proof (reach_inv _ _ _ HR) as V. destruct (v_m _ _ _ V) as (_ & M2 & _). unfold pending in HP.
  destruct (lookup id (c_sent c)) as [a|] eqn:E; [|congruence]. destruct (M2 _ _ E) as (i & sd & S1 & S2). exists i, (sd_q sd). rewrite <- S2. exact (in_sends _ _ _ _ (v_i _ _ _ V) S1).
Qed.
Lemma lookup_in {A} k (m : list (string * A)) : lookup k m <> None -> In k (map fst m).
Proof.
  induction m as [|[x y] m IH]; cbn [lookup map fst]; [congruence|]. destruct (String.eqb_spec k x) as [->|D]; [left; reflexivity|]. intros H. right. auto.
Qed.
Lemma pending_grows ro c tr : reach ro c tr -> length (filter (fun x => gave_up (snd x)) (rets tr)) <= length (c_sent c).
Proof.
  intros HR. pose proof (reach_inv _ _ _ HR) as V. destruct (v_o _ _ _ V) as [O1 O2].
  set (ids := map (fun x => match nth_error (c_senders c) (fst x) with Some sd => sd_id sd | None => "" end) (filter (fun x => gave_up (snd x)) (rets tr))).
  replace (length (filter _ (rets tr))) with (length ids) by apply map_length. replace (length (c_sent c)) with (length (map fst (c_sent c))) by apply map_length.
  apply NoDup_incl_length.
  - unfold ids.
    assert (ND : NoDup (filter (fun x => gave_up (snd x)) (rets tr))) by (apply NoDup_filter, NoDup_fst, O2).
    assert (SUB : forall x, In x (filter (fun x => gave_up (snd x)) (rets tr)) -> In x (rets tr)) by (intros x H; apply filter_In in H; tauto).
    revert ND SUB. generalize (filter (fun x : nat * outcome => gave_up (snd x)) (rets tr)) as l. induction l as [|[i o] l IH]; intros ND SUB; cbn [map]; [constructor|].
    inversion ND as [|? ? N1 N2]. subst. constructor; [|apply IH; [exact N2|intros x Hx; apply SUB; right; exact Hx]].
    intros HB. apply in_map_iff in HB. destruct HB as ([j o'] & E1 & E2). cbn [fst] in E1.
    destruct (proj1 (O1 i o) (SUB _ (or_introl eq_refl))) as (s1 & A1 & A2). destruct (proj1 (O1 j o') (SUB _ (or_intror E2))) as (s2 & B1 & B2).
    rewrite A1, B1 in E1. assert (j = i) by (apply (v_ids _ _ _ V _ _ _ _ B1 A1 E1)). subst j. apply N1. rewrite A1 in B1. injection B1 as <-. rewrite A2 in B2. injection B2 as <-. exact E2.
  - intros id HI. unfold ids in HI. apply in_map_iff in HI. destruct HI as ([i o] & E1 & E2). cbn [fst] in E1. apply filter_In in E2. destruct E2 as [E2 E3]. cbn [snd] in E3.
    destruct (ret_call _ _ _ _ _ HR E2) as (sd & S1 & S2 & S3). rewrite S1 in E1. subst id. apply lookup_in. exact (proj2 (pending_ret _ _ _ _ _ _ _ HR S3 E2) E3).
Qed.

(** ** Goroutines *)
Lemma goroutine_count ro c tr : reach ro c tr -> loop_left c = false -> goroutines c = length (takens tr) + awaits c.
Proof.
  intros HR HL. pose proof (v_n _ _ _ (reach_inv _ _ _ HR)) as N. unfold inv_n, nlive, live in N. unfold goroutines, awaits, loop_left in *.
  destruct (c_loop c); try discriminate HL; rewrite N; lia.
Qed.
Lemma goroutine_left ro c tr : reach ro c tr -> loop_left c = true -> length (takens tr) <= goroutines c.
Proof.
  intros HR HL. pose proof (v_n _ _ _ (reach_inv _ _ _ HR)) as N. unfold inv_n, nlive, live in N. unfold goroutines, loop_left in *.
  destruct (c_loop c); try discriminate HL; exact (proj1 N).
Qed.
Lemma leaked ro c tr r p : reach ro c tr -> nth_error (c_readers c) r = Some p -> p <> RDone -> ~ awaited c r -> loop_left c = false -> never_ends ro c r.
Proof.
  intros HR HN HP HA HL es c' o H. assert (HI : active p = false).
  { destruct (active p) eqn:E; [exfalso|reflexivity]. destruct (reach_inv_a _ _ _ HR) as [_ A2]. destruct (A2 _ _ HN E) as [_ [X|X]]; [exact (HA X)|].
    unfold loop_left in HL. destruct (c_loop c); discriminate. }
  assert (HS : stuck r c). { split; [|exact HA]. destruct p; try discriminate HI; [eauto|congruence]. }
  exact (proj1 (stuck_run _ _ _ _ _ _ HS H)).
Qed.
Lemma taken_leaks ro c q id r c1 o1 es c2 o2 : step ro (ETake r) c = Some (c1, o1) -> o1 = [OTaken q id] -> run ro es c1 = Some (c2, o2) ->
  exists x, nth_error (c_readers c2) r = Some (RRes x).
Proof.
  intros H _ HRun. assert (HS : stuck r c1); [|exact (proj1 (stuck_run _ _ _ _ _ _ HS HRun))].
  unfold step in H. destruct (c_crash c); [discriminate H|]. destruct (c_loop c) eqn:EL; try discriminate H. destruct (nth_error (c_readers c) r) as [p|] eqn:EN; [|discriminate H].
  destruct p; try discriminate H. injection H as <- _. split; csimp; [|discriminate]. exists None. exact (nth_upd_same _ _ _ _ EN).
Qed.

(** ** Map races *)
Lemma writer_running ro c tr w m : reach ro c tr -> next_access c w = Some (m, Writes) -> exists i, w = WS i /\ running tr i.
Proof.
  intros HR H. pose proof (reach_inv _ _ _ HR) as V. destruct w as [i|r|]; cbn [next_access] in H; [| |discriminate H].
  - destruct (nth_error (c_senders c) i) as [sd|] eqn:E; [|discriminate H]. exists i. split; [reflexivity|]. split.
    + apply in_map_iff. exists (i, (sd_id sd, sd_q sd)). split; [reflexivity|exact (in_sends _ _ _ _ (v_i _ _ _ V) E)].
    + intros HI. apply in_map_iff in HI. destruct HI as ([j o] & <- & HI). cbn [fst] in *. destruct (v_o _ _ _ V) as [O1 _]. apply O1 in HI. destruct HI as (s & S1 & S2). rewrite E in S1. injection S1 as <-. rewrite S2 in H. discriminate H.
  - destruct (nth_error (c_readers c) r) as [p|]; [|discriminate H]. destruct p; discriminate H.
Qed.
Lemma write_race_two ro c tr : reach ro c tr -> write_race c -> exists i j, i <> j /\ running tr i /\ running tr j.
Proof.
  intros HR (w1 & w2 & m & HD & H1 & H2). destruct (writer_running _ _ _ _ _ HR H1) as (i & -> & R1). destruct (writer_running _ _ _ _ _ HR H2) as (j & -> & R2).
  exists i, j. split; [congruence|auto].
Qed.
Lemma race_running ro c tr : reach ro c tr -> race c -> exists i, running tr i.
Proof. intros HR (w1 & w2 & m & a & _ & H1 & _). destruct (writer_running _ _ _ _ _ HR H1) as (i & _ & R). eauto. Qed.

(** ** Closing *)
Lemma in_existsb (f : obs -> bool) tr : existsb f tr = true <-> exists o, In o tr /\ f o = true.
Proof. apply existsb_exists. Qed.
Lemma closed_why ro c tr : reach ro c tr -> In ODone tr \/ In OClosed tr -> In OUserClose tr \/ (exists b, In (OReadErr b) tr) \/ In OStop tr \/ (exists id, In (OHPanic id) tr).
Proof.
  intros HR HI. destruct (v_d _ _ _ (reach_inv _ _ _ HR)) as (D1 & D2 & _ & D4 & D5 & _).
  assert (R : reason tr = true).
  { apply D5. destruct HI as [HI|HI]; [apply D4; rewrite D1|rewrite D2]; apply existsb_exists; eexists; (split; [exact HI|reflexivity]). }
  unfold reason in R. apply orb_true_iff in R. destruct R as [R|R]; [apply orb_true_iff in R; destruct R as [R|R]; [apply orb_true_iff in R; destruct R as [R|R]|]|]; apply existsb_exists in R; destruct R as (o & R1 & R2); destruct o; try discriminate R2; eauto.
Qed.
(** At a charge point a panic of the handler is the end of the process. *)
Lemma cp_panic_last c tr id : reach CP c tr -> In (OHPanic id) tr ->
  c_crash c = true /\ exists c0 tr0, reach CP c0 tr0 /\ panics tr0 = [] /\ tr = tr0 ++ [OHPanic id; OCrash].
Proof.
  intros HR. revert id. induction HR as [|c tr e c' o HR IH HS]; intros id HI; [destruct HI|].
  assert (CR : c_crash c = false) by (unfold step in HS; destruct (c_crash c); [discriminate HS|reflexivity]).
  assert (NP : forall i, ~ In (OHPanic i) tr) by (intros i X; destruct (IH _ X) as [Y _]; congruence).
  apply in_app_or in HI. destruct HI as [HI|HI]; [destruct (NP _ HI)|].
  assert (X : c_crash c' = true /\ o = [OHPanic id; OCrash]).
  { clear - HI HS. step_inv HS e; csimp; cbn [In] in HI; repeat (destruct HI as [HI|HI]; try discriminate HI); try (destruct HI; fail). injection HI as <-. auto. }
  destruct X as [X ->]. split; [exact X|]. exists c, tr. split; [exact HR|]. split; [|reflexivity].
  destruct (panics tr) as [|i l] eqn:E; [reflexivity|exfalso]. assert (Y : In i (panics tr)) by (rewrite E; left; reflexivity).
  apply pick_in in Y. destruct Y as (x & Y1 & Y2). destruct x; try discriminate Y2. exact (NP _ Y1).
Qed.
Lemma closed_why_role ro c tr : reach ro c tr -> In ODone tr \/ In OClosed tr ->
  In OUserClose tr \/ (exists b, In (OReadErr b) tr) \/ In OStop tr \/ ro = CS /\ (exists id, In (OHPanic id) tr).
Proof.
  intros HR HI. destruct (closed_why _ _ _ HR HI) as [X|[X|[X|[id X]]]]; auto. destruct ro; [right; right; right; eauto|].
  destruct (cp_panic_last _ _ _ HR X) as (_ & c0 & tr0 & R0 & P0 & ->).
  assert (HI0 : In ODone tr0 \/ In OClosed tr0) by (destruct HI as [HI|HI]; apply in_app_or in HI; destruct HI as [HI|HI]; auto; destruct HI as [HI|[HI|[]]]; discriminate HI).
  destruct (closed_why _ _ _ R0 HI0) as [Y|[[b Y]|[Y|[j Y]]]].
  - left. apply in_or_app. auto.
  - right. left. exists b. apply in_or_app. auto.
  - right. right. left. apply in_or_app. auto.
  - exfalso. assert (Z : In j (panics tr0)) by (apply pick_in; eexists; split; [exact Y|reflexivity]). rewrite P0 in Z. destruct Z.
Qed.
Lemma done_seen ro c tr : reach ro c tr -> (c_done c = true <-> In ODone tr).
Proof.
  intros HR. destruct (v_d _ _ _ (reach_inv _ _ _ HR)) as (D1 & _). rewrite D1, existsb_exists. split.
  - intros (o & H1 & H2). destruct o; try discriminate H2. exact H1.
  - intros H. eexists. split; [exact H|reflexivity].
Qed.
Lemma error_done ro c tr b : reach ro c tr -> In (OReadErr b) tr -> c_crash c = false ->
  exists es c' o, length es <= 2 /\ run ro es c = Some (c', o) /\ c_done c' = true.
Proof.
  intros HR HI HC. destruct (v_d _ _ _ (reach_inv _ _ _ HR)) as (_ & _ & D3 & _ & _ & _ & _ & _ & _ & _ & D).
  assert (RB : c_rbroken c = true). { rewrite D3. apply existsb_exists. eexists. split; [exact HI|reflexivity]. }
  destruct (D RB) as [X|(r & p & X1 & X2)].
  - exists [], c, []. cbn. auto.
  - destruct p; try discriminate X2.
    + exists [EReader r; EReader r]. eexists _, _. split; [cbn; lia|]. cbn [run]. unfold step at 1. rewrite HC, X1. cbn [reader_step]. unfold step at 1. csimp. rewrite HC, (nth_upd_same _ _ _ _ X1). cbn [reader_step]. split; [reflexivity|reflexivity].
    + exists [EReader r]. eexists _, _. split; [cbn; lia|]. cbn [run]. unfold step at 1. rewrite HC, X1. cbn [reader_step]. split; [reflexivity|reflexivity].
Qed.

(** ** Directions *)
Lemma handled_direction ro c tr id q : reach ro c tr -> In (id, q) (handles tr) ->
  match ro, q with
  | CS, Some m => is_cp_request (m_ty m) = true
  | CS, None => False
  | CP, Some m => is_cs_request (m_ty m) = true
  | CP, None => exists text m, In text (reads tr) /\ inbound_of text = IRequest id m /\ is_cs_request (m_ty m) = false
  end.
Proof.
  intros HR HI. destruct (handled_id _ _ _ _ _ HR HI) as (text & m & T1 & T2 & T3). unfold seen in T3. cbn [fst snd] in T3. destruct ro.
  - destruct (is_cp_request (m_ty m)) eqn:E; [|destruct T3]. destruct T3 as [T3|[]]. injection T3 as <-. exact E.
  - destruct (is_cs_request (m_ty m)) eqn:E; destruct T3 as [T3|[]]; injection T3 as <-; eauto.
Qed.
(** Everything written by loop or reader answers a CALL that was read. *)
Lemma replied_why ro c tr id : reach ro c tr -> (In id (map (fun y => fst (fst y)) (replies tr)) \/ In id (map (fun y => fst (fst y)) (rejects tr))) ->
  exists text, In text (reads tr) /\ ((exists q, inbound_of text = IRequest id q /\ (ro = CS -> is_cp_request (m_ty q) = true)) \/ exists e, inbound_of text = IRefused id e).
Proof.
  intros HR [H|H]; apply in_map_iff in H; destruct H as ([[id' r] x] & <- & H); cbn [fst] in *.
  - pose proof (replied_returned _ _ _ _ _ _ HR H) as H1. destruct (returned_handled _ _ _ _ _ HR H1) as [q H2]. destruct (handled_id _ _ _ _ _ HR H2) as (text & q' & T1 & T2 & T3).
    exists text. split; [exact T1|]. left. exists q'. split; [exact T2|]. intros ->. unfold seen in T3. cbn [fst snd] in T3. destruct (is_cp_request (m_ty q')); [reflexivity|destruct T3].
  - destruct (reject_read _ _ _ _ _ _ HR H) as (text & T1 & T2). exists text. split; [exact T1|]. right. eauto.
Qed.
