(** Property theorems C71 - C74: a central system, any number of charge points and
    other clients, all schedules. *)
From Coq Require Import Arith.
From Verif Require Import GoBase Utf8 Json Float64 Lang Types Codec Any Tables Registry Frame SpecCodec SpecFrame FrameRead FrameMore Leaves Conn SpecConn ConnBase CentralSystem SpecCS CSInv CSMore ChargePoint SpecCP CPInv CPMore
  Net SpecNet NetProofs NetMore System SpecSys SysInv SysMore NetLive SysLive PropsConn PropsNet.
Open Scope string_scope.
Open Scope list_scope.
Opaque marshal_message read_text unmarshal_request call_to_request result_to_response utf8_valid msg_ok is_request action_of.

(** *** C71: what is sent through GetServiceOf's service *)
(** A response: the handler of a connected charge point with the identity given to GetServiceOf was called with the
    request and returned it. *)
Theorem C71_response : forall cfg y tr cid v url k n m, yreach cfg y tr -> In (AtCentral (OService cid v url (inl (SvcJSON k)))) tr -> ours k tr ->
  In (AtCentral (OConn k (ORet n (RResp m)))) tr -> exists j i id q q' m',
  known_as cfg j cid /\ In (Connected k j i) tr /\
  in_turn [AtCentral (OConn k (OCall n id q)); AtPoint j (QConn i (OHandle (Some q') id)); AtPoint j (QConn i (OReturn id (inl (Some m')))); AtCentral (OConn k (ORet n (RResp m)))] tr /\
  conveyed id q q' /\ answer_conveyed id (m_ty q) m' m.
Proof.
  intros cfg y tr cid v url k n m HR HS HO HI. pose proof (yreach_inv _ _ _ HR) as V.
  destruct (central_connected _ _ _ _ _ HR HO HI (or_introl (ex_intro _ n (ex_intro _ _ (conj eq_refl eq_refl))))) as (j & i & HC).
  destruct (met_net _ _ _ _ _ _ HR HC) as (net & _ & NR & _ & _). apply in_central in HS. destruct (service_id _ _ _ _ _ _ (y_c _ _ _ V) HS) as [_ HA]. apply in_central in HA.
  destruct (C57_response _ _ Central n m NR) as (id & q & q' & m' & H1 & H2 & H3); [apply in_wire; exact HI|].
  exists j, i, id, q, q', m'. split; [exact (connected_who _ _ _ _ _ _ _ HR HC HA)|]. split; [exact HC|]. split; [exact (happened_whole _ _ _ _ _ H1)|]. split; assumption.
Qed.
(** A CALLERROR: that handler returned the error, or the charge point's library refused the request. *)
Theorem C71_error : forall cfg y tr cid v url k n id c d det, yreach cfg y tr -> In (AtCentral (OService cid v url (inl (SvcJSON k)))) tr -> ours k tr ->
  In (AtCentral (OConn k (ORet n (RCallErr id c d det)))) tr -> exists j i q,
  known_as cfg j cid /\ In (Connected k j i) tr /\
  ((exists q' e, conveyed id q q' /\ c = "InternalError" /\ d = sanitize e /\
     in_turn [AtCentral (OConn k (OCall n id q)); AtPoint j (QConn i (OHandle (Some q') id)); AtPoint j (QConn i (OReturn id (inr e))); AtCentral (OConn k (ORet n (RCallErr id c d det)))] tr) \/
   (in_turn [AtCentral (OConn k (OCall n id q)); AtCentral (OConn k (ORet n (RCallErr id c d det)))] tr /\ (forall x, ~ In (AtPoint j (QConn i (OHandle x id))) tr) /\
     ((c = "NotSupported" /\ action_of (m_ty q) = Some "DataTransfer") \/ (c = "FormationViolation" /\ carried (m_val q) = false)))).
Proof.
  intros cfg y tr cid v url k n id c d det HR HS HO HI. pose proof (yreach_inv _ _ _ HR) as V.
  destruct (central_connected _ _ _ _ _ HR HO HI (or_introl (ex_intro _ n (ex_intro _ _ (conj eq_refl eq_refl))))) as (j & i & HC).
  destruct (met_net _ _ _ _ _ _ HR HC) as (net & _ & NR & _ & _). apply in_central in HS. destruct (service_id _ _ _ _ _ _ (y_c _ _ _ V) HS) as [_ HA]. apply in_central in HA.
  destruct (C57_error _ _ Central n id c d det NR) as (_ & q & X); [apply in_wire; exact HI|].
  exists j, i, q. split; [exact (connected_who _ _ _ _ _ _ _ HR HC HA)|]. split; [exact HC|]. destruct X as [(q' & e & X1 & X2 & X3 & X4)|(X1 & _ & X3 & X4)].
  - left. exists q', e. split; [exact X1|]. split; [exact X2|]. split; [exact X3|]. exact (happened_whole _ _ _ _ _ X4).
  - right. split; [exact (happened_whole _ _ _ _ _ X1)|]. split; [|exact X4]. intros x HX. apply (X3 x). apply in_wire. exact HX.
Qed.
(** Every call of a charge point's handler: the central system sent that request, on a connection that it knows under
    this charge point's identity and no other. *)
Theorem C71_handled : forall cfg y tr j i x id, yreach cfg y tr -> In (AtPoint j (QConn i (OHandle x id))) tr -> exists k cid n q q',
  x = Some q' /\ known_as cfg j cid /\ In (AtCentral (OArrived k cid)) tr /\
  (forall cid' v url, In (AtCentral (OService cid' v url (inl (SvcJSON k)))) tr -> cid' = cid) /\
  in_turn [AtCentral (OConn k (OCall n id q)); AtPoint j (QConn i (OHandle (Some q') id))] tr /\ conveyed id q q' /\ is_cs_request (m_ty q) = true.
Proof.
  intros cfg y tr j i x id HR HI. pose proof (yreach_inv _ _ _ HR) as V. destruct (point_connected _ _ _ _ _ _ HR HI) as (k & HC).
  destruct (met_net _ _ _ _ _ _ HR HC) as (net & cid & NR & HK & HA). destruct (C58_sent _ _ Central x id NR) as (n & q & q' & H1 & H2 & H3 & H4 & H5 & _); [apply in_wire; exact HI|].
  exists k, cid, n, q, q'. split; [exact H1|]. split; [exact HK|]. split; [exact HA|]. split; [|split; [exact (happened_whole _ _ _ _ _ H2)|split; [exact H3|exact H5]]].
  intros cid' v url HS. apply in_central in HS. destruct (service_id _ _ _ _ _ _ (y_c _ _ _ V) HS) as [_ HA']. apply in_central in HA.
  pose proof HC as HC0. apply (y_conn _ _ _ V) in HC0. destruct HC0 as (w & W1 & W2).
  assert (LK : k < length (s_ks (y_central y))) by (rewrite <- (y_len _ _ _ V); apply nth_error_Some; congruence). destruct (nth_some _ _ LK) as [x0 HX].
  apply (arrived_id _ _ _ _ (y_c _ _ _ V) HX) in HA. apply (arrived_id _ _ _ _ (y_c _ _ _ V) HX) in HA'. congruence.
Qed.

(** *** C72: what a charge point sends *)
(** A response to the charge point's Send: the central system's handler was called with the request, under this
    charge point's identity, and returned it. *)
Theorem C72_response : forall cfg y tr j i n m, yreach cfg y tr -> In (AtPoint j (QConn i (ORet n (RResp m)))) tr -> exists k cid id q q' m',
  known_as cfg j cid /\ In (AtCentral (OArrived k cid)) tr /\
  in_turn [AtPoint j (QConn i (OCall n id q)); AtCentral (OConn k (OHandle (Some q') id)); AtCentral (OConn k (OReturn id (inl (Some m')))); AtPoint j (QConn i (ORet n (RResp m)))] tr /\
  conveyed id q q' /\ answer_conveyed id (m_ty q) m' m.
Proof.
  intros cfg y tr j i n m HR HI. destruct (point_connected _ _ _ _ _ _ HR HI) as (k & HC). destruct (met_net _ _ _ _ _ _ HR HC) as (net & cid & NR & HK & HA).
  destruct (C57_response _ _ Point n m NR) as (id & q & q' & m' & H1 & H2 & H3); [apply in_wire; exact HI|].
  exists k, cid, id, q, q', m'. split; [exact HK|]. split; [exact HA|]. split; [exact (happened_whole _ _ _ _ _ H1)|]. split; assumption.
Qed.
(** Every call of the central system's handler on a connection that is not a stranger's: a charge point with that
    identity sent the request. *)
Theorem C72_handled : forall cfg y tr k cid x id, yreach cfg y tr -> In (AtCentral (OArrived k cid)) tr -> ours k tr -> In (AtCentral (OConn k (OHandle x id))) tr -> exists j i n q q',
  x = Some q' /\ known_as cfg j cid /\ In (Connected k j i) tr /\
  in_turn [AtPoint j (QConn i (OCall n id q)); AtCentral (OConn k (OHandle (Some q') id))] tr /\ conveyed id q q' /\ is_cp_request (m_ty q) = true.
Proof.
  intros cfg y tr k cid x id HR HA HO HI. destruct (central_connected _ _ _ _ _ HR HO HI (or_intror (or_introl (ex_intro _ _ (ex_intro _ _ eq_refl))))) as (j & i & HC).
  destruct (met_net _ _ _ _ _ _ HR HC) as (net & _ & NR & _ & _). destruct (C58_sent _ _ Point x id NR) as (n & q & q' & H1 & H2 & H3 & H4 & H5 & _); [apply in_wire; exact HI|].
  exists j, i, n, q, q'. split; [exact H1|]. split; [exact (connected_who _ _ _ _ _ _ _ HR HC HA)|]. split; [exact HC|]. split; [exact (happened_whole _ _ _ _ _ H2)|]. split; [exact H3|exact H5].
Qed.
(** The charge points whose texts the central system reads, and answers, are the ones with that identity. *)
Theorem C72_reads : forall cfg y tr k cid t, yreach cfg y tr -> In (AtCentral (OArrived k cid)) tr -> ours k tr -> In (AtCentral (OConn k (ORead t))) tr -> exists j i w,
  known_as cfg j cid /\ In (Connected k j i) tr /\ In (OnWire k Point w t) tr.
Proof.
  intros cfg y tr k cid t HR HA HO HI. destruct (central_connected _ _ _ _ _ HR HO HI (or_intror (or_intror (ex_intro _ _ eq_refl)))) as (j & i & HC).
  destruct (met_net _ _ _ _ _ _ HR HC) as (net & _ & NR & _ & _). assert (RD : In t (reads (view Central (wire_trace k (Some (j, i)) tr)))).
  { apply pick_in. exists (ORead t). split; [|reflexivity]. apply in_view. apply in_wire. exact HI. }
  destruct (read_sent _ _ _ _ NR RD) as [w HS]. apply in_wire in HS. exists j, i, w. split; [exact (connected_who _ _ _ _ _ _ _ HR HC HA)|]. split; assumption.
Qed.

(** ** Concrete runs: charge points "a" and "b", and somebody who pretends to be "a" *)
Definition two_points : list (string * string) := [("ws://cs", "a"); ("ws://cs", "b")].
Definition ystate_of vs := match yrun vs (sys0 two_points) with Some (y, _) => y | None => sys0 two_points end.
Definition ytrace_of vs := match yrun vs (sys0 two_points) with Some (_, o) => o | None => [] end.
Definition yruns vs := match yrun vs (sys0 two_points) with Some _ => true | None => false end.
Lemma yreached vs : yruns vs = true -> yreach two_points (ystate_of vs) (ytrace_of vs).
Proof. unfold yruns, ystate_of, ytrace_of. destruct (yrun vs (sys0 two_points)) as [[s o]|] eqn:E; [|discriminate]. intros _. exact (yreach_of_run _ _ _ _ E). Qed.
(** Charge point j connects, by wire k: its Dial, New up to its return *)
Definition dials_up (j k : nat) := [YAsk j; YCentral (VStep k); YCentral (VShake k true); YMeet j k; YPoint j XStep; YPoint j XStep; YPoint j XStep].
(** ... and the central system registers it, and both loops start *)
Definition accepted (j k : nat) := [YCentral (VStep k); YCentral (VStep k); YCentral (VStep k); YCentral (VConn k ELoop); YPoint j (XConn 0 ELoop)].
Definition on_wire (j i k : nat) (es : list (side * event)) := map (fun se => match fst se with Central => YCentral (VConn k (snd se)) | Point => YPoint j (XConn i (snd se)) end) es.
Definition both_up := dials_up 0 0 ++ accepted 0 0 ++ dials_up 1 1 ++ accepted 1 1.
Definition reset_text (id : string) := "[2,""" +++ id +++ """,""Reset"",{""type"":""Soft""}]".
Definition reset_q : msg := MkMsg "csreq.Reset" (VStruct [("Type", VStr "Soft")]).
Definition reset_r : msg := MkMsg "csresp.Reset" (VStruct [("Status", VStr "Accepted")]).
Definition reset_answer (id : string) := "[3,""" +++ id +++ """,{""status"":""Accepted""}]".
(** The central system resets "b"; then "a" sends a heartbeat. *)
Definition resets := both_up ++ [YCentral (VService "b" "V16" "")] ++
  on_wire 1 0 1 (map (pair Central) [ESend false "9" reset_q; EStep 0; EStep 0; EStep 0; EChunk (WS 0) 200; EWritten (WS 0); EStep 0] ++
                 map (pair Point) [ERead 0 (reset_text "9"); EReader 0; ETake 0; ELoop; EReturn (inl (Some reset_r)); ELoop; EChunk WL 200; EWritten WL; ELoop] ++
                 map (pair Central) [ERead 0 (reset_answer "9"); EReader 0; EReader 0; EReader 0; EReader 0; EReceive 0 0; EStep 0; EStep 0; EResult; ELoop]) ++
  on_wire 0 0 0 (put_on_wire 0 "7" hb ++ serve 0 (hb_text "7") (inl (Some hb_resp)) ++ get_answer 0 0 hb_answer).
(** A stranger connects as "a" and sends a heartbeat. *)
Definition pretends := both_up ++ map YCentral ([VHttp true "GET" "/a"; VStep 2; VShake 2 true; VStep 2; VStep 2; VStep 2; VConn 2 ELoop] ++
  map (VConn 2) [ERead 0 (hb_text "7"); EReader 0; ETake 0; ELoop]).
Example sys_runs_ok : map yruns [both_up; resets; pretends] = [true; true; true].
Proof. vm_compute. reflexivity. Qed.
Ltac isin := vm_compute; repeat first [left; reflexivity|right].
Lemma known_a : known_as two_points 0 "a". Proof. exists ("ws://cs", "a"). split; vm_compute; reflexivity. Qed.
Lemma known_b : known_as two_points 1 "b". Proof. exists ("ws://cs", "b"). split; vm_compute; reflexivity. Qed.
Example C71_ex : let tr := ytrace_of resets in In (AtCentral (OService "b" "V16" "" (inl (SvcJSON 1)))) tr /\ ours 1 tr /\ In (AtCentral (OConn 1 (ORet 0 (RResp reset_r)))) tr /\
  In (AtPoint 1 (QConn 0 (OHandle (Some reset_q) "9"))) tr /\ In (Connected 1 1 0) tr.
Proof. cbv zeta. split; [isin|]. split; [exists 1; isin|]. split; [isin|]. split; isin. Qed.
Example C72_ex : let tr := ytrace_of resets in In (AtPoint 0 (QConn 0 (ORet 0 (RResp hb_resp)))) tr /\ In (AtCentral (OArrived 0 "a")) tr /\ ours 0 tr /\
  In (AtCentral (OConn 0 (OHandle (Some hb) "7"))) tr /\ In (AtCentral (OConn 0 (ORead (hb_text "7")))) tr.
Proof. cbv zeta. split; [isin|]. split; [isin|]. split; [exists 0; isin|]. split; isin. Qed.

(** *** C73: who is connected *)
Lemma up_conn p tr i : xreach p tr -> In (QUp i) tr -> i < length (p_conns p).
Proof.
  intros HR HI. pose proof (xreach_inv _ _ HR) as V. assert (H : In i (ups tr)) by (apply qpick_in; exists (QUp i); auto). rewrite (j_ups _ _ V) in H. apply in_seq in H.
  destruct (j_num _ _ V) as [N _]. lia.
Qed.
Lemma meets_only v y y' o k j i : ystep v y = Some (y', o) -> In (Connected k j i) o -> v = YMeet j k /\ exists pt, nth_error (y_points y) j = Some pt /\ i = length (p_conns (pt_cp pt)) /\ o = [AtPoint j (QDialed true); Connected k j i].
Proof.
  intros H HI. destruct v as [v|j0|j0 k0|j0 x]; unfold ystep in H.
  - exfalso. unfold ycentral in H. destruct (cstep v (y_central y)) as [[s' oo]|] eqn:E; [|discriminate H].
    assert (N : o = map AtCentral oo \/ exists k1 l, o = map AtCentral oo ++ put k1 Central l).
    { destruct v; try (injection H as _ <-; left; reflexivity). destruct (nth_error (y_wires y) k0) as [w|]; [|discriminate H]. destruct (nth_error (s_ks (y_central y)) k0) as [x|]; [|discriminate H].
      destruct (central_allows e w) as [q|]; [|discriminate H]. injection H as _ <-. right. eauto. }
    destruct N as [->|(k1 & l & ->)]; [apply not_central in HI; destruct HI as [c HI]; discriminate HI|]. apply in_app_or in HI. destruct HI as [HI|HI]; [apply not_central in HI; destruct HI as [c HI]; discriminate HI|].
    apply in_put in HI. destruct HI as (w & t & HI). discriminate HI.
  - exfalso. destruct (nth_error (y_points y) j0) as [pt|]; [|discriminate H]. destruct (p_crash (pt_cp pt)); [discriminate H|]. destruct (p_pc (pt_cp pt)); try discriminate H. destruct (existsb (dialling j0) (y_wires y)); [discriminate H|].
    destruct (url_path (pt_url pt ++ "/" ++ pt_id pt)) as [path|]; [|discriminate H]. destruct (cstep (VHttp true "GET" path) (y_central y)) as [[s' oo]|]; [|discriminate H]. injection H as _ <-.
    apply in_app_or in HI. destruct HI as [HI|[HI|[]]]; [apply not_central in HI; destruct HI as [c HI]; discriminate HI|discriminate HI].
  - destruct (nth_error (y_points y) j0) as [pt|] eqn:EJ; [|discriminate H]. destruct (nth_error (y_wires y) k0) as [w|]; [|discriminate H]. destruct (nth_error (s_ks (y_central y)) k0) as [x|]; [|discriminate H].
    destruct (dialling j0 w && shaken (k_pc x)); [|discriminate H]. destruct (xstep (XDial true) (pt_cp pt)) as [[p' oo]|] eqn:E; [|discriminate H]. injection H as _ <-.
    destruct (xstep_dial _ _ _ E) as (_ & _ & ->). apply in_app_or in HI. destruct HI as [[HI|[]]|[HI|[]]]; [discriminate HI|]. injection HI as -> -> <-. split; [reflexivity|]. exists pt. auto.
  - exfalso. destruct (nth_error (y_points y) j0) as [pt|]; [|discriminate H].
    assert (N : exists oo, o = map (AtPoint j0) oo \/ exists k1 l, o = map (AtPoint j0) oo ++ put k1 Point l).
    { destruct x as [[]| |ii e|inh id q| | |]; try discriminate H;
      try (match type of H with match ?X with _ => _ end = _ => destruct X as [[p' oo]|]; [|discriminate H] end; injection H as _ <-; exists oo; left; reflexivity).
      - destruct (ylink_inv _ _ _ _ _ _ _ _ H) as (k1 & w & c & q & p' & oo & A1 & A2 & A3 & A4 & A5 & _ & ->). exists oo. right. eauto.
      - destruct (ylink_inv _ _ _ _ _ _ _ _ H) as (k1 & w & c & q' & p' & oo & A1 & A2 & A3 & A4 & A5 & _ & ->). exists oo. right. eauto. }
    destruct N as [oo [->|(k1 & l & ->)]]; [apply not_point in HI; destruct HI as [c HI]; discriminate HI|]. apply in_app_or in HI. destruct HI as [HI|HI]; [apply not_point in HI; destruct HI as [c HI]; discriminate HI|].
    apply in_put in HI. destruct HI as (w & t & HI). discriminate HI.
Qed.
(** When a charge point has a connection in place, the central system has been asked for it under that charge point's identity,
    and answered. *)
Theorem C73_in_place : forall cfg y tr, yreach cfg y tr -> forall b j i a, tr = b ++ AtPoint j (QUp i) :: a -> exists k cid,
  known_as cfg j cid /\ In (Asked k j) b /\ In (Connected k j i) b /\ In (AtCentral (OArrived k cid)) b.
Proof.
  induction 1 as [|y tr v y' o HR IH HS]; intros b j i a HT; [destruct b; discriminate HT|].
  destruct (split_app _ _ _ _ _ HT) as [(a1 & HT1 & _)|(b1 & -> & HO)]; [exact (IH _ _ _ _ HT1)|]. clear IH.
  pose proof (yreach_inv _ _ _ HR) as V0. pose proof (yreach_S _ _ _ _ _ _ HR HS) as HR'. pose proof (yreach_inv _ _ _ HR') as V.
  assert (I1 : In (AtPoint j (QUp i)) (tr ++ o)) by (rewrite HT; apply in_or_app; right; left; reflexivity). apply in_point in I1.
  destruct (nth_error (y_points y') j) as [pt|] eqn:EP; [|rewrite (y_none _ _ _ V _ EP) in I1; destruct I1].
  pose proof (up_conn _ _ _ (y_p _ _ _ V _ _ EP) I1) as L. destruct (y_all _ _ _ V _ _ _ EP L) as (k & w & W1 & W2).
  assert (C : In (Connected k j i) (tr ++ o)) by (apply (y_conn _ _ _ V); eauto). apply in_app_or in C. destruct C as [C|C].
  2:{ exfalso. destruct (meets_only _ _ _ _ _ _ _ HS C) as (_ & _ & _ & _ & EO). rewrite EO in HO. assert (Z : In (AtPoint j (QUp i)) [AtPoint j (QDialed true); Connected k j i]) by (rewrite HO; apply in_or_app; right; left; reflexivity).
      destruct Z as [Z|[Z|[]]]; discriminate Z. }
  destruct (met_net _ _ _ _ _ _ HR C) as (n & cid & _ & K & A). exists k, cid. split; [exact K|]. destruct (connected_ours _ _ _ _ _ _ HR C) as [j' HA].
  assert (j' = j). { apply (y_conn _ _ _ V0) in C. apply (y_ask _ _ _ V0) in HA. destruct C as (w1 & C1 & C2). destruct HA as (w2 & C3 & C4). rewrite C1 in C3. injection C3 as <-. rewrite C2 in C4. injection C4 as ->. reflexivity. }
  subst j'. split; [|split]; apply in_or_app; left; assumption.
Qed.
(** A connection of the central system belongs to one connection of one charge point, and conversely. *)
Theorem C73_pairs : forall cfg y tr k j i k' j' i', yreach cfg y tr -> In (Connected k j i) tr -> In (Connected k' j' i') tr -> (k = k' <-> j = j' /\ i = i').
Proof.
  intros cfg y tr k j i k' j' i' HR H1 H2. pose proof (yreach_inv _ _ _ HR) as V. apply (y_conn _ _ _ V) in H1. apply (y_conn _ _ _ V) in H2. destruct H1 as (w & W1 & W2). destruct H2 as (w' & W3 & W4). split.
  - intros <-. rewrite W1 in W3. injection W3 as <-. rewrite W2 in W4. injection W4 as -> ->. auto.
  - intros [<- <-]. exact (y_inj _ _ _ V _ _ _ _ _ _ W1 W3 W2 W4).
Qed.
(** Dial succeeds only if the central system's side of the handshake did. *)
Lemma cstep_shaken v s s' o k x : cstep v s = Some (s', o) -> nth_error (s_ks s) k = Some x -> shaken (k_pc x) = true ->
  exists x', nth_error (s_ks s') k = Some x' /\ shaken (k_pc x') = true.
Proof.
  intros H HX HP. assert (LK : k < length (s_ks s)) by (apply nth_error_Some; rewrite HX; discriminate).
  assert (U : forall j z z', nth_error (s_ks s) j = Some z -> (shaken (k_pc z) = true -> shaken (k_pc z') = true) -> exists x', nth_error (upd j z' (s_ks s)) k = Some x' /\ shaken (k_pc x') = true).
  { intros j z z' HZ HS. rewrite nth_upd. destruct (Nat.eqb_spec j k) as [->|N].
    - rewrite HX in *. exists z'. split; [reflexivity|]. apply HS. injection HZ as <-. exact HP.
    - exists x. auto. }
  cstep_inv H v; ssimp; try (exists x; split; [first [exact HX|rewrite nth_error_app1 by exact LK; exact HX]|exact HP]);
    try (eapply U; [eassumption|]; cbn [k_pc]; first [intros Z; exact Z|intros _; reflexivity|match goal with E : k_pc _ = _ |- _ => rewrite E; intros Z; discriminate Z end]).
Qed.
Lemma ystep_central v y y' o : ystep v y = Some (y', o) -> y_central y' = y_central y \/ exists v' o', cstep v' (y_central y) = Some (y_central y', o').
Proof.
  intros H. destruct v as [v|j0|j0 k0|j0 x]; unfold ystep in H.
  - right. unfold ycentral in H. destruct (cstep v (y_central y)) as [[s' oo]|] eqn:E; [|discriminate H]. exists v, oo. rewrite E.
    destruct v; try (injection H as <- _; reflexivity). destruct (nth_error (y_wires y) k) as [w|]; [|discriminate H]. destruct (nth_error (s_ks (y_central y)) k) as [x|]; [|discriminate H].
    destruct (central_allows e w) as [q|]; [|discriminate H]. injection H as <- _. reflexivity.
  - right. destruct (nth_error (y_points y) j0) as [pt|]; [|discriminate H]. destruct (p_crash (pt_cp pt)); [discriminate H|]. destruct (p_pc (pt_cp pt)); try discriminate H. destruct (existsb (dialling j0) (y_wires y)); [discriminate H|].
    destruct (url_path (pt_url pt ++ "/" ++ pt_id pt)) as [path|]; [|discriminate H]. destruct (cstep (VHttp true "GET" path) (y_central y)) as [[s' oo]|] eqn:E; [|discriminate H]. injection H as <- _. eexists _, oo. exact E.
  - left. destruct (nth_error (y_points y) j0) as [pt|]; [|discriminate H]. destruct (nth_error (y_wires y) k0) as [w|]; [|discriminate H]. destruct (nth_error (s_ks (y_central y)) k0) as [x|]; [|discriminate H].
    destruct (dialling j0 w && shaken (k_pc x)); [|discriminate H]. destruct (xstep (XDial true) (pt_cp pt)) as [[p' oo]|]; [|discriminate H]. injection H as <- _. reflexivity.
  - left. destruct (nth_error (y_points y) j0) as [pt|]; [|discriminate H].
    destruct x as [[]| |ii e|inh id q| | |]; try discriminate H;
      try (match type of H with match ?X with _ => _ end = _ => destruct X as [[p' oo]|]; [|discriminate H] end; injection H as <- _; reflexivity).
    + destruct (ylink_inv _ _ _ _ _ _ _ _ H) as (k1 & w & c & q & p' & oo & _ & _ & _ & _ & _ & -> & _). reflexivity.
    + destruct (ylink_inv _ _ _ _ _ _ _ _ H) as (k1 & w & c & q' & p' & oo & _ & _ & _ & _ & _ & -> & _). reflexivity.
Qed.
Lemma connected_shaken cfg y tr k j i : yreach cfg y tr -> In (Connected k j i) tr -> exists x, nth_error (s_ks (y_central y)) k = Some x /\ shaken (k_pc x) = true.
Proof.
  intros HR. revert k j i. induction HR as [|y tr v y' o HR IH HS]; intros k j i HI; [destruct HI|]. apply in_app_or in HI.
  assert (K : exists x, nth_error (s_ks (y_central y)) k = Some x /\ shaken (k_pc x) = true).
  { destruct HI as [HI|HI]; [exact (IH _ _ _ HI)|]. destruct (meets_only _ _ _ _ _ _ _ HS HI) as (-> & _). unfold ystep in HS.
    destruct (nth_error (y_points y) j) as [pt|]; [|discriminate HS]. destruct (nth_error (y_wires y) k) as [w|]; [|discriminate HS]. destruct (nth_error (s_ks (y_central y)) k) as [x|]; [|discriminate HS].
    destruct (dialling j w && shaken (k_pc x)) eqn:ED; [|discriminate HS]. apply andb_prop in ED. exists x. split; [reflexivity|exact (proj2 ED)]. }
  destruct K as (x & X1 & X2). destruct (ystep_central _ _ _ _ HS) as [->|(v' & o' & HC)]; [exists x; auto|]. exact (cstep_shaken _ _ _ _ _ _ HC X1 X2).
Qed.
Theorem C73_handshake : forall cfg y tr k j i, yreach cfg y tr -> In (Connected k j i) tr -> ~ In (AtCentral (OShakeFailed k)) tr.
Proof.
  intros cfg y tr k j i HR HC HF. destruct (connected_shaken _ _ _ _ _ _ HR HC) as (x & X1 & X2). pose proof (yreach_inv _ _ _ HR) as V.
  apply in_central in HF. pose proof (proj1 (i_life _ _ (creach_inv _ _ (y_c _ _ _ V))) _ _ X1) as L. unfold script in L.
  assert (HL : In (OShakeFailed k) (life k (central tr))) by (apply in_flat_map; exists (OShakeFailed k); split; [exact HF|cbn; rewrite Nat.eqb_refl; left; reflexivity]).
  destruct (k_pc x); try discriminate X2; repeat (match type of L with ex _ => destruct L as [? L] end); rewrite L in HL; repeat (destruct HL as [HL|HL]; [discriminate HL|]); destruct HL.
Qed.
(** Accepted connections: a charge point with that identity asked for it, or a stranger did. *)
Theorem C73_accepted : forall cfg y tr k cid, yreach cfg y tr -> In (AtCentral (ORegistered k cid)) tr -> ours k tr -> exists j, In (Asked k j) tr /\ known_as cfg j cid.
Proof.
  intros cfg y tr k cid HR HI [j HA]. pose proof (yreach_inv _ _ _ HR) as V. exists j. split; [exact HA|]. pose proof HA as HA'. apply (y_ask _ _ _ V) in HA. destruct HA as (w & W1 & W2).
  assert (LK : k < length (s_ks (y_central y))) by (rewrite <- (y_len _ _ _ V); apply nth_error_Some; congruence). destruct (nth_some _ _ LK) as [x HX].
  apply in_central in HI. rewrite (registered_id _ _ _ _ (y_c _ _ _ V) HX _ HI). pose proof (y_net _ _ _ V _ _ _ W1 HX) as J.
  unfold joined in J. destruct (w_peer w); try discriminate W2; injection W2 as ->; exact (proj1 J).
Qed.
(** New has returned and the central system may still say that the charge point is not connected. *)
Theorem C73_new_is_early_refuted : exists cfg y tr b a, yreach cfg y tr /\ known_as cfg 0 "a" /\ tr = b ++ AtCentral (OService "a" "V16" "" (inr "no connection to this charge point")) :: a /\
  In (AtPoint 0 (QNew true)) b /\ In (AtPoint 0 (QUp 0)) b.
Proof.
  pose (vs := dials_up 0 0 ++ [YCentral (VService "a" "V16" "")]). exists two_points, (ystate_of vs), (ytrace_of vs), (ytrace_of (dials_up 0 0)), [].
  split; [apply yreached; vm_compute; reflexivity|]. split; [exact known_a|]. split; [vm_compute; reflexivity|]. split; isin.
Qed.
(** Dial may fail, and New with it, after the central system has accepted the connection: GetServiceOf then gives a service nobody listens to. *)
Theorem C73_ghost_refuted : exists cfg y tr, yreach cfg y tr /\ known_as cfg 0 "a" /\
  in_turn [AtPoint 0 (QNew false); AtCentral (ORegistered 0 "a"); AtCentral (OService "a" "V16" "" (inl (SvcJSON 0)))] tr /\ ours 0 tr /\ forall j i, ~ In (Connected 0 j i) tr.
Proof.
  pose (vs := [YAsk 0; YCentral (VStep 0); YCentral (VShake 0 true); YPoint 0 (XDial false); YCentral (VStep 0); YCentral (VStep 0); YCentral (VService "a" "V16" "")]). exists two_points, (ystate_of vs), (ytrace_of vs).
  assert (E : ytrace_of vs = [AtCentral (OArrived 0 "a"); Asked 0 0; AtPoint 0 (QDialed false); AtPoint 0 (QNew false); AtCentral (ORegistered 0 "a"); AtCentral (OService "a" "V16" "" (inl (SvcJSON 0)))]) by (vm_compute; reflexivity).
  split; [apply yreached; vm_compute; reflexivity|]. split; [exact known_a|]. rewrite E. clear. split; [|split].
  - eexists [_; _; _], _. split; [reflexivity|]. eexists [], _. split; [reflexivity|]. eexists [], _. split; [reflexivity|exact I].
  - exists 0. right. left. reflexivity.
  - intros j i H. repeat (destruct H as [H|H]; [discriminate H|]). destruct H.
Qed.
(** Anybody can be "a": identities are not verified. *)
Theorem C73_impostor_refuted : exists cfg y tr k, yreach cfg y tr /\ known_as cfg 0 "a" /\ In (AtCentral (ORegistered k "a")) tr /\ ~ ours k tr /\ In (AtCentral (OConn k (OHandle (Some hb) "7"))) tr /\
  (forall j i id q n, ~ In (AtPoint j (QConn i (OCall n id q))) tr).
Proof.
  exists two_points, (ystate_of pretends), (ytrace_of pretends), 2. split; [apply yreached; vm_compute; reflexivity|]. split; [exact known_a|]. split; [isin|]. split; [|split; [isin|]].
  - assert (E : existsb (fun o => match o with Asked 2 _ => true | _ => false end) (ytrace_of pretends) = false) by (vm_compute; reflexivity). intros [j H]. rewrite <- Bool.not_true_iff_false in E. apply E. apply existsb_exists. exists (Asked 2 j). split; [exact H|reflexivity].
  - assert (E : existsb (fun o => match o with AtPoint _ (QConn _ (OCall _ _ _)) => true | _ => false end) (ytrace_of pretends) = false) by (vm_compute; reflexivity). intros j i id q n H. rewrite <- Bool.not_true_iff_false in E. apply E. apply existsb_exists. eexists. split; [exact H|reflexivity].
Qed.
Example C73_ex : let tr := ytrace_of resets in In (AtPoint 1 (QUp 0)) tr /\ In (Connected 1 1 0) tr /\ In (Connected 0 0 0) tr /\ In (AtCentral (ORegistered 1 "b")) tr /\ ours 1 tr.
Proof. cbv zeta. split; [isin|]. split; [isin|]. split; [isin|]. split; [isin|]. exists 1. isin. Qed.

(** *** C74: connecting, reconnecting and calling can always go well *)
(** A charge point that has lost its connection, or failed to dial, any number of times: it can connect, the central
    system can accept it, and GetServiceOf then gives the new connection. *)
Theorem C74_reconnects : forall cfg y tr j cid pt, yreach cfg y tr -> known_as cfg j cid -> s_crash (y_central y) = false ->
  nth_error (y_points y) j = Some pt -> p_crash (pt_cp pt) = false -> In (AtPoint j (QNew true)) tr ->
  up_now (at_charge_point j tr) = false -> connected (at_charge_point j tr) = length (ups (at_charge_point j tr)) -> exists vs y' o k i,
  yrun vs y = Some (y', o) /\ at_rest k j i y' /\ (forall s n id q, ~ In (seen k j i s (OCall n id q)) (tr ++ o)) /\
  in_turn [Asked k j; Connected k j i; AtPoint j (QUp i); AtCentral (ORegistered k cid); AtCentral (OService cid "V16" "" (inl (SvcJSON k)))] o.
Proof.
  intros cfg y tr j cid pt HR HK HC HN HP HI HU HF. pose proof (yreach_inv _ _ _ HR) as V. pose proof (y_p _ _ _ V _ _ HN) as XR. pose proof (xreach_inv _ _ XR) as J.
  assert (NW : p_new (pt_cp pt) = false).
  { destruct (p_new (pt_cp pt)) eqn:E; [|reflexivity]. exfalso. apply in_point in HI. destruct (j_new _ _ J E) as (U & _ & _).
    clear - XR HI U.
    assert (G : forall p tr, xreach p tr -> In (QNew true) tr -> ups tr <> []).
    { clear. induction 1 as [|p tr x p' o HR IH HS]; intros HI; [destruct HI|]. unfold ups. rewrite qpick_app. apply in_app_or in HI. destruct HI as [HI|HI].
      - specialize (IH HI). unfold ups in IH. destruct (qpick _ tr); [destruct IH; reflexivity|discriminate].
      - assert (Z : qpick (fun o => match o with QUp k => Some k | _ => None end) o <> []); [|destruct (qpick _ tr); [exact Z|discriminate]].
        apply xstep_kind in HS. destruct HS as [_ HS].
        destruct HS as [P E O|P N E O|P N E O|P E O|P E O|P E O|P I E O|P I E O|P E O|E O|E N O|E N O|k e c c' oo pre HN HK HS E HX O]; subst o;
          try (repeat (destruct HI as [HI|HI]; [discriminate HI|]); destruct HI; fail).
        + discriminate.
        + exfalso. apply in_app_or in HI. destruct HI as [HI|HI]; [destruct HX as [->|[-> _]]; [destruct HI|destruct HI as [HI|[]]; discriminate HI]|].
          apply in_app_or in HI. destruct HI as [HI|HI]; [apply in_map_iff in HI; destruct HI as (z & HI & _); discriminate HI|apply stop_only in HI; discriminate HI]. }
    exact (G _ _ XR HI U). }
  assert (FR : fresh (p_pc (pt_cp pt)) = false).
  { rewrite (connected_conns _ _ XR) in HF. destruct (j_num _ _ J) as [N _]. destruct (fresh (p_pc (pt_cp pt))); [lia|reflexivity]. }
  rewrite (j_up _ _ J) in HU. destruct (j_old _ _ J NW) as [_ NF].
  assert (PC : p_pc (pt_cp pt) = PDial \/ p_pc (pt_cp pt) = PSleep) by (destruct (p_pc (pt_cp pt)); try discriminate HU; try discriminate FR; auto; destruct NF; reflexivity).
  destruct (redial_run _ _ _ _ _ HR HN HP NW PC) as (vs1 & y1 & o1 & R1 & D1 & C1). rewrite <- C1 in HC.
  destruct (connect_run _ _ _ _ _ (yreach_run _ _ _ _ _ _ HR R1) D1 HC HK) as (vs2 & y2 & o2 & k & i & R2 & A2 & F2 & T2).
  exists (vs1 ++ vs2), y2, (o1 ++ o2), k, i. split; [exact (yrun_app _ _ _ _ _ _ _ R1 R2)|]. split; [exact A2|]. split; [rewrite app_assoc; exact F2|]. exact (in_turn_app [] _ _ _ I T2).
Qed.
(** Before its first dial: New can succeed. *)
Theorem C74_connects : forall cfg y tr j cid, yreach cfg y tr -> known_as cfg j cid -> s_crash (y_central y) = false -> at_charge_point j tr = [] -> (forall k, ~ In (Asked k j) tr) -> exists vs y' o k i,
  yrun vs y = Some (y', o) /\ at_rest k j i y' /\ (forall s n id q, ~ In (seen k j i s (OCall n id q)) (tr ++ o)) /\
  in_turn [Asked k j; Connected k j i; AtPoint j (QUp i); AtCentral (ORegistered k cid); AtCentral (OService cid "V16" "" (inl (SvcJSON k)))] o.
Proof.
  intros cfg y tr j cid HR HK HC HT HA. apply (connect_run _ _ _ _ _ HR); [|exact HC|exact HK]. pose proof (yreach_inv _ _ _ HR) as V. destruct HK as (c & K1 & _). rewrite <- (y_cfg _ _ _ V), nth_error_map in K1.
  destruct (nth_error (y_points y) j) as [pt|] eqn:EP; [|discriminate K1]. pose proof (y_p _ _ _ V _ _ EP) as XR. rewrite HT in XR. exists pt. split; [exact EP|].
  assert (G : forall p tr, xreach p tr -> tr = [] -> p = cpoint0).
  { clear. induction 1 as [|p tr x p' o HR IH HS]; intros E; [reflexivity|]. apply app_eq_nil in E. destruct E as [-> ->]. specialize (IH eq_refl). subst p. unfold xstep in HS. cbn in HS. destruct x; try discriminate HS; try (destruct ok; discriminate HS); try (unfold pconn in HS; cbn in HS; destruct k; discriminate HS). }
  rewrite (G _ _ XR eq_refl). split; [reflexivity|]. split; [reflexivity|]. destruct (existsb (dialling j) (y_wires y)) eqn:EX; [|reflexivity]. exfalso. apply existsb_exists in EX. destruct EX as (w & W1 & W2).
  apply In_nth_error in W1. destruct W1 as [k W1]. apply (HA k). apply (y_ask _ _ _ V). exists w. split; [exact W1|]. unfold dialling in W2. destruct (w_peer w); try discriminate W2. apply Nat.eqb_eq in W2. subst. reflexivity.
Qed.
(** On a connection at rest, any call can run to its end, and the connection is at rest again. *)
Theorem C74_calls : forall cfg y tr k j i s id q q' h t', yreach cfg y tr -> at_rest k j i y -> (forall n q0, ~ In (seen k j i s (OCall n id q0)) tr) ->
  utf8_valid id = true -> msg_ok q = true -> may_send s q = true -> conveyed id q q' -> h <> inl None -> hret_ok (role_of (other s)) h = true -> marshal_message (response_message id h) = Ok t' ->
  exists vs y' o n x, yrun vs y = Some (y', o) /\ at_rest k j i y' /\
    in_turn [seen k j i s (OCall n id q); seen k j i (other s) (OHandle (Some q') id); seen k j i (other s) (OReturn id h); seen k j i s (ORet n x)] o /\
    (forall s' m id0 q0, In (seen k j i s' (OCall m id0 q0)) o -> s' = s /\ id0 = id) /\
    match h with
    | inl (Some m') => (exists m, x = RResp m /\ answer_conveyed id (m_ty q) m' m) \/ x = RCode "FormationViolation"
    | inl None => False
    | inr e => x = RCallErr id "InternalError" (sanitize e) (AObj [])
    end.
Proof. exact sys_round. Qed.
(** An exchange: the end that calls Send, the message id, the request given to Send, the request given to the handler,
    and what the handler returns. *)
Record exchange := MkEx { e_side : side; e_id : string; e_req : msg; e_got : msg; e_ret : hret }.
(** The request is one that this end may send, and that survives the wire; the handler returns what can be written. *)
Definition possible (x : exchange) : Prop :=
  utf8_valid (e_id x) = true /\ msg_ok (e_req x) = true /\ may_send (e_side x) (e_req x) = true /\ conveyed (e_id x) (e_req x) (e_got x) /\
  e_ret x <> inl None /\ hret_ok (role_of (other (e_side x))) (e_ret x) = true /\ exists t, marshal_message (response_message (e_id x) (e_ret x)) = Ok t.
(** Send was called with the request, the other end's handler was called and returned, and Send returned what it
    returned (or that it is ill-formed). *)
Definition took_place (k j i : nat) (x : exchange) (o : list yobs) : Prop := exists n r,
  in_turn [seen k j i (e_side x) (OCall n (e_id x) (e_req x)); seen k j i (other (e_side x)) (OHandle (Some (e_got x)) (e_id x));
    seen k j i (other (e_side x)) (OReturn (e_id x) (e_ret x)); seen k j i (e_side x) (ORet n r)] o /\
  match e_ret x with
  | inl (Some m') => (exists m, r = RResp m /\ answer_conveyed (e_id x) (m_ty (e_req x)) m' m) \/ r = RCode "FormationViolation"
  | inl None => False
  | inr e => r = RCallErr (e_id x) "InternalError" (sanitize e) (AObj [])
  end.
Lemma took_place_app k j i x a b c : took_place k j i x b -> took_place k j i x (a ++ b ++ c).
Proof.
  intros (n & r & H & X). exists n, r. split; [|exact X]. apply (in_turn_app [] _ a _ I). rewrite <- (app_nil_r [_; _; _; _]). exact (in_turn_app _ [] b c H I).
Qed.
Lemma exchanges_run cfg k j i l : forall y tr, yreach cfg y tr -> at_rest k j i y -> Forall possible l -> NoDup (map (fun x => (e_side x, e_id x)) l) ->
  (forall x n q, In x l -> ~ In (seen k j i (e_side x) (OCall n (e_id x) q)) tr) ->
  exists vs y' o, yrun vs y = Some (y', o) /\ at_rest k j i y' /\ Forall (fun x => took_place k j i x o) l.
Proof.
  induction l as [|x l IH]; intros y tr HR HA HP HD HF.
  - exists [], y, []. auto.
  - inversion HP as [|? ? (P1 & P2 & P3 & P4 & P5 & P6 & t & P7) HP']. subst. cbn [map] in HD. inversion HD as [|? ? D1 D2]. subst.
    destruct (sys_round _ _ _ _ _ _ (e_side x) (e_id x) _ _ _ _ HR HA (fun n q => HF x n q (or_introl eq_refl)) P1 P2 P3 P4 P5 P6 P7) as (vs1 & y1 & o1 & n & r & R1 & A1 & T1 & O1 & X1).
    destruct (IH _ _ (yreach_run _ _ _ _ _ _ HR R1) A1 HP' D2) as (vs2 & y2 & o2 & R2 & A2 & T2).
    { intros z m q Hz HI. apply in_app_or in HI. destruct HI as [HI|HI]; [exact (HF z m q (or_intror Hz) HI)|]. apply O1 in HI. destruct HI as [E1 E2]. apply D1. rewrite <- E1, <- E2.
      exact (in_map (fun x => (e_side x, e_id x)) _ _ Hz). }
    exists (vs1 ++ vs2), y2, (o1 ++ o2). split; [exact (yrun_app _ _ _ _ _ _ _ R1 R2)|]. split; [exact A2|]. constructor.
    + apply (took_place_app _ _ _ _ [] o1 o2). exists n, r. split; [exact T1|exact X1].
    + eapply Forall_impl; [|exact T2]. intros z Hz. pose proof (took_place_app _ _ _ _ o1 o2 [] Hz) as G. rewrite app_nil_r in G. exact G.
Qed.
(** Whatever has happened before: a charge point that is not connected, because it has not dialled yet or lost its
    connection, can connect, and then any list of exchanges, in both directions, can take place on that connection. *)
Theorem C74_serves : forall cfg y tr j cid pt l, yreach cfg y tr -> known_as cfg j cid -> s_crash (y_central y) = false ->
  nth_error (y_points y) j = Some pt -> p_crash (pt_cp pt) = false ->
  (at_charge_point j tr = [] /\ (forall k, ~ In (Asked k j) tr)) \/
  (In (AtPoint j (QNew true)) tr /\ up_now (at_charge_point j tr) = false /\ connected (at_charge_point j tr) = length (ups (at_charge_point j tr))) ->
  Forall possible l -> NoDup (map (fun x => (e_side x, e_id x)) l) ->
  exists vs1 vs2 y1 y2 o1 o2 k i, yrun vs1 y = Some (y1, o1) /\ yrun vs2 y1 = Some (y2, o2) /\
    in_turn [Asked k j; Connected k j i; AtPoint j (QUp i); AtCentral (ORegistered k cid); AtCentral (OService cid "V16" "" (inl (SvcJSON k)))] o1 /\
    Forall (fun x => took_place k j i x o2) l.
Proof.
  intros cfg y tr j cid pt l HR HK HC HN HP HW HL HD.
  assert (G : exists vs y' o k i, yrun vs y = Some (y', o) /\ at_rest k j i y' /\ (forall s n id q, ~ In (seen k j i s (OCall n id q)) (tr ++ o)) /\
    in_turn [Asked k j; Connected k j i; AtPoint j (QUp i); AtCentral (ORegistered k cid); AtCentral (OService cid "V16" "" (inl (SvcJSON k)))] o).
  { destruct HW as [(W1 & W2)|(W1 & W2 & W3)]; [exact (C74_connects _ _ _ _ _ HR HK HC W1 W2)|exact (C74_reconnects _ _ _ _ _ _ HR HK HC HN HP W1 W2 W3)]. }
  destruct G as (vs1 & y1 & o1 & k & i & R1 & A1 & F1 & T1).
  destruct (exchanges_run _ k j i l _ _ (yreach_run _ _ _ _ _ _ HR R1) A1 HL HD (fun x n q _ => F1 (e_side x) n (e_id x) q)) as (vs2 & y2 & o2 & R2 & _ & T2).
  exists vs1, vs2, y1, y2, o1, o2, k, i. auto.
Qed.
(** Charge point 0 connected, then lost its connection; a heartbeat of the charge point, and a Reset of the central system, can follow. *)
Definition drops_off := both_up ++ map (YPoint 0) [XConn 0 (EReadErr 0 true); XConn 0 (EReader 0); XConn 0 (EReader 0); XConn 0 ESeeClose; XStep].
Definition two_exchanges := [MkEx Point "8" hb hb (inl (Some hb_resp)); MkEx Central "9" reset_q reset_q (inl (Some reset_r)); MkEx Point "9" hb hb (inr "no")].
Example C74_ex : let tr := ytrace_of drops_off in yruns drops_off = true /\ s_crash (y_central (ystate_of drops_off)) = false /\ In (AtPoint 0 (QNew true)) tr /\
  up_now (at_charge_point 0 tr) = false /\ connected (at_charge_point 0 tr) = length (ups (at_charge_point 0 tr)) /\
  Forall possible two_exchanges /\ NoDup (map (fun x => (e_side x, e_id x)) two_exchanges) /\
  (exists pt, nth_error (y_points (ystate_of drops_off)) 0 = Some pt /\ p_crash (pt_cp pt) = false).
Proof.
  cbv zeta. split; [vm_compute; reflexivity|]. split; [vm_compute; reflexivity|]. split; [isin|]. split; [vm_compute; reflexivity|]. split; [vm_compute; reflexivity|]. split; [|split].
  - assert (N : forall m : msg, inl (Some m) <> (inl None : hret)) by (intros m H; injection H as H; discriminate H). assert (N' : forall e : string, inr e <> (inl None : hret)) by (intros e H; discriminate H).
    apply Forall_cons; [|apply Forall_cons; [|apply Forall_cons; [|apply Forall_nil]]]; unfold possible; cbn [e_side e_id e_req e_got e_ret].
    + split; [vm_compute; reflexivity|]. split; [vm_compute; reflexivity|]. split; [vm_compute; reflexivity|]. split; [exists (hb_text "8"); split; vm_compute; reflexivity|]. split; [apply N|]. split; [vm_compute; reflexivity|]. eexists. vm_compute. reflexivity.
    + split; [vm_compute; reflexivity|]. split; [vm_compute; reflexivity|]. split; [vm_compute; reflexivity|]. split; [exists (reset_text "9"); split; vm_compute; reflexivity|]. split; [apply N|]. split; [vm_compute; reflexivity|]. eexists. vm_compute. reflexivity.
    + split; [vm_compute; reflexivity|]. split; [vm_compute; reflexivity|]. split; [vm_compute; reflexivity|]. split; [exists (hb_text "9"); split; vm_compute; reflexivity|]. split; [apply N'|]. split; [vm_compute; reflexivity|]. eexists. vm_compute. reflexivity.
  - repeat constructor; intros H; repeat (destruct H as [H|H]; [discriminate H|]); destruct H.
  - eexists. split; vm_compute; reflexivity.
Qed.
Example C74_calls_ex : yruns both_up = true /\ at_rest 0 0 0 (ystate_of both_up).
Proof.
  split; [vm_compute; reflexivity|]. eexists (MkNet _ _ [] []). split; [constructor|].
  - eexists. conjs; vm_compute; reflexivity.
  - vm_compute. reflexivity.
  - eexists. conjs; vm_compute; reflexivity.
  - vm_compute. reflexivity.
  - unfold quiet_net. conjs; cbn [n_central n_point n_to_central n_to_point]; try reflexivity; (apply settled_by; [exists 0; unfold idle; conjs; vm_compute; reflexivity|vm_compute; reflexivity..]).
Qed.
