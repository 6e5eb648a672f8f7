(** Property theorems C82 - C84: this library on both ends of a websocket, whatever the schedule. *)
From Coq Require Import Arith.
From Verif Require Import GoBase Utf8 Json JsonProofs Float64 Lang Types Codec Any Tables Registry Frame SpecCodec SpecFrame SpecEnc FrameRead FrameMore Leaves
  Conn SpecConn ConnBase ConnInv ConnSend ConnEvid ConnMore ConnFate ConnLast ConnTop ConnServe Net SpecNet NetProofs NetMore NetOrder NetLive SpecSettle ConnSettle SpecCalm NetCalm NetSettle
  PropsCodec PropsConn PropsNet.
Open Scope string_scope.
Open Scope list_scope.
Opaque marshal_message read_text unmarshal_request call_to_request result_to_response utf8_valid msg_ok is_request action_of step.

(** *** C82: undisturbed, every call is answered, whatever the schedule *)
Lemma quiet_both n tr : calm_reach n tr -> (forall s, c_crash (conn_of s n) = false) -> (forall s, quiet s n) -> quiet_net n.
Proof.
  intros CR HC HQ. destruct (calm_kinv _ _ CR) as [_ KI].
  assert (S : forall s, NetLive.settled (conn_of s n)).
  { intros s. destruct (HQ s) as (Q1 & Q2 & _ & r & Q4 & Q5). destruct (k_up _ _ (KI s)) as (U1 & U2 & _ & U4 & _). split; [exists r; repeat split; auto|]. split; [exact Q1|]. split; [exact U1|]. split; [exact U2|].
    intros i sd HN HI. rewrite (k_inh _ _ (KI s) _ _ HN) in HI. discriminate HI. }
  split; [exact (S Central)|]. split; [exact (S Point)|]. split; [exact (proj1 (proj2 (proj2 (HQ Central))))|exact (proj1 (proj2 (proj2 (HQ Point))))].
Qed.
Lemma calm_calls n n' o s i id q : calm_step n n' o -> ~ In (NObs s (OCall i id q)) o.
Proof.
  Transparent step. intros (s0 & e & _ & HE & HS & _) HI. apply nstep_inv in HS. destruct HS as (c' & oc & qq & S1 & _ & _ & _ & _ & _ & ->). apply in_app_or in HI. destruct HI as [HI|HI].
  - apply in_map_iff in HI. destruct HI as (x & X1 & X2). injection X1 as -> ->. revert X2. step_inv S1 e; cbn [In]; intros X2; try discriminate HE; repeat (destruct X2 as [X2|X2]; [discriminate X2|]); exact X2.
  - apply in_map_iff in HI. destruct HI as (x & X1 & _). discriminate X1.
Qed.
Opaque step.
(** However the steps of the two ends and of the network interleave: after finitely many of them both ends are idle and
    unbroken, nothing is in the network, and every call has been answered - unless the request had no encoding or the
    handler gave nothing to answer with; and until then there is a step to take. *)
Theorem C82_every_call_answered : forall n tr, calm_reach n tr ->
  (forall s i id q, In (NObs s (OCall i id q)) tr -> expiry_present (TStruct (m_ty q)) (m_val q) = true) ->
  inevitably calm_step (fun n' tr' => quiet_net n' /\ forall s i id q, In (NObs s (OCall i id q)) tr' -> call_done tr' s i id q) n tr.
Proof.
  intros n tr HR. set (ok := fun tr => forall s i id q, In (NObs s (OCall i id q)) tr -> expiry_present (TStruct (m_ty q)) (m_val q) = true).
  set (Q := fun n' tr' => quiet_net n' /\ forall s i id q, In (NObs s (OCall i id q)) tr' -> call_done tr' s i id q).
  assert (X : inevitably calm_step (fun n' tr' => ok tr' -> Q n' tr') n tr).
  { revert n tr HR. apply calm_settles.
    - intros n tr s HR HC HK. exfalso. destruct (crash_cause _ _ _ (proj1 (calm_kinv _ _ HR)) HC) as [(i & id & q & H1 & H2)|(_ & id & H1)].
      + rewrite (HK _ _ _ _ H1) in H2. discriminate H2.
      + exact (calm_no_panic _ _ _ _ HR H1).
    - intros n tr HR HC HQ _. split; [exact (quiet_both _ _ HR HC HQ)|]. exact (quiet_done _ _ HR HC HQ). }
  clear HR. intros HK. change (ok tr) in HK. change (inevitably calm_step Q n tr). induction X as [n tr X|n tr X1 X2 IH]; [apply iv_now; exact (X HK)|].
  apply iv_later; [exact X1|]. intros n' o ST. apply (IH _ _ ST). intros s i id q HI. apply in_app_or in HI. destruct HI as [HI|HI]; [exact (HK _ _ _ _ HI)|destruct (calm_calls _ _ _ _ _ _ _ ST HI)].
Qed.
(** There is no endless schedule: the two ends cannot keep each other busy. *)
Theorem C82_no_endless_schedule : forall (f : nat -> net) (g : nat -> list nobs) tr, calm_reach (f 0) tr -> ~ forall k, calm_step (f k) (f (S k)) (g k).
Proof.
  intros f g tr HR H. assert (X : forall n, Acc lighter n -> forall k t, f k = n -> calm_reach n t -> False).
  { induction 1 as [n _ IH]. intros k t EK CR. pose proof (H k) as ST. rewrite EK in ST. apply (IH (f (S k))) with (k := S k) (t := t ++ g k); [|reflexivity|].
    - exact (calm_lighter _ _ _ _ (proj1 (calm_kinv _ _ CR)) ST).
    - destruct ST as (s & e & E1 & _ & E3 & _). exact (calm_S _ _ _ _ _ _ CR E1 E3). }
  exact (X (f 0) (lighter_wf _) 0 tr eq_refl HR).
Qed.
(** Calls from both ends at once. *)
Definition clear_cache : msg := MkMsg "csreq.ClearCache" (VStruct []).
Definition both_run := start ++ put_on_wire 0 "7" hb ++ [(Point, ESend false "8" hb); (Central, ESend false "9" clear_cache); (Central, EStep 0); (Central, ERead 0 (hb_text "7"))].
Lemma calm_run es : forall n tr n' o, calm_reach n tr -> forallb (fun x => calm (snd x)) es = true -> nrun es n = Some (n', o) -> calm_reach n' (tr ++ o).
Proof.
  induction es as [|[s e] es IH]; intros n tr n' o HR HC HE; cbn [nrun] in HE.
  - injection HE as <- <-. rewrite app_nil_r. exact HR.
  - cbn [forallb snd] in HC. apply andb_true_iff in HC. destruct HC as [C1 C2]. destruct (nstep s e n) as [[n1 o1]|] eqn:E; [|discriminate HE]. destruct (nrun es n1) as [[n2 o2]|] eqn:E2; [|discriminate HE].
    injection HE as <- <-. rewrite app_assoc. exact (IH _ _ _ _ (calm_S _ _ _ _ _ _ HR C1 E) C2 E2).
Qed.
Lemma calm_reached es : forallb (fun x => calm (snd x)) es && (match nrun es net0 with Some _ => true | None => false end) = true -> calm_reach (net_of es) (net_trace es).
Proof.
  intros H. apply andb_true_iff in H. destruct H as [H1 H2]. unfold net_of, net_trace. destruct (nrun es net0) as [[n o]|] eqn:E; [|discriminate H2].
  exact (calm_run _ _ _ _ _ calm_0 H1 E).
Qed.
Example C82_ex : calm_reach (net_of both_run) (net_trace both_run) /\ calm_reach (net_of round_run) (net_trace round_run) /\
  sends (view Point (net_trace both_run)) = [(0, ("7", hb)); (1, ("8", hb))] /\ sends (view Central (net_trace both_run)) = [(0, ("9", clear_cache))] /\
  forallb (fun x => expiry_present (TStruct (m_ty (snd (snd x)))) (m_val (snd (snd x)))) (sends (view Point (net_trace both_run)) ++ sends (view Central (net_trace both_run))) = true /\
  ~ quiet_net (net_of both_run) /\ call_done (net_trace round_run) Point 0 "7" hb.
Proof.
  split; [apply calm_reached; vm_compute; reflexivity|]. split; [apply calm_reached; vm_compute; reflexivity|]. split; [vm_compute; reflexivity|]. split; [vm_compute; reflexivity|]. split; [vm_compute; reflexivity|]. split.
  - intros (((r & H) & _) & _). destruct H as (L & N & _). vm_compute in L. injection L as <-. vm_compute in N. discriminate N.
  - left. exists (RResp hb_resp). split; [vm_compute; repeat first [left; reflexivity|right]|left; reflexivity].
Qed.
(** Without the hypothesis on handlers' returns a caller may be left waiting: *)
Example C82_ex_nil : call_done (net_trace (removelast nil_run)) Point 0 "7" hb /\ rets (view Point (net_trace (removelast nil_run))) = [].
Proof. split; [right; exists (inl None); split; [vm_compute; repeat first [left; reflexivity|right]|left; reflexivity]|vm_compute; reflexivity]. Qed.

(** *** C83: nobody answers twice *)
(** In every history - timeouts, failures, closed connections included - an end puts at most one answer to an id on the wire, and
    only to an id the other end used for a request that it put on the wire. *)
Theorem C83_answered_once : forall n tr s, nreach n tr -> NoDup (responses_in (map snd (sent_by s tr))).
Proof. intros n tr s HR. exact (answers_once _ _ HR s). Qed.
Theorem C83_answers_a_request : forall n tr s w t id, nreach n tr -> In (NSent s w t) tr -> response_to t id ->
  exists i q t', In (NObs (other s) (OCall i id q)) tr /\ In (NSent (other s) (WS i) t') tr /\ request_text id q = Ok t'.
Proof.
  intros n tr s w t id HR HI HX. apply in_sent in HI. rewrite <- (other_other s) in HI. destruct (answered_call _ _ _ _ _ _ HR HI HX) as (i & q & t' & H1 & H2 & H3).
  exists i, q, t'. split; [apply in_sends_view; exact H1|]. split; [apply in_sent; exact H2|exact H3].
Qed.
Example C83_ex : nreach (net_of round_run) (net_trace round_run) /\ responses_in (map snd (sent_by Central (net_trace round_run))) = ["7"].
Proof. split; [apply net_reached; vm_compute; reflexivity|vm_compute; reflexivity]. Qed.

(** *** C84: neither end can crash the other *)
(** A crash has a local cause: a request without its expiry date passed to the API, or - at a charge point - a handler that panicked.  Nothing
    that the peer's library sends, late, refused or undecodable, brings the process down. *)
Theorem C84_crash_is_home_made : forall n tr s, nreach n tr -> In (NObs s OCrash) tr ->
  (exists i id q, In (NObs s (OCall i id q)) tr /\ expiry_present (TStruct (m_ty q)) (m_val q) = false) \/ (s = Point /\ exists id, In (NObs Point (OHPanic id)) tr).
Proof. intros n tr s HR HI. destruct (crash_cause _ _ _ HR HI) as [H|[-> H]]; auto. Qed.
Definition crash_run := start ++ put_on_wire 0 "7" hb ++ [(Central, ESend false "9" (ex_list VNil))].
Example C84_ex : nreach (net_of crash_run) (net_trace crash_run) /\ In (NObs Central OCrash) (net_trace crash_run).
Proof. split; [apply net_reached; vm_compute; reflexivity|vm_compute; repeat first [left; reflexivity|right]]. Qed.

Definition net_settle_theorems := (C82_every_call_answered, C82_no_endless_schedule, C83_answered_once, C83_answers_a_request, C84_crash_is_home_made).
Print Assumptions net_settle_theorems.
