(** Property theorem C93: the central system and its charge points, whatever the schedule. *)
From Coq Require Import Arith Wellfounded Permutation.
From Verif Require Import GoBase Utf8 Json JsonProofs Float64 Lang Types Codec Any Tables Registry Frame SpecFrame SpecEnc FrameRead FrameMore Leaves
  Conn SpecConn ConnBase ConnInv ConnSend ConnEvid ConnMore ConnFate ConnLast ConnTop ConnLive ConnServe CentralSystem SpecCS CSInv CSMore ChargePoint SpecCP CPInv CPMore
  Net SpecNet NetProofs NetMore NetOrder NetLive SpecLive SpecSettle ConnSettle LiveProofs SpecCalm NetCalm System SpecSys SysInv SysMore SysLive SpecSysCalm SysCalm.
From Verif Require CSSettle.
From Verif Require Import NetSettle SysSettle PanicProofs PropsConn PropsNet PropsNetSettle PropsSys.
Open Scope string_scope.
Open Scope list_scope.
Opaque marshal_message read_text unmarshal_request call_to_request result_to_response utf8_valid msg_ok is_request action_of.

Lemma no_call_step ro e c c' o : step ro e c = Some (c', o) -> starts_call e = false -> forall n id q, ~ In (OCall n id q) o.
Proof. intros H HE n id q. step_inv H e; cbn [In]; intros X2; try discriminate HE; repeat (destruct X2 as [X2|X2]; [discriminate X2|]); exact X2. Qed.
Opaque step url_path.
Lemma no_put k s l x : ~ (In (AtCentral x) (put k s l)). Proof. intros H. apply in_put in H. destruct H as (w & t & H). discriminate H. Qed.
Lemma in_conn_trace k o tr : In (OConn k o) tr -> In o (conn_trace k tr).
Proof. intros H. unfold conn_trace. apply cpick_in. exists (OConn k o). split; [exact H|]. rewrite Nat.eqb_refl. reflexivity. Qed.
Lemma ycalm_calls y y' o : ycalm_step y y' o -> (forall k n id q, ~ In (AtCentral (OConn k (OCall n id q))) o) /\ (forall j i n id q, ~ In (AtPoint j (QConn i (OCall n id q))) o).
Proof.
  intros (v & HC & HO & H & _). destruct v as [v|j|j k|j x]; unfold ystep in H.
  - unfold ycentral in H. destruct (cstep v (y_central y)) as [[s' oo]|] eqn:E; [|discriminate H].
    destruct v as [up meth path|k|k ok|k e|id v url|id|id|f|f|n]; try discriminate HO.
    3:{ destruct (nth_error (y_wires y) k) as [w|]; [|discriminate H]. destruct (nth_error (s_ks (y_central y)) k) as [x|]; [|discriminate H]. destruct (central_allows e w) as [q|]; [|discriminate H]. injection H as <- <-.
        destruct (cstep_conn _ _ _ _ _ E) as (x0 & c' & oc & X1 & X2 & X3 & X4). split.
        - intros k0 n id q0 HI. apply in_app_or in HI. destruct HI as [HI|HI]; [|exact (no_put _ _ _ _ HI)]. apply in_map_iff in HI. destruct HI as (z & Z1 & Z2). injection Z1 as ->. rewrite X4 in Z2. apply in_map_iff in Z2. destruct Z2 as (z & Z1 & Z2). injection Z1 as -> ->. exact (no_call_step _ _ _ _ _ X2 HO _ _ _ Z2).
        - intros j i n id q0 HI. apply in_app_or in HI. destruct HI as [HI|HI]; [apply in_map_iff in HI; destruct HI as (z & Z1 & _); discriminate Z1|apply in_put in HI; destruct HI as (w0 & t & HI); discriminate HI]. }
    all: injection H as <- <-; split; [|intros j i m id0 q HI; apply in_map_iff in HI; destruct HI as (z & Z1 & _); discriminate Z1].
    all: intros k0 m id0 q HI; apply in_map_iff in HI; destruct HI as (z & Z1 & Z2); injection Z1 as ->; apply in_conn_trace in Z2; destruct (cstep_conns _ _ _ _ E) as [X _]; [discriminate|]; rewrite X in Z2; exact Z2.
  - destruct (nth_error (y_points y) j) as [pt|]; [|discriminate H]. destruct (p_crash (pt_cp pt)); [discriminate H|]. destruct (p_pc (pt_cp pt)); try discriminate H. destruct (existsb (dialling j) (y_wires y)); [discriminate H|].
    destruct (url_path (pt_url pt ++ "/" ++ pt_id pt)) as [path|]; [|discriminate H]. destruct (cstep (VHttp true "GET" path) (y_central y)) as [[s' oo]|] eqn:E; [|discriminate H]. injection H as <- <-. split.
    + intros k0 m id0 q HI. apply in_app_or in HI. destruct HI as [HI|[HI|[]]]; [|discriminate HI]. apply in_map_iff in HI. destruct HI as (z & Z1 & Z2); injection Z1 as ->; apply in_conn_trace in Z2; destruct (cstep_conns _ _ _ _ E) as [X _]; [discriminate|]; rewrite X in Z2; exact Z2.
    + intros j0 i m id0 q HI. apply in_app_or in HI. destruct HI as [HI|[HI|[]]]; [|discriminate HI]. apply in_map_iff in HI. destruct HI as (z & Z1 & _). discriminate Z1.
  - destruct (nth_error (y_points y) j) as [pt|]; [|discriminate H]. destruct (nth_error (y_wires y) k) as [w|]; [|discriminate H]. destruct (nth_error (s_ks (y_central y)) k) as [x|]; [|discriminate H].
    destruct (dialling j w && shaken (k_pc x)); [|discriminate H]. destruct (xstep (XDial true) (pt_cp pt)) as [[p' oo]|] eqn:E; [|discriminate H]. injection H as <- <-. destruct (xstep_dial _ _ _ E) as (_ & _ & ->).
    split; [intros k0 m id0 q HI|intros j0 i m id0 q HI]; destruct HI as [HI|[HI|[]]]; discriminate HI.
  - destruct (nth_error (y_points y) j) as [pt|] eqn:EJ; [|discriminate H]. destruct x as [ok| |i e|inh id q| | |]; cbn [ycalm from_outside] in HC, HO; try discriminate HC; try discriminate HO.
    + destruct (xstep XStep (pt_cp pt)) as [[p' oo]|] eqn:E; [|discriminate H]. injection H as <- <-. destruct (xstep_conns _ _ _ _ E) as [_ X]. split.
      * intros k0 m id0 q HI. apply in_map_iff in HI. destruct HI as (z & Z1 & _). discriminate Z1.
      * intros j0 i m id0 q HI. apply in_map_iff in HI. destruct HI as (z & Z1 & Z2). injection Z1 as _ ->. apply link_in in Z2. rewrite X in Z2. exact Z2.
    + destruct (ylink_inv _ _ _ _ _ _ _ _ H) as (k & w & c & q & p' & oo & A1 & A2 & A3 & A4 & A5 & -> & ->). unfold xstep in A5. destruct (p_crash (pt_cp pt)); [discriminate A5|].
      destruct (pconn_inv _ _ _ _ _ A5) as (c1 & c' & oc & Y1 & _ & Y3 & Y4 & Y5). split.
      * intros k0 m id0 q0 HI. apply in_app_or in HI. destruct HI as [HI|HI]; [apply in_map_iff in HI; destruct HI as (z & Z1 & _); discriminate Z1|exact (no_put _ _ _ _ HI)].
      * intros j0 i0 m id0 q0 HI. apply in_app_or in HI. destruct HI as [HI|HI]; [|apply in_put in HI; destruct HI as (w0 & t & HI); discriminate HI]. apply in_map_iff in HI. destruct HI as (z & Z1 & Z2). injection Z1 as _ ->.
        rewrite Y5 in Z2. apply in_app_or in Z2. destruct Z2 as [Z2|Z2].
        -- apply in_map_iff in Z2. destruct Z2 as (z & Z1 & Z2). injection Z1 as _ ->. exact (no_call_step _ _ _ _ _ Y3 HO _ _ _ Z2).
        -- destruct (ppc_after e c' (p_pc (pt_cp pt))); try exact (False_ind _ Z2). destruct (p_pc (pt_cp pt)); try exact (False_ind _ Z2). destruct Z2 as [Z2|[]]. discriminate Z2.
Qed.

(** At rest, everything that was asked for has been done. *)
Lemma rest_done cfg y tr : yreach cfg y tr -> yci cfg y tr -> s_crash (y_central y) = false -> (forall j pt, nth_error (y_points y) j = Some pt -> p_crash (pt_cp pt) = false) -> yrest y tr ->
  (forall j id, known_as cfg j id -> in_place tr j id) /\ all_done tr /\ nothing_under_way y /\ forall k j i, In (Connected k j i) tr -> at_rest k j i y.
Proof.
  intros HR Z HC HP (R1 & R2 & R3 & R4). pose proof (z_inv _ _ _ Z) as V. pose proof (y_c _ _ _ V) as CR. pose proof (creach_inv _ _ CR) as VC.
  assert (W : forall k w, nth_error (y_wires y) k = Some w -> exists j i n, w_peer w = Met j i /\ on_wire_k k j i y n /\ calm_reach n (wire_trace k (Some (j, i)) tr) /\ (forall s, quiet s n) /\ forall s, c_crash (conn_of s n) = false).
  { intros k w HK. destruct (R4 _ _ HK) as (j & i & n & OW & N & Q). exists j, i, n. pose proof OW as [(x & X1 & X2 & X3) _ (pt & P1 & P2 & P3 & P4 & P5 & P6) HW]. split; [rewrite HK in HW; injection HW as ->; reflexivity|]. split; [exact OW|]. split; [exact N|]. split; [exact Q|].
    intros []; cbn [conn_of]; [rewrite <- X3; exact (no_crash_conn _ _ CR HC _ _ X1)|exact (no_crash_point _ _ (y_p _ _ _ V _ _ P1) P5 _ _ P6)]. }
  assert (CW : forall k j i, In (Connected k j i) tr -> exists n, on_wire_k k j i y n /\ calm_reach n (wire_trace k (Some (j, i)) tr) /\ (forall s, quiet s n) /\ forall s, c_crash (conn_of s n) = false).
  { intros k j i HI. apply (y_conn _ _ _ V) in HI. destruct HI as (w & W1 & W2). destruct (W _ _ W1) as (j' & i' & n & E & N). rewrite W2 in E. injection E as <- <-. exists n. exact N. }
  assert (DN : forall k j i s n id q, In (Connected k j i) tr -> In (seen k j i s (OCall n id q)) tr -> ycall_done tr k j i s n id q).
  { intros k j i s n0 id q HI HX. destruct (CW _ _ _ HI) as (n & _ & N & Q & C). assert (HY : In (NObs s (OCall n0 id q)) (wire_trace k (Some (j, i)) tr)) by (apply in_wire; destruct s; exact HX).
    destruct (quiet_done _ _ N C Q _ _ _ _ HY) as [(o & O1 & O2)|(r & O1 & O2)]; [left; exists o|right; exists r]; (split; [apply in_wire in O1; destruct s; exact O1|]); [exact O2|].
    destruct O2 as [O2|O2]; [left; exact O2|right; apply in_wire in O2; destruct s; exact O2]. }
  split; [|split; [|split]].
  - intros j id (c & K1 & K2). rewrite <- (y_cfg _ _ _ V), nth_error_map in K1. destruct (nth_error (y_points y) j) as [pt|] eqn:EJ; [|discriminate K1]. injection K1 as <-. cbn [fst snd] in K2.
    assert (PS : p_pc (pt_cp pt) = PServe). { destruct (R3 _ _ EJ) as [X|[_ X]]; [exact X|]. unfold identity_seen in K2. rewrite X in K2. discriminate K2. }
    destruct (z_p _ _ _ Z _ _ EJ) as [_ PL]. rewrite PS in PL. pose proof (y_p _ _ _ V _ _ EJ) as XR. pose proof (xreach_inv _ _ XR) as J. destruct (j_num _ _ J) as [J1 _]. rewrite PS, PL in J1. cbn [fresh] in J1.
    destruct (y_all _ _ _ V _ _ 0 EJ) as (k & w & W1 & W2); [rewrite PL; lia|]. destruct (wire_k _ _ _ _ _ V W1) as [x HX]. pose proof (y_net _ _ _ V _ _ _ W1 HX) as JN. unfold joined in JN. rewrite W2 in JN. destruct JN as ((c & K3 & K4) & _).
    rewrite <- (y_cfg _ _ _ V), nth_error_map, EJ in K3. injection K3 as <-. cbn [fst snd] in K4. assert (ID : k_id x = id) by congruence.
    destruct (i_life _ _ VC) as [L _]. specialize (L _ _ HX). unfold script in L. rewrite (R2 _ _ HX), ID in L. cbv zeta in L. destruct L as [f L].
    assert (LI : forall o, In o [OArrived k id; ORegistered k id; OStartOn f k id] -> In (AtCentral o) tr). { intros o HI. rewrite <- L in HI. apply life_in in HI. apply in_central. exact HI. }
    exists k, 0, f. split; [apply (y_conn _ _ _ V); exists w; auto|]. split; [|split; [|split; [|split; [|split]]]].
    + apply in_point. assert (X : In 0 (ups (at_charge_point j tr))) by (rewrite (j_ups _ _ J); apply in_seq; lia). unfold ups in X. apply qpick_in in X. destruct X as (o & X1 & X2). destruct o; try discriminate X2. injection X2 as ->. exact X1.
    + apply in_point. apply (new_returned _ _ XR). destruct (p_new (pt_cp pt)) eqn:E; [|reflexivity]. destruct (j_new _ _ J E) as [X _]. rewrite X in J1. discriminate J1.
    + apply LI. right. left. reflexivity.
    + apply LI. right. right. left. reflexivity.
    + pose proof (i_goes _ _ VC) as G. unfold inv_goes in G. rewrite R1, app_nil_r in G. assert (X : In (true, f, id) (started (central tr))).
      { unfold started. apply cpick_in. exists (OStartOn f k id). split; [apply in_central; apply LI; right; right; left; reflexivity|reflexivity]. }
      apply (Permutation_in _ G) in X. unfold called in X. apply cpick_in in X. destruct X as (o & X1 & X2). apply in_central. destruct o; try discriminate X2; injection X2 as -> ->; exact X1.
    + apply (i_on _ _ VC). apply cnt_pos. exists k, x. split; [exact HX|]. split; [exact ID|]. rewrite (R2 _ _ HX). reflexivity.
  - split.
    + intros k n id q HI. apply in_central in HI. destruct (conn_on _ _ _ _ CR HI) as [x HX]. destruct (k_wire _ _ _ _ _ V HX) as [w HW]. destruct (W _ _ HW) as (j & i & _ & E & _). exists j, i.
      assert (HJ : In (Connected k j i) tr) by (apply (y_conn _ _ _ V); exists w; auto). split; [exact HJ|]. apply (DN k j i Central n id q HJ). apply in_central. exact HI.
    + intros j i n id q HI. destruct (point_connected _ _ _ _ _ _ HR HI) as [k HK]. exists k. split; [exact HK|]. exact (DN k j i Point n id q HK HI).
  - intros w HI. apply In_nth_error in HI. destruct HI as [k HK]. destruct (W _ _ HK) as (j & i & n & _ & [_ _ _ HW] & _ & Q & _). rewrite HK in HW. injection HW as ->. cbn [w_in w_out]. split; [exact (proj1 (proj2 (proj2 (Q Central))))|exact (proj1 (proj2 (proj2 (Q Point))))].
  - intros k j i HI. destruct (CW _ _ _ HI) as (n & OW & N & Q & C). exists n. split; [exact OW|exact (quiet_both _ _ N C Q)].
Qed.
(** *** C93: undisturbed, the whole system comes to rest, whatever the schedule *)
(** However the steps of the central system, of all charge points and of the network interleave: after finitely many of them every charge
    point has its connection, is registered and online, and the listener was called for it; every call made anywhere has been
    answered (unless it had no encoding or the handler gave nothing to answer with); nothing is in the network and every
    connection is ready for the next call.  Until then there is a step to take. *)
Theorem C93_everything_settles : forall cfg y tr, ycalm_reach cfg y tr -> all_present tr ->
  inevitably ycalm_step (fun y' tr' => (forall j id, known_as cfg j id -> in_place tr' j id) /\ all_done tr' /\ nothing_under_way y' /\ (forall k j i, In (Connected k j i) tr' -> at_rest k j i y')) y tr.
Proof.
  intros cfg y. induction y as [y IH] using (well_founded_induction ylighter_wf). intros tr HR HK. pose proof (ycalm_inv _ _ _ HR) as Z. destruct (all_alive _ _ _ Z HK) as [A1 A2].
  destruct (ycalm_or_rest _ _ _ Z A1 A2) as [G|R].
  - apply iv_later; [exact G|]. intros y' o ST. apply IH; [exact (ycalm_lighter _ _ _ _ _ Z ST)| |].
    + destruct ST as (v & E1 & _ & E3 & _). exact (ycalm_S _ _ _ _ _ _ HR E1 E3).
    + destruct (ycalm_calls _ _ _ ST) as [C1 C2], HK as [K1 K2]. split.
      * intros k n id q HI. apply in_app_or in HI. destruct HI as [HI|HI]; [exact (K1 _ _ _ _ HI)|destruct (C1 _ _ _ _ HI)].
      * intros j i n id q HI. apply in_app_or in HI. destruct HI as [HI|HI]; [exact (K2 _ _ _ _ _ HI)|destruct (C2 _ _ _ _ _ HI)].
  - apply iv_now. exact (rest_done _ _ _ (ycalm_yreach _ _ _ HR) Z A1 A2 R).
Qed.
(** No schedule goes on for ever. *)
Theorem C93_no_endless_schedule : forall cfg (f : nat -> sys) (g : nat -> list yobs) tr, ycalm_reach cfg (f 0) tr -> ~ forall k, ycalm_step (f k) (f (S k)) (g k).
Proof.
  intros cfg f g tr HR H. assert (X : forall y, Acc ylighter y -> forall k t, f k = y -> ycalm_reach cfg y t -> False).
  { induction 1 as [y _ IH]. intros k t EK CR. pose proof (H k) as ST. rewrite EK in ST. apply (IH (f (S k))) with (k := S k) (t := t ++ g k); [|reflexivity|].
    - exact (ycalm_lighter _ _ _ _ _ (ycalm_inv _ _ _ CR) ST).
    - destruct ST as (v & E1 & _ & E3 & _). exact (ycalm_S _ _ _ _ _ _ CR E1 E3). }
  exact (X (f 0) (ylighter_wf _) 0 tr eq_refl HR).
Qed.
(** The start itself is undisturbed, so it always gets there: two charge points, nothing asked for yet. *)
Theorem C93_all_connect : forall cfg, inevitably ycalm_step (fun y' tr' => forall j id, known_as cfg j id -> in_place tr' j id) (sys0 cfg) [].
Proof.
  intros cfg. assert (X := C93_everything_settles cfg (sys0 cfg) [] (ycalm_0 _)). assert (K : all_present []) by (split; [intros k n id q []|intros j i n id q []]). specialize (X K). clear K.
  induction X as [y tr X|y tr X1 X2 IH]; [apply iv_now; exact (proj1 X)|apply iv_later; [exact X1|exact IH]].
Qed.
Lemma ycalm_run cfg vs : forall y tr y' o, ycalm_reach cfg y tr -> forallb ycalm vs = true -> yrun vs y = Some (y', o) -> ycalm_reach cfg y' (tr ++ o).
Proof.
  induction vs as [|v vs IH]; intros y tr y' o HR HC H; cbn [yrun] in H; [injection H as <- <-; rewrite app_nil_r; exact HR|].
  cbn [forallb] in HC. apply andb_true_iff in HC. destruct HC as [C1 C2]. destruct (ystep v y) as [[y1 o1]|] eqn:E1; [|discriminate H]. destruct (yrun vs y1) as [[y2 o2]|] eqn:E2; [|discriminate H]. injection H as <- <-.
  rewrite app_assoc. exact (IH _ _ _ _ (ycalm_S _ _ _ _ _ _ HR C1 E1) C2 E2).
Qed.
Lemma ycalm_reached vs : forallb ycalm vs = true -> yruns vs = true -> ycalm_reach two_points (ystate_of vs) (ytrace_of vs).
Proof. unfold yruns, ystate_of, ytrace_of. intros HC. destruct (yrun vs (sys0 two_points)) as [[s o]|] eqn:E; [|discriminate]. intros _. exact (ycalm_run _ _ _ _ _ _ (ycalm_0 _) HC E). Qed.
(** In the middle of it: "a" is connected, "b" is dialling, the central system has written half of a request to "a", and "a" has just called Send. *)
Definition busy := dials_up 0 0 ++ accepted 0 0 ++ [YAsk 1; YCentral (VStep 1)] ++
  on_wire 0 0 0 (map (pair Central) [ESend false "9" reset_q; EStep 0; EStep 0; EStep 0; EChunk (WS 0) 5] ++ map (pair Point) [ESend false "7" hb]).
Definition call_ok (x : yobs) : bool := match x with AtCentral (OConn _ (OCall _ _ q)) | AtPoint _ (QConn _ (OCall _ _ q)) => expiry_present (TStruct (m_ty q)) (m_val q) | _ => true end.
Lemma calls_ok tr : forallb call_ok tr = true -> all_present tr.
Proof. intros H. rewrite forallb_forall in H. split; [intros k n id q HI; exact (H _ HI)|intros j i n id q HI; exact (H _ HI)]. Qed.
Example C93_ex : let tr := ytrace_of busy in ycalm_reach two_points (ystate_of busy) tr /\ all_present tr /\ known_as two_points 0 "a" /\ known_as two_points 1 "b" /\
  In (AtCentral (OConn 0 (OCall 0 "9" reset_q))) tr /\ In (AtPoint 0 (QConn 0 (OCall 0 "7" hb))) tr /\ In (Connected 0 0 0) tr /\ In (Asked 1 1) tr.
Proof.
  cbv zeta. split; [apply ycalm_reached; vm_compute; reflexivity|]. split; [apply calls_ok; vm_compute; reflexivity|]. split; [exact known_a|]. split; [exact known_b|]. split; [isin|]. split; [isin|]. split; isin.
Qed.
Definition sys_settle_theorems := (C93_everything_settles, C93_no_endless_schedule, C93_all_connect).
Print Assumptions sys_settle_theorems.
