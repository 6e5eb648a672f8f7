(** Property theorems C106: the whole does what its parts do. *)
From Coq Require Import Arith.
From Verif Require Import GoBase Utf8 Json Float64 Codec Any Tables Registry Frame Conn SpecConn ConnBase ConnInv ConnFate ConnTop CentralSystem SpecCS CSInv CSMore ChargePoint SpecCP CPInv CPMore
  Net SpecNet NetProofs System SpecSys SysInv SysMore SysLive SpecLive SpecSettle LiveProofs PanicProofs PropsConn PropsCS PropsCP PropsNet PropsLive PropsSys.
Open Scope string_scope.
Open Scope list_scope.
Opaque marshal_message read_text unmarshal_request call_to_request result_to_response utf8_valid msg_ok is_request action_of step.

(** *** C106: what is proved of one process holds of every process of the whole *)
(** What the central system, a charge point and each of their connections show
    in the whole is something they show on their own, in the same state. *)
Theorem C106_central : forall cfg y tr, yreach cfg y tr -> creach (y_central y) (central tr) /\
  forall k x, nth_error (s_ks (y_central y)) k = Some x -> reach CS (k_conn x) (conn_trace k (central tr)).
Proof.
  intros cfg y tr HR. pose proof (yreach_inv _ _ _ HR) as V. pose proof (y_c _ _ _ V) as C. split; [exact C|]. intros k x HN. exact (proj1 (proj1 (i_proj _ _ (creach_inv _ _ C)) _ _ HN)).
Qed.
Theorem C106_point : forall cfg y tr j pt, yreach cfg y tr -> nth_error (y_points y) j = Some pt -> xreach (pt_cp pt) (at_charge_point j tr) /\
  forall i c, nth_error (p_conns (pt_cp pt)) i = Some c -> reach CP c (link i (at_charge_point j tr)).
Proof.
  intros cfg y tr j pt HR HN. pose proof (y_p _ _ _ (yreach_inv _ _ _ HR) _ _ HN) as X. split; [exact X|]. intros i c HC. pose proof (j_link _ _ (xreach_inv _ _ X) i) as L. rewrite HC in L. exact L.
Qed.

(** Its own steps need nobody else *)
Lemma cs_unaided_own v : cs_unaided v = true -> cs_own v = true.
Proof. destruct v; try discriminate; [reflexivity|]. destruct e; first [reflexivity|discriminate]. Qed.
Lemma cp_unaided_own x : cp_unaided x = true -> cp_own x = true.
Proof. destruct x; try discriminate; [reflexivity|]. destruct e; first [reflexivity|discriminate]. Qed.
Lemma forallb_weaken {A} (f g : A -> bool) : (forall x, f x = true -> g x = true) -> forall l, forallb f l = true -> forallb g l = true.
Proof. intros H l. rewrite !forallb_forall. auto. Qed.
Lemma lift_central cfg y tr v s' o : yreach cfg y tr -> cs_own v = true -> cstep v (y_central y) = Some (s', o) ->
  exists y' yo, ystep (YCentral v) y = Some (y', yo) /\ y_central y' = s' /\ y_points y' = y_points y /\ central yo = o.
Proof.
  intros HR HU HS. pose proof (yreach_inv _ _ _ HR) as V. cbn [ystep]. unfold ycentral. rewrite HS. destruct v; try discriminate HU.
  - eexists _, _. split; [reflexivity|]. cbn [y_central y_points]. rewrite central_central. auto.
  - assert (KX : exists x, nth_error (s_ks (y_central y)) k = Some x).
    { unfold cstep in HS. destruct (s_crash (y_central y)); [discriminate HS|]. destruct (nth_error (s_ks (y_central y)) k) as [x|]; [eauto|discriminate HS]. }
    destruct KX as (x & HX). rewrite HX. assert (LW : k < length (y_wires y)) by (rewrite (y_len _ _ _ V); apply nth_error_Some; rewrite HX; discriminate).
    destruct (nth_some _ _ LW) as (w & HW). rewrite HW.
    assert (AL : exists q, central_allows e w = Some q).
    { unfold central_allows, wire_allows, allowed. destruct e; try discriminate HU; destruct (w_peer w); eexists; reflexivity. }
    destruct AL as (q & AL). rewrite AL. eexists _, _. split; [reflexivity|]. cbn [y_central y_points]. rewrite central_app, central_central, central_put, app_nil_r. auto.
  - eexists _, _. split; [reflexivity|]. cbn [y_central y_points]. rewrite central_central. auto.
Qed.
Lemma lift_central_run cfg vs : forall y tr s' o, yreach cfg y tr -> forallb cs_own vs = true -> crun vs (y_central y) = Some (s', o) ->
  exists y' yo, yrun (map YCentral vs) y = Some (y', yo) /\ y_central y' = s' /\ y_points y' = y_points y /\ central yo = o.
Proof.
  induction vs as [|v vs IH]; intros y tr s' o HR HU HS; cbn [crun map yrun forallb] in *.
  - injection HS as <- <-. exists y, []. auto.
  - apply andb_true_iff in HU. destruct HU as [U1 U2]. destruct (cstep v (y_central y)) as [[s1 o1]|] eqn:E1; [|discriminate HS].
    destruct (crun vs s1) as [[s2 o2]|] eqn:E2; [|discriminate HS]. injection HS as <- <-.
    destruct (lift_central _ _ _ _ _ _ HR U1 E1) as (y1 & yo1 & S1 & C1 & P1 & T1). rewrite <- C1 in E2.
    destruct (IH _ _ _ _ (yreach_S _ _ _ _ _ _ HR S1) U2 E2) as (y2 & yo2 & S2 & C2 & P2 & T2). rewrite S1, S2. eexists _, _. split; [reflexivity|].
    split; [exact C2|]. split; [rewrite P2; exact P1|]. rewrite central_app, T1, T2. reflexivity.
Qed.
Lemma lift_point cfg y tr j pt x p' o : yreach cfg y tr -> nth_error (y_points y) j = Some pt -> cp_own x = true -> xstep x (pt_cp pt) = Some (p', o) ->
  exists y' yo, ystep (YPoint j x) y = Some (y', yo) /\ y_central y' = y_central y /\ nth_error (y_points y') j = Some (MkPt (pt_url pt) (pt_id pt) p') /\
    (forall j', j' <> j -> nth_error (y_points y') j' = nth_error (y_points y) j') /\ at_charge_point j yo = o.
Proof.
  intros HR HN HU HS. pose proof (yreach_inv _ _ _ HR) as V.
  assert (G1 : nth_error (set_point j pt p' y) j = Some (MkPt (pt_url pt) (pt_id pt) p')) by (unfold set_point; rewrite nth_upd, Nat.eqb_refl, HN; reflexivity).
  assert (G2 : forall j', j' <> j -> nth_error (set_point j pt p' y) j' = nth_error (y_points y) j').
  { intros j' ND. unfold set_point. rewrite nth_upd. destruct (Nat.eqb j j') eqn:E; [apply Nat.eqb_eq in E; symmetry in E; contradiction|reflexivity]. }
  cbn [ystep]. rewrite HN. destruct x; try discriminate HU.
  - rewrite HS. eexists _, _. split; [reflexivity|]. cbn [y_central y_points]. rewrite point_point, Nat.eqb_refl. auto.
  - assert (KX : exists c, nth_error (p_conns (pt_cp pt)) k = Some c).
    { unfold xstep, pconn in HS. destruct (p_crash (pt_cp pt)); [discriminate HS|]. destruct (nth_error (p_conns (pt_cp pt)) k) as [c|]; [eauto|discriminate HS]. }
    destruct KX as (c & HX). assert (LI : k < length (p_conns (pt_cp pt))) by (apply nth_error_Some; rewrite HX; discriminate).
    destruct (y_all _ _ _ V _ _ _ HN LI) as (kw & w & W1 & W2).
    assert (FW : find_wire j k (y_wires y) = Some kw).
    { apply find_wire_is; [|eauto]. intros k' w' A B. exact (y_inj _ _ _ V _ _ _ _ _ _ A W1 B W2). }
    unfold ylink. rewrite FW, HX, W1. assert (AL : exists q, wire_allows Point e w = Some q) by (unfold wire_allows, allowed; destruct e; try discriminate HU; eexists; reflexivity).
    destruct AL as (q & AL). rewrite AL, HS. eexists _, _. split; [reflexivity|]. cbn [y_central y_points]. rewrite point_app, point_point, point_put, Nat.eqb_refl, app_nil_r. auto.
Qed.
Lemma lift_point_run cfg j xs : forall y tr pt p' o, yreach cfg y tr -> nth_error (y_points y) j = Some pt -> forallb cp_own xs = true -> xrun xs (pt_cp pt) = Some (p', o) ->
  exists y' yo, yrun (map (YPoint j) xs) y = Some (y', yo) /\ y_central y' = y_central y /\ nth_error (y_points y') j = Some (MkPt (pt_url pt) (pt_id pt) p') /\
    (forall j', j' <> j -> nth_error (y_points y') j' = nth_error (y_points y) j') /\ at_charge_point j yo = o.
Proof.
  induction xs as [|x xs IH]; intros y tr pt p' o HR HN HU HS; cbn [xrun map yrun forallb] in *.
  - injection HS as <- <-. exists y, []. rewrite HN. destruct pt. auto.
  - apply andb_true_iff in HU. destruct HU as [U1 U2]. destruct (xstep x (pt_cp pt)) as [[p1 o1]|] eqn:E1; [|discriminate HS].
    destruct (xrun xs p1) as [[p2 o2]|] eqn:E2; [|discriminate HS]. injection HS as <- <-.
    destruct (lift_point _ _ _ _ _ _ _ _ HR HN U1 E1) as (y1 & yo1 & S1 & C1 & N1 & X1 & T1).
    destruct (IH _ _ (MkPt (pt_url pt) (pt_id pt) p1) _ _ (yreach_S _ _ _ _ _ _ HR S1) N1 U2 E2) as (y2 & yo2 & S2 & C2 & N2 & X2 & T2). rewrite S1, S2. eexists _, _. split; [reflexivity|].
    split; [rewrite C2; exact C1|]. split; [exact N2|]. split; [intros j' ND; rewrite (X2 _ ND); exact (X1 _ ND)|]. rewrite point_app, T1, T2. reflexivity.
Qed.

(** The wire of every connection made, with its two ends, runs as a wire alone (C57, C58, C64, C65, C82-C84). *)
Theorem C106_wire : forall cfg y tr k j i, yreach cfg y tr -> In (Connected k j i) tr -> exists net, nreach net (wire_trace k (Some (j, i)) tr).
Proof. intros cfg y tr k j i HR HC. destruct (met_net _ _ _ _ _ _ HR HC) as (net & _ & NR & _). exists net. exact NR. Qed.
(** A step of the whole is a step of the central system, and no charge point is touched,
    or of one charge point, and neither the others nor the central system are. *)
Theorem C106_one_at_a_time : forall v y y' o, ystep v y = Some (y', o) ->
  y_points y' = y_points y \/
  exists j, y_central y' = y_central y /\ forall j', j' <> j -> nth_error (y_points y') j' = nth_error (y_points y) j'.
Proof.
  intros v y y' o H.
  assert (G : forall j pt p', forall j', j' <> j -> nth_error (set_point j pt p' y) j' = nth_error (y_points y) j').
  { intros j pt p' j' ND. unfold set_point. rewrite nth_upd. destruct (Nat.eqb j j') eqn:E; [apply Nat.eqb_eq in E; symmetry in E; contradiction|reflexivity]. }
  destruct v as [v|j|j k|j x]; cbn [ystep] in H.
  - left. unfold ycentral in H. destruct (cstep v (y_central y)) as [[s' oo]|]; [|discriminate H].
    destruct v; try (injection H as <- _; reflexivity). destruct (nth_error (y_wires y) k) as [w|]; [|discriminate H]. destruct (nth_error (s_ks (y_central y)) k) as [x|]; [|discriminate H].
    destruct (central_allows e w) as [q|]; [|discriminate H]. injection H as <- _. reflexivity.
  - left. destruct (nth_error (y_points y) j) as [pt|]; [|discriminate H]. destruct (p_crash (pt_cp pt)); [discriminate H|]. destruct (p_pc (pt_cp pt)); try discriminate H.
    destruct (existsb (dialling j) (y_wires y)); [discriminate H|]. destruct (url_path (pt_url pt ++ "/" ++ pt_id pt)) as [path|]; [|discriminate H].
    destruct (cstep (VHttp true "GET" path) (y_central y)) as [[s' oo]|]; [|discriminate H]. injection H as <- _. reflexivity.
  - right. exists j. destruct (nth_error (y_points y) j) as [pt|]; [|discriminate H]. destruct (nth_error (y_wires y) k) as [w|]; [|discriminate H].
    destruct (nth_error (s_ks (y_central y)) k) as [x|]; [|discriminate H]. destruct (dialling j w && shaken (k_pc x)); [|discriminate H].
    destruct (xstep (XDial true) (pt_cp pt)) as [[p' oo]|]; [|discriminate H]. injection H as <- _. split; [reflexivity|apply G].
  - right. exists j. destruct (nth_error (y_points y) j) as [pt|]; [|discriminate H].
    destruct x; repeat match type of H with
      | match (if ?b then _ else _) with _ => _ end = _ => destruct b
      | (if ?b then _ else _) = _ => destruct b
      end; try discriminate H;
      first [destruct (ylink_inv _ _ _ _ _ _ _ _ H) as (k1 & w & c & q' & p' & oo & _ & _ & _ & _ & _ & -> & _); split; [reflexivity|apply G]
            |match type of H with context [xstep ?x ?p] => destruct (xstep x p) as [[p' oo]|] end; [|discriminate H]; injection H as <- _; split; [reflexivity|apply G]].
Qed.

(** A closed connection is cleaned up by the central system's own steps: no charge point need do anything, the network need carry nothing. *)
Theorem C106_cleaned_up : forall cfg y tr k who, yreach cfg y tr -> s_crash (y_central y) = false -> In (AtCentral (ORegistered k who)) tr -> closed_on k (central tr) ->
  In (AtCentral (OCleaned k who)) tr \/
  exists vs y' o, length vs <= 26 /\ forallb cs_unaided vs = true /\ yrun (map YCentral vs) y = Some (y', o) /\ In (AtCentral (OCleaned k who)) o /\ y_points y' = y_points y.
Proof.
  intros cfg y tr k who HR HC HI HD. pose proof (yreach_inv _ _ _ HR) as V. apply in_central in HI.
  destruct (C77_cleaned_up _ _ _ _ (y_c _ _ _ V) HC HI HD) as [H|(vs & s1 & o & L & U & R & I)]; [left; apply in_central; exact H|right].
  destruct (lift_central_run _ _ _ _ _ _ HR (forallb_weaken _ _ cs_unaided_own _ U) R) as (y' & yo & R' & _ & P & T). exists vs, y', yo. split; [exact L|]. split; [exact U|]. split; [exact R'|]. split; [|exact P].
  apply in_central. rewrite T. exact I.
Qed.
(** So is one whose handler panicked. *)
Theorem C106_panic : forall cfg y tr k id who, yreach cfg y tr -> s_crash (y_central y) = false -> In (AtCentral (OConn k (OHPanic id))) tr -> In (AtCentral (ORegistered k who)) tr ->
  In (AtCentral (OCleaned k who)) tr \/
  exists vs y' o, length vs <= 7 /\ forallb cs_unaided vs = true /\ yrun (map YCentral vs) y = Some (y', o) /\ In (AtCentral (OCleaned k who)) o /\ y_points y' = y_points y.
Proof.
  intros cfg y tr k id who HR HC HP HI. pose proof (yreach_inv _ _ _ HR) as V. apply in_central in HI. apply in_central in HP.
  assert (HP' : In (OHPanic id) (conn_trace k (central tr))) by (unfold conn_trace; rewrite cpick_in; eexists; split; [exact HP|]; cbn; rewrite Nat.eqb_refl; reflexivity).
  destruct (panicked_cleanup _ _ _ _ _ (y_c _ _ _ V) HC HP' HI) as [H|(vs & s1 & o & L & U & R & I)]; [left; apply in_central; exact H|right].
  destruct (lift_central_run _ _ _ _ _ _ HR (forallb_weaken _ _ cs_unaided_own _ U) R) as (y' & yo & R' & _ & P & T). exists vs, y', yo. split; [exact L|]. split; [exact U|]. split; [exact R'|]. split; [|exact P].
  apply in_central. rewrite T. exact I.
Qed.
(** A cancelled charge point stops by its own steps, whatever the central system and the other charge points are doing, and they are as they were. *)
Theorem C106_stops : forall cfg y tr j pt i, yreach cfg y tr -> nth_error (y_points y) j = Some pt -> p_crash (pt_cp pt) = false -> let t := at_charge_point j tr in
  In QCancelled t -> up_now t = true -> S i = length (ups t) -> ~ link_closed i t ->
  exists xs y' o, length xs <= 20 /\ forallb cp_unaided xs = true /\ yrun (map (YPoint j) xs) y = Some (y', o) /\ In QStopped (at_charge_point j o) /\
    y_central y' = y_central y /\ forall j', j' <> j -> nth_error (y_points y') j' = nth_error (y_points y) j'.
Proof.
  intros cfg y tr j pt i HR HN HC t H1 H2 H3 H4. pose proof (yreach_inv _ _ _ HR) as V.
  destruct (C78_stops _ _ _ (y_p _ _ _ V _ _ HN) HC H1 H2 H3 H4) as (xs & p' & o & L & U & R & I).
  destruct (lift_point_run _ _ _ _ _ _ _ _ HR HN (forallb_weaken _ _ cp_unaided_own _ U) R) as (y' & yo & R' & C & _ & X & T). exists xs, y', yo. split; [exact L|]. split; [exact U|]. split; [exact R'|]. split; [rewrite T; exact I|]. split; [exact C|exact X].
Qed.
(** Charge point "a" has been cancelled while the central system is sending it a request; "b"'s connection was lost at the central system,
    whose handler for "a" then panics. *)
Definition troubled := both_up ++ [YPoint 0 XCancel; YCentral (VConn 1 (EReadErr 0 true)); YCentral (VConn 1 (EReader 0)); YCentral (VConn 1 (EReader 0))] ++
  on_wire 0 0 0 (put_on_wire 0 "7" hb ++ map (pair Central) [ERead 0 (hb_text "7"); EReader 0; ETake 0; ELoop; EHPanic]).
Example C106_ex : let y := ystate_of troubled in let tr := ytrace_of troubled in let t := at_charge_point 0 tr in
  yruns troubled = true /\ s_crash (y_central y) = false /\
  In (AtCentral (ORegistered 1 "b")) tr /\ closed_on 1 (central tr) /\ cleans "b" (central tr) = [] /\
  In (AtCentral (OConn 0 (OHPanic "7"))) tr /\ In (AtCentral (ORegistered 0 "a")) tr /\ cleans "a" (central tr) = [] /\
  (exists pt, nth_error (y_points y) 0 = Some pt /\ p_crash (pt_cp pt) = false) /\
  In QCancelled t /\ up_now t = true /\ length (ups t) = 1 /\ ~ link_closed 0 t /\ ~ In QStopped t /\ In (Connected 0 0 0) tr.
Proof.
  cbv zeta. unfold closed_on, link_closed. conjs; try (vm_compute; tauto); try (vm_compute; intuition discriminate).
  eexists. split; [vm_compute; reflexivity|]. vm_compute. reflexivity.
Qed.
Definition parts_theorems := (C106_central, C106_point, C106_wire, C106_one_at_a_time, C106_cleaned_up, C106_panic, C106_stops).
Print Assumptions parts_theorems.
