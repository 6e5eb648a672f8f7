(** Lemmas behind PropsLive.v: progress of the central system and of the charge point. *)
From Coq Require Import Arith.
From Verif Require Import GoBase Utf8 Json Float64 Codec Any Tables Registry Frame Conn SpecConn ConnBase ConnInv ConnSend ConnEvid ConnMore ConnFate ConnLast ConnTop CentralSystem SpecCS CSInv SpecLive CSMore ChargePoint SpecCP CPInv CPMore
  ConnLive PanicProofs.
Open Scope string_scope.
Open Scope list_scope.
Opaque marshal_message read_text unmarshal_request call_to_request result_to_response utf8_valid msg_ok is_request action_of step.

Lemma crash_step ro e c c' o : step ro e c = Some (c', o) -> c_crash c = false.
Proof. Transparent step. unfold step. destruct (c_crash c); [discriminate|reflexivity]. Opaque step. Qed.
Lemma crash_run ro es c c' o : run ro es c = Some (c', o) -> c_crash c' = false -> c_crash c = false.
Proof. destruct es as [|e es]; cbn [run]; [intros H; injection H as <- <-; auto|]. destruct (step ro e c) as [[c1 o1]|] eqn:E; [|discriminate]. intros _ _. exact (crash_step _ _ _ _ _ E). Qed.

(** ** The central system *)
Lemma upd_upd {A} k (x y : A) l : upd k x (upd k y l) = upd k x l.
Proof. revert k. induction l as [|z l IH]; intros [|k]; cbn [upd]; try reflexivity. rewrite IH. reflexivity. Qed.
Lemma upd_same {A} k (x : A) l : nth_error l k = Some x -> upd k x l = l.
Proof. revert k. induction l as [|z l IH]; intros [|k] H; cbn in *; try discriminate H; [injection H as ->; reflexivity|]. rewrite (IH _ H). reflexivity. Qed.
Lemma lift_crun es : forall s k x c' o, s_crash s = false -> nth_error (s_ks s) k = Some x -> k_pc x = KServe -> forallb unaided es = true -> run CS es (k_conn x) = Some (c', o) -> c_crash c' = false ->
  crun (map (VConn k) es) s = Some (set_ks (upd k (MkK (k_id x) (k_pc x) c') (s_ks s)) s, map (OConn k) o) /\ forallb cs_unaided (map (VConn k) es) = true.
Proof.
  induction es as [|e es IH]; intros s k x c' o HC HN HP HU HR CC; cbn [run map crun forallb] in *.
  - injection HR as <- <-. split; [|reflexivity]. assert (X : MkK (k_id x) (k_pc x) (k_conn x) = x) by (destruct x; reflexivity). rewrite X, (upd_same _ _ _ HN). destruct s. reflexivity.
  - apply andb_true_iff in HU. destruct HU as [U1 U2]. destruct (step CS e (k_conn x)) as [[c1 o1]|] eqn:E; [|discriminate HR]. destruct (run CS es c1) as [[c2 o2]|] eqn:E2; [|discriminate HR]. injection HR as <- <-.
    rewrite (conn_ev s k x e c1 o1 HC HN); [| |exact E|exact (crash_run _ _ _ _ _ E2 CC)].
    2:{ rewrite HP. destruct e; try discriminate U1; reflexivity. }
    destruct (IH (set_ks (upd k (MkK (k_id x) (k_pc x) c1) (s_ks s)) s) k (MkK (k_id x) (k_pc x) c1) c2 o2) as [IH1 IH2]; try assumption; [ssimp; rewrite nth_upd, Nat.eqb_refl, HN; reflexivity|].
    rewrite IH1. cbn [k_id k_pc]. ssimp. rewrite upd_upd, map_app. split; [reflexivity|]. rewrite IH2. destruct e; try discriminate U1; reflexivity.
Qed.
Lemma serve_cleanup s tr k x : creach s tr -> s_crash s = false -> nth_error (s_ks s) k = Some x -> k_pc x = KServe -> c_done (k_conn x) = true ->
  exists vs s1 o, length vs <= 25 /\ forallb cs_unaided vs = true /\ crun vs s = Some (s1, o) /\ In (OCleaned k (k_id x)) o.
Proof.
  intros HR HC HN HP HD. pose proof (no_crash_conn _ _ HR HC _ _ HN) as CC. destruct (proj1 (i_proj _ _ (creach_inv _ _ HR)) _ _ HN) as (R & _ & _).
  destruct (loop_back _ _ _ R CC) as (es & c' & o & L & U & RR & (W1 & W2 & W3 & W4) & HB). rewrite CC in W1. rewrite HD in W3.
  destruct (lift_crun _ _ _ _ _ _ HC HN HP U RR W1) as [LR LU]. pose proof (creach_run _ _ _ _ _ HR LR) as HR1.
  set (s1 := set_ks (upd k (MkK (k_id x) (k_pc x) c') (s_ks s)) s) in *. assert (N1 : nth_error (s_ks s1) k = Some (MkK (k_id x) (k_pc x) c')) by (unfold s1; ssimp; rewrite nth_upd, Nat.eqb_refl, HN; reflexivity).
  assert (Q : exists vs s2 o2, length vs <= 8 /\ forallb cs_unaided vs = true /\ crun vs s1 = Some (s2, o2) /\ In (OCleaned k (k_id x)) o2).
  { destruct HB as [[r HB]|HB].
    - exact (close_run _ _ _ (MkK (k_id x) (k_pc x) c') r HR1 HC N1 HP HB W3).
    - destruct (leave_run _ _ _ (MkK (k_id x) (k_pc x) c') HR1 HC N1 HP HB) as (vs & s2 & o2 & L2 & Q). exists vs, s2, o2. split; [lia|exact Q]. }
  destruct Q as (vs & s2 & o2 & L2 & U2 & R2 & I2). exists (map (VConn k) es ++ vs), s2, (map (OConn k) o ++ o2). split; [rewrite app_length, map_length; lia|]. split; [rewrite forallb_app, LU, U2; reflexivity|].
  split; [rewrite (crun_app _ _ _ _ _ LR), R2; reflexivity|]. apply in_or_app. right. exact I2.
Qed.
Lemma closed_cleanup s tr k who : creach s tr -> s_crash s = false -> In (ORegistered k who) tr -> closed_on k tr ->
  In (OCleaned k who) tr \/ exists vs s1 o, length vs <= 26 /\ forallb cs_unaided vs = true /\ crun vs s = Some (s1, o) /\ In (OCleaned k who) o.
Proof.
  intros HR HC HG HD. pose proof (creach_inv _ _ HR) as V. destruct (i_proj _ _ V) as [P1 P2]. destruct (i_life _ _ V) as [L1 L2]. unfold closed_on in HD.
  destruct (nth_error (s_ks s) k) as [x|] eqn:EN; [|rewrite (P2 _ EN) in HD; destruct HD]. destruct (P1 _ _ EN) as (R & E & G).
  assert (DN : c_done (k_conn x) = true) by (apply (done_seen _ _ _ R); exact HD).
  assert (HG' : In (ORegistered k who) (life k tr)) by (unfold life; rewrite cpick_in; eexists; split; [exact HG|]; cbn; rewrite Nat.eqb_refl; reflexivity).
  pose proof (L1 _ _ EN) as S. unfold script in S.
  assert (W : k_id x = who).
  { destruct (k_pc x); repeat match type of S with exists _, _ => let f := fresh "f" in destruct S as [f S] end; rewrite S in HG'; cbn [In] in HG'; repeat (destruct HG' as [HG'|HG']; try discriminate HG'); try (destruct HG'; fail); injection HG' as HG'; exact HG'. }
  subst who. assert (LT : late (k_pc x) = true -> k_pc x <> KEnd -> exists vs s1 o, length vs <= 26 /\ forallb cs_unaided vs = true /\ crun vs s = Some (s1, o) /\ In (OCleaned k (k_id x)) o).
  { intros X Y. destruct (cleanup_run _ _ _ _ HR HC EN (or_intror X) (G X) Y) as (vs & s1 & o & L & Q). exists vs, s1, o. split; [lia|exact Q]. }
  destruct (k_pc x) eqn:EP; try (repeat match type of S with exists _, _ => let f := fresh "f" in destruct S as [f S] end; rewrite S in HG'; cbn [In] in HG'; repeat (destruct HG' as [HG'|HG']; try discriminate HG'); destruct HG'; fail).
  - right.
    assert (S2 : crun [VStep k] s = Some (set_kpc k x KServe (set_goes (s_goes s ++ [(true, s_on s, k_id x)]) s), [OStartOn (s_on s) k (k_id x)])) by (apply (kstep_run _ _ _ _ _ HC EN); unfold kstep; rewrite EP; reflexivity).
    pose proof (creach_run _ _ _ _ _ HR S2) as HR2.
    destruct (serve_cleanup _ _ k (MkK (k_id x) KServe (k_conn x)) HR2) as (ws & s3 & o3 & L3 & U3 & R3 & I3); [exact HC|ssimp; rewrite nth_upd, Nat.eqb_refl, EN; reflexivity|reflexivity|exact DN|].
    eexists ([VStep k] ++ ws), s3, _. split; [cbn; lia|]. split; [exact U3|]. split; [rewrite (crun_app _ _ _ _ _ S2), R3; reflexivity|]. apply in_or_app. right. exact I3.
  - right. destruct (serve_cleanup _ _ _ _ HR HC EN EP DN) as (vs & s1 & o & L & Q). exists vs, s1, o. split; [lia|exact Q].
  - right. apply LT; [reflexivity|discriminate].
  - right. apply LT; [reflexivity|discriminate].
  - right. apply LT; [reflexivity|discriminate].
  - left. destruct S as (f & g & S). assert (X : In (OCleaned k (k_id x)) (life k tr)) by (rewrite S; cbn; tauto).
    unfold life in X. rewrite cpick_in in X. destruct X as (y & Y1 & Y2). destruct y; try discriminate Y2; cbv zeta in Y2; destruct (Nat.eqb _ _); try discriminate Y2; injection Y2 as -> ->; exact Y1.
Qed.

(** ** The charge point *)
Lemma no_crash_point p tr : xreach p tr -> p_crash p = false -> forall k c, nth_error (p_conns p) k = Some c -> c_crash c = false.
Proof.
  induction 1 as [|p tr x p' o HR IH HS]; intros HC k c HN; [destruct k; discriminate HN|].
  destruct (xstep_kind _ _ _ _ HS) as [C0 HK]. specialize (IH C0).
  destruct HK as [A1 A2 A3|A1 A2 A3 A4|A1 A2 A3 A4|A1 A2 A3|A1 A2 A3|A1 A2 A3|A1 A2 A3 A4|A1 A2 A3 A4|A1 A2 A3|A1 A2|A1 A2 A3|A1 A2 A3|j e d d' oo pre HJ OK ST E HP HO]; try subst p'; try exact (IH _ _ HN).
  - psimp_in HN. apply nth_app_inv in HN. destruct HN as [HN|[_ ->]]; [exact (IH _ _ HN)|reflexivity].
  - cbv zeta in HC, HN. destruct (c_crash d') eqn:CD; [discriminate HC|]. psimp_in HN. apply nth_upd_inv in HN. destruct HN as [[-> ->]|[_ HN]]; [exact CD|exact (IH _ _ HN)].
Qed.
Lemma point_ev k e p c c' o : p_crash p = false -> nth_error (p_conns p) k = Some c -> pconn_ok k e p = true -> step CP e c = Some (c', o) -> c_crash c' = false ->
  xstep (XConn k e) p = Some (pset_pc (ppc_after e c' (p_pc p)) (pset_conns (upd k c' (p_conns p)) p), map (QConn k) o ++ match ppc_after e c' (p_pc p), p_pc p with PEnd, PStop => [QStopped] | _, _ => [] end).
Proof. intros H1 H2 H3 H4 H5. unfold xstep, pconn. rewrite H1, H2, H3, H4, H5. reflexivity. Qed.
Lemma lift_xrun es : forall p k c c' o, p_crash p = false -> p_new p = false -> p_cur p = k -> nth_error (p_conns p) k = Some c -> p_pc p = PServe -> forallb unaided es = true -> run CP es c = Some (c', o) -> c_crash c' = false ->
  xrun (map (XConn k) es) p = Some (pset_conns (upd k c' (p_conns p)) p, map (QConn k) o) /\ forallb cp_unaided (map (XConn k) es) = true.
Proof.
  induction es as [|e es IH]; intros p k c c' o HC HW HK HN HP HU HR CC; cbn [run map xrun forallb] in *.
  - injection HR as <- <-. split; [|reflexivity]. rewrite (upd_same _ _ _ HN). destruct p. reflexivity.
  - apply andb_true_iff in HU. destruct HU as [U1 U2]. destruct (step CP e c) as [[c1 o1]|] eqn:E; [|discriminate HR]. destruct (run CP es c1) as [[c2 o2]|] eqn:E2; [|discriminate HR]. injection HR as <- <-.
    assert (PA : ppc_after e c1 (p_pc p) = PServe) by (rewrite HP; destruct e; try discriminate U1; reflexivity).
    rewrite (point_ev k e p c c1 o1 HC HN); [| |exact E|exact (crash_run _ _ _ _ _ E2 CC)].
    2:{ unfold pconn_ok. rewrite HW, HK, HP, Nat.leb_refl, Nat.eqb_refl. destruct e; try discriminate U1; reflexivity. }
    rewrite PA. assert (EP : pset_pc PServe (pset_conns (upd k c1 (p_conns p)) p) = pset_conns (upd k c1 (p_conns p)) p) by (destruct p; cbn in *; rewrite HP; reflexivity). rewrite EP, app_nil_r.
    destruct (IH (pset_conns (upd k c1 (p_conns p)) p) k c1 c2 o2) as [IH1 IH2]; try assumption; [psimp; rewrite nth_upd, Nat.eqb_refl, HN; reflexivity|].
    rewrite IH1. psimp. rewrite upd_upd, map_app. split; [destruct p; reflexivity|]. rewrite IH2. destruct e; try discriminate U1; reflexivity.
Qed.
(** The current connection, when one is in place *)
Lemma current p tr k : xreach p tr -> up_now tr = true -> S k = length (ups tr) -> p_new p = false /\ p_cur p = k /\ S k = length (p_conns p) /\ exists c, nth_error (p_conns p) k = Some c /\ reach CP c (link k tr).
Proof.
  intros HR HU HK. pose proof (xreach_inv _ _ HR) as V. rewrite (j_up _ _ V) in HU. apply negb_true_iff in HU. destruct (j_num _ _ V) as [N1 N2]. destruct (j_cur _ _ V) as [C1 _].
  assert (N : p_new p = false) by (destruct (p_new p) eqn:N; [destruct (j_new _ _ V N) as (X & _); rewrite X in HK; discriminate HK|reflexivity]).
  assert (F : fresh (p_pc p) = false) by (destruct (p_pc p); try reflexivity; discriminate HU). rewrite F in N1. split; [exact N|]. split; [destruct (p_pc p); try discriminate HU; lia|]. split; [lia|].
  pose proof (j_link _ _ V k) as L. destruct (nth_error (p_conns p) k) as [c|] eqn:E; [eauto|]. apply nth_error_None in E. lia.
Qed.
(** The loop comes back to its select, on the charge point *)
Lemma point_back p tr k c : xreach p tr -> p_crash p = false -> p_new p = false -> p_cur p = k -> S k = length (p_conns p) -> nth_error (p_conns p) k = Some c -> reach CP c (link k tr) -> p_pc p = PServe ->
  exists xs c' o r, length xs <= 17 /\ forallb cp_unaided xs = true /\ xrun xs p = Some (pset_conns (upd k c' (p_conns p)) p, map (QConn k) o) /\ c_loop c' = LSel r /\ c_crash c' = false /\ c_done c' = c_done c.
Proof.
  intros HR HC HN HK HL HE RC HP. pose proof (no_crash_point _ _ HR HC _ _ HE) as CC. destruct (loop_back _ _ _ RC CC) as (es & c' & o & L & U & RR & (W1 & W2 & W3 & W4) & HB). rewrite CC in W1.
  destruct (lift_xrun _ _ _ _ _ _ HC HN HK HE HP U RR W1) as [LR LU]. pose proof (xreach_run _ _ _ _ _ HR LR) as HR1.
  destruct HB as [[r HB]|HB]; [exists (map (XConn k) es), c', o, r; rewrite map_length; auto 8|exfalso].
  destruct (j_loop _ _ (xreach_inv _ _ HR1) k c') as [X _]; [psimp; rewrite nth_upd, Nat.eqb_refl, HE; reflexivity|]. psimp_in X. rewrite upd_length in X. specialize (X HL). rewrite HP in X. cbn in X. destruct X; congruence.
Qed.
(** Cancelled, connected, the connection not closed: it stops. *)
Lemma stop_run p tr k : xreach p tr -> p_crash p = false -> In QCancelled tr -> up_now tr = true -> S k = length (ups tr) -> ~ link_closed k tr ->
  exists xs p' o, length xs <= 20 /\ forallb cp_unaided xs = true /\ xrun xs p = Some (p', o) /\ In QStopped o.
Proof.
  intros HR HC HX HU HK ND. destruct (current _ _ _ HR HU HK) as (N & CU & LE & c & HE & RC). pose proof (xreach_inv _ _ HR) as V. apply (j_cancel _ _ V) in HX.
  pose proof (no_crash_point _ _ HR HC _ _ HE) as CC. destruct (j_loop _ _ V _ _ HE) as [HL _]. specialize (HL LE).
  assert (DN : c_done c = false) by (destruct (c_done c) eqn:D; [apply (done_seen _ _ _ RC) in D; contradiction|reflexivity]).
  (* from PStop *)
  Transparent step.
  assert (B : forall q d, p_crash q = false -> p_new q = false -> p_cur q = k -> nth_error (p_conns q) k = Some d -> p_pc q = PStop -> c_crash d = false -> c_loop d = LCancel -> exists q' o, xrun [XConn k ELoop] q = Some (q', o) /\ In QStopped o).
  { clear. intros q d Q1 Q2 Q3 Q4 Q5 Q6 Q7. eexists _, _. split.
    - cbn [xrun]. erewrite point_ev; [|exact Q1|exact Q4| |unfold step, loop_step; rewrite Q6, Q7; reflexivity|exact Q6]; [reflexivity|]. unfold pconn_ok. rewrite Q2, Q3, Q5, Nat.leb_refl, Nat.eqb_refl. reflexivity.
    - rewrite Q5. cbn. auto. }
  assert (A : forall q d, p_crash q = false -> p_new q = false -> p_cur q = k -> nth_error (p_conns q) k = Some d -> p_pc q = PStop -> c_crash d = false -> c_loop d = LClose -> exists q' o, xrun [XConn k ELoop; XConn k ELoop] q = Some (q', o) /\ In QStopped o).
  { clear - B. intros q d Q1 Q2 Q3 Q4 Q5 Q6 Q7. cbn [xrun]. erewrite point_ev; [|exact Q1|exact Q4| |unfold step, loop_step; rewrite Q6, Q7; reflexivity|exact Q6].
    2:{ unfold pconn_ok. rewrite Q2, Q3, Q5, Nat.leb_refl, Nat.eqb_refl. reflexivity. }
    rewrite Q5. cbn [ppc_after c_loop set_loop set_closed].
    match goal with |- context [xstep (XConn k ELoop) ?q1] => destruct (B q1 (set_loop LCancel (set_closed d))) as (q' & o & RB & IB) end; [exact Q1|exact Q2|exact Q3|psimp; rewrite nth_upd, Nat.eqb_refl, Q4; reflexivity|reflexivity|exact Q6|reflexivity|].
    cbn [xrun] in RB. destruct (xstep _ _) as [[q2 o2]|]; [|discriminate RB]. injection RB as -> <-. eexists _, _. split; [reflexivity|]. apply in_or_app. right. exact IB. }
  destruct (p_pc p) eqn:P; cbn in HL; try (rewrite (j_up _ _ V), P in HU; discriminate HU); try (destruct HL as [_ HL]; congruence).
  - (* serving *)
    destruct (point_back _ _ _ _ HR HC N CU LE HE RC P) as (xs & c' & o & r & L & U & R & SL & SC & _).
    set (p1 := pset_conns (upd k c' (p_conns p)) p) in *. assert (E1 : nth_error (p_conns p1) k = Some c') by (unfold p1; psimp; rewrite nth_upd, Nat.eqb_refl, HE; reflexivity).
    assert (S1 : xstep (XConn k EStop) p1 = Some (pset_pc PStop (pset_conns (upd k (set_loop LClose c') (p_conns p1)) p1), [QConn k OStop])).
    { rewrite (point_ev k EStop p1 c' (set_loop LClose c') [OStop] HC E1); [reflexivity| |unfold step; rewrite SC, SL; reflexivity|exact SC]. unfold pconn_ok. unfold p1. psimp. rewrite N, CU, HX, Nat.leb_refl. reflexivity. }
    destruct (A (pset_pc PStop (pset_conns (upd k (set_loop LClose c') (p_conns p1)) p1)) (set_loop LClose c')) as (q' & oo & RA & IA); [exact HC|exact N|exact CU|psimp; rewrite nth_upd, Nat.eqb_refl, E1; reflexivity|reflexivity|exact SC|reflexivity|].
    exists (xs ++ [XConn k EStop; XConn k ELoop; XConn k ELoop]), q', (map (QConn k) o ++ [QConn k OStop] ++ oo). split; [rewrite app_length; cbn; lia|]. split; [rewrite forallb_app, U; reflexivity|].
    split; [rewrite (xrun_app _ _ _ _ _ R); change [XConn k EStop; XConn k ELoop; XConn k ELoop] with (XConn k EStop :: [XConn k ELoop; XConn k ELoop]); rewrite (xrun_cons _ _ _ _ _ _ _ S1 RA); reflexivity|]. apply in_or_app. right. apply in_or_app. right. exact IA.
  - (* stopping *)
    destruct HL as [HL|HL].
    + destruct (A _ _ HC N CU HE P CC HL) as (q' & oo & RA & IA). exists [XConn k ELoop; XConn k ELoop], q', oo. repeat split; auto. cbn; lia.
    + destruct (B _ _ HC N CU HE P CC HL) as (q' & oo & RA & IA). exists [XConn k ELoop], q', oo. repeat split; auto. cbn; lia.
Qed.
(** The connection has closed: that is noticed, and another one can be put in place. *)
Lemma notice_run p tr k : xreach p tr -> p_crash p = false -> up_now tr = true -> ~ In QStopped tr -> ~ In QCancelled tr -> S k = length (ups tr) -> link_closed k tr ->
  exists xs p' o, length xs <= 19 /\ forallb cp_unaided xs = true /\ xrun xs p = Some (p', map (QConn k) o ++ [QLost k]) /\ p_crash p' = false /\ p_pc p' = PDial /\ p_new p' = p_new p.
Proof.
  intros HR HC HU NS NX HK HD. destruct (current _ _ _ HR HU HK) as (N & CU & LE & c & HE & RC). pose proof (xreach_inv _ _ HR) as V.
  assert (DN : c_done c = true) by (apply (done_seen _ _ _ RC); exact HD).
  assert (A : forall q, p_crash q = false -> p_cur q = k -> p_pc q = PMake -> exists q', xrun [XStep] q = Some (q', [QLost k]) /\ p_crash q' = false /\ p_pc q' = PDial /\ p_new q' = p_new q).
  { clear. intros q Q1 Q2 Q3. exists (MkP PDial (p_new q) (p_conns q) (p_cur q) (p_svc q) (p_nchan q) (S (p_nchan q)) (p_closed q) (p_cancel q) (p_crash q)). split; [cbn [xrun]; unfold xstep, pstep; rewrite Q3, Q1, <- Q2; reflexivity|split; [exact Q1|split; [reflexivity|reflexivity]]]. }
  destruct (p_pc p) eqn:P; try (rewrite (j_up _ _ V), P in HU; discriminate HU).
  - destruct (point_back _ _ _ _ HR HC N CU LE HE RC P) as (xs & c' & o & r & L & U & R & SL & SC & SD). rewrite DN in SD.
    set (p1 := pset_conns (upd k c' (p_conns p)) p) in *. assert (E1 : nth_error (p_conns p1) k = Some c') by (unfold p1; psimp; rewrite nth_upd, Nat.eqb_refl, HE; reflexivity).
    assert (S1 : xstep (XConn k ESeeClose) p1 = Some (pset_pc PMake (pset_conns (upd k (set_loop LGone c') (p_conns p1)) p1), [])).
    { rewrite (point_ev k ESeeClose p1 c' (set_loop LGone c') [] HC E1); [reflexivity| |unfold step; rewrite SC, SL, SD; reflexivity|exact SC]. unfold pconn_ok. unfold p1. psimp. rewrite N, CU, Nat.leb_refl. reflexivity. }
    destruct (A (pset_pc PMake (pset_conns (upd k (set_loop LGone c') (p_conns p1)) p1)) HC CU eq_refl) as (q' & RA & CA).
    exists (xs ++ [XConn k ESeeClose; XStep]), q', o. split; [rewrite app_length; cbn; lia|]. split; [rewrite forallb_app, U; reflexivity|].
    split; [rewrite (xrun_app _ _ _ _ _ R); change [XConn k ESeeClose; XStep] with (XConn k ESeeClose :: [XStep]); rewrite (xrun_cons _ _ _ _ _ _ _ S1 RA); reflexivity|exact CA].
  - destruct (A _ HC CU P) as (q' & RA & CA). exists [XStep], q', []. split; [cbn; lia|]. split; [reflexivity|]. split; [exact RA|exact CA].
  - exfalso. apply NX. apply (j_cancel _ _ V). exact (stopping_cancelled _ _ HR (or_introl P)).
  - exfalso. apply NS. apply (j_stop _ _ V). exact P.
Qed.

(** ... whatever the next dials do: after [n] failures the next success puts the next connection in place. *)
Lemma ups_conn k o : ups (map (QConn k) o) = [].
Proof. induction o as [|x o IH]; [reflexivity|exact IH]. Qed.
Lemma up_now_app a b : up_now (a ++ b) = fold_left (fun u o => match o with QUp _ => true | QLost _ => false | _ => u end) b (up_now a).
Proof. unfold up_now. apply fold_left_app. Qed.
Lemma renew_run p tr k n : xreach p tr -> p_crash p = false -> up_now tr = true -> ~ In QStopped tr -> ~ In QCancelled tr -> S k = length (ups tr) -> link_closed k tr ->
  exists xs ys p' o, length xs <= 19 /\ forallb cp_unaided xs = true /\ length ys <= 2 * n + 5 /\
    xrun (xs ++ ys) p = Some (p', map (QConn k) o ++ QLost k :: failures n ++ [QDialed true; QUp (S k)]).
Proof.
  intros HR HC HU NS NX HK HD. destruct (notice_run _ _ _ HR HC HU NS NX HK HD) as (xs & p1 & o & L & U & R & C1 & P1 & N1).
  pose proof (xreach_run _ _ _ _ _ HR R) as HR1. destruct (current _ _ _ HR HU HK) as (N & _).
  destruct (redial p1 _ n HR1 C1) as (ys & p' & RY & LY); [congruence| |rewrite P1; reflexivity|].
  - rewrite app_assoc, up_now_app. reflexivity.
  - exists xs, ys, p', o. split; [exact L|]. split; [exact U|]. split; [exact LY|]. rewrite (xrun_app _ _ _ _ _ R), RY.
    rewrite !ups_app, ups_conn. cbn [ups qpick flat_map app]. rewrite app_nil_r, <- HK, <- app_assoc. reflexivity.
Qed.
