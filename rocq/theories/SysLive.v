(** Runs of the whole system that go well. *)
From Coq Require Import Arith.
From Verif Require Import GoBase Utf8 Json Float64 Codec Any Tables Registry Frame Conn SpecConn ConnBase ConnInv ConnMore ConnFate ConnServe CentralSystem SpecCS CSInv CSMore ChargePoint SpecCP CPInv CPMore
  Net SpecNet NetProofs NetMore NetLive System SpecSys SysInv SysMore PropsNet.
Open Scope string_scope.
Open Scope list_scope.
Opaque marshal_message read_text unmarshal_request call_to_request result_to_response utf8_valid msg_ok is_request action_of.

(** ** Events of a connection that stays *)
Definition ordinary (e : event) : Prop := match e with EUserClose | EUserCancel | EStop | ESeeClose => False | _ => True end.
Definition ending (p : lpc) : bool := match p with LClose | LCancel | LGone => true | _ => false end.
Lemma closed_step ro e c c' o : step ro e c = Some (c', o) -> c_closed c = true -> c_closed c' = true.
Proof. intros H HC. step_inv H e; csimp; try assumption; try reflexivity. Qed.
Lemma ending_step ro e c c' o : step ro e c = Some (c', o) -> ending (c_loop c) = true -> ending (c_loop c') = true.
Proof. intros H HC. step_inv H e; csimp; try assumption; try reflexivity; try (match goal with E : c_loop c = _ |- _ => rewrite E in HC; discriminate HC end). try discriminate HC. Qed.
Lemma ordinary_step ro e c c' o : step ro e c = Some (c', o) -> (c_closers c <> 0 -> c_closed c = true) -> c_closed c' = false -> ending (c_loop c') = false -> ordinary e.
Proof.
  intros H HK HC HE. destruct e; try exact I; unfold step in H; destruct (c_crash c); try discriminate H.
  - destruct (c_loop c); try discriminate H. destruct (c_done c); [|discriminate H]. injection H as <- _. csimp_in HE. destruct ro; discriminate HE.
  - destruct ro; try discriminate H. destruct (c_loop c); try discriminate H. injection H as <- _. discriminate HE.
  - injection H as <- _. discriminate HC.
  - destruct (c_closers c) as [|n] eqn:E; [discriminate H|]. injection H as <- _. csimp_in HC. rewrite HK in HC; [discriminate HC|]. discriminate.
Qed.
Opaque step url_path.

Definition stays (c : conn) : Prop := c_closed c = false /\ ending (c_loop c) = false /\ c_crash c = false.
Lemma settled_stays c : settled c -> stays c.
Proof. intros ((r & I1 & _ & I3 & _) & _ & _ & H & _). unfold stays. rewrite I1. auto. Qed.
Lemma stays_before ro e c c' o : step ro e c = Some (c', o) -> stays c' -> stays c.
Proof.
  intros H (S1 & S2 & _). split; [|split].
  - destruct (c_closed c) eqn:E; [|reflexivity]. rewrite (closed_step _ _ _ _ _ H E) in S1. discriminate S1.
  - destruct (ending (c_loop c)) eqn:E; [|reflexivity]. rewrite (ending_step _ _ _ _ _ H E) in S2. discriminate S2.
  - Transparent step. unfold step in H. destruct (c_crash c); [discriminate H|reflexivity]. Opaque step.
Qed.

(** ** Lifting runs of the two ends of a wire to the whole system *)
Record on_wire_k (k j i : nat) (y : sys) (n : net) : Prop := MkOW {
  o_x : exists x, nth_error (s_ks (y_central y)) k = Some x /\ k_pc x = KServe /\ k_conn x = n_central n;
  o_alive : s_crash (y_central y) = false;
  o_pt : exists pt, nth_error (y_points y) j = Some pt /\ p_pc (pt_cp pt) = PServe /\ p_cur (pt_cp pt) = i /\ p_new (pt_cp pt) = false /\ p_crash (pt_cp pt) = false /\ nth_error (p_conns (pt_cp pt)) i = Some (n_point n);
  o_w : nth_error (y_wires y) k = Some (MkW (Met j i) (n_to_central n) (n_to_point n)) }.
Definition lifted (k j i : nat) (s : side) (e : event) : yevent :=
  match s with
  | Central => YCentral (VConn k e)
  | Point => YPoint j (match e with ESend inh id q => XSend inh id q | _ => XConn i e end)
  end.
Lemma find_wire_is j i l k : (forall k' w', nth_error l k' = Some w' -> w_peer w' = Met j i -> k' = k) -> (exists w, nth_error l k = Some w /\ w_peer w = Met j i) -> find_wire j i l = Some k.
Proof.
  revert k. induction l as [|w l IH]; intros k HU (w0 & H1 & H2); [destruct k; discriminate H1|]. cbn [find_wire].
  destruct k as [|k].
  - injection H1 as <-. rewrite H2, !Nat.eqb_refl. reflexivity.
  - cbn [nth_error] in H1. assert (N : w_peer w <> Met j i) by (intros N; specialize (HU 0 w eq_refl N); discriminate HU).
    assert (R : find_wire j i l = Some k) by (apply IH; [|eauto]; intros k' w' A B; specialize (HU (S k') w' A B); lia). rewrite R.
    destruct (w_peer w) as [| |j' i'|]; try reflexivity. destruct (Nat.eqb_spec j j') as [->|]; [|reflexivity]. destruct (Nat.eqb_spec i i') as [->|]; [|reflexivity]. destruct N. reflexivity.
Qed.
Lemma lift_step cfg y tr k j i n s e n' o : yreach cfg y tr -> on_wire_k k j i y n -> nstep s e n = Some (n', o) -> ordinary e -> c_crash (conn_of s n') = false ->
  exists y' yo, ystep (lifted k j i s e) y = Some (y', yo) /\ on_wire_k k j i y' n' /\ wire_trace k (Some (j, i)) yo = o.
Proof.
  intros HR [(x & X1 & X2 & X3) HA (pt & P1 & P2 & P3 & P4 & P5 & P6) HW] HS HO HC. pose proof (yreach_inv _ _ _ HR) as V.
  unfold nstep in HS. destruct (allowed s e n) as [q|] eqn:EA; [|discriminate HS]. destruct (step (role_of s) e (conn_of s n)) as [[c' oc]|] eqn:ES; [|discriminate HS]. injection HS as <- <-.
  destruct s; cbn [lifted other conn_of queue_to set_queue set_conn role_of n_central n_point n_to_central n_to_point] in *.
  - unfold ystep, ycentral. unfold cstep. rewrite HA, X1. assert (OK : conn_event_ok (k_pc x) e = true) by (rewrite X2; destruct e; try reflexivity; destruct HO). rewrite OK, X3, ES, HC. rewrite HW.
    unfold central_allows. cbn [w_peer]. unfold wire_allows. cbn [w_in w_out].
    assert (AL : allowed Central e (MkNet conn0 conn0 (n_to_central n) (n_to_point n)) = Some q) by (destruct e; exact EA). rewrite AL.
    eexists _, _. split; [reflexivity|]. split.
    + constructor; cbn [y_central y_points y_wires set_ks s_ks s_crash n_central n_point n_to_central n_to_point].
      * exists (MkK (k_id x) (k_pc x) c'). split; [rewrite nth_upd, Nat.eqb_refl, X1; reflexivity|]. auto.
      * exact HA.
      * exists pt. auto 8.
      * rewrite nth_upd, Nat.eqb_refl, HW. reflexivity.
    + rewrite wire_app, wire_central, wire_put, conn_trace_conn, !Nat.eqb_refl. reflexivity.
  - assert (FW : find_wire j i (y_wires y) = Some k).
    { apply find_wire_is; [|eexists; split; [exact HW|reflexivity]]. intros k' w' A B. exact (y_inj _ _ _ V _ _ _ _ _ _ A HW B eq_refl). }
    assert (AL : allowed Point e (MkNet conn0 conn0 (n_to_central n) (n_to_point n)) = Some q) by (destruct e; exact EA).
    assert (SV : p_svc (pt_cp pt) = i).
    { destruct (j_cur _ _ (xreach_inv _ _ (y_p _ _ _ V _ _ P1))) as [J1 J2]. rewrite P2 in J1, J2. congruence. }
    assert (PK : pconn_ok i e (pt_cp pt) = true).
    { unfold pconn_ok. rewrite P4, P3, P2, Nat.leb_refl. cbn [negb andb]. destruct e; try reflexivity; [rewrite Nat.eqb_refl; reflexivity|destruct HO]. }
    assert (PC : pconn i e (pt_cp pt) = Some (pset_pc PServe (pset_conns (upd i c' (p_conns (pt_cp pt))) (pt_cp pt)), map (QConn i) oc)).
    { unfold pconn. rewrite P6, PK, ES, HC. assert (PP : ppc_after e c' (p_pc (pt_cp pt)) = PServe) by (rewrite P2; destruct e; try reflexivity; destruct HO). rewrite PP, app_nil_r. reflexivity. }
    assert (G : forall x oo, xstep x (pt_cp pt) = Some (pset_pc PServe (pset_conns (upd i c' (p_conns (pt_cp pt))) (pt_cp pt)), oo) -> link i oo = oc ->
       exists y' yo, ylink j pt x i e y = Some (y', yo) /\ on_wire_k k j i y' (MkNet (n_central n) c' (n_to_central n ++ map snd (finished e (n_point n))) q) /\
         wire_trace k (Some (j, i)) yo = map (NObs Point) oc ++ map (fun wt => NSent Point (fst wt) (snd wt)) (finished e (n_point n))).
    { intros x0 oo EX EL. unfold ylink. rewrite FW, P6, HW. unfold wire_allows. cbn [w_in w_out w_peer]. rewrite AL, EX. eexists _, _. split; [reflexivity|]. split.
      - constructor; cbn [y_central y_points y_wires n_central n_point n_to_central n_to_point].
        + exists x. auto.
        + exact HA.
        + exists (MkPt (pt_url pt) (pt_id pt) (pset_pc PServe (pset_conns (upd i c' (p_conns (pt_cp pt))) (pt_cp pt)))). split; [unfold set_point; rewrite nth_upd, Nat.eqb_refl, P1; reflexivity|].
          cbn [pt_cp p_pc p_cur p_new p_crash p_conns pset_pc pset_conns]. repeat split; auto. rewrite nth_upd, Nat.eqb_refl, P6. reflexivity.
        + rewrite nth_upd, Nat.eqb_refl, HW. reflexivity.
      - rewrite wire_app, wire_point, wire_put, !Nat.eqb_refl, EL. reflexivity. }
    unfold ystep. rewrite P1. destruct e; try (apply (G (XConn i _) (map (QConn i) oc)); [unfold xstep; rewrite P5; exact PC|rewrite link_conn, Nat.eqb_refl; reflexivity]).
    rewrite SV. apply (G (XSend inh id q0) (QSend i :: map (QConn i) oc)); [unfold xstep; rewrite P5, SV, PC; reflexivity|]. change (link i (map (QConn i) oc) = oc). rewrite link_conn, Nat.eqb_refl. reflexivity.
Qed.
Lemma stays_nstep s e n n' o s0 : nstep s e n = Some (n', o) -> stays (conn_of s0 n') -> stays (conn_of s0 n).
Proof.
  intros H HS. unfold nstep in H. destruct (allowed s e n) as [q|]; [|discriminate H]. destruct (step (role_of s) e (conn_of s n)) as [[c' oc]|] eqn:E; [|discriminate H]. injection H as <- _.
  destruct s, s0; cbn [conn_of other set_queue set_conn n_central n_point] in *; try exact HS; exact (stays_before _ _ _ _ _ E HS).
Qed.
Lemma stays_nrun es : forall n n' o s0, nrun es n = Some (n', o) -> stays (conn_of s0 n') -> stays (conn_of s0 n).
Proof.
  induction es as [|[s e] es IH]; intros n n' o s0 H HS; cbn [nrun] in H; [injection H as <- _; exact HS|].
  destruct (nstep s e n) as [[n1 o1]|] eqn:E1; [|discriminate H]. destruct (nrun es n1) as [[n2 o2]|] eqn:E2; [|discriminate H]. injection H as <- _.
  exact (stays_nstep _ _ _ _ _ _ E1 (IH _ _ _ _ E2 HS)).
Qed.
Lemma lift_runs cfg k j i es : forall y tr n n' o ntr, yreach cfg y tr -> on_wire_k k j i y n -> nreach n ntr -> nrun es n = Some (n', o) -> (forall s, stays (conn_of s n')) ->
  exists vs y' yo, yrun vs y = Some (y', yo) /\ on_wire_k k j i y' n' /\ wire_trace k (Some (j, i)) yo = o.
Proof.
  induction es as [|[s e] es IH]; intros y tr n n' o ntr HR HW HN H HS; cbn [nrun] in H.
  - injection H as <- <-. exists [], y, []. auto.
  - destruct (nstep s e n) as [[n1 o1]|] eqn:E1; [|discriminate H]. destruct (nrun es n1) as [[n2 o2]|] eqn:E2; [|discriminate H]. injection H as <- <-.
    assert (S1 : forall s0, stays (conn_of s0 n1)) by (intros s0; exact (stays_nrun _ _ _ _ _ E2 (HS s0))).
    assert (O : ordinary e).
    { pose proof E1 as E. unfold nstep in E. destruct (allowed s e n) as [q|]; [|discriminate E]. destruct (step (role_of s) e (conn_of s n)) as [[c' oc]|] eqn:ES; [|discriminate E]. injection E as E _.
      pose proof (S1 s) as S0. assert (EC : conn_of s n1 = c') by (rewrite <- E; destruct s; reflexivity). rewrite EC in S0. destruct S0 as (A1 & A2 & _).
      refine (ordinary_step _ _ _ _ _ ES _ A1 A2). intros K. exact (proj2 (proj1 (proj2 (proj2 (proj2 (proj2 (proj2 (v_d _ _ _ (reach_inv _ _ _ (n_reach _ _ (nreach_inv _ _ HN) s)))))))) K)). }
    destruct (lift_step _ _ _ _ _ _ _ _ _ _ _ HR HW E1 O (proj2 (proj2 (S1 s)))) as (y1 & yo1 & Y1 & Y2 & Y3).
    destruct (IH _ _ _ _ _ _ (yreach_S _ _ _ _ _ _ HR Y1) Y2 (nreach_S _ _ _ _ _ _ HN E1) E2 HS) as (vs & y2 & yo2 & Z1 & Z2 & Z3).
    exists (lifted k j i s e :: vs), y2, (yo1 ++ yo2). split; [cbn [yrun]; rewrite Y1, Z1; reflexivity|]. split; [exact Z2|]. rewrite wire_app, Y3, Z3. reflexivity.
Qed.

(** Connection i of charge point j is in place, the central system serves it as number k, nothing is under way on it. *)
Definition at_rest (k j i : nat) (y : sys) : Prop := exists n, on_wire_k k j i y n /\ quiet_net n.
Lemma rest_net cfg y tr k j i n : yreach cfg y tr -> on_wire_k k j i y n -> nreach n (wire_trace k (Some (j, i)) tr).
Proof.
  intros HR [(x & X1 & X2 & X3) HA (pt & P1 & P2 & P3 & P4 & P5 & P6) HW]. pose proof (y_net _ _ _ (yreach_inv _ _ _ HR) _ _ _ HW X1) as J. unfold joined in J. cbn [w_peer w_in w_out] in J.
  destruct J as (_ & pt' & c & J1 & J2 & J3). rewrite P1 in J1. injection J1 as <-. rewrite P6 in J2. injection J2 as <-. rewrite X3 in J3. destruct n. exact J3.
Qed.
Lemma rest_connected cfg y tr k j i : yreach cfg y tr -> at_rest k j i y -> In (Connected k j i) tr.
Proof. intros HR (n & [_ _ _ HW] & _). apply (y_conn _ _ _ (yreach_inv _ _ _ HR)). eexists. split; [exact HW|reflexivity]. Qed.
Lemma sys_round cfg y tr k j i s id q q' h t' : yreach cfg y tr -> at_rest k j i y -> (forall n q0, ~ In (seen k j i s (OCall n id q0)) tr) ->
  utf8_valid id = true -> msg_ok q = true -> may_send s q = true -> conveyed id q q' -> h <> inl None -> hret_ok (role_of (other s)) h = true -> marshal_message (response_message id h) = Ok t' ->
  exists vs y' o n x, yrun vs y = Some (y', o) /\ at_rest k j i y' /\
    in_turn [seen k j i s (OCall n id q); seen k j i (other s) (OHandle (Some q') id); seen k j i (other s) (OReturn id h); seen k j i s (ORet n x)] o /\
    (forall s' m id0 q0, In (seen k j i s' (OCall m id0 q0)) o -> s' = s /\ id0 = id) /\
    match h with
    | inl (Some m') => (exists m, x = RResp m /\ answer_conveyed id (m_ty q) m' m) \/ x = RCode "FormationViolation"
    | inl None => False
    | inr e => x = RCallErr id "InternalError" (sanitize e) (AObj [])
    end.
Proof.
  intros HR (n & HW & HQ) HF HU HM HY HC HH HK HT. pose proof (rest_net _ _ _ _ _ _ _ HR HW) as HN.
  assert (HF' : ~ In id (map (fun x => fst (snd x)) (sends (view s (wire_trace k (Some (j, i)) tr))))).
  { intros HI. apply in_map_iff in HI. destruct HI as ((n0 & id0 & q0) & E & HI). cbn [fst snd] in E. subst id0. apply in_sends_view in HI. apply in_wire in HI. destruct s; exact (HF _ _ HI). }
  destruct (C64_completes _ _ s id q q' h t' HN HQ HF' HU HM HY HC HH HK HT) as (es & n' & o & m & x & R & Q & HP & HX & X).
  destruct (lift_runs cfg k j i es y tr n n' o _ HR HW HN R) as (vs & y' & yo & Y1 & Y2 & Y3).
  { intros s0. apply settled_stays. exact (proj1 (quiet_side _ s0 Q)). }
  exists vs, y', yo, m, x. split; [exact Y1|]. split; [exists n'; auto|]. split; [|split; [|exact X]].
  - rewrite <- Y3 in HP. apply happened_whole in HP. destruct s; exact HP.
  - intros s' m0 id0 q0 HI. apply (HX s' m0 id0 q0). rewrite <- Y3. apply in_wire. destruct s'; exact HI.
Qed.

(** ** Connecting *)
Lemma yrun_app a : forall b y y1 o1 y2 o2, yrun a y = Some (y1, o1) -> yrun b y1 = Some (y2, o2) -> yrun (a ++ b) y = Some (y2, o1 ++ o2).
Proof.
  induction a as [|v a IH]; intros b y y1 o1 y2 o2 H1 H2; cbn [yrun app] in *; [injection H1 as <- <-; exact H2|].
  destruct (ystep v y) as [[y3 o3]|]; [|discriminate H1]. destruct (yrun a y3) as [[y4 o4]|] eqn:E4; [|discriminate H1]. injection H1 as <- <-. rewrite (IH _ _ _ _ _ _ E4 H2), app_assoc. reflexivity.
Qed.
Lemma yrun_one v y y1 o1 : ystep v y = Some (y1, o1) -> yrun [v] y = Some (y1, o1).
Proof. intros H. cbn [yrun]. rewrite H, app_nil_r. reflexivity. Qed.
Lemma in_turn_app xs : forall zs a b, in_turn xs a -> in_turn zs b -> in_turn (xs ++ zs) (a ++ b).
Proof.
  induction xs as [|x xs IH]; intros zs a b H1 H2; cbn [in_turn app] in *.
  - destruct zs as [|z zs]; [exact I|]. destruct H2 as (u & v & -> & H2). exists (a ++ u), v. rewrite app_assoc. auto.
  - destruct H1 as (u & v & -> & H1). exists u, (v ++ b). rewrite <- app_assoc. split; [reflexivity|apply IH; assumption].
Qed.
Lemma in_turn_one x a : In x a -> in_turn [x] a.
Proof. intros H. apply in_split in H. destruct H as (u & v & ->). exists u, v. split; [reflexivity|exact I]. Qed.
Lemma central_plain v y s' o : cstep v (y_central y) = Some (s', o) -> match v with VConn _ _ | VHttp _ _ _ => False | _ => True end ->
  yrun [YCentral v] y = Some (MkY s' (y_points y) (y_wires y), map AtCentral o).
Proof. intros H HV. apply yrun_one. unfold ystep, ycentral. rewrite H. destruct v; try reflexivity; destruct HV. Qed.
Lemma point_plain j y pt p' o : nth_error (y_points y) j = Some pt -> xstep XStep (pt_cp pt) = Some (p', o) ->
  yrun [YPoint j XStep] y = Some (MkY (y_central y) (set_point j pt p' y) (y_wires y), map (AtPoint j) o).
Proof. intros H H1. apply yrun_one. unfold ystep. rewrite H, H1. reflexivity. Qed.
Lemma set_point_same j y pt p : nth_error (y_points y) j = Some pt -> nth_error (set_point j pt p y) j = Some (MkPt (pt_url pt) (pt_id pt) p).
Proof. intros H. unfold set_point. rewrite nth_upd, Nat.eqb_refl, H. reflexivity. Qed.

(** Goroutine k of the central system, for [cid], before its first turn of the loop *)
Definition comes (k : nat) (cid : string) (pc : kpc) (s : csys) : Prop := s_crash s = false /\ nth_error (s_ks s) k = Some (MkK cid pc conn0).
Lemma comes_log k cid s : comes k cid KLog s -> exists s', cstep (VStep k) s = Some (s', []) /\ comes k cid KShake s'.
Proof. intros [C N]. unfold cstep. rewrite C, N. eexists. split; [reflexivity|]. split; [exact C|]. cbn. rewrite nth_upd, Nat.eqb_refl, N. reflexivity. Qed.
Lemma comes_shake k cid s : comes k cid KShake s -> exists s', cstep (VShake k true) s = Some (s', []) /\ comes k cid KLock1 s'.
Proof. intros [C N]. unfold cstep. rewrite C, N. eexists. split; [reflexivity|]. split; [exact C|]. cbn. rewrite nth_upd, Nat.eqb_refl, N. reflexivity. Qed.
Lemma comes_lock k cid s : comes k cid KLock1 s -> s_mux s = None -> exists s', cstep (VStep k) s = Some (s', []) /\ comes k cid KReg s'.
Proof. intros [C N] M. unfold cstep. rewrite C, N. unfold kstep. cbn [k_pc]. rewrite M. eexists. split; [reflexivity|]. split; [exact C|]. cbn. rewrite nth_upd, Nat.eqb_refl, N. reflexivity. Qed.
Lemma comes_reg k cid s tr : creach s tr -> comes k cid KReg s -> exists s', cstep (VStep k) s = Some (s', [ORegistered k cid]) /\ comes k cid KListen s' /\ s_mux s' = None /\ lookup cid (s_conns s') = Some k.
Proof.
  intros HR [C N]. pose proof (creach_inv _ _ HR) as V. destruct (cstep (VStep k) s) as [[s' o]|] eqn:E; [|unfold cstep in E; rewrite C, N in E; discriminate E].
  pose proof (no_panic _ _ _ _ _ (i_maps _ _ V) (i_chans _ _ V) E) as NP. unfold cstep in E. rewrite C, N in E. unfold kstep in E. cbn [k_pc] in E. unfold do_register in E. cbn [k_id k_conn] in E. cbv zeta in E.
  destruct (match lookup cid (s_chans s) with Some ch => (s_chans s, ch, s_nchan s) | None => _ end) as [[a b] d].
  destruct (negb (get_connected cid s) && is_closed b s); injection E as <- <-; [destruct NP; left; reflexivity|]. eexists. split; [reflexivity|]. ssimp.
  split; [split; [exact C|ssimp; rewrite nth_upd, Nat.eqb_refl, N; reflexivity]|]. split; [reflexivity|]. rewrite lookup_mput, String.eqb_refl. reflexivity.
Qed.
Lemma comes_listen k cid s : comes k cid KListen s -> exists s' o, cstep (VStep k) s = Some (s', o) /\ comes k cid KServe s' /\ s_mux s' = s_mux s /\ s_conns s' = s_conns s.
Proof. intros [C N]. unfold cstep. rewrite C, N. eexists _, _. split; [reflexivity|]. split; [split; [exact C|]; cbn; rewrite nth_upd, Nat.eqb_refl, N; reflexivity|]. auto. Qed.
Lemma comes_free k cid s tr : creach s tr -> comes k cid KLock1 s -> s_mux s = None \/ exists m s' o, cstep (VStep m) s = Some (s', o) /\ comes k cid KLock1 s' /\ s_mux s' = None.
Proof.
  intros HR [HC N]. pose proof (creach_inv _ _ HR) as V. destruct (s_mux s) as [m|] eqn:EM; [right|left; reflexivity].
  destruct (proj1 (i_mux _ _ V m) EM) as (x & X1 & X2). destruct (cstep (VStep m) s) as [[s1 o]|] eqn:ES.
  - exists m, s1, o. split; [exact ES|]. pose proof (no_panic _ _ _ _ _ (i_maps _ _ V) (i_chans _ _ V) ES) as NP.
    assert (NE : m <> k) by (intros ->; rewrite N in X1; injection X1 as <-; discriminate X2). apply Nat.eqb_neq in NE.
    unfold cstep in ES. rewrite HC, X1 in ES. unfold kstep in ES. destruct (k_pc x) eqn:P; try discriminate X2; unfold do_register, do_clean in ES; cbv zeta in ES.
    + destruct (match lookup (k_id x) (s_chans s) with Some ch => (s_chans s, ch, s_nchan s) | None => _ end) as [[a b] d].
      destruct (negb (get_connected (k_id x) s) && is_closed b s); injection ES as <- <-; [destruct NP; left; reflexivity|]. ssimp. split; [|reflexivity]. split; [exact HC|]. ssimp. rewrite nth_upd, NE. exact N.
    + destruct (_ =? 0)%Z; injection ES as <- <-; ssimp; (split; [|reflexivity]; split; [exact HC|]; ssimp; rewrite nth_upd, NE; exact N).
  - exfalso. unfold cstep in ES. rewrite HC, X1 in ES. unfold kstep in ES. destruct (k_pc x); try discriminate X2; discriminate ES.
Qed.
(** The central system's side, from the handshake to the loop, with GetServiceOf at the end *)
Lemma accept_run k cid cfg y tr : yreach cfg y tr -> comes k cid KLock1 (y_central y) -> exists vs s' o,
  yrun vs y = Some (MkY s' (y_points y) (y_wires y), o) /\ comes k cid KServe s' /\ in_turn [AtCentral (ORegistered k cid); AtCentral (OService cid "V16" "" (inl (SvcJSON k)))] o.
Proof.
  intros HR HC.
  assert (F : exists vs s' o, yrun vs y = Some (MkY s' (y_points y) (y_wires y), o) /\ comes k cid KLock1 s' /\ s_mux s' = None).
  { destruct (comes_free _ _ _ _ (y_c _ _ _ (yreach_inv _ _ _ HR)) HC) as [M|(m & s' & o & S1 & S2 & S3)].
    - exists [], (y_central y), []. destruct y. auto.
    - exists [YCentral (VStep m)], s', (map AtCentral o). split; [exact (central_plain _ _ _ _ S1 I)|auto]. }
  destruct F as (vs1 & s1 & o1 & R1 & C1 & M1). destruct (comes_lock _ _ _ C1 M1) as (s2 & E2 & C2).
  pose proof (central_plain _ (MkY s1 (y_points y) (y_wires y)) _ _ E2 I) as R2. cbn [y_points y_wires map] in R2.
  pose proof (yrun_app _ _ _ _ _ _ _ R1 R2) as R12. pose proof (yreach_run _ _ _ _ _ _ HR R12) as HR2.
  destruct (comes_reg _ _ _ _ (y_c _ _ _ (yreach_inv _ _ _ HR2)) C2) as (s3 & E3 & C3 & M3 & L3). cbn [y_central] in E3.
  pose proof (central_plain _ (MkY s2 (y_points y) (y_wires y)) _ _ E3 I) as R3. cbn [y_points y_wires map] in R3.
  destruct (comes_listen _ _ _ C3) as (s4 & o4 & E4 & C4 & M4 & L4). pose proof (central_plain _ (MkY s3 (y_points y) (y_wires y)) _ _ E4 I) as R4. cbn [y_points y_wires map] in R4.
  assert (E5 : cstep (VService cid "V16" "") s4 = Some (s4, [OService cid "V16" "" (inl (SvcJSON k))])).
  { unfold cstep. rewrite (proj1 C4), M4, M3. cbn [String.eqb]. unfold get_service. rewrite L4, L3. reflexivity. }
  pose proof (central_plain _ (MkY s4 (y_points y) (y_wires y)) _ _ E5 I) as R5. cbn [y_points y_wires map] in R5.
  eexists _, s4, _. split; [exact (yrun_app _ _ _ _ _ _ _ R12 (yrun_app _ _ _ _ _ _ _ R3 (yrun_app _ _ _ _ _ _ _ R4 R5)))|]. split; [exact C4|].
  apply (in_turn_app []); [exact I|]. apply (in_turn_app [_]); [apply in_turn_one; left; reflexivity|]. apply (in_turn_app []); [exact I|]. apply in_turn_one. left. reflexivity.
Qed.

(** Charge point j is about to dial and no dial of it is under way *)
Definition dials_now (j : nat) (y : sys) : Prop := exists pt, nth_error (y_points y) j = Some pt /\ p_pc (pt_cp pt) = PDial /\ p_crash (pt_cp pt) = false /\ existsb (dialling j) (y_wires y) = false.
(** The charge point's side, up to the moment when the connection is in place *)
Lemma place_run cfg y tr j cid : yreach cfg y tr -> dials_now j y -> s_crash (y_central y) = false -> known_as cfg j cid -> exists vs y' o k i pt',
  yrun vs y = Some (y', o) /\ comes k cid KLock1 (y_central y') /\ nth_error (y_wires y') k = Some (MkW (Met j i) [] []) /\ nth_error (y_points y') j = Some pt' /\
  p_pc (pt_cp pt') = PServe /\ p_cur (pt_cp pt') = i /\ p_new (pt_cp pt') = false /\ p_crash (pt_cp pt') = false /\ nth_error (p_conns (pt_cp pt')) i = Some conn0 /\
  in_turn [Asked k j; Connected k j i; AtPoint j (QUp i)] o /\ ~ In (QUp i) (at_charge_point j tr) /\ k = length (y_wires y).
Proof.
  intros HR (pt & P1 & P2 & P3 & P4) HC HK. pose proof (yreach_inv _ _ _ HR) as V. set (k := length (y_wires y)). set (i := length (p_conns (pt_cp pt))).
  assert (HU : exists path, url_path (pt_url pt ++ "/" ++ pt_id pt) = Some path /\ trim_slash path = cid).
  { destruct HK as (c & K1 & K2). rewrite <- (y_cfg _ _ _ V), nth_error_map, P1 in K1. injection K1 as <-. cbn [fst snd] in K2. unfold identity_seen in K2.
    destruct (url_path (pt_url pt ++ "/" ++ pt_id pt)) as [p|]; [|discriminate K2]. injection K2 as <-. exists p. split; reflexivity. }
  destruct HU as (path & U1 & U2).
  (* the request arrives *)
  set (s1 := set_ks (s_ks (y_central y) ++ [MkK cid KLog conn0]) (y_central y)).
  assert (R1 : yrun [YAsk j] y = Some (MkY s1 (y_points y) (y_wires y ++ [MkW (Dialling j) [] []]), [AtCentral (OArrived (length (s_ks (y_central y))) cid); Asked k j])).
  { apply yrun_one. unfold ystep. rewrite P1, P3, P2, P4, U1. unfold cstep. rewrite HC. cbn [dispatch map]. rewrite U2. reflexivity. }
  assert (C1 : comes k cid KLog s1).
  { split; [exact HC|]. unfold s1, k. cbn [set_ks s_ks]. rewrite (y_len _ _ _ V). apply nth_app1_eq. }
  destruct (comes_log _ _ _ C1) as (s2 & E2 & C2). pose proof (central_plain _ (MkY s1 (y_points y) (y_wires y ++ [MkW (Dialling j) [] []])) _ _ E2 I) as R2. cbn [y_points y_wires map] in R2.
  destruct (comes_shake _ _ _ C2) as (s3 & E3 & C3). pose proof (central_plain _ (MkY s2 (y_points y) (y_wires y ++ [MkW (Dialling j) [] []])) _ _ E3 I) as R3. cbn [y_points y_wires map] in R3.
  (* Dial returns *)
  set (y3 := MkY s3 (y_points y) (y_wires y ++ [MkW (Dialling j) [] []])). set (p4 := pset_pc PSetConn (pset_conns (p_conns (pt_cp pt) ++ [conn0]) (pt_cp pt))).
  set (y4 := MkY s3 (set_point j pt p4 y3) (upd k (MkW (Met j i) [] []) (y_wires y3))).
  assert (W3 : nth_error (y_wires y3) k = Some (MkW (Dialling j) [] [])) by apply nth_app1_eq.
  assert (R4 : yrun [YMeet j k] y3 = Some (y4, [AtPoint j (QDialed true); Connected k j i])).
  { apply yrun_one. unfold ystep. replace (nth_error (y_points y3) j) with (Some pt). rewrite W3. replace (nth_error (s_ks (y_central y3)) k) with (Some (MkK cid KLock1 conn0)) by (symmetry; exact (proj2 C3)).
    unfold dialling at 1. cbn [w_peer k_pc shaken]. rewrite Nat.eqb_refl. cbn [andb]. unfold xstep. rewrite P3, P2. reflexivity. }
  assert (W4 : nth_error (y_wires y4) k = Some (MkW (Met j i) [] [])) by (cbn [y4 y_wires]; rewrite nth_upd, Nat.eqb_refl, W3; reflexivity).
  assert (N4 : nth_error (y_points y4) j = Some (MkPt (pt_url pt) (pt_id pt) p4)) by (apply set_point_same; exact P1).
  (* the connection is put in place *)
  pose proof (yreach_run _ _ _ _ _ _ HR (yrun_app _ _ _ _ _ _ _ R1 (yrun_app _ _ _ _ _ _ _ R2 (yrun_app _ _ _ _ _ _ _ R3 R4)))) as HR4. cbn [app] in HR4.
  pose proof (xreach_inv _ _ (y_p _ _ _ (yreach_inv _ _ _ HR4) _ _ N4)) as J4. cbn [pt_cp] in J4.
  destruct (j_chan _ _ J4) as (_ & _ & CH). assert (NC : existsb (Nat.eqb (p_chan (pt_cp pt))) (p_closed (pt_cp pt)) = false).
  { destruct (existsb (Nat.eqb (p_chan (pt_cp pt))) (p_closed (pt_cp pt))) eqn:E; [|reflexivity]. apply existsb_exists in E. destruct E as (ch & E1 & E2'). apply Nat.eqb_eq in E2'. subst ch. apply (proj1 CH) in E1. discriminate E1. }
  set (p5 := MkP PSetSvc (p_new p4) (p_conns p4) (length (p_conns p4) - 1) (p_svc p4) (p_chan p4) (p_nchan p4) (p_closed p4) (p_cancel p4) (p_crash p4)).
  assert (X5 : xstep XStep p4 = Some (p5, [])) by (unfold xstep; cbn [p4 pset_pc pset_conns p_crash]; rewrite P3; reflexivity).
  pose proof (point_plain j y4 _ _ _ N4 X5) as R5. cbn [pt_url pt_id pt_cp] in R5. match type of R5 with _ = Some (?Y, _) => set (y5 := Y) in R5 end.
  assert (N5 : nth_error (y_points y5) j = Some (MkPt (pt_url pt) (pt_id pt) p5)) by (cbn [y5 y_points]; exact (set_point_same _ _ _ _ N4)).
  set (p6 := MkP PCloseCh (p_new p5) (p_conns p5) (p_cur p5) (p_cur p5) (p_chan p5) (p_nchan p5) (p_closed p5) (p_cancel p5) (p_crash p5)).
  assert (X6 : xstep XStep p5 = Some (p6, [])) by (unfold xstep; cbn [p5 p4 pset_pc pset_conns p_crash]; rewrite P3; reflexivity).
  pose proof (point_plain j y5 _ _ _ N5 X6) as R6. cbn [pt_url pt_id pt_cp] in R6. match type of R6 with _ = Some (?Y, _) => set (y6 := Y) in R6 end.
  assert (N6 : nth_error (y_points y6) j = Some (MkPt (pt_url pt) (pt_id pt) p6)) by (cbn [y6 y_points]; exact (set_point_same _ _ _ _ N5)).
  set (p7 := MkP PServe false (p_conns p6) (p_cur p6) (p_svc p6) (p_chan p6) (p_nchan p6) (p_chan p6 :: p_closed p6) (p_cancel p6) (p_crash p6)).
  assert (X7 : xstep XStep p6 = Some (p7, QUp (p_cur p6) :: if p_new p6 then [QNew true] else [])).
  { unfold xstep. cbn [p6 p5 p4 pset_pc pset_conns p_crash]. rewrite P3. unfold pstep. cbn [p_pc p6 p5 p4 pset_pc pset_conns p_chan p_closed]. rewrite NC. reflexivity. }
  pose proof (point_plain j y6 _ _ _ N6 X7) as R7. cbn [pt_url pt_id pt_cp] in R7. match type of R7 with _ = Some (?Y, _) => set (y7 := Y) in R7 end.
  assert (N7 : nth_error (y_points y7) j = Some (MkPt (pt_url pt) (pt_id pt) p7)) by (cbn [y7 y_points]; exact (set_point_same _ _ _ _ N6)).
  assert (CU : p_cur p7 = i) by (cbn [p7 p6 p5 p4 pset_pc pset_conns p_cur p_conns]; rewrite app_length; cbn [length]; unfold i; lia).
  eexists _, y7, _, k, i, (MkPt (pt_url pt) (pt_id pt) p7).
  split; [exact (yrun_app _ _ _ _ _ _ _ R1 (yrun_app _ _ _ _ _ _ _ R2 (yrun_app _ _ _ _ _ _ _ R3 (yrun_app _ _ _ _ _ _ _ R4 (yrun_app _ _ _ _ _ _ _ R5 (yrun_app _ _ _ _ _ _ _ R6 R7))))))|].
  split; [exact C3|]. split; [exact W4|]. split; [exact N7|]. cbn [pt_cp]. split; [reflexivity|]. split; [exact CU|]. split; [reflexivity|]. split; [exact P3|].
  split; [cbn [p7 p6 p5 p4 pset_pc pset_conns p_conns]; apply nth_app1_eq|]. split; [|split; [|reflexivity]].
  - apply (in_turn_app [_]); [apply in_turn_one; right; left; reflexivity|]. apply (in_turn_app []); [exact I|]. apply (in_turn_app []); [exact I|].
    apply (in_turn_app [_]); [apply in_turn_one; right; left; reflexivity|]. apply (in_turn_app []); [exact I|]. apply (in_turn_app []); [exact I|]. apply in_turn_one. left.
    change (p_cur p6) with (p_cur p7). rewrite CU. reflexivity.
  - intros HI. pose proof (xreach_inv _ _ (y_p _ _ _ V _ _ P1)) as J. assert (H : In i (ups (at_charge_point j tr))) by (apply qpick_in; exists (QUp i); auto). rewrite (j_ups _ _ J) in H. apply in_seq in H.
    destruct (j_num _ _ J) as [NN _]. rewrite P2 in NN. cbn [fresh] in NN. unfold i in H. lia.
Qed.
Lemma start_quiet : exists n', nrun [(Central, ELoop); (Point, ELoop)] net0 = Some (n', []) /\ quiet_net n' /\ forall s, c_senders (conn_of s n') = [].
Proof.
  Transparent step. eexists. split; [vm_compute; reflexivity|]. Opaque step.
  split; [|intros []; reflexivity]. split; [|split; [|split; reflexivity]]; (split; [exists 0; repeat split|]; split; [reflexivity|]; split; [reflexivity|]; split; [reflexivity|]; intros [|?] sd H; discriminate H).
Qed.
(** All of it: a dialling charge point comes to a connection at rest. *)
Lemma connect_run cfg y tr j cid : yreach cfg y tr -> dials_now j y -> s_crash (y_central y) = false -> known_as cfg j cid -> exists vs y' o k i,
  yrun vs y = Some (y', o) /\ at_rest k j i y' /\ (forall s n id q, ~ In (seen k j i s (OCall n id q)) (tr ++ o)) /\
  in_turn [Asked k j; Connected k j i; AtPoint j (QUp i); AtCentral (ORegistered k cid); AtCentral (OService cid "V16" "" (inl (SvcJSON k)))] o.
Proof.
  intros HR HD HC HK. destruct (place_run _ _ _ _ _ HR HD HC HK) as (vs & y1 & o1 & k & i & pt & R1 & C1 & W1 & N1 & A1 & A2 & A3 & A4 & A5 & T1 & _ & _).
  pose proof (yreach_run _ _ _ _ _ _ HR R1) as HR1. destruct (accept_run _ _ _ _ _ HR1 C1) as (vs2 & s2 & o2 & R2 & C2 & T2). pose proof (yreach_run _ _ _ _ _ _ HR1 R2) as HR2.
  set (y2 := MkY s2 (y_points y1) (y_wires y1)) in *.
  assert (OW : on_wire_k k j i y2 net0).
  { constructor; [exists (MkK cid KServe conn0); split; [exact (proj2 C2)|auto]|exact (proj1 C2)|exists pt; auto 8|exact W1]. }
  destruct start_quiet as (n' & R3 & Q3 & Z3). destruct (lift_runs cfg k j i _ y2 _ net0 n' _ _ HR2 OW (rest_net _ _ _ _ _ _ _ HR2 OW) R3) as (vs3 & y3 & o3 & R4 & OW3 & _).
  { intros s. apply settled_stays. exact (proj1 (quiet_side _ s Q3)). }
  pose proof (yrun_app _ _ _ _ _ _ _ R1 (yrun_app _ _ _ _ _ _ _ R2 R4)) as RR.
  eexists _, y3, _, k, i. split; [exact RR|]. split; [exists n'; auto|]. split.
  { intros s n id q HI. pose proof (rest_net _ _ _ _ _ _ _ (yreach_run _ _ _ _ _ _ HR RR) OW3) as HN.
    assert (H : In (NObs s (OCall n id q)) (wire_trace k (Some (j, i)) (tr ++ o1 ++ o2 ++ o3))) by (apply in_wire; destruct s; exact HI).
    apply in_sends_view in H. destruct (sends_in _ _ _ _ _ (v_i _ _ _ (reach_inv _ _ _ (n_reach _ _ (nreach_inv _ _ HN) s))) H) as (sd & B1 & _). rewrite Z3 in B1. destruct n; discriminate B1. }
  apply (in_turn_app [_; _; _] [_; _] _ _ T1). rewrite <- (app_nil_r [_; _]). apply (in_turn_app _ []); [exact T2|exact I].
Qed.
(** An idle charge point dials again. *)
Lemma redial_run cfg y tr j pt : yreach cfg y tr -> nth_error (y_points y) j = Some pt -> p_crash (pt_cp pt) = false -> p_new (pt_cp pt) = false -> (p_pc (pt_cp pt) = PDial \/ p_pc (pt_cp pt) = PSleep) ->
  exists vs y' o, yrun vs y = Some (y', o) /\ dials_now j y' /\ y_central y' = y_central y.
Proof.
  intros HR HN HC HW HP.
  assert (S : forall y pt, nth_error (y_points y) j = Some pt -> p_crash (pt_cp pt) = false -> p_pc (pt_cp pt) = PSleep -> existsb (dialling j) (y_wires y) = false ->
    exists vs y' o, yrun vs y = Some (y', o) /\ dials_now j y' /\ y_central y' = y_central y).
  { clear. intros y pt HN HC HP HE. assert (X : xstep XStep (pt_cp pt) = Some (pset_pc PDial (pt_cp pt), [])) by (unfold xstep; rewrite HC; unfold pstep; rewrite HP; reflexivity).
    eexists _, _, _. split; [exact (point_plain _ _ _ _ _ HN X)|]. split; [|reflexivity]. eexists. split; [cbn [y_points]; exact (set_point_same _ _ _ _ HN)|]. cbn [pt_cp pset_pc p_pc p_crash y_wires]. auto. }
  assert (D : forall y pt, nth_error (y_points y) j = Some pt -> p_crash (pt_cp pt) = false -> p_new (pt_cp pt) = false -> p_pc (pt_cp pt) = PDial -> exists vs y' o, yrun vs y = Some (y', o) /\ dials_now j y' /\ y_central y' = y_central y).
  { clear - S. intros y pt HN HC HW HP. destruct (existsb (dialling j) (y_wires y)) eqn:EX; [|exists [], y, []; split; [reflexivity|]; split; [|reflexivity]; exists pt; auto].
    set (f := fun w => if dialling j w then MkW (GaveUp j) (w_in w) (w_out w) else w). set (y1 := MkY (y_central y) (set_point j pt (pset_pc PSleep (pt_cp pt)) y) (map f (y_wires y))).
    assert (R1 : yrun [YPoint j (XDial false)] y = Some (y1, [AtPoint j (QDialed false)])).
    { apply yrun_one. unfold ystep. rewrite HN. unfold xstep. rewrite HC, HP, HW. reflexivity. }
    assert (NX : existsb (dialling j) (y_wires y1) = false).
    { cbn [y1 y_wires]. destruct (existsb (dialling j) (map f (y_wires y))) eqn:E; [|reflexivity]. apply existsb_exists in E. destruct E as (w & E1 & E2). apply in_map_iff in E1. destruct E1 as (w0 & <- & _).
      unfold f in E2. destruct (dialling j w0) eqn:E3; [discriminate E2|congruence]. }
    destruct (S y1 _ (set_point_same _ _ _ _ HN) HC eq_refl NX) as (vs & y' & o & R2 & D2 & C2). eexists _, y', _. split; [exact (yrun_app _ _ _ _ _ _ _ R1 R2)|auto]. }
  destruct HP as [HP|HP]; [exact (D _ _ HN HC HW HP)|].
  assert (X : xstep XStep (pt_cp pt) = Some (pset_pc PDial (pt_cp pt), [])) by (unfold xstep; rewrite HC; unfold pstep; rewrite HP; reflexivity).
  pose proof (point_plain _ _ _ _ _ HN X) as R1. destruct (D (MkY (y_central y) (set_point j pt (pset_pc PDial (pt_cp pt)) y) (y_wires y)) _ (set_point_same _ _ _ _ HN) HC HW eq_refl) as (vs & y' & o & R2 & D2 & C2).
  eexists _, y', _. split; [exact (yrun_app _ _ _ _ _ _ _ R1 R2)|auto].
Qed.
