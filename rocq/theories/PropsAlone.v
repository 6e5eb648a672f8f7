(** Property theorems C107: left alone, the whole comes to rest, whatever has happened to it. *)
From Coq Require Import Arith Wellfounded Permutation.
From Verif Require Import GoBase Utf8 Json Float64 Lang Types Codec Any Tables Registry Frame Conn SpecConn ConnBase ConnInv ConnFate ConnTop CentralSystem SpecCS CSInv CSMore ChargePoint SpecCP CPInv CPMore
  Net SpecNet NetProofs System SpecSys SysInv SysMore SysLive SpecLive SpecSettle SpecEnc.
From Verif Require CSSettle CPSettle.
From Verif Require Import ConnSettle LiveProofs PropsConn PropsCS PropsCP PropsNet PropsSettle PropsSys PropsSysParts.
Open Scope string_scope.
Open Scope list_scope.
Opaque marshal_message read_text unmarshal_request call_to_request result_to_response utf8_valid msg_ok is_request action_of step.

(** *** C107: left alone, the whole comes to rest *)
(** A step of the goroutines of one of the processes: nothing is carried by the network, nobody dials, nobody calls
    the API.  A write that moves no byte is not a step. *)
Definition y_own (v : yevent) : bool := match v with YCentral v => cs_own v | YPoint _ x => cp_own x | _ => false end.
Definition y_own_step (y y' : sys) (o : list yobs) : Prop := exists v, y_own v = true /\ ystep v y = Some (y', o) /\
  (forall k, central o <> [OConn k (OBytes "")]) /\ forall j k, at_charge_point j o <> [QConn k (OBytes "")].
(** Every process is dead or settled, as C80 and C81 say *)
Definition everyone_settled (y : sys) (tr : list yobs) : Prop :=
  (s_crash (y_central y) = true \/ cs_settled (y_central y) (central tr)) /\
  forall j pt, nth_error (y_points y) j = Some pt -> p_crash (pt_cp pt) = true \/ cp_settled (pt_cp pt) (at_charge_point j tr).

Definition wrank (y : sys) : nat := CSSettle.crank (y_central y) + sumf (fun pt => CPSettle.xrank (pt_cp pt)) (y_points y).
Definition wleft (y : sys) : nat := CSSettle.cleft (y_central y) + sumf (fun pt => CPSettle.xleft (pt_cp pt)) (y_points y).
Definition wbelow (y' y : sys) : Prop := wrank y' < wrank y \/ wrank y' = wrank y /\ wleft y' < wleft y.
Lemma wbelow_wf : well_founded wbelow.
Proof.
  intros c. remember (wrank c) as n eqn:EN. revert c EN. induction n as [n IH] using lt_wf_ind. intros c EN.
  remember (wleft c) as m eqn:EM. revert c EN EM. induction m as [m IH2] using lt_wf_ind. intros c EN EM.
  constructor. intros c' [H|[H1 H2]]; [eapply IH; [|reflexivity]; lia|eapply IH2; [|congruence|reflexivity]; lia].
Qed.
Lemma own_central v y y' o : cs_own v = true -> ystep (YCentral v) y = Some (y', o) -> cstep v (y_central y) = Some (y_central y', central o) /\ y_points y' = y_points y.
Proof.
  intros HO H. cbn [ystep] in H. unfold ycentral in H. destruct (cstep v (y_central y)) as [[s' oo]|] eqn:E; [|discriminate H].
  destruct v; try discriminate HO; try (injection H as <- <-; rewrite central_central; auto).
  destruct (nth_error (y_wires y) k) as [w|]; [|discriminate H]. destruct (nth_error (s_ks (y_central y)) k) as [x|]; [|discriminate H].
  destruct (central_allows e w) as [q|]; [|discriminate H]. injection H as <- <-. rewrite central_app, central_central, central_put, app_nil_r. auto.
Qed.
Lemma own_point j x y y' o : cp_own x = true -> ystep (YPoint j x) y = Some (y', o) -> exists pt p', nth_error (y_points y) j = Some pt /\
  xstep x (pt_cp pt) = Some (p', at_charge_point j o) /\ y_central y' = y_central y /\ y_points y' = set_point j pt p' y.
Proof.
  intros HO H. cbn [ystep] in H. destruct (nth_error (y_points y) j) as [pt|]; [|discriminate H]. exists pt. destruct x; try discriminate HO.
  - destruct (xstep XStep (pt_cp pt)) as [[p' oo]|]; [|discriminate H]. injection H as <- <-. exists p'. rewrite point_point, Nat.eqb_refl. auto.
  - destruct (ylink_inv _ _ _ _ _ _ _ _ H) as (k1 & w & c & q' & p' & oo & _ & _ & _ & _ & X & -> & ->). exists p'. rewrite point_app, point_point, point_put, Nat.eqb_refl, app_nil_r. auto.
Qed.
Lemma y_own_below y y' o : y_own_step y y' o -> wbelow y' y.
Proof.
  intros (v & HO & HS & HB1 & HB2). unfold wbelow, wrank, wleft. destruct v as [v|j|j k|j x]; try discriminate HO; cbn [y_own] in HO.
  - destruct (own_central _ _ _ _ HO HS) as [H1 H2]. rewrite H2. destruct (CSSettle.cs_own_below _ _ _ _ HO H1 HB1) as [H|[H3 H4]]; lia.
  - destruct (own_point _ _ _ _ _ HO HS) as (pt & p' & H1 & H2 & -> & ->). pose proof (CPSettle.cp_own_below _ _ _ _ HO H2 (HB2 j)) as HB.
    pose proof (sumf_upd (fun pt => CPSettle.xrank (pt_cp pt)) _ _ _ (MkPt (pt_url pt) (pt_id pt) p') H1) as A. pose proof (sumf_upd (fun pt => CPSettle.xleft (pt_cp pt)) _ _ _ (MkPt (pt_url pt) (pt_id pt) p') H1) as B.
    cbn [pt_cp] in A, B. unfold set_point. destruct HB as [H|[H3 H4]]; lia.
Qed.
Lemma cs_goes_or_settled s tr : creach s tr -> (exists s' o, cs_own_step s s' o) \/ s_crash s = true \/ cs_settled s tr /\ CSSettle.cs_rest s.
Proof.
  intros HR. destruct (s_crash s) eqn:C; [auto|]. destruct (CSSettle.cs_own_or_rest _ _ HR C) as [H|R]; [auto|]. destruct (C80_comes_to_rest _ _ HR) as [[H|H]|H _]; [congruence|auto|auto].
Qed.
Lemma cp_goes_or_settled p tr : xreach p tr -> (exists p' o, cp_own_step p p' o) \/ p_crash p = true \/ cp_settled p tr /\ CPSettle.xrest p.
Proof.
  intros HR. destruct (p_crash p) eqn:C; [auto|]. destruct (CPSettle.cp_own_or_rest _ _ HR C) as [H|R]; [auto|]. destruct (C81_comes_to_rest _ _ HR) as [[H|H]|H _]; [congruence|auto|auto].
Qed.
(** What is proved of every part that is alive *)
Definition everyone (P : csys -> list cobs -> Prop) (Q : cpoint -> list pobs -> Prop) (y : sys) (tr : list yobs) : Prop :=
  (s_crash (y_central y) = true \/ P (y_central y) (central tr)) /\
  forall j pt, nth_error (y_points y) j = Some pt -> p_crash (pt_cp pt) = true \/ Q (pt_cp pt) (at_charge_point j tr).
Lemma someone_or_settled cfg y tr : yreach cfg y tr -> (exists y' o, y_own_step y y' o) \/
  everyone (fun s t => cs_settled s t /\ CSSettle.cs_rest s) (fun p t => cp_settled p t /\ CPSettle.xrest p) y tr.
Proof.
  intros HR. destruct (C106_central _ _ _ HR) as [RC _].
  assert (LC : forall v s' o, cs_own v = true -> cstep v (y_central y) = Some (s', o) -> (forall k, o <> [OConn k (OBytes "")]) -> exists y' o', y_own_step y y' o').
  { intros v s' o HO HS HB. destruct (lift_central _ _ _ _ _ _ HR HO HS) as (y' & yo & S & C & P & T). exists y', yo, (YCentral v). split; [exact HO|]. split; [exact S|]. split; [rewrite T; exact HB|].
    intros j k HX. cbn [ystep] in S. unfold ycentral in S. rewrite HS in S.
    assert (N : at_charge_point j yo = []).
    { destruct v; try discriminate HO; try (injection S as _ <-; apply point_central).
      destruct (nth_error (y_wires y) k0) as [w|]; [|discriminate S]. destruct (nth_error (s_ks (y_central y)) k0) as [x|]; [|discriminate S].
      destruct (central_allows e w) as [q|]; [|discriminate S]. injection S as _ <-. rewrite point_app, point_central, point_put. reflexivity. }
    rewrite N in HX. discriminate HX. }
  assert (LP : forall j pt x p' o, nth_error (y_points y) j = Some pt -> cp_own x = true -> xstep x (pt_cp pt) = Some (p', o) -> (forall k, o <> [QConn k (OBytes "")]) -> exists y' o', y_own_step y y' o').
  { intros j pt x p' o HN HO HS HB. destruct (lift_point _ _ _ _ _ _ _ _ HR HN HO HS) as (y' & yo & S & _ & _ & _ & T). exists y', yo, (YPoint j x). split; [exact HO|]. split; [exact S|].
    cbn [ystep] in S. rewrite HN in S.
    assert (N : exists kw oo out, yo = map (AtPoint j) oo ++ put kw Point out).
    { destruct x; try discriminate HO.
      - rewrite HS in S. injection S as _ <-. exists 0, o, []. rewrite app_nil_r. reflexivity.
      - destruct (ylink_inv _ _ _ _ _ _ _ _ S) as (k1 & w & c & q' & p1 & oo & _ & _ & _ & _ & _ & _ & ->). eauto. }
    destruct N as (kw & oo & out & ->). split; [intros k; rewrite central_app, central_point, central_put; discriminate|].
    intros j' k. rewrite point_app, point_point, point_put, Nat.eqb_refl, app_nil_r in T. subst oo. rewrite point_app, point_point, point_put, app_nil_r.
    destruct (Nat.eqb j' j); [apply HB|discriminate]. }
  destruct (cs_goes_or_settled _ _ RC) as [(s' & o & v & H1 & H2 & H3)|SC]; [left; exact (LC _ _ _ H1 H2 H3)|].
  assert (G : forall n, (exists y' o, y_own_step y y' o) \/ forall j pt, j < n -> nth_error (y_points y) j = Some pt -> p_crash (pt_cp pt) = true \/ cp_settled (pt_cp pt) (at_charge_point j tr) /\ CPSettle.xrest (pt_cp pt)).
  { induction n as [|n [IH|IH]]; [right; intros j pt L; lia|left; exact IH|].
    destruct (nth_error (y_points y) n) as [pt|] eqn:EN.
    - destruct (C106_point _ _ _ _ _ HR EN) as [RP _]. destruct (cp_goes_or_settled _ _ RP) as [(p' & o & x & H1 & H2 & H3)|SP]; [left; exact (LP _ _ _ _ _ EN H1 H2 H3)|right].
      intros j pt' L HN. destruct (Nat.eq_dec j n) as [->|ND]; [rewrite EN in HN; injection HN as <-; exact SP|apply IH; [lia|exact HN]].
    - right. intros j pt' L HN. apply IH; [|exact HN]. destruct (Nat.eq_dec j n) as [->|ND]; [rewrite EN in HN; discriminate HN|lia]. }
  destruct (G (length (y_points y))) as [H|H]; [left; exact H|right]. split; [exact SC|]. intros j pt HN. apply H; [apply nth_error_Some; rewrite HN; discriminate|exact HN].
Qed.
Lemma someone_moves (P : sys -> list yobs -> Prop) :
  (forall cfg y tr, yreach cfg y tr -> everyone (fun s t => cs_settled s t /\ CSSettle.cs_rest s) (fun p t => cp_settled p t /\ CPSettle.xrest p) y tr -> P y tr) ->
  forall cfg y tr, yreach cfg y tr -> inevitably y_own_step P y tr.
Proof.
  intros HP cfg y. induction y as [y IH] using (well_founded_induction wbelow_wf). intros tr HR.
  destruct (someone_or_settled _ _ _ HR) as [GO|RS]; [|apply iv_now; exact (HP _ _ _ HR RS)].
  apply iv_later; [exact GO|]. intros y' o HS. apply IH; [exact (y_own_below _ _ _ HS)|]. destruct HS as (v & _ & HS & _). exact (yreach_S _ _ _ _ _ _ HR HS).
Qed.
(** From every state - charge points dead, connections lost or given up, strangers sending anything, handlers
    panicked, calls waiting on both sides: *)
Theorem C107_comes_to_rest : forall cfg y tr, yreach cfg y tr -> inevitably y_own_step everyone_settled y tr.
Proof.
  apply someone_moves. intros cfg y tr _ [A B]. split; [destruct A as [A|[A _]]; auto|]. intros j pt HN. destruct (B _ _ HN) as [H|[H _]]; auto.
Qed.
(** So every call made through a service of GetServiceOf or at a charge point returns, unless its own process dies:
    whatever the other processes and the network have done to it. *)
Definition calls_returned (tr : list obs) : Prop := forall n id q, In (OCall n id q) tr -> expiry_present (TStruct (m_ty q)) (m_val q) = true -> exists r, In (ORet n r) tr.
Lemma settled_returned c tr : settled c tr -> calls_returned tr.
Proof.
  intros [H _] n id q HI HE. assert (HS : In (n, (id, q)) (sends tr)) by (apply pick_in; exists (OCall n id q); split; [exact HI|reflexivity]).
  specialize (H _ _ _ HS HE). apply in_map_iff in H. destruct H as ([n' r] & E & H). cbn in E. subst n'. apply pick_in in H. destruct H as (o & H1 & H2). destruct o; try discriminate H2. injection H2 as <- <-. eauto.
Qed.
Theorem C107_calls_return : forall cfg y tr, yreach cfg y tr -> inevitably y_own_step (fun y' tr' =>
  (s_crash (y_central y') = true \/ forall k, calls_returned (conn_trace k (central tr'))) /\
  forall j pt, nth_error (y_points y') j = Some pt -> p_crash (pt_cp pt) = true \/ forall i, calls_returned (link i (at_charge_point j tr'))) y tr.
Proof.
  apply someone_moves. intros cfg y tr HR [A B]. split.
  - destruct (s_crash (y_central y)) eqn:C; [auto|right]. destruct A as [A|[_ (_ & _ & A)]]; [congruence|]. intros k. destruct (C106_central _ _ _ HR) as [RC _]. destruct (i_proj _ _ (creach_inv _ _ RC)) as [P1 P2].
    destruct (nth_error (s_ks (y_central y)) k) as [x|] eqn:HN; [|rewrite (P2 _ HN); intros n id q []]. destruct (P1 _ _ HN) as (R & E & _).
    assert (S0 : early (k_pc x) = true -> calls_returned (conn_trace k (central tr))).
    { intros X n id q HI _. specialize (E X). assert (HS : In (n, (id, q)) (sends (conn_trace k (central tr)))) by (apply pick_in; exists (OCall n id q); split; [exact HI|reflexivity]).
      destruct (sends_in _ _ _ _ _ (v_i _ _ _ (reach_inv _ _ _ R)) HS) as (sd & H1 & _). rewrite E in H1. destruct n; discriminate H1. }
    assert (S1 : rest (k_conn x) -> calls_returned (conn_trace k (central tr))).
    { intros X. exact (settled_returned _ _ (rest_settled _ _ _ R (no_crash_conn _ _ RC C _ _ HN) X (ks_closers _ _ RC _ _ HN))). }
    specialize (A _ _ HN). destruct (k_pc x); try (destruct A; fail); try (apply S0; reflexivity); apply S1; first [exact A|exact (proj1 A)].
  - intros j pt HN. destruct (p_crash (pt_cp pt)) eqn:C; [auto|right]. destruct (B _ _ HN) as [X|[_ [X _]]]; [congruence|]. intros i. destruct (C106_point _ _ _ _ _ HR HN) as [RP RL].
    destruct (nth_error (p_conns (pt_cp pt)) i) as [c|] eqn:EC.
    + destruct (X _ _ EC) as [X1 X2]. exact (settled_returned _ _ (rest_settled _ _ _ (RL _ _ EC) (no_crash_point _ _ RP C _ _ EC) X1 X2)).
    + pose proof (j_link _ _ (xreach_inv _ _ RP) i) as L. rewrite EC in L. rewrite L. intros n id q [].
Qed.
Theorem C107_no_endless_schedule : forall (f : nat -> sys) (g : nat -> list yobs), ~ forall n, y_own_step (f n) (f (S n)) (g n).
Proof.
  intros f g H. assert (X : forall y, Acc wbelow y -> forall n, f n = y -> False).
  { induction 1 as [y _ IH]. intros n EN. apply (IH (f (S n))) with (n := S n); [|reflexivity]. rewrite <- EN. exact (y_own_below _ _ _ (H n)). }
  exact (X (f 0) (wbelow_wf _) 0 eq_refl).
Qed.
(** In the state of C106_ex the central system and charge point "a" can each take a step; and when the handler of
    charge point "b" has panicked, that process is dead, the others are not. *)
Example C107_ex : let y := ystate_of troubled in yruns troubled = true /\
  map fst (sends (link 0 (at_charge_point 0 (ytrace_of troubled)))) = [0] /\ rets (link 0 (at_charge_point 0 (ytrace_of troubled))) = [] /\
  exists y1 o1 y2 o2, y_own_step y y1 o1 /\ y_own_step y y2 o2 /\ central o1 <> [] /\ at_charge_point 0 o2 <> [].
Proof.
  cbv zeta. split; [vm_compute; reflexivity|]. split; [vm_compute; reflexivity|]. split; [vm_compute; reflexivity|]. eexists _, _, _, _. split.
  - exists (YCentral (VConn 0 ELoop)). split; [reflexivity|]. split; [vm_compute; reflexivity|]. split; [intros k|intros j k]; vm_compute; try destruct j; discriminate.
  - split; [exists (YPoint 0 (XConn 0 EStop)); split; [reflexivity|]; split; [vm_compute; reflexivity|]; split; [intros k; vm_compute; discriminate|intros j k; destruct j; vm_compute; discriminate]|].
    split; vm_compute; discriminate.
Qed.
Definition clear_text := "[2,""9"",""ClearCache"",{}]".
Definition one_died := both_up ++ [YCentral (VService "b" "V16" "")] ++
  on_wire 1 0 1 (map (pair Central) [ESend false "9" (MkMsg "csreq.ClearCache" (VStruct [])); EStep 0; EStep 0; EStep 0; EChunk (WS 0) 200; EWritten (WS 0); EStep 0] ++
                 map (pair Point) [ERead 0 clear_text; EReader 0; ETake 0; ELoop; EHPanic]).
Example C107_died_ex : yruns one_died = true /\ s_crash (y_central (ystate_of one_died)) = false /\
  map (fun pt => p_crash (pt_cp pt)) (y_points (ystate_of one_died)) = [false; true].
Proof. conjs; vm_compute; reflexivity. Qed.
Definition alone_theorems := (C107_comes_to_rest, C107_calls_return, C107_no_endless_schedule).
Print Assumptions alone_theorems.
