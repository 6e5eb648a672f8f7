(** Lemmas behind PropsPanic.v: what a panic of the handler does. *)
From Coq Require Import Arith.
From Verif Require Import GoBase Utf8 Json Float64 Codec Any Tables Registry Frame Conn SpecConn ConnBase ConnInv ConnSend ConnEvid ConnMore ConnFate ConnLast ConnTop CentralSystem SpecCS CSInv SpecLive CSMore ChargePoint SpecCP CPInv CPMore.
Open Scope string_scope.
Open Scope list_scope.
Opaque marshal_message read_text unmarshal_request call_to_request result_to_response utf8_valid msg_ok is_request action_of.

(** ** One connection *)
Transparent step.
Lemma exit_silent ro e c c' o : exiting (c_loop c) = true -> step ro e c = Some (c', o) ->
  exiting (c_loop c') = true /\ takens o = [] /\ handles o = [] /\ returns o = [] /\ panics o = [] /\ replies o = [] /\ loop_writes o = [].
Proof.
  intros HX H. step_inv H e; csimp; try discriminate HX.
  all: try match goal with E : c_loop _ = _ |- _ => rewrite E in HX; discriminate HX end.
  all: try (split; [first [exact HX|reflexivity]|repeat split; reflexivity]).
Qed.
Lemma panic_step e c c' o id : step CS e c = Some (c', o) -> In (OHPanic id) o ->
  exiting (c_loop c') = true /\ c_crash c' = false /\ (o = [OHPanic id] \/ exists i u q, o = [OCall i u q; OHPanic id]).
Proof.
  intros H HI. step_inv H e; csimp; cbn [In] in HI; repeat (destruct HI as [HI|HI]; try discriminate HI); try (destruct HI; fail).
  all: try discriminate H.
  all: injection HI as <-; split; [reflexivity|]; split; [assumption|].
  all: first [left; reflexivity | right; eexists _, _, _; reflexivity].
Qed.
Lemma top_stays ro e c c' o : c_loop c = LTop -> e <> ELoop -> step ro e c = Some (c', o) -> c_loop c' = LTop.
Proof.
  intros HL NE H. step_inv H e; csimp; try exact HL; try congruence.
Qed.
Opaque step.
Lemma panic_after c tr : reach CS c tr -> forall id b a, tr = b ++ OHPanic id :: a ->
  exiting (c_loop c) = true /\ takens a = [] /\ handles a = [] /\ returns a = [] /\ panics a = [] /\ replies a = [] /\ loop_writes a = [].
Proof.
  induction 1 as [|c tr e c' o HR IH HS]; intros id b a HT; [destruct b; discriminate HT|].
  destruct (split_app _ _ _ _ _ HT) as [(a1 & HA & ->)|(b1 & -> & HO)].
  - destruct (IH _ _ _ HA) as (X0 & X1 & X2 & X3 & X4 & X5 & X6). destruct (exit_silent _ _ _ _ _ X0 HS) as (Y0 & Y1 & Y2 & Y3 & Y4 & Y5 & Y6).
    split; [exact Y0|]. unfold takens, handles, returns, panics, replies, loop_writes in *. rewrite !pick_app, X1, X2, X3, X4, X5, X6, Y1, Y2, Y3, Y4, Y5, Y6. repeat split; reflexivity.
  - destruct (panic_step _ _ _ _ id HS) as (Y0 & _ & Y1); [rewrite HO; apply in_or_app; right; left; reflexivity|]. split; [exact Y0|].
    assert (a = []) as ->; [|repeat split; reflexivity]. destruct Y1 as [-> | (i & u & q & ->)].
    + destruct b1 as [|x [|y b1]]; try discriminate HO. injection HO as <-. reflexivity.
    + destruct b1 as [|x [|y [|z b1]]]; try discriminate HO. injection HO as _ <-. reflexivity.
Qed.
Lemma panic_counts ro c tr id : reach ro c tr -> In (OHPanic id) tr -> panics tr = [id] /\ map fst (handles tr) = map (fun x => fst (fst x)) (replies tr) ++ [id].
Proof.
  intros HR HI. destruct (v_h _ _ _ (reach_inv _ _ _ HR)) as (_ & H2 & H3 & H4).
  assert (P : In id (panics tr)) by (apply pick_in; eexists; split; [exact HI|reflexivity]).
  destruct H4 as [H4|[H4 H5]]; [rewrite H4 in P; destruct P|]. destruct (panics tr) as [|j [|? ?]] eqn:E; try discriminate H5. destruct P as [->|[]]. split; [reflexivity|].
  rewrite H2, H3, map_app, map_map. destruct (c_loop c); try discriminate H4; cbn [pend_run pend_rep map app]; rewrite ?app_nil_r; reflexivity.
Qed.

(** ** The central system *)
Lemma listen_top s tr : creach s tr -> forall k x, nth_error (s_ks s) k = Some x -> k_pc x = KListen -> c_loop (k_conn x) = LTop.
Proof.
  induction 1 as [|s tr v s' o HR IH HS]; intros j y HJ HP; [destruct j; discriminate HJ|].
  pose proof (creach_inv _ _ HR) as V.
  assert (EA : forall k x, nth_error (s_ks s) k = Some x -> early (k_pc x) = true -> c_loop (k_conn x) = LTop).
  { intros k x HN HE. destruct (proj1 (i_proj _ _ V) _ _ HN) as (_ & X & _). rewrite (X HE). reflexivity. }
  cstep_inv HS v; ssimp_in HJ; try exact (IH _ _ HJ HP).
  all: try (apply nth_upd_inv in HJ; destruct HJ as [[-> ->]|[_ HJ]]; [|exact (IH _ _ HJ HP)]; cbn [k_pc k_conn] in *).
  all: try discriminate HP.
  all: try (apply nth_app_inv in HJ; destruct HJ as [HJ|[_ ->]]; [exact (IH _ _ HJ HP)|discriminate HP]).
  all: try match goal with E : nth_error (s_ks _) _ = Some ?x, P : k_pc ?x = KReg |- _ => apply (EA _ _ E); rewrite P; reflexivity end.
  all: match goal with E : nth_error (s_ks _) _ = Some ?x, S : step CS ?e (k_conn ?x) = Some _ |- _ =>
         eapply top_stays; [exact (IH _ _ E HP)| |exact S]; intros ->; rewrite HP in *; match goal with K : conn_event_ok KListen ELoop = true |- _ => discriminate K end end.
Qed.
(** A connection whose loop has left is closed and cleaned up. *)
Lemma conn_ev s k x e c' o : s_crash s = false -> nth_error (s_ks s) k = Some x -> conn_event_ok (k_pc x) e = true -> step CS e (k_conn x) = Some (c', o) -> c_crash c' = false ->
  cstep (VConn k e) s = Some (set_ks (upd k (MkK (k_id x) (k_pc x) c') (s_ks s)) s, map (OConn k) o).
Proof. intros H1 H2 H3 H4 H5. unfold cstep. rewrite H1, H2, H3, H4, H5. reflexivity. Qed.
Lemma leave_run s tr k x : creach s tr -> s_crash s = false -> nth_error (s_ks s) k = Some x -> k_pc x = KServe -> exiting (c_loop (k_conn x)) = true ->
  exists vs s1 o, length vs <= 7 /\ forallb cs_unaided vs = true /\ crun vs s = Some (s1, o) /\ In (OCleaned k (k_id x)) o.
Proof.
  assert (A : forall s tr x, creach s tr -> s_crash s = false -> nth_error (s_ks s) k = Some x -> k_pc x = KServe -> c_loop (k_conn x) = LGone ->
     exists vs s1 o, length vs <= 5 /\ forallb cs_unaided vs = true /\ crun vs s = Some (s1, o) /\ In (OCleaned k (k_id x)) o).
  { clear. intros s tr x HR HC HN HP HL. apply (cleanup_run _ _ _ _ HR HC HN); [left; exact HP|exact HL|rewrite HP; discriminate]. }
  assert (B : forall n s tr x l, (forall s tr x, creach s tr -> s_crash s = false -> nth_error (s_ks s) k = Some x -> k_pc x = KServe -> c_loop (k_conn x) = l ->
       exists vs s1 o, length vs <= n /\ forallb cs_unaided vs = true /\ crun vs s = Some (s1, o) /\ In (OCleaned k (k_id x)) o) ->
     creach s tr -> s_crash s = false -> nth_error (s_ks s) k = Some x -> k_pc x = KServe ->
     (exists c' o, step CS ELoop (k_conn x) = Some (c', o) /\ c_crash c' = false /\ c_loop c' = l) ->
     exists vs s1 o, length vs <= S n /\ forallb cs_unaided vs = true /\ crun vs s = Some (s1, o) /\ In (OCleaned k (k_id x)) o).
  { clear. intros n s tr x l IH HR HC HN HP (c' & o & S1 & S2 & S3).
    assert (ST : cstep (VConn k ELoop) s = Some (set_ks (upd k (MkK (k_id x) (k_pc x) c') (s_ks s)) s, map (OConn k) o)) by (apply conn_ev; try assumption; rewrite HP; reflexivity).
    pose proof (creach_S _ _ _ _ _ HR ST) as HR1.
    destruct (IH _ _ (MkK (k_id x) (k_pc x) c') HR1) as (vs & s1 & o1 & L & U & R & I); [exact HC|ssimp; rewrite nth_upd, Nat.eqb_refl, HN; reflexivity|exact HP|exact S3|].
    exists (VConn k ELoop :: vs), s1, (map (OConn k) o ++ o1). split; [cbn; lia|]. split; [exact U|]. split; [cbn [crun]; rewrite ST, R; reflexivity|]. apply in_or_app. right. exact I. }
  Transparent step.
  assert (A1 : forall s tr x, creach s tr -> s_crash s = false -> nth_error (s_ks s) k = Some x -> k_pc x = KServe -> c_loop (k_conn x) = LCancel ->
     exists vs s1 o, length vs <= 6 /\ forallb cs_unaided vs = true /\ crun vs s = Some (s1, o) /\ In (OCleaned k (k_id x)) o).
  { intros s' tr' x' HR HC HN HP HL. eapply (B 5); [exact A|exact HR|exact HC|exact HN|exact HP|]. pose proof (no_crash_conn _ _ HR HC _ _ HN) as CC.
    eexists _, _. split; [unfold step; rewrite CC; unfold loop_step; rewrite HL; reflexivity|]. split; [exact CC|reflexivity]. }
  intros HR HC HN HP HX. pose proof (no_crash_conn _ _ HR HC _ _ HN) as CC. destruct (c_loop (k_conn x)) eqn:HL; try discriminate HX.
  - eapply (B 6); [exact A1|exact HR|exact HC|exact HN|exact HP|]. 
    eexists _, _. split; [unfold step; rewrite CC; unfold loop_step; rewrite HL; reflexivity|]. split; [exact CC|reflexivity].
  - destruct (A1 _ _ _ HR HC HN HP HL) as (vs & s1 & o & L & R). exists vs, s1, o. split; [lia|exact R].
  - destruct (A _ _ _ HR HC HN HP HL) as (vs & s1 & o & L & R). exists vs, s1, o. split; [lia|exact R].
  Opaque step.
Qed.
Lemma panicked_cleanup s tr k id who : creach s tr -> s_crash s = false -> In (OHPanic id) (conn_trace k tr) -> In (ORegistered k who) tr ->
  In (OCleaned k who) tr \/ exists vs s1 o, length vs <= 7 /\ forallb cs_unaided vs = true /\ crun vs s = Some (s1, o) /\ In (OCleaned k who) o.
Proof.
  intros HR HC HI HG. pose proof (creach_inv _ _ HR) as V. destruct (i_proj _ _ V) as [P1 P2]. destruct (i_life _ _ V) as [L1 L2].
  destruct (nth_error (s_ks s) k) as [x|] eqn:EN; [|rewrite (P2 _ EN) in HI; destruct HI]. destruct (P1 _ _ EN) as (R & E & _).
  apply in_split in HI. destruct HI as (b & a & HT). destruct (panic_after _ _ R _ _ _ HT) as (X & _).
  assert (HG' : In (ORegistered k who) (life k tr)) by (unfold life; rewrite cpick_in; eexists; split; [exact HG|]; cbn; rewrite Nat.eqb_refl; reflexivity).
  pose proof (L1 _ _ EN) as S. unfold script in S.
  assert (W : k_id x = who).
  { destruct (k_pc x); repeat match type of S with exists _, _ => let f := fresh "f" in destruct S as [f S] end; rewrite S in HG'; cbn [In] in HG'; repeat (destruct HG' as [HG'|HG']; try discriminate HG'); try (destruct HG'; fail); injection HG' as HG'; exact HG'. }
  subst who. destruct (k_pc x) eqn:EP; try (rewrite (E eq_refl) in X; discriminate X).
  - rewrite (listen_top _ _ HR _ _ EN EP) in X. discriminate X.
  - right. destruct (leave_run _ _ _ _ HR HC EN EP X) as (vs & s1 & o & L & U & Q). exists vs, s1, o. split; [exact L|]. split; [exact U|exact Q].
  - right. destruct (P1 _ _ EN) as (_ & _ & G). rewrite EP in G. destruct (cleanup_run _ _ _ _ HR HC EN (or_intror (f_equal late EP)) (G eq_refl)) as (vs & s1 & o & L & U & Q); [rewrite EP; discriminate|]. exists vs, s1, o. split; [lia|]. split; [exact U|exact Q].
  - right. destruct (P1 _ _ EN) as (_ & _ & G). rewrite EP in G. destruct (cleanup_run _ _ _ _ HR HC EN (or_intror (f_equal late EP)) (G eq_refl)) as (vs & s1 & o & L & U & Q); [rewrite EP; discriminate|]. exists vs, s1, o. split; [lia|]. split; [exact U|exact Q].
  - right. destruct (P1 _ _ EN) as (_ & _ & G). rewrite EP in G. destruct (cleanup_run _ _ _ _ HR HC EN (or_intror (f_equal late EP)) (G eq_refl)) as (vs & s1 & o & L & U & Q); [rewrite EP; discriminate|]. exists vs, s1, o. split; [lia|]. split; [exact U|exact Q].
  - left. destruct S as (f & g & S). assert (Z : In (OCleaned k (k_id x)) (life k tr)) by (rewrite S; cbn; tauto).
    unfold life in Z. rewrite cpick_in in Z. destruct Z as (o & Z1 & Z2). destruct o; try discriminate Z2; destruct (Nat.eqb _ _); try discriminate Z2. injection Z2 as <- <-. exact Z1.
Qed.
(** The panic touches nothing else. *)
Lemma panic_local s k e s' o id : cstep (VConn k e) s = Some (s', o) -> In (OConn k (OHPanic id)) o ->
  s_crash s' = false /\ s_conns s' = s_conns s /\ s_chans s' = s_chans s /\ s_closed s' = s_closed s /\ s_count s' = s_count s /\ s_connected s' = s_connected s /\ s_mux s' = s_mux s /\
  forall j, j <> k -> nth_error (s_ks s') j = nth_error (s_ks s) j.
Proof.
  intros H HI. unfold cstep in H. destruct (s_crash s) eqn:EC; [discriminate H|]. destruct (nth_error (s_ks s) k) as [x|] eqn:EN; [|discriminate H].
  destruct (conn_event_ok (k_pc x) e); [|discriminate H]. destruct (step CS e (k_conn x)) as [[c' oo]|] eqn:ES; [|discriminate H]. cbv zeta in H.
  assert (Y : c_crash c' = false).
  { destruct (c_crash c') eqn:E; [|reflexivity]. injection H as <- <-. apply in_map_iff in HI. destruct HI as (y & Y1 & Y2). injection Y1 as ->. destruct (panic_step _ _ _ _ _ ES Y2) as (_ & Z & _). congruence. }
  rewrite Y in H. injection H as <- <-. ssimp. repeat (split; [first [exact EC|reflexivity]|]). intros j NE. rewrite nth_upd. destruct (Nat.eqb_spec k j) as [->|_]; [contradiction|reflexivity].
Qed.

(** ** The charge point *)
Lemma link_in k o tr : In (QConn k o) tr -> In o (link k tr).
Proof. intros H. unfold link, qpick. apply in_flat_map. exists (QConn k o). split; [exact H|]. rewrite Nat.eqb_refl. left. reflexivity. Qed.
Lemma point_panic p tr k id : xreach p tr -> In (QConn k (OHPanic id)) tr ->
  p_crash p = true /\ exists tr0, tr = tr0 ++ [QConn k (OHPanic id); QConn k OCrash].
Proof.
  intros HR. revert k id. induction HR as [|p tr x p' o HR IH HS]; intros k id HI; [destruct HI|].
  destruct (xstep_kind _ _ _ _ HS) as [CR K].
  apply in_app_or in HI. destruct HI as [HI|HI]; [destruct (IH _ _ HI) as [Y _]; congruence|].
  destruct K as [P E O|P N E O|P N E O|P E O|P E O|P E O|P I E O|P I E O|P E O|E O|E N O|E N O|j e c c' oo pre HN HK HT E HP O]; subst o;
   try (cbn [In] in HI; repeat (destruct HI as [HI|HI]; try discriminate HI); try (destruct HI; fail)).
  - destruct (p_new p); cbn [In] in HI; repeat (destruct HI as [HI|HI]; try discriminate HI); destruct HI.
  - pose proof (xreach_inv _ _ HR) as V. pose proof (j_link _ _ V j) as L. rewrite HN in L. pose proof (reach_S _ _ _ _ _ _ L HT) as L1.
    assert (X : k = j /\ In (OHPanic id) oo).
    { apply in_app_or in HI. destruct HI as [HI|HI]; [destruct HP as [-> | (-> & _ & _)]; cbn in HI; [destruct HI|destruct HI as [HI|[]]; discriminate HI]|].
      apply in_app_or in HI. destruct HI as [HI|HI]; [apply in_map_iff in HI; destruct HI as (y & Y1 & Y2); injection Y1 as -> ->; auto|].
      exfalso. destruct (ppc_after e c' (p_pc p)); try (destruct HI; fail). destruct (p_pc p); try (destruct HI; fail). destruct HI as [HI|[]]. discriminate HI. }
    destruct X as [-> X]. destruct (cp_panic_last _ _ id L1) as (C1 & c0 & tr0 & R0 & P0 & T0); [apply in_or_app; right; exact X|].
    assert (OO : e = EHPanic /\ oo = [OHPanic id; OCrash]).
    { Transparent step. clear - HT X. step_inv HT e; cbn [In] in X; repeat (destruct X as [X|X]; try discriminate X); try (destruct X; fail); try discriminate HT. injection X as <-. auto. Opaque step. }
    destruct OO as [-> ->]. split; [rewrite E; cbv zeta; rewrite C1; reflexivity|].
    destruct HP as [-> | (_ & _ & i & u & q & HE)]; [|discriminate HE]. cbn [ppc_after app map]. exists tr. f_equal.
    assert (Z : match p_pc p, p_pc p with PEnd, PStop => [QStopped] | _, _ => @nil pobs end = []) by (destruct (p_pc p); reflexivity). rewrite Z. reflexivity.
Qed.
Lemma point_dead x p : p_crash p = true -> xstep x p = None.
Proof. intros H. unfold xstep. rewrite H. reflexivity. Qed.
