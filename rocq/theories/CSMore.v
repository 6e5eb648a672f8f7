(** Lemmas behind PropsCS.v. *)
From Coq Require Import Arith Permutation.
From Verif Require Import GoBase Utf8 Json Float64 Codec Any Tables Registry Frame Conn SpecConn ConnBase ConnInv ConnSend ConnEvid ConnMore ConnFate ConnLast ConnTop CentralSystem SpecCS CSInv SpecLive.
Open Scope string_scope.
Open Scope list_scope.
Opaque marshal_message read_text unmarshal_request call_to_request result_to_response utf8_valid msg_ok is_request action_of.

(** ** A connection on the central system stops only after it is closed *)
Transparent step.
Lemma exit_step e c c' o : step CS e c = Some (c', o) -> exiting (c_loop c') = true ->
  exiting (c_loop c) = true \/ c_done c = true \/ (exists r, nth_error (c_readers c) r = Some (RRes (Some true))) \/
  (exists id, c_loop c = LRun id) /\ c_readers c' = c_readers c.
Proof.
  intros HS HX. step_inv HS e; csimp_in HX; first [discriminate HX | idtac];
   try first [ left; exact HX | left; reflexivity | right; left; assumption | right; left; reflexivity | right; right; left; eexists; eassumption
             | right; right; right; split; [eexists; first [reflexivity|eassumption]|reflexivity]].
  - rewrite E in HX. discriminate HX.
  - discriminate HS.
Qed.
Lemma true_step e c c' o r : step CS e c = Some (c', o) -> nth_error (c_readers c') r = Some (RRes (Some true)) ->
  nth_error (c_readers c) r = Some (RRes (Some true)) \/ c_done c' = true.
Proof.
  intros HS HX. step_inv HS e; csimp_in HX; csimp; try (right; reflexivity); try (left; exact HX).
  all: try (apply nth_upd_inv in HX; destruct HX as [[-> HX]|[NE HX]]; [discriminate HX|left; exact HX]).
  all: try (apply nth_app_inv in HX; destruct HX as [HX|[-> HX]]; [left; exact HX|discriminate HX]).
  discriminate HS.
Qed.
Lemma inactive_step e c c' o : step CS e c = Some (c', o) -> exiting (c_loop c) = true ->
  (forall r p, nth_error (c_readers c) r = Some p -> active p = false) -> forall r p, nth_error (c_readers c') r = Some p -> active p = false.
Proof.
  intros HS HX HI r0 p HP. step_inv HS e; csimp_in HP; try exact (HI _ _ HP); try discriminate HX.
  all: try match goal with E : c_loop _ = _ |- _ => rewrite E in HX; discriminate HX end.
  all: try (apply nth_upd_inv in HP; destruct HP as [[-> ->]|[_ HP]]; [|exact (HI _ _ HP)]).
  all: try match goal with E : nth_error (c_readers _) _ = Some _ |- _ => specialize (HI _ _ E); first [discriminate HI|exact HI|reflexivity] end.
  discriminate HS.
Qed.
(** The loop is leaving: somebody signalled the end, or the handler panicked and nobody is reading. *)
Lemma exit_done c tr : reach CS c tr ->
  (exiting (c_loop c) = true -> c_done c = true \/ forall r p, nth_error (c_readers c) r = Some p -> active p = false) /\
  (forall r, nth_error (c_readers c) r = Some (RRes (Some true)) -> c_done c = true).
Proof.
  induction 1 as [|c tr e c' o HR [IH1 IH2] HS]; [split; [intros H; discriminate H|intros [|r] H; discriminate H]|]. pose proof (done_keeps _ _ _ _ _ HS) as DK. split.
  - intros HX. destruct (exit_step _ _ _ _ HS HX) as [X|[X|[[r X]|[[id X] Y]]]].
    + destruct (IH1 X) as [Z|Z]; [left; exact (DK Z)|right; exact (inactive_step _ _ _ _ HS X Z)].
    + left. exact (DK X).
    + left. exact (DK (IH2 _ X)).
    + right. rewrite Y. apply (inv_a_none _ (reach_inv_a _ _ _ HR)); rewrite X; [intros r Z; discriminate Z|reflexivity].
  - intros r HX. destruct (true_step _ _ _ _ _ HS HX) as [X|X]; eauto.
Qed.
Lemma closers_zero e c c' o : step CS e c = Some (c', o) -> c_closers c = 0 -> e <> EUserClose -> c_closers c' = 0.
Proof. intros H D NE. step_inv H e; csimp; try exact D; try contradiction; try congruence. Qed.
(** The state after a late response, as long as nobody closes the connection *)
Definition stuck (text id : string) (r i : nat) (c : conn) : Prop := wedged text id r i c /\ c_done c = false /\ c_closers c = 0.
Lemma stuck_step e c c' o tr text id r i : reach CS c tr -> is_response text id -> stuck text id r i c -> e <> EUserClose ->
  step CS e c = Some (c', o) -> stuck text id r i c' /\ silent o /\ ~ In ODone o.
Proof.
  intros HR HI (HW & HD & HC) NE HS. pose proof (reach_inv _ _ _ HR) as V. destruct (wedge_step _ _ _ _ _ _ _ _ _ HI (v_a _ _ _ V) (v_m _ _ _ V) HW HS) as [W1 W2].
  assert (X : c_done c' = false /\ ~ In ODone o).
  { destruct HW as (_ & (p & P1 & P2) & _). pose proof (inv_a_only _ _ _ (v_a _ _ _ V) P1 (wedge_active _ _ _ _ P2)) as HO. destruct (exit_done _ _ HR) as [ED _].
    clear - HS HD HC NE P1 P2 HO ED. step_inv HS e; csimp; try (split; [assumption|cbn; intuition discriminate]); try contradiction; try congruence.
    all: try (split; [reflexivity|cbn; intuition discriminate]).
    all: try (destruct (ED eq_refl) as [ED1|ED1]; [congruence|specialize (ED1 _ _ P1); rewrite (wedge_active _ _ _ _ P2) in ED1; discriminate ED1]).
    all: try match goal with H : nth_error _ ?j = Some (RCancel _) |- _ => destruct (Nat.eq_dec j r) as [->|D]; [rewrite H in P1; injection P1 as <-; destruct P2|specialize (HO _ _ H D); discriminate HO] end. }
  destruct X as [X1 X2]. split; [|auto]. split; [exact W1|]. split; [exact X1|exact (closers_zero _ _ _ _ HS HC NE)].
Qed.
Lemma stuck_loop c tr text id r i : reach CS c tr -> stuck text id r i c -> c_loop c = LSel r.
Proof. intros HR ((W & (p & P1 & P2) & _) & HD & _). destruct W as [W|W]; [exact W|]. destruct (exit_done _ _ HR) as [ED _]. destruct (ED W) as [X|X]; [rewrite X in HD; discriminate HD|]. specialize (X _ _ P1). rewrite (wedge_active _ _ _ _ P2) in X. discriminate X. Qed.
Opaque step.

Lemma ks_closers s tr : creach s tr -> forall k x, nth_error (s_ks s) k = Some x -> c_closers (k_conn x) = 0.
Proof.
  induction 1 as [|s tr v s' o HR IH HS]; intros k x HN; [destruct k; discriminate HN|]. cstep_inv HS v; ssimp_in HN; try exact (IH _ _ HN).
  all: try (apply nth_upd_inv in HN; destruct HN as [[-> ->]|[NE HN]]; [|exact (IH _ _ HN)]; cbn [k_conn]; try match goal with E : nth_error _ _ = Some ?c |- c_closers (k_conn ?c) = 0 => exact (IH _ _ E) end).
  - apply nth_app_inv in HN. destruct HN as [HN|[_ ->]]; [exact (IH _ _ HN)|reflexivity].
  - eapply closers_zero; [exact E1|exact (IH _ _ E)|]. intros ->. destruct (k_pc c); discriminate E0.
  - eapply closers_zero; [exact E1|exact (IH _ _ E)|]. intros ->. destruct (k_pc c); discriminate E0.
Qed.

Definition kstuck (text uid : string) (r i k : nat) (s : csys) : Prop :=
  exists x, nth_error (s_ks s) k = Some x /\ (k_pc x = KListen \/ k_pc x = KServe) /\ stuck text uid r i (k_conn x).
Definition leaves (k : nat) (o : cobs) : bool :=
  match o with OCleaned j _ | OStartOff _ j _ => Nat.eqb k j | OConn j ODone => Nat.eqb k j | _ => false end.
Lemma leaves_other k j o : k <> j -> existsb (leaves k) (map (OConn j) o) = false.
Proof. intros NE. induction o as [|x o IH]; [reflexivity|]. cbn. rewrite IH. destruct x; cbn; try reflexivity. rewrite (neqb _ _ NE). reflexivity. Qed.
Lemma leaves_done k o : ~ In ODone o -> existsb (leaves k) (map (OConn k) o) = false.
Proof. induction o as [|x o IH]; [reflexivity|]. cbn. intros H. rewrite IH by tauto. destruct x; cbn; try reflexivity. destruct H. left. reflexivity. Qed.
Lemma kstuck_step v s s' o tr text uid r i k : creach s tr -> is_response text uid -> kstuck text uid r i k s -> cstep v s = Some (s', o) ->
  kstuck text uid r i k s' /\ existsb (leaves k) o = false /\ silent (conn_trace k o).
Proof.
  intros HR HI (x & X1 & X2 & X3) H. pose proof (creach_inv _ _ HR) as V. destruct (proj1 (i_proj _ _ V) _ _ X1) as (R1 & _ & _). pose proof (stuck_loop _ _ _ _ _ _ R1 X3) as HL.
  cstep_inv H v; ssimp; try (split; [exists x; ssimp; auto|split; [reflexivity|repeat split]]; fail).
  all: try match goal with E : nth_error (s_ks _) ?j = Some ?y, P : k_pc ?y = ?pp |- _ =>
    destruct (Nat.eq_dec j k) as [->|NE];
    [rewrite X1 in E; injection E as <-; first [exfalso; destruct X2; congruence|idtac]
    |split; [exists x; ssimp; rewrite ?nth_upd, ?(neqb _ _ NE); auto|split; [cbn [existsb leaves]; rewrite ?(neqb _ _ (not_eq_sym NE)); reflexivity|repeat split]]] end.
  - split; [|split; [reflexivity|repeat split]]. exists x. ssimp. split; [|auto]. rewrite nth_error_app1 by exact (nth_lt _ _ _ X1). exact X1.
  - split; [|split; [reflexivity|repeat split]]. eexists. ssimp. rewrite nth_upd, Nat.eqb_refl, X1. split; [reflexivity|]. cbn. auto.
  - destruct (Nat.eq_dec k0 k) as [->|NE].
    + rewrite X1 in E. injection E as <-. assert (HU : e <> EUserClose) by (intros ->; destruct (k_pc x); discriminate E0).
      destruct (stuck_step _ _ _ _ _ _ _ _ _ R1 HI X3 HU E1) as (Y1 & Y2 & Y3). split; [|split].
      * eexists. ssimp. rewrite nth_upd, Nat.eqb_refl, X1. split; [reflexivity|]. cbn. auto.
      * apply leaves_done. exact Y3.
      * rewrite conn_trace_conn, Nat.eqb_refl. exact Y2.
    + split; [|split].
      * exists x. ssimp. rewrite nth_upd, (neqb _ _ NE). auto.
      * apply leaves_other. auto.
      * rewrite conn_trace_conn, (neqb _ _ (not_eq_sym NE)). repeat split.
  - destruct (Nat.eq_dec k0 k) as [->|NE].
    + rewrite X1 in E. injection E as <-. assert (HU : e <> EUserClose) by (intros ->; destruct (k_pc x); discriminate E0).
      destruct (stuck_step _ _ _ _ _ _ _ _ _ R1 HI X3 HU E1) as (Y1 & Y2 & Y3). split; [|split].
      * eexists. ssimp. rewrite nth_upd, Nat.eqb_refl, X1. split; [reflexivity|]. cbn. auto.
      * apply leaves_done. exact Y3.
      * rewrite conn_trace_conn, Nat.eqb_refl. exact Y2.
    + split; [|split].
      * exists x. ssimp. rewrite nth_upd, (neqb _ _ NE). auto.
      * apply leaves_other. auto.
      * rewrite conn_trace_conn, (neqb _ _ (not_eq_sym NE)). repeat split.
Qed.
Lemma kstuck_run vs : forall s s' o tr text uid r i k, creach s tr -> is_response text uid -> kstuck text uid r i k s -> crun vs s = Some (s', o) ->
  kstuck text uid r i k s' /\ existsb (leaves k) o = false /\ silent (conn_trace k o).
Proof.
  induction vs as [|v vs IH]; intros s s' o tr text uid r i k HR HI HK H; cbn [crun] in H.
  - injection H as <- <-. split; [exact HK|split; [reflexivity|repeat split]].
  - destruct (cstep v s) as [[s1 o1]|] eqn:E; [|discriminate H]. destruct (crun vs s1) as [[s2 o2]|] eqn:E2; [|discriminate H]. injection H as <- <-.
    destruct (kstuck_step _ _ _ _ _ _ _ _ _ _ HR HI HK E) as (K1 & K2 & K3). destruct (IH _ _ _ _ _ _ _ _ _ (creach_S _ _ _ _ _ HR E) HI K1 E2) as (L1 & L2 & L3).
    split; [exact L1|]. split; [rewrite existsb_app, K2, L2; reflexivity|]. rewrite conn_trace_app. apply silent_app; assumption.
Qed.
Lemma late_stuck s tr k i uid q o text r s1 o1 : creach s tr ->
  In (i, (uid, q)) (sends (conn_trace k tr)) -> In (i, o) (rets (conn_trace k tr)) -> gave_up o = true -> response_to text uid ->
  ~ In ODone (conn_trace k tr) -> cstep (VConn k (ERead r text)) s = Some (s1, o1) -> kstuck text uid r i k s1 /\ o1 = [OConn k (ORead text)].
Proof.
  intros HR HS HI HG HT HD H. pose proof (creach_inv _ _ HR) as V. pose proof H as H0. unfold cstep in H. destruct (s_crash s); [discriminate H|].
  destruct (nth_error (s_ks s) k) as [x|] eqn:E; [|discriminate H]. destruct (conn_event_ok (k_pc x) (ERead r text)) eqn:E0; [|discriminate H].
  destruct (step CS (ERead r text) (k_conn x)) as [[c' o']|] eqn:E1; [|discriminate H]. destruct (proj1 (i_proj _ _ V) _ _ E) as (R1 & R2 & R3).
  destruct (late_wedged _ _ _ _ _ _ _ _ _ _ _ R1 HS HI HG HT E1) as [W ->].
  assert (D : c_done (k_conn x) = false). { destruct (c_done (k_conn x)) eqn:D; [|reflexivity]. apply (done_seen _ _ _ R1) in D. contradiction. }
  assert (D' : c_done c' = false).
  { pose proof (reach_S _ _ _ _ _ _ R1 E1) as R'. destruct (c_done c') eqn:Q; [|reflexivity]. apply (done_seen _ _ _ R') in Q. apply in_app_or in Q. destruct Q as [Q|[Q|[]]]; [contradiction|discriminate Q]. }
  assert (K : c_closers c' = 0). { eapply closers_zero; [exact E1|exact (ks_closers _ _ HR _ _ E)|discriminate]. }
  injection H as <- <-. split; [|reflexivity]. exists (MkK (k_id x) (k_pc x) c'). split; [|split; [|repeat split; try assumption; try apply W]].
  - destruct (c_crash c'); ssimp; rewrite nth_upd, Nat.eqb_refl, E; reflexivity.
  - cbn [k_pc]. destruct (k_pc x) eqn:P; try discriminate E0; auto; exfalso.
    all: specialize (R3 eq_refl); pose proof (gone_done _ _ R1 R3); congruence.
Qed.

(** ** Reports at a point of the trace *)
Lemma report s tr b x a : creach s tr -> tr = b ++ x :: a -> (forall s0 s1 v l, cstep v s0 = Some (s1, l) -> In x l -> l = [x]) ->
  exists s0 v s1, creach s0 b /\ cstep v s0 = Some (s1, [x]) /\ creach s1 (b ++ [x]).
Proof.
  intros HR HT HX. destruct (creach_split _ _ _ _ _ HR HT) as (s0 & tr0 & v & s1 & b1 & a1 & a2 & R & S & -> & -> & R1).
  assert (Y : b1 ++ x :: a1 = [x]) by (apply (HX _ _ _ _ S); apply in_or_app; right; left; reflexivity).
  destruct b1 as [|y b1]; [|injection Y as -> Y; destruct b1; discriminate Y]. injection Y as ->. rewrite app_nil_r. exists s0, v, s1. auto.
Qed.
Lemma map_conn_in k o x : (forall j y, x <> OConn j y) -> ~ In x (map (OConn k) o).
Proof. intros H HI. apply in_map_iff in HI. destruct HI as (y & HI & _). exact (H _ _ (eq_sym HI)). Qed.
Ltac shown := intros s0 s1 w l HS HI; cstep_inv HS w; try (destruct HI as [HI|[]]; try discriminate HI; rewrite HI; reflexivity); try (destruct HI; fail);
  try (exfalso; revert HI; apply map_conn_in; discriminate).
Lemma show_service id v url r : forall s0 s1 w l, cstep w s0 = Some (s1, l) -> In (OService id v url r) l -> l = [OService id v url r].
Proof. shown. Qed.
Lemma show_waitd id r : forall s0 s1 w l, cstep w s0 = Some (s1, l) -> In (OWaitD id r) l -> l = [OWaitD id r].
Proof. shown. Qed.
Lemma show_page n : forall s0 s1 w l, cstep w s0 = Some (s1, l) -> In (OPage n) l -> l = [OPage n].
Proof. shown. Qed.
Lemma conns_online s tr id : creach s tr -> (online id tr /\ lookup id (s_conns s) = newest id tr /\ newest id tr <> None) \/ (~ online id tr /\ lookup id (s_conns s) = None).
Proof.
  intros HR. pose proof (creach_inv _ _ HR) as V. destruct (i_maps _ _ V) as (_ & _ & M3). specialize (M3 id). pose proof (i_on _ _ V id) as HO.
  destruct (cnt id (s_ks s)) eqn:E.
  - right. split; [rewrite <- HO; lia|exact M3].
  - left. split; [apply HO; lia|]. split; [exact M3|]. assert (X : online id tr) by (apply HO; lia). destruct X as (k & X & _). unfold newest. destruct (regs id tr) as [|y l]; [destruct X|].
    clear. revert y. induction l as [|z l IH]; intros y; [discriminate|]. cbn [last_of]. apply IH.
Qed.
Ltac bysel := let H := fresh in intros H; let HL := fresh "HL" in intros HL; match type of H with cstep ?w _ = _ => cstep_inv H w end;
  try (injection HL; intros; subst); try (discriminate HL); try (exfalso; match type of HL with map (OConn _) ?o = _ => destruct o as [|? ?]; discriminate HL end).
Lemma service_step w s s1 l id v url r : cstep w s = Some (s1, l) -> l = [OService id v url r] -> w = VService id v url /\ s1 = s /\ r = get_service id v url s.
Proof. bysel; auto. Qed.
Lemma waitd_step w s s1 l id r : cstep w s = Some (s1, l) -> l = [OWaitD id r] -> w = VWaitDisconnect id /\ s1 = s /\ r = lookup id (s_conns s).
Proof. bysel; auto. Qed.
Lemma page_step w s s1 l n : cstep w s = Some (s1, l) -> l = [OPage n] -> s1 = s /\ n = length (s_conns s).
Proof. bysel; auto. Qed.
Lemma service_any s tr b id v url r : creach s tr -> at_point b (OService id v url r) tr -> exists s0, creach s0 b /\ r = get_service id v url s0.
Proof.
  intros HR [a HT]. destruct (report _ _ _ _ _ HR HT (show_service _ _ _ _)) as (s0 & w & s1 & R & S & _). destruct (service_step _ _ _ _ _ _ _ _ S eq_refl) as (_ & _ & X). eauto.
Qed.
Lemma service_at s tr b id url r : creach s tr -> at_point b (OService id "V16" url r) tr ->
  (online id b /\ exists k, newest id b = Some k /\ r = inl (SvcJSON k)) \/ (~ online id b /\ r = inr "no connection to this charge point").
Proof.
  intros HR HT. destruct (service_any _ _ _ _ _ _ _ HR HT) as (s0 & R & ->). unfold get_service. cbn.
  destruct (conns_online _ _ id R) as [(O1 & O2 & O3)|(O1 & O2)]; rewrite O2; [left|right]; (split; [exact O1|]); [|reflexivity].
  destruct (newest id b) as [k|]; [|contradiction]. eauto.
Qed.
Lemma waitd_at s tr b id r : creach s tr -> at_point b (OWaitD id r) tr ->
  (online id b /\ exists k, newest id b = Some k /\ r = Some k) \/ (~ online id b /\ r = None).
Proof.
  intros HR [a HT]. destruct (report _ _ _ _ _ HR HT (show_waitd _ _)) as (s0 & w & s1 & R & S & _). destruct (waitd_step _ _ _ _ _ _ S eq_refl) as (_ & _ & ->).
  destruct (conns_online _ _ id R) as [(O1 & O2 & O3)|(O1 & O2)]; rewrite O2; [left|right]; (split; [exact O1|]); [|reflexivity].
  destruct (newest id b) as [k|]; [|contradiction]. eauto.
Qed.
Lemma lookup_keys {A} id (m : list (string * A)) : lookup id m <> None <-> In id (map fst m).
Proof.
  induction m as [|[a x] m IH]; cbn; [tauto|]. destruct (String.eqb_spec id a) as [->|NE]; [split; [auto|discriminate]|]. rewrite IH. intuition congruence.
Qed.
Lemma page_at s tr b n : creach s tr -> at_point b (OPage n) tr -> exists l, NoDup l /\ length l = n /\ forall id, In id l <-> online id b.
Proof.
  intros HR [a HT]. destruct (report _ _ _ _ _ HR HT (show_page _)) as (s0 & w & s1 & R & S & _). destruct (page_step _ _ _ _ _ S eq_refl) as (_ & ->).
  exists (map fst (s_conns s0)). split; [exact (i_keys _ _ (creach_inv _ _ R))|]. split; [apply map_length|]. intros id. rewrite <- lookup_keys.
  destruct (conns_online _ _ id R) as [(O1 & O2 & O3)|(O1 & O2)]; rewrite O2; tauto.
Qed.
(** ** History of one charge point *)
Lemma regs_history id tr : regs id (history id tr) = regs id tr.
Proof.
  induction tr as [|o tr IH]; [reflexivity|]. unfold regs, cpick, history in *. cbn [filter flat_map]. destruct o; cbn [app] in *; try exact IH.
  - destruct (String.eqb id id0) eqn:E; cbn [flat_map app]; rewrite ?E, ?IH; reflexivity.
  - destruct (String.eqb id id0) eqn:E; cbn [flat_map app]; rewrite ?E, ?IH; reflexivity.
Qed.
Lemma cleans_history id tr : cleans id (history id tr) = cleans id tr.
Proof.
  induction tr as [|o tr IH]; [reflexivity|]. unfold cleans, cpick, history in *. cbn [filter flat_map]. destruct o; cbn [app] in *; try exact IH.
  - destruct (String.eqb id id0) eqn:E; cbn [flat_map app]; rewrite ?E, ?IH; reflexivity.
  - destruct (String.eqb id id0) eqn:E; cbn [flat_map app]; rewrite ?E, ?IH; reflexivity.
Qed.
Lemma history_online id t1 t2 : history id t1 = history id t2 -> (online id t1 <-> online id t2) /\ newest id t1 = newest id t2 /\ regs id t1 = regs id t2.
Proof.
  intros H. assert (R : regs id t1 = regs id t2) by (rewrite <- (regs_history id t1), H; apply regs_history).
  assert (C : cleans id t1 = cleans id t2) by (rewrite <- (cleans_history id t1), H; apply cleans_history).
  unfold online, newest. rewrite R, C. tauto.
Qed.

(** ** Progress *)
Transparent step.
Lemma free_mux s tr : creach s tr -> s_crash s = false -> exists vs s1 o, length vs <= 1 /\ forallb cs_unaided vs = true /\ crun vs s = Some (s1, o) /\ s_mux s1 = None /\ s_crash s1 = false /\
  (forall k x, nth_error (s_ks s) k = Some x -> inside (k_pc x) = false -> nth_error (s_ks s1) k = Some x).
Proof.
  intros HR HC. pose proof (creach_inv _ _ HR) as V. destruct (s_mux s) as [j|] eqn:EM; [|exists [], s, []; repeat split; auto with arith].
  destruct (proj1 (i_mux _ _ V j) EM) as (x & X1 & X2).
  destruct (cstep (VStep j) s) as [[s1 o]|] eqn:ES.
  - exists [VStep j], s1, (o ++ []). split; [auto|]. split; [reflexivity|]. split; [cbn [crun]; rewrite ES; reflexivity|]. pose proof (no_panic _ _ _ _ _ (i_maps _ _ V) (i_chans _ _ V) ES) as NP.
    unfold cstep in ES. rewrite HC, X1 in ES. unfold kstep in ES. destruct (k_pc x) eqn:P; try discriminate X2; unfold do_register, do_clean in ES; cbv zeta in ES.
    + destruct (match lookup (k_id x) (s_chans s) with Some ch => (s_chans s, ch, s_nchan s) | None => _ end) as [[a b] d].
      destruct (negb (get_connected (k_id x) s) && is_closed b s); injection ES as <- <-; [destruct NP; left; reflexivity|]. ssimp. split; [reflexivity|]. split; [exact HC|].
      intros k y Y1 Y2. rewrite nth_upd. destruct (Nat.eqb_spec j k) as [->|NE]; [|exact Y1]. rewrite Y1 in X1. injection X1 as ->. rewrite P in Y2. discriminate Y2.
    + destruct (_ =? 0)%Z; injection ES as <- <-; ssimp; (split; [reflexivity|]; split; [exact HC|]);
      intros k y Y1 Y2; rewrite nth_upd; (destruct (Nat.eqb_spec j k) as [->|NE]; [|exact Y1]); rewrite Y1 in X1; injection X1 as ->; rewrite P in Y2; discriminate Y2.
  - exfalso. unfold cstep in ES. rewrite HC, X1 in ES. unfold kstep in ES. destruct (k_pc x); try discriminate X2; discriminate ES.
Qed.
Lemma crun_app vs ws s s1 o1 : crun vs s = Some (s1, o1) -> crun (vs ++ ws) s = match crun ws s1 with Some (s2, o2) => Some (s2, o1 ++ o2) | None => None end.
Proof.
  revert s o1. induction vs as [|v vs IH]; intros s o1 H; cbn [crun app] in *; [injection H as -> <-; destruct (crun ws s1) as [[? ?]|]; reflexivity|].
  destruct (cstep v s) as [[s2 o2]|]; [|discriminate H]. destruct (crun vs s2) as [[s3 o3]|] eqn:E; [|discriminate H]. injection H as -> <-.
  rewrite (IH _ _ E). destruct (crun ws s1) as [[? ?]|]; [rewrite app_assoc|]; reflexivity.
Qed.
Lemma kstep_run s k x s1 o : s_crash s = false -> nth_error (s_ks s) k = Some x -> kstep k x s = Some (s1, o) -> crun [VStep k] s = Some (s1, o).
Proof. intros H H1 H2. unfold crun, cstep. rewrite H, H1, H2, app_nil_r. reflexivity. Qed.
(** A goroutine past its loop gets to the end of its cleanup. *)
Lemma cleanup_run s tr k x : creach s tr -> s_crash s = false -> nth_error (s_ks s) k = Some x -> (k_pc x = KServe \/ late (k_pc x) = true) -> c_loop (k_conn x) = LGone -> k_pc x <> KEnd ->
  exists vs s1 o, length vs <= 5 /\ forallb cs_unaided vs = true /\ crun vs s = Some (s1, o) /\ In (OCleaned k (k_id x)) o.
Proof.
  intros HR HC HN HP HL HE.
  assert (F4 : forall s tr x, creach s tr -> s_crash s = false -> nth_error (s_ks s) k = Some x -> k_pc x = KClean -> exists vs s1 o, length vs <= 1 /\ forallb cs_unaided vs = true /\ crun vs s = Some (s1, o) /\ In (OCleaned k (k_id x)) o).
  { clear. intros s tr x HR HC HN P. destruct (kstep k x s) as [[s1 o]|] eqn:E.
    - exists [VStep k], s1, o. split; [auto|]. split; [reflexivity|]. split; [exact (kstep_run _ _ _ _ _ HC HN E)|]. unfold kstep in E. rewrite P in E. unfold do_clean in E. destruct (_ =? 0)%Z in E; injection E as <- <-; left; reflexivity.
    - unfold kstep in E. rewrite P in E. discriminate E. }
  assert (F3 : forall s tr x, creach s tr -> s_crash s = false -> nth_error (s_ks s) k = Some x -> k_pc x = KLock2 -> exists vs s1 o, length vs <= 3 /\ forallb cs_unaided vs = true /\ crun vs s = Some (s1, o) /\ In (OCleaned k (k_id x)) o).
  { clear - F4. intros s tr x HR HC HN P. destruct (free_mux _ _ HR HC) as (vs & s1 & o & L & U & R & M & C1 & K). pose proof (K _ _ HN ltac:(rewrite P; reflexivity)) as N1.
    assert (S2 : crun [VStep k] s1 = Some (set_kpc k x KClean (set_mux (Some k) s1), [])) by (apply (kstep_run _ _ _ _ _ C1 N1); unfold kstep; rewrite P, M; reflexivity).
    pose proof (creach_run _ _ _ _ _ HR R) as HR1. pose proof (creach_run _ _ _ _ _ HR1 S2) as HR2.
    destruct (F4 _ _ (MkK (k_id x) KClean (k_conn x)) HR2) as (ws & s3 & o3 & L3 & U3 & R3 & I3); [exact C1|ssimp; rewrite nth_upd, Nat.eqb_refl, N1; reflexivity|reflexivity|].
    exists (vs ++ [VStep k] ++ ws), s3, (o ++ [] ++ o3). split; [rewrite !app_length; cbn; lia|]. split; [rewrite !forallb_app, U, U3; reflexivity|]. split; [|apply in_or_app; right; exact I3].
    rewrite (crun_app _ _ _ _ _ R), (crun_app _ _ _ _ _ S2), R3. reflexivity. }
  assert (F2 : forall s tr x, creach s tr -> s_crash s = false -> nth_error (s_ks s) k = Some x -> k_pc x = KDisc -> exists vs s1 o, length vs <= 4 /\ forallb cs_unaided vs = true /\ crun vs s = Some (s1, o) /\ In (OCleaned k (k_id x)) o).
  { clear - F3. intros s tr x HR HC HN P.
    assert (S2 : crun [VStep k] s = Some (set_kpc k x KLock2 (set_goes (s_goes s ++ [(false, s_off s, k_id x)]) s), [OStartOff (s_off s) k (k_id x)])) by (apply (kstep_run _ _ _ _ _ HC HN); unfold kstep; rewrite P; reflexivity).
    pose proof (creach_run _ _ _ _ _ HR S2) as HR2.
    destruct (F3 _ _ (MkK (k_id x) KLock2 (k_conn x)) HR2) as (ws & s3 & o3 & L3 & U3 & R3 & I3); [exact HC|ssimp; rewrite nth_upd, Nat.eqb_refl, HN; reflexivity|reflexivity|].
    eexists ([VStep k] ++ ws), s3, _. split; [cbn; lia|]. split; [rewrite forallb_app, U3; reflexivity|]. split; [rewrite (crun_app _ _ _ _ _ S2), R3; reflexivity|]. apply in_or_app. right. exact I3. }
  assert (UP : forall n m, n <= m -> (exists vs s1 o, length vs <= n /\ forallb cs_unaided vs = true /\ crun vs s = Some (s1, o) /\ In (OCleaned k (k_id x)) o) -> exists vs s1 o, length vs <= m /\ forallb cs_unaided vs = true /\ crun vs s = Some (s1, o) /\ In (OCleaned k (k_id x)) o).
  { intros n m H (vs & s1 & o & L & R). exists vs, s1, o. split; [lia|exact R]. }
  destruct (k_pc x) eqn:P; destruct HP as [HP|HP]; try discriminate HP; try contradiction.
  - assert (S2 : crun [VStep k] s = Some (set_kpc k x KDisc s, [])) by (apply (kstep_run _ _ _ _ _ HC HN); unfold kstep; rewrite P, HL; reflexivity).
    pose proof (creach_run _ _ _ _ _ HR S2) as HR2.
    destruct (F2 _ _ (MkK (k_id x) KDisc (k_conn x)) HR2) as (ws & s3 & o3 & L3 & U3 & R3 & I3); [exact HC|ssimp; rewrite nth_upd, Nat.eqb_refl, HN; reflexivity|reflexivity|].
    eexists ([VStep k] ++ ws), s3, _. split; [cbn; lia|]. split; [rewrite forallb_app, U3; reflexivity|]. split; [rewrite (crun_app _ _ _ _ _ S2), R3; reflexivity|]. apply in_or_app. right. exact I3.
  - exact (UP 4 5 ltac:(lia) (F2 _ _ _ HR HC HN P)).
  - exact (UP 3 5 ltac:(lia) (F3 _ _ _ HR HC HN P)).
  - exact (UP 1 5 ltac:(lia) (F4 _ _ _ HR HC HN P)).
Qed.

(** ** Listeners *)
Lemma count_offs id tr k : count_occ Nat.eq_dec (offs id tr) k <= length (filter (fun o => match o with OStartOff _ _ _ => true | _ => false end) (life k tr)).
Proof.
  induction tr as [|o tr IH]; [apply le_n|]. change (o :: tr) with ([o] ++ tr). unfold offs. rewrite cpick_app, life_app, filter_app, app_length. fold (offs id).
  assert (A : forall l m, count_occ Nat.eq_dec (l ++ m) k = count_occ Nat.eq_dec l k + count_occ Nat.eq_dec m k) by (intros; apply count_occ_app). rewrite A.
  apply Nat.add_le_mono; [|exact IH]. unfold life. destruct o; cbn; try lia; try (destruct (Nat.eqb k k0); cbn; lia).
  destruct (String.eqb id id0); cbn; [|destruct (Nat.eqb k k0); cbn; lia]. destruct (Nat.eq_dec k0 k) as [->|NE]; [rewrite Nat.eqb_refl; cbn; lia|]. lia.
Qed.
Lemma in_offs id tr k : In k (offs id tr) <-> exists f, In (OStartOff f k id) (life k tr).
Proof.
  unfold offs, life. rewrite cpick_in. split.
  - intros (o & H1 & H2). destruct o; try discriminate H2. destruct (String.eqb_spec id id0); [|discriminate H2]. injection H2 as ->. subst. exists f. rewrite cpick_in. eexists. split; [exact H1|]. cbn. rewrite Nat.eqb_refl. reflexivity.
  - intros (f & H). rewrite cpick_in in H. destruct H as (o & H1 & H2). exists o. split; [exact H1|]. destruct o; try discriminate H2; destruct (Nat.eqb _ _); try discriminate H2. injection H2 as -> -> ->. rewrite String.eqb_refl. reflexivity.
Qed.
Lemma in_ons id tr k : In k (ons id tr) <-> exists f, In (OStartOn f k id) (life k tr).
Proof.
  unfold ons, life. rewrite cpick_in. split.
  - intros (o & H1 & H2). destruct o; try discriminate H2. destruct (String.eqb_spec id id0); [|discriminate H2]. injection H2 as ->. subst. exists f. rewrite cpick_in. eexists. split; [exact H1|]. cbn. rewrite Nat.eqb_refl. reflexivity.
  - intros (f & H). rewrite cpick_in in H. destruct H as (o & H1 & H2). exists o. split; [exact H1|]. destruct o; try discriminate H2; destruct (Nat.eqb _ _); try discriminate H2. injection H2 as -> -> ->. rewrite String.eqb_refl. reflexivity.
Qed.
Lemma life_shape s tr k : creach s tr -> life k tr = [] \/ exists id f g rest,
  life k tr ++ rest = [OArrived k id; ORegistered k id; OStartOn f k id; OStartOff g k id; OCleaned k id] \/ life k tr ++ rest = [OArrived k id; OShakeFailed k].
Proof.
  intros HR. destruct (i_life _ _ (creach_inv _ _ HR)) as [L1 L2]. destruct (nth_error (s_ks s) k) as [x|] eqn:E; [right|left; exact (L2 _ E)].
  pose proof (L1 _ _ E) as X. unfold script in X. exists (k_id x).
  destruct (k_pc x); repeat match type of X with exists _, _ => let f := fresh "f" in destruct X as [f X] end; rewrite X;
    first [solve [exists 0, 0; eexists; left; reflexivity] | solve [exists 0, 0, []; right; reflexivity] | solve [exists f, 0; eexists; left; reflexivity] | solve [exists f, f0; eexists; left; reflexivity]].
Qed.
Lemma offs_le s tr id : creach s tr -> incl (offs id tr) (ons id tr) /\ NoDup (offs id tr) /\ length (offs id tr) <= length (ons id tr).
Proof.
  intros HR. assert (ND : NoDup (offs id tr)).
  { apply (NoDup_count_occ Nat.eq_dec). intros k. eapply Nat.le_trans; [apply count_offs|]. destruct (life_shape _ _ k HR) as [->|(i & f & g & rest & H)]; [auto|].
    assert (X : length (filter (fun o => match o with OStartOff _ _ _ => true | _ => false end) (life k tr ++ rest)) <= 1) by (destruct H as [-> | ->]; cbn; auto). rewrite filter_app, app_length in X. lia. }
  assert (IN : incl (offs id tr) (ons id tr)).
  { intros k H. apply in_offs in H. destruct H as [f H]. apply in_ons. destruct (i_life _ _ (creach_inv _ _ HR)) as [L1 L2]. destruct (nth_error (s_ks s) k) as [x|] eqn:E; [|rewrite (L2 _ E) in H; destruct H].
    pose proof (L1 _ _ E) as X. unfold script in X.
    destruct (k_pc x); repeat match type of X with exists _, _ => let f := fresh "f" in destruct X as [f X] end; rewrite X in *; cbn [In] in H; repeat match type of H with _ \/ _ => destruct H as [H|H] end; try discriminate H; try (exfalso; exact H); injection H as -> <-; exists f0; cbn; auto. }
  split; [exact IN|]. split; [exact ND|]. apply NoDup_incl_length; assumption.
Qed.
Lemma no_crash_conn s tr : creach s tr -> s_crash s = false -> forall k x, nth_error (s_ks s) k = Some x -> c_crash (k_conn x) = false.
Proof.
  induction 1 as [|s tr v s' o HR IH HS]; intros HC k x HN; [destruct k; discriminate HN|].
  assert (HC0 : s_crash s = false) by (unfold cstep in HS; destruct (s_crash s); [discriminate HS|reflexivity]). specialize (IH HC0).
  cstep_inv HS v; ssimp_in HN; ssimp_in HC; try discriminate HC; try exact (IH _ _ HN).
  all: try (apply nth_upd_inv in HN; destruct HN as [[-> ->]|[NE HN]]; [|exact (IH _ _ HN)]; cbn [k_conn]; try assumption; try match goal with E : nth_error _ _ = Some ?c |- c_crash (k_conn ?c) = false => exact (IH _ _ E) end).
  apply nth_app_inv in HN. destruct HN as [HN|[_ ->]]; [exact (IH _ _ HN)|reflexivity].
Qed.
(** Showing [OStartOff] or [OCleaned] takes a goroutine past its loop. *)
Lemma late_show s tr b o k id a : creach s tr -> tr = b ++ o :: a -> (o = OCleaned k id \/ exists f, o = OStartOff f k id) -> closed_on k b.
Proof.
  intros HR HT HO. destruct (creach_split _ _ _ _ _ HR HT) as (s0 & tr0 & v & s1 & b1 & a1 & a2 & R & S & -> & -> & R1). unfold closed_on. rewrite conn_trace_app. apply in_or_app. left.
  pose proof (creach_inv _ _ R) as V. remember (b1 ++ o :: a1) as l eqn:HL. assert (HI : In o l) by (rewrite HL; apply in_or_app; right; left; reflexivity). clear HL R1 HR.
  assert (DN : forall j x, nth_error (s_ks s0) j = Some x -> late (k_pc x) = true -> j = k -> In ODone (conn_trace k tr0)).
  { intros j x HN HP ->. destruct (proj1 (i_proj _ _ V) _ _ HN) as (P1 & P2 & P3). apply (done_seen _ _ _ P1). exact (gone_done _ _ P1 (P3 HP)). }
  cstep_inv S v; try (destruct HI; fail); try (destruct HI as [HI|[]]); try (destruct HO as [->|[f ->]]; discriminate HI);
  try (exfalso; revert HI; apply map_conn_in; destruct HO as [->|[f ->]]; discriminate);
  try (match goal with E : nth_error _ _ = Some ?x, P : k_pc ?x = _ |- _ => eapply (DN _ _ E); [rewrite P; reflexivity|destruct HO as [->|[? ->]]; congruence] end).
Qed.
(** A closed connection whose loop is in its select is cleaned up. *)
Lemma close_run s tr k x r : creach s tr -> s_crash s = false -> nth_error (s_ks s) k = Some x -> k_pc x = KServe -> c_loop (k_conn x) = LSel r -> c_done (k_conn x) = true ->
  exists vs s1 o, length vs <= 8 /\ forallb cs_unaided vs = true /\ crun vs s = Some (s1, o) /\ In (OCleaned k (k_id x)) o.
Proof.
  intros HR HC HN HP HL HD. pose proof (no_crash_conn _ _ HR HC _ _ HN) as CC.
  set (c1 := set_loop LClose (k_conn x)). set (c2 := set_loop LCancel (set_closed c1)). set (c3 := set_loop LGone (set_done c2)).
  set (st c s := set_ks (upd k (MkK (k_id x) (k_pc x) c) (s_ks s)) s).
  assert (G : forall s e c c' o, s_crash s = false -> nth_error (s_ks s) k = Some (MkK (k_id x) (k_pc x) c) -> conn_event_ok (k_pc x) e = true -> step CS e c = Some (c', o) -> c_crash c' = false ->
     cstep (VConn k e) s = Some (st c' s, map (OConn k) o)).
  { clear. intros s e c c' o H1 H2 H3 H4 H5. unfold cstep. rewrite H1, H2. cbn [k_pc k_conn k_id]. rewrite H3, H4, H5. reflexivity. }
  assert (N0 : nth_error (s_ks s) k = Some (MkK (k_id x) (k_pc x) (k_conn x))) by (rewrite HN; destruct x; reflexivity).
  assert (S1 : cstep (VConn k ESeeClose) s = Some (st c1 s, map (OConn k) [])).
  { eapply G; [exact HC|exact N0|rewrite HP; reflexivity| |exact CC]. unfold step. rewrite CC, HL, HD. reflexivity. }
  assert (N1 : nth_error (s_ks (st c1 s)) k = Some (MkK (k_id x) (k_pc x) c1)) by (unfold st; ssimp; rewrite nth_upd, Nat.eqb_refl, HN; reflexivity).
  assert (S2 : cstep (VConn k ELoop) (st c1 s) = Some (st c2 (st c1 s), map (OConn k) [OClosed])).
  { eapply G; [exact HC|exact N1|rewrite HP; reflexivity| |exact CC]. unfold step. replace (c_crash c1) with false by (symmetry; exact CC). reflexivity. }
  assert (N2 : nth_error (s_ks (st c2 (st c1 s))) k = Some (MkK (k_id x) (k_pc x) c2)) by (unfold st at 1; ssimp; rewrite nth_upd, Nat.eqb_refl, N1; reflexivity).
  assert (S3 : cstep (VConn k ELoop) (st c2 (st c1 s)) = Some (st c3 (st c2 (st c1 s)), map (OConn k) [ODone])).
  { eapply G; [exact HC|exact N2|rewrite HP; reflexivity| |exact CC]. unfold step. replace (c_crash c2) with false by (symmetry; exact CC). reflexivity. }
  assert (N3 : nth_error (s_ks (st c3 (st c2 (st c1 s)))) k = Some (MkK (k_id x) (k_pc x) c3)) by (unfold st at 1; ssimp; rewrite nth_upd, Nat.eqb_refl, N2; reflexivity).
  assert (R : crun [VConn k ESeeClose; VConn k ELoop; VConn k ELoop] s = Some (st c3 (st c2 (st c1 s)), map (OConn k) [] ++ map (OConn k) [OClosed] ++ map (OConn k) [ODone] ++ [])).
  { unfold crun. rewrite S1, S2, S3. reflexivity. }
  pose proof (creach_run _ _ _ _ _ HR R) as HR3.
  destruct (cleanup_run _ _ k (MkK (k_id x) (k_pc x) c3) HR3) as (ws & s4 & o4 & L & U4 & R4 & I4); [exact HC|exact N3|left; exact HP|reflexivity|cbn [k_pc]; rewrite HP; discriminate|].
  eexists ([VConn k ESeeClose; VConn k ELoop; VConn k ELoop] ++ ws), s4, _. split; [rewrite app_length; cbn [length]; lia|]. split; [rewrite forallb_app, U4; reflexivity|]. split; [rewrite (crun_app _ _ _ _ _ R), R4; reflexivity|]. apply in_or_app. right. exact I4.
Qed.
