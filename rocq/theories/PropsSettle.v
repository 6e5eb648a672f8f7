(** Property theorems C79 - C81: whatever the schedule. *)
From Coq Require Import Arith Permutation.
From Verif Require Import GoBase Utf8 Json Float64 Lang Types Codec Any Tables Registry Frame FrameRead SpecEnc Conn SpecConn ConnBase ConnInv ConnSend ConnFate ConnMore ConnLast ConnTop
  PropsConn CentralSystem SpecCS CSInv CSMore PropsCS ChargePoint SpecCP CPInv CPMore PropsCP SpecLive SpecSettle ConnLive ConnSettle LiveProofs CSSettle CPSettle PropsPanic PropsLive.
Open Scope string_scope.
Open Scope list_scope.
Opaque step.

(** *** C79: left alone, a connection comes to rest, whatever the schedule *)
(** Every call has returned; every handler called has returned (or panicked), every reply has been sent; nobody
    writes; the loop waits for the peer, on a connection that is not closed, or has left one that is.  It waits
    in the socket read, or - finding C30 - for ever, the last message having been a response nobody waits for. *)
Definition settled (c : conn) (tr : list obs) : Prop :=
  (forall i id q, In (i, (id, q)) (sends tr) -> expiry_present (TStruct (m_ty q)) (m_val q) = true -> In i (map fst (rets tr))) /\
  map fst (handles tr) = map fst (returns tr) ++ panics tr /\ returns tr = map fst (replies tr) /\
  c_lock c = None /\ c_closers c = 0 /\
  (loop_left c = true /\ In ODone tr \/
   ~ In ODone tr /\ exists r, awaited c r /\
     (nth_error (c_readers c) r = Some RRead \/
      exists text i id q, last1 (reads tr) = [text] /\ response_to text id /\ In (i, (id, q)) (sends tr))).
Lemma rest_settled ro c tr : reach ro c tr -> c_crash c = false -> rest c -> c_closers c = 0 -> settled c tr.
Proof.
  intros HR HC (R1 & R2 & R4) R3. pose proof (reach_inv _ _ _ HR) as V. destruct (v_h _ _ _ V) as (_ & HH & HP & _).
  assert (LL : pend_run (c_loop c) = [] /\ pend_rep (c_loop c) = []) by (destruct R4 as [->|(r & -> & _)]; split; reflexivity). destruct LL as [L1 L2]. rewrite L1, app_nil_r in HH. rewrite L2, app_nil_r in HP.
  split; [|split; [exact HH|split; [exact HP|split; [exact R2|split; [exact R3|]]]]].
  - intros i id q HS HE. destruct (sends_in _ _ _ _ _ (v_i _ _ _ V) HS) as (sd & H1 & <- & <-). specialize (R1 _ _ H1).
    destruct (v_c _ _ _ V _ _ H1) as (A & B & C & D). destruct (sd_pc sd) eqn:P; try discriminate R1.
    + apply in_map_iff. exists (i, o). split; [reflexivity|]. destruct (v_o _ _ _ V) as [O1 _]. apply O1. exists sd. auto.
    + destruct (request_crash (sd_id sd) _ B C) as [X _]. rewrite (X D) in HE. discriminate HE.
  - destruct R4 as [R4|(r & L & D & RR)]; [left|right].
    + split; [unfold loop_left; rewrite R4; reflexivity|]. apply (done_seen _ _ _ HR). exact (left_done _ _ _ HR HC R4).
    + split; [intros X; apply (done_seen _ _ _ HR) in X; congruence|]. exists r. split; [exact L|]. destruct RR as [RR|(ch & x & RR)]; [left; exact RR|right].
      destruct (reach_inv_y _ _ _ HR _ _ RR) as (id & text & i & q & Y1 & Y2 & Y3). exists text, i, id, q. auto.
Qed.
Theorem C79_comes_to_rest : forall ro c tr, reach ro c tr -> inevitably (own_step ro) (fun c' tr' => c_crash c' = true \/ settled c' tr') c tr.
Proof. intros ro. apply (settles ro); [intros; left; assumption|]. intros c tr HR HC RS R0. right. exact (rest_settled _ _ _ HR HC RS R0). Qed.
(** So there is no endless schedule of own steps, *)
Theorem C79_no_endless_schedule : forall ro (f : nat -> conn) (g : nat -> list obs), ~ forall n, own_step ro (f n) (f (S n)) (g n).
Proof.
  intros ro f g H. assert (X : forall c, Acc below c -> forall n, f n = c -> False).
  { induction 1 as [c _ IH]. intros n EN. destruct (H n) as (e & O1 & O2 & O3). apply (IH (f (S n))) with (n := S n); [|reflexivity]. rewrite <- EN. exact (own_below _ _ _ _ _ O1 O2 O3). }
  exact (X (f 0) (below_wf _) 0 eq_refl).
Qed.
(** and a call that has been made returns in every schedule in which the others go on. *)
Example C79_ex : let c := state_of CS [ELoop; ERead 0 hb_call; EReader 0; ETake 0; ELoop; ESend true "u1" (MkMsg "csreq.ClearCache" (VStruct [])); ESend false "u2" (MkMsg "csreq.ClearCache" (VStruct []))] in
  exists c1 o1 c2 o2, own_step CS c c1 o1 /\ own_step CS c c2 o2 /\ c1 <> c2.
Proof.
  cbv zeta. eexists _, _, _, _. split; [exists (EStep 0); split; [reflexivity|split; [vm_compute; reflexivity|discriminate]]|].
  split; [exists (EStep 1); split; [reflexivity|split; [vm_compute; reflexivity|discriminate]]|]. intros X. apply (f_equal c_senders) in X. vm_compute in X. discriminate X.
Qed.

(** *** C80: left alone, the central system comes to rest, whatever the schedule *)
(** The lock is free; every listener started has been called; every arrival is still in its handshake (whose end is the
    client's affair), or failed it, or was accepted and announced, is settled, and if closed was announced again and
    cleaned up.  A charge point counts as connected exactly when a connection of it has not closed. *)
Definition cs_settled (s : csys) (tr : list cobs) : Prop :=
  s_mux s = None /\ Permutation (started tr) (called tr) /\
  (forall k id, In (OArrived k id) tr -> exists x, nth_error (s_ks s) k = Some x /\
    (k_pc x = KShake \/ In (OShakeFailed k) tr \/
     In (ORegistered k id) tr /\ (exists f, In (OStartOn f k id) tr) /\ settled (k_conn x) (conn_trace k tr) /\
     (closed_on k tr -> (exists g, In (OStartOff g k id) tr) /\ In (OCleaned k id) tr))) /\
  (forall id, online id tr <-> exists k, In k (regs id tr) /\ ~ closed_on k tr).
Theorem C80_comes_to_rest : forall s tr, creach s tr -> inevitably cs_own_step (fun s' tr' => s_crash s' = true \/ cs_settled s' tr') s tr.
Proof.
  apply cs_settles; [intros; left; assumption|]. intros s tr HR HC (R1 & R2 & R3). right. pose proof (creach_inv _ _ HR) as V. destruct (i_life _ _ V) as [L1 L2]. destruct (i_proj _ _ V) as [J1 J2].
  assert (CL : forall k x, nth_error (s_ks s) k = Some x -> k_pc x = KServe -> ~ closed_on k tr).
  { intros k x HN HP HD. specialize (R3 _ _ HN). rewrite HP in R3. destruct R3 as [(_ & _ & [X|(r & X1 & X2 & _)]) Y]; [contradiction|]. destruct (J1 _ _ HN) as (R & _). apply (done_seen _ _ _ R) in HD. congruence. }
  assert (ST : forall k x, nth_error (s_ks s) k = Some x -> rest (k_conn x) -> settled (k_conn x) (conn_trace k tr)).
  { intros k x HN HT. destruct (J1 _ _ HN) as (R & _). exact (rest_settled _ _ _ R (no_crash_conn _ _ HR HC _ _ HN) HT (ks_closers _ _ HR _ _ HN)). }
  split; [exact R2|]. split; [pose proof (i_goes _ _ V) as G; unfold inv_goes in G; rewrite R1, app_nil_r in G; exact G|]. split.
  - intros k id HA. assert (HA' : In (OArrived k id) (life k tr)) by (unfold life; rewrite cpick_in; eexists; split; [exact HA|]; cbn; rewrite Nat.eqb_refl; reflexivity).
    destruct (nth_error (s_ks s) k) as [x|] eqn:HN; [|rewrite (L2 _ HN) in HA'; destruct HA']. exists x. split; [reflexivity|]. pose proof (L1 _ _ HN) as S. unfold script in S. specialize (R3 _ _ HN).
    assert (ID : k_id x = id) by (destruct (k_pc x); repeat match type of S with exists _, _ => let f := fresh "f" in destruct S as [f S] end; rewrite S in HA'; (destruct HA' as [HA'|HA']; [injection HA' as <-; reflexivity|]); repeat (destruct HA' as [HA'|HA']; [discriminate HA'|]); destruct HA').
    rewrite ID in S. pose proof (life_in k tr) as LI.
    destruct (k_pc x) eqn:P; try (destruct R3; fail).
    + left. reflexivity.
    + destruct S as [f S]. right. right. split; [apply LI; rewrite S; cbn; auto|]. split; [exists f; apply LI; rewrite S; cbn; auto|]. split; [exact (ST _ _ HN (proj1 R3))|]. intros HD. destruct (CL _ _ HN P HD).
    + destruct S as (f & g & S). right. right. split; [apply LI; rewrite S; cbn; auto|]. split; [exists f; apply LI; rewrite S; cbn; auto|]. split; [exact (ST _ _ HN R3)|]. intros _.
      split; [exists g; apply LI; rewrite S; cbn; auto|apply LI; rewrite S; cbn; auto 6].
    + right. left. apply LI. rewrite S. cbn. auto.
  - intros id. split; intros (k & K1 & K2); exists k; split; try exact K1.
    + intros HD. apply K2. rewrite regs_life in K1. rewrite cleans_life. destruct (nth_error (s_ks s) k) as [x|] eqn:HN; [|rewrite (L2 _ HN) in K1; destruct K1].
      pose proof (L1 _ _ HN) as S. unfold script in S. specialize (R3 _ _ HN). pose proof (CL _ _ HN) as C. destruct (k_pc x) eqn:P; try (destruct R3; fail).
      * rewrite S in K1. destruct K1 as [K1|[]]. discriminate K1.
      * destruct (C eq_refl HD).
      * destruct S as (f & g & S). rewrite S in K1 |- *. destruct K1 as [K1|[K1|K1]]; [discriminate K1| |repeat (destruct K1 as [K1|K1]; [discriminate K1|]); destruct K1]. injection K1 as <-. cbn. auto 6.
      * rewrite S in K1. destruct K1 as [K1|[K1|[]]]; discriminate K1.
    + intros HC2. apply K2. apply cleans_life in HC2. apply life_in in HC2. apply in_split in HC2. destruct HC2 as (b & a & HC2). rewrite HC2 in HR |- *. pose proof (late_show _ _ _ _ _ _ _ HR eq_refl (or_introl eq_refl)) as X.
      unfold closed_on in *. rewrite conn_trace_app. apply in_or_app. left. exact X.
Qed.
Theorem C80_no_endless_schedule : forall (f : nat -> csys) (g : nat -> list cobs), ~ forall n, cs_own_step (f n) (f (S n)) (g n).
Proof.
  intros f g H. assert (X : forall s, Acc cbelow s -> forall n, f n = s -> False).
  { induction 1 as [s _ IH]. intros n EN. destruct (H n) as (e & O1 & O2 & O3). apply (IH (f (S n))) with (n := S n); [|reflexivity]. rewrite <- EN. exact (cs_own_below _ _ _ _ O1 O2 O3). }
  exact (X (f 0) (cbelow_wf _) 0 eq_refl).
Qed.

(** A connection served, closed and announced, its handler still running, another waiting to be accepted *)
Example C80_ex : let vs := connects 0 "/a" ++ [VHttp true "GET" "/b"; VStep 1; VShake 1 true; VStep 1] ++ map (VConn 0) (ERead 0 hb_call :: nil) in
  cruns vs = true /\ s_mux (cstate_of vs) = Some 1 /\ online "a" (ctrace_of vs) /\
  exists s1 o1 s2 o2, cs_own_step (cstate_of vs) s1 o1 /\ cs_own_step (cstate_of vs) s2 o2 /\ s_mux s1 = None /\ s_mux s2 = Some 1.
Proof.
  cbv zeta. split; [vm_compute; reflexivity|]. split; [vm_compute; reflexivity|]. split; [exists 0; vm_compute; tauto|]. eexists _, _, _, _.
  split; [exists (VStep 1); split; [reflexivity|split; [vm_compute; reflexivity|discriminate]]|]. split; [exists (VConn 0 (EReader 0)); split; [reflexivity|split; [vm_compute; reflexivity|discriminate]]|]. split; vm_compute; reflexivity.
Qed.

(** *** C81: left alone, a charge point comes to rest, whatever the schedule *)
(** Every connection it has had is settled; every one that closed has been announced as lost, unless the charge point
    has stopped; and it is dialling (which ends when the network says so), or New failed, or it has stopped, or it is
    connected, not cancelled, over a connection that is not closed. *)
Definition cp_settled (p : cpoint) (tr : list pobs) : Prop :=
  (forall k, In k (ups tr) -> exists c, nth_error (p_conns p) k = Some c /\ settled c (link k tr)) /\
  (forall k, In k (ups tr) -> link_closed k tr -> In k (losts tr) \/ In QStopped tr) /\
  (p_pc p = PDial \/ In (QNew false) tr \/ In QStopped tr \/
   up_now tr = true /\ ~ In QCancelled tr /\ forall k, S k = length (ups tr) -> ~ link_closed k tr).
Theorem C81_comes_to_rest : forall p tr, xreach p tr -> inevitably cp_own_step (fun p' tr' => p_crash p' = true \/ cp_settled p' tr') p tr.
Proof.
  apply cp_settles; [intros; left; assumption|]. intros p tr HR HC [R1 R2]. right. pose proof (xreach_inv _ _ HR) as V. destruct (j_num _ _ V) as [N1 N2]. destruct (j_cur _ _ V) as [C1 _].
  assert (UP : forall k, In k (ups tr) -> k < length (ups tr)) by (intros k H; rewrite (j_ups _ _ V) in H; apply in_seq in H; lia).
  assert (LO : forall k, k < length (losts tr) -> In k (losts tr)) by (intros k H; rewrite (j_losts _ _ V); apply in_seq; lia).
  split; [|split].
  - intros k H. apply UP in H. destruct (nth_error (p_conns p) k) as [c|] eqn:HN; [|apply nth_error_None in HN; lia]. exists c. split; [reflexivity|]. pose proof (j_link _ _ V k) as R. rewrite HN in R.
    destruct (R1 _ _ HN) as [X Y]. exact (rest_settled _ _ _ R (no_crash_point _ _ HR HC _ _ HN) X Y).
  - intros k H HD. apply UP in H. destruct (p_pc p) eqn:P; try (destruct R2; fail); cbn in N2.
    + left. apply LO. lia.
    + destruct (Nat.eq_dec (S k) (length (ups tr))) as [E|E]; [exfalso|left; apply LO; lia]. destruct (nth_error (p_conns p) k) as [c|] eqn:HN; [|apply nth_error_None in HN; lia].
      pose proof (j_link _ _ V k) as R. rewrite HN in R. apply (done_seen _ _ _ R) in HD. destruct R2 as [_ R2]. specialize (R2 c). replace (p_cur p) with k in R2 by lia. specialize (R2 HN).
      destruct (R1 _ _ HN) as [(_ & _ & [X|(r & _ & X & _)]) _]; [contradiction|congruence].
    + right. apply (j_stop _ _ V). exact P.
    + left. apply LO. lia.
  - destruct (p_pc p) eqn:P; try (destruct R2; fail).
    + left. reflexivity.
    + right. right. right. destruct R2 as [R2 R3]. split; [rewrite (j_up _ _ V), P; reflexivity|]. split; [intros X; apply (j_cancel _ _ V) in X; congruence|].
      intros k HK HD. cbn in N1. destruct (nth_error (p_conns p) k) as [c|] eqn:HN; [|apply nth_error_None in HN; lia]. pose proof (j_link _ _ V k) as R. rewrite HN in R. apply (done_seen _ _ _ R) in HD.
      specialize (R3 c). replace (p_cur p) with k in R3 by lia. specialize (R3 HN). destruct (R1 _ _ HN) as [(_ & _ & [X|(r & _ & X & _)]) _]; [contradiction|congruence].
    + right. right. left. apply (j_stop _ _ V). exact P.
    + right. left. exact (failed_told _ _ HR P).
Qed.
Theorem C81_no_endless_schedule : forall (f : nat -> cpoint) (g : nat -> list pobs), ~ forall n, cp_own_step (f n) (f (S n)) (g n).
Proof.
  intros f g H. assert (X : forall s, Acc xbelow s -> forall n, f n = s -> False).
  { induction 1 as [s _ IH]. intros n EN. destruct (H n) as (e & O1 & O2 & O3). apply (IH (f (S n))) with (n := S n); [|reflexivity]. rewrite <- EN. exact (cp_own_below _ _ _ _ O1 O2 O3). }
  exact (X (f 0) (xbelow_wf _) 0 eq_refl).
Qed.
(** Cancelled while its handler waits for an answer *)
Example C81_ex : let xs := busy_point ++ [XCancel] in xruns xs = true /\ ~ In QStopped (xtrace_of xs) /\ p_crash (xstate_of xs) = false /\ exists p1 o1, cp_own_step (xstate_of xs) p1 o1.
Proof.
  cbv zeta. split; [vm_compute; reflexivity|]. split; [vm_compute; intuition discriminate|]. split; [vm_compute; reflexivity|]. eexists _, _, (XConn 0 (EWFail (WS 0))). split; [reflexivity|]. split; [vm_compute; reflexivity|discriminate].
Qed.
Definition settle_theorems := (C79_comes_to_rest, C79_no_endless_schedule, C80_comes_to_rest, C80_no_endless_schedule, C81_comes_to_rest, C81_no_endless_schedule).
Print Assumptions settle_theorems.
