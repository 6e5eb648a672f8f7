(** Lemmas behind PropsSys.v. *)
From Coq Require Import Arith.
From Verif Require Import GoBase Utf8 Json Float64 Codec Any Tables Registry Frame Conn SpecConn ConnBase ConnInv ConnFate CentralSystem SpecCS CSInv CSMore ChargePoint SpecCP CPInv Net SpecNet NetProofs NetMore System SpecSys SysInv PropsNet.
Open Scope string_scope.
Open Scope list_scope.
Opaque marshal_message read_text unmarshal_request call_to_request result_to_response utf8_valid msg_ok is_request action_of.
Opaque step url_path.

Lemma in_central o tr : In o (central tr) <-> In (AtCentral o) tr.
Proof.
  unfold central. rewrite in_flat_map. split.
  - intros (z & A1 & A2). destruct z; try destruct A2 as [A2|[]]; try destruct A2. exact A1.
  - intros H. exists (AtCentral o). split; [exact H|left; reflexivity].
Qed.
Lemma in_point j o tr : In o (at_charge_point j tr) <-> In (AtPoint j o) tr.
Proof.
  unfold at_charge_point. rewrite in_flat_map. split.
  - intros (z & A1 & A2). destruct z; try destruct A2. destruct (Nat.eqb_spec j j0) as [<-|]; [|destruct A2]. destruct A2 as [<-|[]]. exact A1.
  - intros H. exists (AtPoint j o). split; [exact H|]. rewrite Nat.eqb_refl. left. reflexivity.
Qed.
(** The identity of a connection *)
Lemma arrived_id s tr k x : creach s tr -> nth_error (s_ks s) k = Some x -> forall cid, In (OArrived k cid) tr <-> cid = k_id x.
Proof.
  intros HR HX cid. pose proof (proj1 (i_life _ _ (creach_inv _ _ HR)) _ _ HX) as S.
  assert (Q : In (OArrived k cid) tr <-> In (OArrived k cid) (life k tr)).
  { split; [|apply life_in]. intros H. unfold life. apply cpick_in. exists (OArrived k cid). rewrite Nat.eqb_refl. auto. }
  rewrite Q. unfold script in S. destruct (k_pc x); repeat match type of S with exists _, _ => let f := fresh "f" in destruct S as [f S] end; rewrite S; cbn; split; intros H; try (subst; auto; fail); intuition congruence.
Qed.
Lemma registered_id s tr k x : creach s tr -> nth_error (s_ks s) k = Some x -> forall cid, In (ORegistered k cid) tr -> cid = k_id x.
Proof.
  intros HR HX cid H0. pose proof (proj1 (i_life _ _ (creach_inv _ _ HR)) _ _ HX) as S.
  assert (Q : In (ORegistered k cid) (life k tr)) by (unfold life; apply cpick_in; exists (ORegistered k cid); rewrite Nat.eqb_refl; auto).
  unfold script in S. destruct (k_pc x); repeat match type of S with exists _, _ => let f := fresh "f" in destruct S as [f S] end; rewrite S in Q; cbn in Q; intuition congruence.
Qed.
Lemma shown_on s tr k : creach s tr -> life k tr <> [] -> exists x, nth_error (s_ks s) k = Some x.
Proof. intros HR H. destruct (nth_error (s_ks s) k) as [x|] eqn:E; [eauto|]. destruct H. exact (proj2 (i_life _ _ (creach_inv _ _ HR)) _ E). Qed.
Lemma conn_on s tr k o : creach s tr -> In (OConn k o) tr -> exists x, nth_error (s_ks s) k = Some x.
Proof.
  intros HR H. destruct (nth_error (s_ks s) k) as [x|] eqn:E; [eauto|]. pose proof (proj2 (i_proj _ _ (creach_inv _ _ HR)) _ E) as Z.
  assert (I : In o (conn_trace k tr)) by (apply cpick_in; exists (OConn k o); rewrite Nat.eqb_refl; auto). rewrite Z in I. destruct I.
Qed.
(** A service is on a connection of that identity *)
Lemma service_id s tr cid v url k : creach s tr -> In (OService cid v url (inl (SvcJSON k))) tr -> In (ORegistered k cid) tr /\ In (OArrived k cid) tr.
Proof.
  intros HR HI. apply in_split in HI. destruct HI as (b & a & HT). destruct (service_any _ _ _ _ _ _ _ HR (ex_intro _ a HT)) as (s0 & R0 & HS).
  unfold get_service in HS. destruct (String.eqb v V15); [discriminate HS|]. destruct (String.eqb v V16); [|discriminate HS]. destruct (lookup cid (s_conns s0)) as [k'|] eqn:EL; [|discriminate HS]. injection HS as <-.
  destruct (conns_online _ _ cid R0) as [(_ & O2 & _)|(_ & O2)]; [|congruence]. rewrite EL in O2. symmetry in O2. apply last_of_in in O2.
  assert (RG : In (ORegistered k cid) b) by (apply regs_life in O2; apply life_in in O2; exact O2). split; [rewrite HT; apply in_or_app; left; exact RG|].
  assert (LF : life k b <> []) by (apply regs_life in O2; intros Q; rewrite Q in O2; destruct O2). destruct (shown_on _ _ _ R0 LF) as (x & HX).
  pose proof (registered_id _ _ _ _ R0 HX _ RG) as EI. rewrite HT. apply in_or_app. left. apply (arrived_id _ _ _ _ R0 HX). exact EI.
Qed.
(** A charge point's connection is one of the central system *)
Lemma point_connected cfg y tr j i o : yreach cfg y tr -> In (AtPoint j (QConn i o)) tr -> exists k, In (Connected k j i) tr.
Proof.
  intros HR HI. pose proof (yreach_inv _ _ _ HR) as V. apply in_point in HI. destruct (nth_error (y_points y) j) as [pt|] eqn:EP; [|rewrite (y_none _ _ _ V _ EP) in HI; destruct HI].
  pose proof (j_link _ _ (xreach_inv _ _ (y_p _ _ _ V _ _ EP)) i) as J. assert (I2 : In o (link i (at_charge_point j tr))) by (apply qpick_in; exists (QConn i o); rewrite Nat.eqb_refl; auto).
  destruct (nth_error (p_conns (pt_cp pt)) i) as [c|] eqn:EC; [|rewrite J in I2; destruct I2].
  assert (LI : i < length (p_conns (pt_cp pt))) by (apply nth_error_Some; congruence). destruct (y_all _ _ _ V _ _ _ EP LI) as (k & w & W1 & W2). exists k. apply (y_conn _ _ _ V). eauto.
Qed.
Lemma none_point k tr o : ~ In (NObs Point o) (wire_trace k None tr).
Proof.
  unfold wire_trace. intros H. apply in_flat_map in H. destruct H as (z & _ & H). destruct z as [c|j' p|k' j'|k' j' i'|k' s w t]; cbn in H; try destruct H.
  - destruct c; try destruct H. destruct (Nat.eqb k k0); [destruct H as [H|[]]; discriminate H|destruct H].
  - destruct p; destruct H.
  - destruct (Nat.eqb k k'); [destruct H as [H|[]]; discriminate H|destruct H].
Qed.
Lemma none_central k tr o : In (NObs Central o) (wire_trace k None tr) <-> In (AtCentral (OConn k o)) tr.
Proof.
  unfold wire_trace. rewrite in_flat_map. split.
  - intros (z & H1 & H). destruct z as [c|j' p|k' j'|k' j' i'|k' s w t]; cbn in H; try destruct H.
    + destruct c; try destruct H. destruct (Nat.eqb_spec k k0) as [<-|]; [destruct H as [H|[]]; injection H as ->; exact H1|destruct H].
    + destruct p; destruct H.
    + destruct (Nat.eqb k k'); [destruct H as [H|[]]; discriminate H|destruct H].
  - intros H. exists (AtCentral (OConn k o)). split; [exact H|]. cbn. rewrite Nat.eqb_refl. left. reflexivity.
Qed.
(** Nothing is read on a wire whose client has not finished its dial. *)
Lemma none_read k tr n text : nreach n (wire_trace k None tr) -> ~ In text (reads (view Central (wire_trace k None tr))).
Proof.
  intros NR HI. destruct (read_sent _ _ _ _ NR HI) as [w HS]. apply in_sent in HS. pose proof (n_origin _ _ (nreach_inv _ _ NR) _ _ _ HS) as O.
  assert (Z : view Point (wire_trace k None tr) = []).
  { destruct (view Point (wire_trace k None tr)) as [|o l] eqn:E; [reflexivity|]. exfalso. apply (none_point k tr o). apply in_view. rewrite E. left. reflexivity. }
  cbn [other] in O. rewrite Z in O. destruct w; cbn [origin] in O.
  - destruct O as (id & q & O & _). destruct O.
  - destruct O as (t & id & e & O & _). destruct O.
  - destruct O as (id & r & O & _). destruct O.
Qed.
(** What the central system reads, hears as an answer or hands to its handler, on a connection that a charge point
    asked for, comes from a charge point that is connected. *)
Lemma central_connected cfg y tr k o : yreach cfg y tr -> ours k tr -> In (AtCentral (OConn k o)) tr ->
  ((exists n x, o = ORet n x /\ answered x = true) \/ (exists x id, o = OHandle x id) \/ (exists t, o = ORead t)) -> exists j i, In (Connected k j i) tr.
Proof.
  intros HR [j HA] HI HO. pose proof (yreach_inv _ _ _ HR) as V. apply (y_ask _ _ _ V) in HA. destruct HA as (w & W1 & W2).
  assert (LK : k < length (s_ks (y_central y))) by (rewrite <- (y_len _ _ _ V); apply nth_error_Some; congruence). destruct (nth_some _ _ LK) as [x HX].
  pose proof (y_net _ _ _ V _ _ _ W1 HX) as N. unfold joined in N.
  assert (NO : forall n, nreach n (wire_trace k None tr) -> False).
  { intros n NR. apply none_central in HI. destruct HO as [(i & r & -> & HO)|[(q & id & ->)|(t & ->)]].
    - destruct (ret_moment _ _ _ _ _ NR HI HO) as (n0 & tr0 & rest & _ & A2 & id & q & text & _ & S2 & _). apply (none_read _ _ _ text NR). rewrite A2, view_app. unfold reads. rewrite pick_app. apply in_or_app. left. exact S2.
    - destruct (C58_sent _ _ Point _ _ NR HI) as (i & q1 & q' & _ & HH & _). exact (none_point _ _ _ (happened_In _ _ _ HH (or_introl eq_refl))).
    - apply (none_read _ _ _ t NR). apply pick_in. exists (ORead t). split; [apply in_view; exact HI|reflexivity]. }
  destruct (w_peer w) as [|j'|j' i|j'] eqn:EP; [discriminate W2| | |].
  - destruct N as (_ & _ & NR). destruct (NO _ NR).
  - exists j', i. apply (y_conn _ _ _ V). eauto.
  - destruct N as (_ & _ & NR). destruct (NO _ NR).
Qed.
(** Whose connection it is *)
Lemma connected_who cfg y tr k j i cid : yreach cfg y tr -> In (Connected k j i) tr -> In (AtCentral (OArrived k cid)) tr -> known_as cfg j cid.
Proof.
  intros HR HC HA. pose proof (yreach_inv _ _ _ HR) as V. destruct (met_net _ _ _ _ _ _ HR HC) as (_ & cid' & _ & K & A). apply (y_conn _ _ _ V) in HC. destruct HC as (w & W1 & W2).
  assert (LK : k < length (s_ks (y_central y))) by (rewrite <- (y_len _ _ _ V); apply nth_error_Some; congruence). destruct (nth_some _ _ LK) as [x HX].
  apply in_central in HA. apply in_central in A. apply (arrived_id _ _ _ _ (y_c _ _ _ V) HX) in HA. apply (arrived_id _ _ _ _ (y_c _ _ _ V) HX) in A. congruence.
Qed.
Lemma connected_ours cfg y tr k j i : yreach cfg y tr -> In (Connected k j i) tr -> ours k tr.
Proof.
  intros HR HC. pose proof (yreach_inv _ _ _ HR) as V. apply (y_conn _ _ _ V) in HC. destruct HC as (w & W1 & W2). exists j. apply (y_ask _ _ _ V). exists w. rewrite W2. auto.
Qed.
