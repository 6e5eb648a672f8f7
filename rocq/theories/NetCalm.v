(** Undisturbed histories: every response is for a caller that waits for it, and reaches it. *)
From Coq Require Import Arith.
From Verif Require Import GoBase Utf8 Json JsonProofs Float64 Lang Types Codec Any Tables Registry Frame SpecFrame FrameRead FrameMore Leaves
  Conn SpecConn ConnBase ConnInv ConnSend ConnEvid ConnMore ConnFate ConnLast ConnTop ConnLive Net SpecNet NetProofs NetMore NetOrder NetLive SpecCalm.
Open Scope string_scope.
Open Scope list_scope.
Opaque marshal_message read_text unmarshal_request call_to_request result_to_response utf8_valid msg_ok is_request action_of.

(** ** One end *)
Definition awaiting (p : spc) : bool := through p && negb (past p).
Definition waits (c : conn) (id : string) : Prop := exists i sd, nth_error (c_senders c) i = Some sd /\ sd_id sd = id /\ awaiting (sd_pc sd) = true.
Definition kfact (c : conn) (p : rpc) : Prop :=
  match p with
  | RDecode t => forall id, response_to t id -> waits c id
  | RLook m => waits c (id_of m)
  | RConv id _ | RChan id _ => waits c id
  | RPut ch _ => exists i sd, ch = Some i /\ nth_error (c_senders c) i = Some sd /\ awaiting (sd_pc sd) = true
  | RClose _ | RCancel _ | RRes (Some true) => False
  | _ => True
  end.
Definition carries (id : string) (i : nat) (p : rpc) : Prop :=
  match p with
  | RDecode t => response_to t id
  | RLook m => is_resp m = true /\ id_of m = id
  | RConv id' _ | RChan id' _ => id' = id
  | RPut ch _ => ch = Some i
  | _ => False
  end.
Record kinv (c : conn) (tr : list obs) : Prop := MkKinv {
  k_up : c_wbroken c = false /\ c_closed c = false /\ c_done c = false /\ c_rbroken c = false /\ c_closers c = 0 /\ exiting (c_loop c) = false;
  k_inh : forall i sd, nth_error (c_senders c) i = Some sd -> sd_inh sd = false;
  k_done : forall i sd o, nth_error (c_senders c) i = Some sd -> sd_pc sd = SDone o -> answered o = true \/ forall t, request_text (sd_id sd) (sd_q sd) <> Ok t;
  k_rd : forall r p, nth_error (c_readers c) r = Some p -> kfact c p;
  k_known : forall text id, In text (reads tr) -> response_to text id -> exists i sd, nth_error (c_senders c) i = Some sd /\ sd_id sd = id;
  k_carry : forall text id i sd, In text (reads tr) -> response_to text id -> nth_error (c_senders c) i = Some sd -> sd_id sd = id -> past (sd_pc sd) = false ->
    exists r p, nth_error (c_readers c) r = Some p /\ carries id i p;
  k_wf : (forall id r, ~ In (id, r, WriteFailed) (replies tr)) /\ (forall id r, ~ In (id, r, WriteFailed) (rejects tr)) }.

Lemma kinv_0 : kinv conn0 [].
Proof. constructor; try (intros i; intros; match goal with H : nth_error _ ?k = Some _ |- _ => destruct k; discriminate H end); [repeat split|intros t id []|split; intros id r []]. Qed.
Ltac norm_pc := repeat match goal with HX : sd_pc _ = _ |- _ => rewrite HX in *; clear HX end.
Lemma waits_keep ro e c c' o id : step ro e c = Some (c', o) -> calm e = true -> (forall i r, e <> EReceive i r) -> waits c id -> waits c' id.
Proof.
  intros H HC HE (i0 & s0 & W1 & W2 & W3). unfold waits.
  step_inv H e; try discriminate HC; csimp; try (exists i0, s0; auto; fail).
  all: try (exfalso; exact (HE _ _ eq_refl)).
  all: try (exists i0, s0; split; [rewrite nth_error_app1; [exact W1|exact (nth_lt _ _ _ W1)]|auto]; fail).
  all: match goal with |- exists i sd, nth_error (upd ?k ?x ?l) i = Some sd /\ _ => destruct (Nat.eq_dec k i0) as [EQ|EQ]; [subst k; exists i0, x|exists i0, s0; rewrite nth_upd; destruct (Nat.eqb_spec k i0); [contradiction|auto]; fail] end.
  all: rewrite nth_upd, Nat.eqb_refl, W1; match goal with HX : nth_error _ _ = Some ?s |- _ => rewrite W1 in HX; injection HX as <- end; csimp; norm_pc; (split; [reflexivity|]); (split; [exact W2|]); try reflexivity; try discriminate W3.
  all: unfold awaiting in *; cbn [through past negb andb] in *; destruct rest; [|discriminate W3]; rewrite sdrop_nil; reflexivity.
Qed.
Lemma waits_at c i sd id : inv_ids c -> nth_error (c_senders c) i = Some sd -> sd_id sd = id -> waits c id -> awaiting (sd_pc sd) = true.
Proof. intros HI HN HE (j & s & W1 & W2 & W3). rewrite (HI _ _ _ _ HN W1 (eq_trans HE (eq_sym W2))) in HN. congruence. Qed.
Lemma awaiting_reg p : awaiting p = true -> regd p = true /\ regr p = true.
Proof. destruct p; cbn; auto; intros H; discriminate H. Qed.
Lemma waits_sent c id : inv_m c -> waits c id -> lookup id (c_sent c) <> None.
Proof. intros (M1 & _) (i & sd & W1 & W2 & W3). specialize (M1 _ _ W1). destruct (awaiting_reg _ W3) as [R _]. rewrite R, W2 in M1. congruence. Qed.
Lemma waits_resp c id : inv_m c -> waits c id -> exists i sd, lookup id (c_resp c) = Some i /\ nth_error (c_senders c) i = Some sd /\ awaiting (sd_pc sd) = true.
Proof. intros (_ & _ & M3 & _) (i & sd & W1 & W2 & W3). specialize (M3 _ _ W1). destruct (awaiting_reg _ W3) as [_ R]. rewrite R, W2 in M3. eauto. Qed.
Lemma known_keep ro e c c' o id : step ro e c = Some (c', o) -> (exists i sd, nth_error (c_senders c) i = Some sd /\ sd_id sd = id) -> exists i sd, nth_error (c_senders c') i = Some sd /\ sd_id sd = id.
Proof. intros H. apply keep_sender. eapply step_smove. exact H. Qed.
Lemma decoded_response t m : read_text t = Ok m -> is_resp m = true -> response_to t (id_of m).
Proof. intros H HR. apply response_to_is. destruct m; [discriminate HR|left|right]; cbn [id_of]; eauto. Qed.

Lemma kfact_step ro e c c' o tr : inv ro c tr -> kinv c tr -> calm e = true -> (forall r t id, e = ERead r t -> response_to t id -> waits c id) ->
  step ro e c = Some (c', o) -> forall r p, nth_error (c_readers c') r = Some p -> kfact c' p.
Proof.
  intros V K HC HE H r9 p9 HN. pose proof (k_rd _ _ K) as KR. pose proof (v_m _ _ _ V) as VM.
  destruct (match e with EReceive _ _ => true | _ => false end) eqn:ER.
  - assert (IN : forall p, active p = false -> kfact c p -> kfact c' p) by (intros p; destruct p as [| | | | | | | | | | |[[]|]|]; cbn; auto; intros X; discriminate X).
    pose proof (v_a _ _ _ V) as HA. revert HN IN. step_inv H e; try discriminate ER; csimp; intros HN IN.
    apply nth_upd_inv in HN. destruct HN as [[-> ->]|[NE HN]]; [exact I|]. apply IN; [|exact (KR _ _ HN)]. eapply (inv_a_only _ _ _ HA E0 eq_refl); [exact HN|exact NE].
  - assert (WK : forall id, waits c id -> waits c' id) by (intros id; eapply waits_keep; [exact H|exact HC|intros i r ->; discriminate ER]).
    assert (WI : forall i sd, nth_error (c_senders c) i = Some sd -> awaiting (sd_pc sd) = true -> exists sd', nth_error (c_senders c') i = Some sd' /\ awaiting (sd_pc sd') = true).
    { intros i sd H1 H2. destruct (WK (sd_id sd)) as (j & s & W1 & W2 & W3); [exists i, sd; auto|]. pose proof (inv_ids_step _ _ _ _ _ (v_ids _ _ _ V) H) as I2.
      pose proof (step_smove _ _ _ _ _ H) as SM. assert (exists s', nth_error (c_senders c') i = Some s' /\ sd_id s' = sd_id sd) as (s' & S1 & S2).
      { destruct SM as [HS|k s1 p HK HS|s1 HS HF]; rewrite HS; [eauto|rewrite nth_upd; destruct (Nat.eqb_spec k i) as [<-|]; [rewrite H1; eexists; split; [reflexivity|]; csimp; congruence|eauto]|]. rewrite nth_error_app1; [eauto|exact (nth_lt _ _ _ H1)]. }
      exists s'. split; [exact S1|]. assert (i = j) by (apply (I2 _ _ _ _ S1 W1); congruence). subst j. congruence. }
    assert (KP : forall p, kfact c p -> kfact c' p).
    { intros p. destruct p; cbn [kfact]; auto. intros (i & sd & -> & S1 & S2). destruct (WI _ _ S1 S2) as (sd' & T1 & T2). eauto 6. }
    assert (WR : forall id, waits c id -> exists i sd, lookup id (c_resp c) = Some i /\ nth_error (c_senders c') i = Some sd /\ awaiting (sd_pc sd) = true).
    { intros id HW. destruct (waits_resp _ _ VM HW) as (i & sd & L1 & L2 & L3). destruct (WI _ _ L2 L3) as (sd' & T1 & T2). eauto 6. }
    clear WI ER. revert HN WK KP WR. 
    step_inv H e; try discriminate HC; csimp; intros HN WK KP WR; try exact (KP _ (KR _ _ HN)).
    all: first [apply nth_upd_inv in HN; destruct HN as [[-> ->]|[_ HN]]; [|exact (KP _ (KR _ _ HN))]|apply nth_app_inv in HN; destruct HN as [HN|[-> ->]]; [exact (KP _ (KR _ _ HN))|]]; try exact I.
    all: try (pose proof (KR _ _ E) as KE).
    all: cbn [kfact] in *; try exact (False_ind _ KE); try exact (KP (RLook _) KE); try exact (WK _ KE).
    all: try (apply WK; apply KE; exact (decoded_response _ _ E1 eq_refl)).
    all: try (destruct (WR _ KE) as (i & sd & L1 & L2 & L3); rewrite L1; eauto 6; fail).
    all: try (intros id' HX; apply WK; exact (HE _ _ _ eq_refl HX)).
Qed.
Lemma up_step ro e c c' o tr : kinv c tr -> calm e = true -> step ro e c = Some (c', o) ->
  c_wbroken c' = false /\ c_closed c' = false /\ c_done c' = false /\ c_rbroken c' = false /\ c_closers c' = 0 /\ exiting (c_loop c') = false.
Proof.
  intros K HC H. pose proof (k_rd _ _ K) as KR. destruct (k_up _ _ K) as (U1 & U2 & U3 & U4 & U5 & U6).
  step_inv H e; try discriminate HC; csimp; auto 8; try congruence.
  all: try (exfalso; exact (KR _ _ E)).
  all: try (rewrite E in U6; discriminate U6).
  all: repeat (split; [auto; fail|]). all: try (destruct ro; [destruct e as [[]|]; try exact (False_ind _ (KR _ _ E0))|]; reflexivity).
  all: first [rewrite E; reflexivity|exfalso; exact (KR _ _ E0)].
Qed.
Lemma inh_step ro e c c' o tr : kinv c tr -> calm e = true -> step ro e c = Some (c', o) -> forall i sd, nth_error (c_senders c') i = Some sd -> sd_inh sd = false.
Proof.
  intros K HC H i sd HN. pose proof (k_inh _ _ K) as KI. revert HN. step_inv H e; try discriminate HC; csimp; intros HN; try exact (KI _ _ HN).
  all: first [apply nth_upd_inv in HN; destruct HN as [[-> ->]|[_ HN]]; [|exact (KI _ _ HN)]; csimp; eapply KI; eassumption|apply nth_app_inv in HN; destruct HN as [HN|[-> ->]]; [exact (KI _ _ HN)|]; csimp].
  all: cbn [calm] in HC; apply negb_true_iff in HC; exact HC.
Qed.
Lemma done_step ro e c c' o tr : inv ro c tr -> kinv c tr -> calm e = true -> step ro e c = Some (c', o) ->
  forall i sd x, nth_error (c_senders c') i = Some sd -> sd_pc sd = SDone x -> answered x = true \/ forall t, request_text (sd_id sd) (sd_q sd) <> Ok t.
Proof.
  intros V K HC H i0 sd0 x HN. pose proof (k_done _ _ K) as KD. pose proof (v_c _ _ _ V) as VC. revert HN. step_inv H e; try discriminate HC; csimp; intros HN HP; try exact (KD _ _ _ HN HP).
  all: first [apply nth_upd_inv in HN; destruct HN as [[-> ->]|[_ HN]]; [|exact (KD _ _ _ HN HP)]|apply nth_app_inv in HN; destruct HN as [HN|[-> ->]]; [exact (KD _ _ _ HN HP)|]]; csimp; csimp_in HP; try discriminate HP; injection HP as <-.
  all: try (left; match goal with |- answered (outcome_of ?r) = true => destruct r; reflexivity end).
  all: right; intros t HT; unfold request_text in HT.
  all: try (destruct (VC _ _ E) as (_ & _ & _ & X); rewrite E0 in X; rewrite X in HT; cbn [rbind] in HT; rewrite E2 in HT; discriminate HT).
  rewrite E0 in HT. discriminate HT.
Qed.
Lemma wf_step ro e c c' o tr : kinv c tr -> calm e = true -> step ro e c = Some (c', o) ->
  (forall id r, ~ In (id, r, WriteFailed) (replies (tr ++ o))) /\ (forall id r, ~ In (id, r, WriteFailed) (rejects (tr ++ o))).
Proof.
  intros K HC H. destruct (k_wf _ _ K) as [F1 F2]. split; intros id9 r9 HI; unfold replies, rejects in HI; rewrite pick_app in HI; apply in_app_or in HI; (destruct HI as [HI|HI]; [first [exact (F1 _ _ HI)|exact (F2 _ _ HI)]|]);
    revert HI; step_inv H e; try discriminate HC; cbn [pick flat_map app In]; intros HI; try exact HI; (destruct HI as [HI|[]]; discriminate HI).
Qed.
Lemma carry_step ro e c c' o tr : reach ro c tr -> kinv c tr -> calm e = true -> step ro e c = Some (c', o) ->
  forall text id i sd, In text (reads (tr ++ o)) -> response_to text id -> nth_error (c_senders c') i = Some sd -> sd_id sd = id -> past (sd_pc sd) = false ->
  exists r p, nth_error (c_readers c') r = Some p /\ carries id i p.
Proof.
  intros HR K HC H text id9 i9 sd9 HT HX HN HI HP. pose proof (reach_inv _ _ _ HR) as V. pose proof (v_a _ _ _ V) as HA.
  unfold reads in HT. rewrite pick_app in HT. fold reads in HT. rewrite (reads_step _ _ _ _ _ H) in HT. apply in_app_or in HT.
  destruct HT as [HT|HT].
  2:{ destruct e; try exact (False_ind _ HT). destruct HT as [<-|[]]. unfold step in H. destruct (c_crash c); [discriminate H|]. destruct (nth_error (c_readers c) r) as [p|] eqn:E; [|discriminate H]. destruct p; try discriminate H. destruct (c_rbroken c); [discriminate H|]. injection H as <- <-.
      csimp. exists r, (RDecode text0). rewrite nth_upd, Nat.eqb_refl, E. split; [reflexivity|exact HX]. }
  destruct (k_known _ _ K _ _ HT HX) as (i0 & sd0 & N1 & N2).
  (* the caller was there before, and waiting *)
  assert (OLD : exists sd1, nth_error (c_senders c) i9 = Some sd1 /\ sd_id sd1 = id9 /\ past (sd_pc sd1) = false).
  { clear - H HN HI HP N1 N2. revert HN. step_inv H e; csimp; intros HN; try (exists sd9; auto; fail).
    all: first [apply nth_upd_inv in HN; destruct HN as [[-> ->]|[_ HN]]; [|exists sd9; auto; fail]; csimp_in HI; csimp_in HP; try discriminate HP; (eexists; split; [eassumption|]; split; [exact HI|norm_pc; first [exact HP|reflexivity]])
      |apply nth_app_inv in HN; destruct HN as [HN|[-> ->]]; [exists sd9; auto; fail|]; csimp_in HI; exfalso; apply send_ok_inv in E; destruct E as (X & _); eapply X; [exact N1|congruence]]. }
  destruct OLD as (sd1 & O1 & O2 & O3). destruct (k_carry _ _ K _ _ _ _ HT HX O1 O2 O3) as (r9 & p9 & R1 & R2).
  assert (AP : active p9 = true) by (destruct p9; try reflexivity; exact (False_ind _ R2)).
  pose proof (inv_a_only _ _ _ HA R1 AP) as ONLY.
  assert (SAME : forall r p, nth_error (c_readers c) r = Some p -> active p = true -> r = r9 /\ p = p9).
  { intros r p X1 X2. destruct (Nat.eq_dec r r9) as [->|D]; [split; congruence|]. rewrite (ONLY _ _ X1 D) in X2. discriminate X2. }
  pose proof (k_rd _ _ K _ _ R1) as KF. pose proof (v_m _ _ _ V) as VM. pose proof (v_ids _ _ _ V) as VI.
  assert (WT : waits c id9 -> lookup id9 (c_sent c) <> None /\ lookup id9 (c_resp c) = Some i9).
  { intros W. split; [exact (waits_sent _ _ VM W)|]. pose proof (waits_at _ _ _ _ VI O1 O2 W) as A. destruct (awaiting_reg _ A) as [_ R]. destruct VM as (_ & _ & M3 & _). specialize (M3 _ _ O1). rewrite R, O2 in M3. exact M3. }
  pose proof VM as (_ & _ & _ & _ & M5).
  clear K HT N1 N2 O3 V VM VI ONLY.
  step_inv H e; try discriminate HC; csimp; try (exists r9, p9; split; [exact R1|exact R2]).
  all: try (exists r9, p9; split; [rewrite nth_error_app1; [exact R1|exact (nth_lt _ _ _ R1)]|exact R2]; fail).
  all: try (destruct (SAME _ _ E eq_refl) as [-> <-]; exfalso; exact R2).
  all: try (destruct (SAME _ _ E0 eq_refl) as [-> <-]; exfalso; exact R2).
  1: { exfalso. destruct (SAME _ _ E0 eq_refl) as [-> <-]. cbn [carries] in R2. injection R2 as ->. apply Nat.eqb_eq in E5. subst n0. pose proof (M5 _ _ _ E E3) as X. injection X as ->.
    csimp_in HN. rewrite nth_upd, Nat.eqb_refl, E in HN. injection HN as <-. discriminate HP. }
  all: try (exists r9, p9; split; [rewrite nth_upd; destruct (Nat.eqb_spec r r9) as [->|_]; [rewrite R1 in E0; injection E0 as ->; discriminate AP|exact R1]|exact R2]; fail).
  all: destruct (SAME _ _ E eq_refl) as [-> <-]; match goal with |- exists r p, nth_error (upd ?k ?q _) r = Some p /\ _ => exists k, q; rewrite nth_upd, Nat.eqb_refl, E; split; [reflexivity|] end; cbn [carries kfact id_of] in *.
  all: try exact R2. all: try (exact (proj2 R2)).
  all: try (destruct (response_id _ _ _ R2 E1) as [X1 X2]; first [discriminate X1|exact (conj X1 X2)]).
  all: try (destruct (response_read _ _ R2) as [m9 X]; rewrite E1 in X; discriminate X).
  - destruct R2 as [_ X]. rewrite X in *. exact (proj1 (WT KF) E1).
  - rewrite R2 in *. exact (proj2 (WT KF)).
Qed.
Lemma kinv_step ro e c c' o tr : reach ro c tr -> kinv c tr -> calm e = true -> (forall r t id, e = ERead r t -> response_to t id -> waits c id) ->
  step ro e c = Some (c', o) -> kinv c' (tr ++ o).
Proof.
  intros HR K HC HE H. pose proof (reach_inv _ _ _ HR) as V. constructor.
  - exact (up_step _ _ _ _ _ _ K HC H).
  - exact (inh_step _ _ _ _ _ _ K HC H).
  - exact (done_step _ _ _ _ _ _ V K HC H).
  - exact (kfact_step _ _ _ _ _ _ V K HC HE H).
  - intros text id HT HX. apply (known_keep _ _ _ _ _ _ H). unfold reads in HT. rewrite pick_app in HT. fold reads in HT. rewrite (reads_step _ _ _ _ _ H) in HT. apply in_app_or in HT.
    destruct HT as [HT|HT]; [exact (k_known _ _ K _ _ HT HX)|]. destruct e; try exact (False_ind _ HT). destruct HT as [<-|[]].
    destruct (HE _ _ _ eq_refl HX) as (i & sd & W1 & W2 & _). eauto.
  - exact (carry_step _ _ _ _ _ _ HR K HC H).
  - exact (wf_step _ _ _ _ _ _ K HC H).
Qed.

(** ** Both ends: each call is answered at most once *)
Definition sent_fact (c : conn) (tr : list obs) (w : who) (t : string) : Prop :=
  match w with
  | WS _ => True
  | WL => (exists id r x, In (id, r, x) (replies tr) /\ marshal_message (response_message id r) = Ok t) \/ (exists id r, c_loop c = LWrite id r t "")
  | WR j => (exists id e x, In (id, e, x) (rejects tr) /\ marshal_message (new_call_error id e reject_desc) = Ok t) \/ (exists id e, nth_error (c_readers c) j = Some (RWrite id e t ""))
  end.
Lemma sent_fact_step ro e c c' o tr w t : inv ro c tr -> step ro e c = Some (c', o) -> sent_fact c tr w t -> sent_fact c' (tr ++ o) w t.
Proof.
  intros V H. destruct (v_t _ _ _ V) as (_ & T2 & T3 & _). destruct w as [i|j|]; cbn [sent_fact]; [trivial| |].
  - intros [(id & x & y & H1 & H2)|(id & x & H1)].
    { left. exists id, x, y. split; [|exact H2]. unfold rejects. rewrite pick_app. apply in_or_app. left. exact H1. }
    pose proof (T2 _ _ _ _ _ H1) as HM. clear T2 T3 V. unfold rejects. rewrite pick_app. revert HM.
    step_inv H e; csimp; intros HM; try (right; exists id, x; exact H1).
    all: try (right; exists id, x; rewrite nth_error_app1; [exact H1|exact (nth_lt _ _ _ H1)]).
    all: match goal with |- context [nth_error (upd ?k _ _) ?jj] => destruct (Nat.eq_dec k jj) as [EQ|EQ]; [subst k|right; exists id, x; rewrite nth_upd; destruct (Nat.eqb_spec k jj); [contradiction|exact H1]] end; try congruence.
    all: rewrite H1 in E; try discriminate E; try (injection E; intros; subst); try (rewrite H1 in E0; discriminate E0).
    all: try (right; do 2 eexists; rewrite nth_upd, Nat.eqb_refl, H1; rewrite ?sdrop_nil; reflexivity).
    all: left; do 3 eexists; (split; [apply in_or_app; right; left; reflexivity|exact HM]).
  - intros [(id & x & y & H1 & H2)|(id & x & H1)].
    { left. exists id, x, y. split; [|exact H2]. unfold replies. rewrite pick_app. apply in_or_app. left. exact H1. }
    pose proof (T3 _ _ _ _ H1) as HM. clear T2 T3 V. unfold replies. rewrite pick_app. revert HM.
    step_inv H e; csimp; intros HM; try (right; exists id, x; exact H1); try congruence.
    all: try discriminate H1; injection H1; intros; subst.
    all: try (right; do 2 eexists; rewrite ?sdrop_nil; reflexivity).
    all: left; do 3 eexists; (split; [apply in_or_app; right; cbn [pick flat_map app In]; left; reflexivity|exact HM]).
Qed.
Lemma sent_facts n tr : nreach n tr -> forall s w t, In (w, t) (sent_by s tr) -> sent_fact (conn_of s n) (view s tr) w t.
Proof.
  induction 1 as [|n tr s e n' o HR IH HS]; intros s' w t HI; [destruct s'; destruct HI|].
  destruct (nstep_inv _ _ _ _ _ HS) as (c' & oc & q & S1 & S2 & S3 & S4 & S5 & S6 & ->).
  pose proof (n_reach _ _ (nreach_inv _ _ HR)) as RR. destruct (side_cases s s') as [-> | ->].
  - rewrite S3, !view_app, view_obs, view_sent, app_nil_r. rewrite !sent_app, sent_obs, sent_sent in HI. cbn [app] in HI. apply in_app_or in HI. destruct HI as [HI|HI].
    + eapply sent_fact_step; [exact (reach_inv _ _ _ (RR s))|exact S1|apply IH; exact HI].
    + apply finished_in in HI. destruct HI as (k & x & rest & -> & HW & HD). pose proof (chunk_step _ _ _ _ _ _ _ _ _ S1 HW HD) as HW'. destruct w as [i|j|]; cbn [sent_fact writing] in *; [exact I|right..].
      * destruct (nth_error (c_readers c') j) as [[]|]; try discriminate HW'. injection HW' as -> ->. eauto.
      * destruct (c_loop c'); try discriminate HW'. injection HW' as -> ->. eauto.
  - rewrite S4, !view_app, view_obs_other, view_sent, !app_nil_r. rewrite !sent_app, sent_obs, sent_sent_other, !app_nil_r in HI. apply IH. exact HI.
Qed.
Lemma NoDup_app_disjoint {A} (a b : list A) x : NoDup (a ++ b) -> In x a -> In x b -> False.
Proof. induction a as [|y a IH]; intros H HA HB; [destruct HA|]. cbn [app] in H. inversion H as [|? ? H1 H2]. subst. destruct HA as [->|HA]; [apply H1; apply in_or_app; right; exact HB|exact (IH H2 HA HB)]. Qed.
Lemma call_text n tr s text id : nreach n tr -> In text (reads (view (other s) tr)) -> (exists q, inbound_of text = IRequest id q) \/ (exists e, inbound_of text = IRefused id e) ->
  exists i q, In (i, (id, q)) (sends (view s tr)) /\ In (WS i, text) (sent_by s tr) /\ request_text id q = Ok text.
Proof.
  intros HR HI HK. destruct (call_origin n tr s text HR HI) as (i & id' & q & C1 & C2 & C3 & C4 & C5 & C6 & C7); [destruct HK as [[q ->]|[e ->]]; reflexivity|].
  assert (id' = id) as -> by (destruct (request_kind _ _ _ C4 C5 C6 C3) as [(q2 & _ & K2 & _)|(e & _ & K2 & _)]; destruct HK as [[q3 HK]|[e3 HK]]; congruence).
  exists i, q. rewrite in_sends_view, in_sent. auto.
Qed.
Lemma call_unique n tr s t1 t2 id : nreach n tr -> In t1 (reads (view (other s) tr)) -> In t2 (reads (view (other s) tr)) ->
  (exists q, inbound_of t1 = IRequest id q) \/ (exists e, inbound_of t1 = IRefused id e) -> (exists q, inbound_of t2 = IRequest id q) \/ (exists e, inbound_of t2 = IRefused id e) -> t1 = t2.
Proof.
  intros HR I1 I2 K1 K2. destruct (call_text _ _ _ _ _ HR I1 K1) as (i & q & A1 & _ & A3). destruct (call_text _ _ _ _ _ HR I2 K2) as (j & q' & B1 & _ & B3).
  destruct (sends_inj _ _ _ _ _ _ _ _ (n_reach _ _ (nreach_inv _ _ HR) s) A1 B1) as [_ <-]. congruence.
Qed.
Lemma refused_sent n tr s w t id e : nreach n tr -> In (w, t) (sent_by s tr) -> inbound_of t = IRefused id e -> exists i q, w = WS i /\ In (i, (id, q)) (sends (view s tr)).
Proof.
  intros HR HI HQ. pose proof (n_origin _ _ (nreach_inv _ _ HR) s w t HI) as HO. apply (origin_kind _ _ _ _ _ HR) in HO. destruct w as [i|j|].
  - destruct HO as (id' & q & H1 & H2 & H3 & H4 & H5 & H6). destruct (request_kind _ _ _ H3 H4 H5 H2) as [(q2 & K1 & K2 & K3 & _)|(e' & _ & K2 & _)]; rewrite HQ in K2; [discriminate K2|].
    injection K2 as <- <-. exists i, q. auto.
  - exfalso. destruct HO as (tx & id' & e' & _ & _ & H). rewrite H in HQ. discriminate HQ.
  - exfalso. destruct HO as (id' & r & _ & H2 & H3 & H4). pose proof (reply_text _ _ _ _ H3 H4 H2) as X. destruct r as [[m|]|e'].
    + destruct X as ([p X] & _). rewrite X in HQ. discriminate HQ.
    + rewrite X in HQ. discriminate HQ.
    + rewrite X in HQ. discriminate HQ.
Qed.
Lemma refused_once0 n tr s l : nreach n tr -> incl l (sent_by s tr) -> NoDup (flat_map (fun x => match fst x with WS i => [i] | _ => [] end) l) ->
  NoDup (map fst (refused_in (map snd l))).
Proof.
  intros HR. induction l as [|[w t] l IH]; intros HI HN; [constructor|]. cbn [map snd].
  assert (NT : NoDup (flat_map (fun x : who * string => match fst x with WS i => [i] | _ => [] end) l)).
  { cbn [flat_map fst] in HN. destruct w; cbn [app] in HN; try exact HN. inversion HN. assumption. }
  specialize (IH (fun x h => HI x (or_intror h)) NT). unfold refused_in. cbn [flat_map]. destruct (inbound_of t) as [id q'|id c|id p|id c d x| |] eqn:E; cbn [app map fst]; try exact IH.
  constructor; [|exact IH]. intros HX. apply in_map_iff in HX. destruct HX as ([id2 q2] & X1 & X2). cbn [fst] in X1. subst id2.
  apply in_refused in X2. destruct X2 as (t2 & T1 & T2). apply in_map_iff in T1. destruct T1 as ([w2 t2'] & T3 & T4). cbn [snd] in T3. subst t2'.
  destruct (refused_sent _ _ _ _ _ _ _ HR (HI _ (or_introl eq_refl)) E) as (i & q & -> & O1).
  destruct (refused_sent _ _ _ _ _ _ _ HR (HI _ (or_intror T4)) T2) as (j & q3 & -> & O2).
  destruct (sends_inj _ _ _ _ _ _ _ _ (n_reach _ _ (nreach_inv _ _ HR) s) O1 O2) as [<- _].
  cbn [flat_map fst app] in HN. inversion HN as [|? ? HNI _]. apply HNI. apply in_flat_map. exists (WS i, t2). split; [exact T4|left; reflexivity].
Qed.
Lemma refused_once n tr s : nreach n tr -> NoDup (map fst (refused_in (reads (view (other s) tr)))).
Proof.
  intros HR. pose proof (refused_once0 n tr s _ HR (fun x h => h) (proj1 (n_once _ _ (nreach_inv _ _ HR) s))) as H. destruct (reads_prefix _ _ s HR) as [q Hq]. rewrite Hq, refused_in_app, map_app in H. exact (NoDup_app_l _ _ H).
Qed.
Lemma in_responses texts id : In id (responses_in texts) <-> exists t, In t texts /\ response_to t id.
Proof.
  unfold responses_in, response_to. rewrite in_flat_map. split; intros (t & H1 & H2); exists t; (split; [exact H1|]).
  - destruct (inbound_of t) as [| |i p|i c d x| |]; try exact (False_ind _ H2); (destruct H2 as [<-|[]]); [left|right]; eauto.
  - destruct H2 as [[p ->]|(c & d & x & ->)]; left; reflexivity.
Qed.
(** Whose answer a text is. *)
Lemma reply_answers ro id r t id' : hret_ok ro r = true -> sanitize id = id -> marshal_message (response_message id r) = Ok t -> response_to t id' -> id' = id.
Proof.
  intros H1 H2 H3 H4. pose proof (reply_text _ _ _ _ H1 H2 H3) as X. destruct r as [[m|]|e].
  - destruct X as [[p X] _]. apply (response_fun t); [exact H4|left; eauto].
  - exfalso. destruct H4 as [[p H4]|(c & d & x & H4)]; rewrite X in H4; discriminate H4.
  - apply (response_fun t); [exact H4|right; eauto].
Qed.
Lemma refusal_answers id e t id' text : inbound_of text = IRefused id e -> marshal_message (new_call_error id e reject_desc) = Ok t -> response_to t id' -> id' = id.
Proof. intros H1 H2 H3. destruct (refused_code _ _ _ H1) as (S1 & S2 & _). pose proof (refused_text _ _ _ S1 S2 H2) as X. apply (response_fun t); [exact H3|right; eauto]. Qed.
Lemma request_answers n tr s i t id' : nreach n tr -> origin (view s tr) (WS i) t -> ~ response_to t id'.
Proof.
  intros HR HO HX. apply (origin_kind _ _ _ _ _ HR) in HO. destruct HO as (id & q & _ & H2 & H3 & H4 & H5 & _).
  destruct (request_kind _ _ _ H3 H4 H5 H2) as [(q2 & _ & K & _)|(e & _ & K & _)]; destruct HX as [[p HX]|(c & d & x & HX)]; rewrite K in HX; discriminate HX.
Qed.
Lemma returned_call ro c tr id r : reach ro c tr -> In (id, r) (returns tr) -> exists text q, In text (reads tr) /\ inbound_of text = IRequest id q /\ hret_ok ro r = true /\ sanitize id = id.
Proof.
  intros R HI. destruct (returned_handled _ _ _ _ _ R HI) as [q HQ]. destruct (handled_id _ _ _ _ _ R HQ) as (text & q' & T1 & T2 & _). exists text, q'. split; [exact T1|]. split; [exact T2|].
  pose proof (returns_ok _ _ _ R) as K. rewrite Forall_forall in K. split; [exact (K _ HI)|exact (handled_sane _ _ _ _ _ R HQ)].
Qed.
(** What a text answers, if one end sent it. *)
Lemma sent_answers n tr s w t id : nreach n tr -> In (w, t) (sent_by s tr) -> response_to t id ->
  (exists r x, w = WL /\ In (id, r, x) (replies (view s tr))) \/ (exists r, w = WL /\ c_loop (conn_of s n) = LWrite id r t "") \/
  (exists j e x, w = WR j /\ In (id, e, x) (rejects (view s tr))) \/ (exists j e, w = WR j /\ nth_error (c_readers (conn_of s n)) j = Some (RWrite id e t "")).
Proof.
  intros HR HI HX. pose proof (n_reach _ _ (nreach_inv _ _ HR) s) as R. pose proof (reach_inv _ _ _ R) as V. pose proof (sent_facts _ _ HR _ _ _ HI) as F. destruct w as [i|j|]; cbn [sent_fact] in F.
  - exfalso. exact (request_answers _ _ _ _ _ _ HR (n_origin _ _ (nreach_inv _ _ HR) _ _ _ HI) HX).
  - destruct F as [(id' & e & x & F1 & F2)|(id' & e & F1)].
    + destruct (reject_read _ _ _ _ _ _ R F1) as (text & _ & T2). rewrite <- (refusal_answers _ _ _ _ _ T2 F2 HX) in F1. right. right. left. eauto 6.
    + destruct (v_t _ _ _ V) as (_ & T2 & _). pose proof (T2 _ _ _ _ _ F1) as F2.
      destruct (in_refused (reads (view s tr)) id' e) as (text & _ & X2); [rewrite (v_r _ _ _ V); apply in_or_app; right; eapply flat_nth; [exact F1|left; reflexivity]|].
      rewrite <- (refusal_answers _ _ _ _ _ X2 F2 HX) in F1. right. right. right. eauto.
  - destruct F as [(id' & e & x & F1 & F2)|(id' & e & F1)].
    + destruct (returned_call _ _ _ _ _ R (replied_returned _ _ _ _ _ _ R F1)) as (_ & _ & _ & _ & K1 & K2). rewrite <- (reply_answers _ _ _ _ _ K1 K2 F2 HX) in F1. left. eauto 6.
    + destruct (v_t _ _ _ V) as (_ & _ & T3 & _). pose proof (T3 _ _ _ _ F1) as F2. destruct (v_h _ _ _ V) as (_ & _ & VH & _).
      assert (HIR : In (id', e) (returns (view s tr))) by (rewrite VH, F1; apply in_or_app; right; left; reflexivity).
      destruct (returned_call _ _ _ _ _ R HIR) as (_ & _ & _ & _ & K1 & K2). rewrite <- (reply_answers _ _ _ _ _ K1 K2 F2 HX) in F1. right. left. eauto.
Qed.
Theorem answers_once n tr : nreach n tr -> forall s, NoDup (responses_in (map snd (sent_by s tr))).
Proof.
  induction 1 as [|n tr s e n' o HR IH HS]; intros s'; [destruct s'; constructor|].
  destruct (nstep_inv _ _ _ _ _ HS) as (c' & oc & q & S1 & _ & _ & _ & _ & _ & ->).
  destruct (side_cases s s') as [-> | ->]; [|rewrite !sent_app, sent_obs, sent_sent_other, !app_nil_r; apply IH].
  rewrite !sent_app, sent_obs, sent_sent. cbn [app]. rewrite map_app. unfold responses_in. rewrite flat_map_app. fold (responses_in (map snd (sent_by s tr))).
  destruct (finished e (conn_of s n)) as [|[w t] l] eqn:EF; [cbn [map flat_map]; rewrite app_nil_r; apply IH|].
  assert (l = []) as -> by (pose proof (finished_1 e (conn_of s n)) as X; rewrite EF in X; destruct l; [reflexivity|cbn in X; lia]).
  destruct (finished_in e (conn_of s n) w t) as (k & x & rest & -> & HW & HD); [rewrite EF; left; reflexivity|].
  cbn [map snd flat_map]. rewrite app_nil_r. pose proof (n_reach _ _ (nreach_inv _ _ HR) s) as R. pose proof (reach_inv _ _ _ R) as V. pose proof (v_a _ _ _ V) as HA.
  assert (G : forall id, response_to t id -> ~ In id (responses_in (map snd (sent_by s tr)))).
  2:{ destruct (inbound_of t) as [| |i p|i c d y| |] eqn:EI; cbn [app]; rewrite ?app_nil_r; try apply IH; (apply NoDup_snoc; [apply IH|]); apply G; [left|right]; eauto. }
  intros id HX HIN. apply in_responses in HIN. destruct HIN as (t' & T1 & T2). apply in_map_iff in T1. destruct T1 as ([w' t2] & <- & T3). cbn [snd] in T2.
  pose proof (sent_answers _ _ _ _ _ _ HR T3 T2) as F. destruct (v_t _ _ _ V) as (_ & VT2 & VT3 & _). destruct (v_h _ _ _ V) as (_ & _ & VH & _).
  assert (LOCK : forall w1 w2, is_writing w1 (conn_of s n) = true -> is_writing w2 (conn_of s n) = true -> w1 = w2).
  { intros w1 w2 L1 L2. apply (v_l _ _ _ V) in L1. apply (v_l _ _ _ V) in L2. congruence. }
  assert (LW : is_writing w (conn_of s n) = true) by (unfold is_writing; rewrite HW; reflexivity).
  (* the other kind of answer: the same text would be both *)
  assert (MIX : forall r e0, In (id, r) (returns (view s tr)) -> In (id, e0) (refused_in (reads (view s tr))) -> False).
  { intros r e0 M1 M2. destruct (returned_call _ _ _ _ _ R M1) as (t1 & q1 & M3 & M4 & _). apply in_refused in M2. destruct M2 as (t3 & M5 & M6).
    rewrite <- (other_other s) in M3, M5. assert (t1 = t3) by (apply (call_unique _ _ _ _ _ id HR M3 M5); eauto). subst t3. rewrite M4 in M6. discriminate M6. }
  assert (REJ : forall e0 x0, In (id, e0, x0) (rejects (view s tr)) -> In (id, e0) (refused_in (reads (view s tr)))).
  { intros e0 x0 H. rewrite (v_r _ _ _ V). apply in_or_app. left. apply in_map_iff. exists (id, e0, x0). auto. }
  assert (PEN : forall j e0 a b, nth_error (c_readers (conn_of s n)) j = Some (RWrite id e0 a b) -> In (id, e0) (refused_in (reads (view s tr)))).
  { intros j e0 a b H. rewrite (v_r _ _ _ V). apply in_or_app. right. eapply flat_nth; [exact H|left; reflexivity]. }
  destruct w as [i|j|]; cbn [writing] in HW.
  - exact (request_answers _ _ _ _ _ _ HR (writing_origin _ _ _ (WS i) _ _ V HW) HX).
  - destruct (nth_error (c_readers (conn_of s n)) j) as [p|] eqn:EN; [|discriminate HW]. destruct p; try discriminate HW. injection HW as -> ->.
    assert (id = id0) as <-.
    { pose proof (v_r _ _ _ V) as VR. destruct (in_refused (reads (view s tr)) id0 c) as (text & _ & X2); [rewrite VR; apply in_or_app; right; eapply flat_nth; [exact EN|left; reflexivity]|]. exact (refusal_answers _ _ _ _ _ X2 (VT2 _ _ _ _ _ EN) HX). }
    pose proof (PEN _ _ _ _ EN) as P1.
    destruct F as [(r & y & -> & F)|[(r & -> & F)|[(j' & e0 & y & -> & F)|(j' & e0 & -> & F)]]].
    + exact (MIX _ _ (replied_returned _ _ _ _ _ _ R F) P1).
    + discriminate (LOCK (WR j) WL LW ltac:(unfold is_writing, writing; rewrite F; reflexivity)).
    + pose proof (refused_once _ _ (other s) HR) as ND. rewrite other_other, (v_r _ _ _ V), map_app in ND. eapply NoDup_app_disjoint; [exact ND| |].
      * apply in_map_iff. exists (id, e0). split; [reflexivity|]. apply in_map_iff. exists (id, e0, y). auto.
      * apply in_map_iff. exists (id, c). split; [reflexivity|]. eapply flat_nth; [exact EN|left; reflexivity].
    + pose proof (LOCK (WR j) (WR j') LW ltac:(unfold is_writing, writing; rewrite F; reflexivity)) as X. injection X as <-. rewrite EN in F. discriminate F.
  - destruct (c_loop (conn_of s n)) eqn:EL; try discriminate HW. injection HW as -> ->.
    assert (HIR : In (id0, r) (returns (view s tr))) by (rewrite VH; apply in_or_app; right; left; reflexivity).
    assert (id = id0) as <- by (destruct (returned_call _ _ _ _ _ R HIR) as (_ & _ & _ & _ & K1 & K2); exact (reply_answers _ _ _ _ _ K1 K2 (VT3 _ _ _ _ eq_refl) HX)).
    destruct F as [(r' & y & -> & F)|[(r' & -> & F)|[(j' & e0 & y & -> & F)|(j' & e0 & -> & F)]]].
    + pose proof (returned_once _ _ s HR) as ND. rewrite VH, map_app in ND. eapply NoDup_app_disjoint; [exact ND| |left; reflexivity].
      apply in_map_iff. exists (id, r'). split; [reflexivity|]. apply in_map_iff. exists (id, r', y). auto.
    + discriminate F.
    + exact (MIX _ _ HIR (REJ _ _ F)).
    + exact (MIX _ _ HIR (PEN _ _ _ _ F)).
Qed.

(** ** Both ends undisturbed *)
Lemma answered_call n tr s w t id : nreach n tr -> In (w, t) (sent_by (other s) tr) -> response_to t id ->
  exists i q t', In (i, (id, q)) (sends (view s tr)) /\ In (WS i, t') (sent_by s tr) /\ request_text id q = Ok t'.
Proof.
  intros HR HI HX. pose proof (n_reach _ _ (nreach_inv _ _ HR) (other s)) as R. pose proof (reach_inv _ _ _ R) as V. destruct (v_h _ _ _ V) as (_ & _ & VH & _).
  assert (A : forall r, In (id, r) (returns (view (other s) tr)) -> exists i q t', In (i, (id, q)) (sends (view s tr)) /\ In (WS i, t') (sent_by s tr) /\ request_text id q = Ok t').
  { intros r H. destruct (returned_call _ _ _ _ _ R H) as (text & q & T1 & T2 & _). destruct (call_text _ _ _ _ _ HR T1 (or_introl (ex_intro _ _ T2))) as (i & q' & X). eauto 6. }
  assert (B : forall e, In (id, e) (refused_in (reads (view (other s) tr))) -> exists i q t', In (i, (id, q)) (sends (view s tr)) /\ In (WS i, t') (sent_by s tr) /\ request_text id q = Ok t').
  { intros e H. apply in_refused in H. destruct H as (text & T1 & T2). destruct (call_text _ _ _ _ _ HR T1 (or_intror (ex_intro _ _ T2))) as (i & q' & X). eauto 6. }
  destruct (sent_answers _ _ _ _ _ _ HR HI HX) as [(r & y & _ & F)|[(r & _ & F)|[(j' & e0 & y & _ & F)|(j' & e0 & _ & F)]]].
  - exact (A _ (replied_returned _ _ _ _ _ _ R F)).
  - apply (A r). rewrite VH, F. apply in_or_app. right. left. reflexivity.
  - apply (B e0). rewrite (v_r _ _ _ V). apply in_or_app. left. apply in_map_iff. exists (id, e0, y). auto.
  - apply (B e0). rewrite (v_r _ _ _ V). apply in_or_app. right. eapply flat_nth; [exact F|left; reflexivity].
Qed.
Lemma responses_app a b : responses_in (a ++ b) = responses_in a ++ responses_in b.
Proof. apply flat_map_app. Qed.
Lemma head_waits n tr s t q id : nreach n tr -> kinv (conn_of s n) (view s tr) -> queue_to s n = t :: q -> response_to t id -> waits (conn_of s n) id.
Proof.
  intros HR K HQ HX. pose proof (n_fifo _ _ (nreach_inv _ _ HR) (other s)) as F. rewrite other_other, HQ in F.
  assert (HI : In t (map snd (sent_by (other s) tr))) by (rewrite F; apply in_or_app; right; left; reflexivity).
  apply in_map_iff in HI. destruct HI as ([w t2] & E & HI). cbn [snd] in E. subst t2.
  destruct (answered_call _ _ _ _ _ _ HR HI HX) as (i & q0 & t' & A1 & A2 & A3).
  pose proof (n_reach _ _ (nreach_inv _ _ HR) s) as R. pose proof (reach_inv _ _ _ R) as V.
  destruct (proj2 (n_once _ _ (nreach_inv _ _ HR) s) i) as (sd & D1 & D2); [apply in_transmitted; eauto|].
  pose proof (in_sends _ _ _ _ (v_i _ _ _ V) D1) as IS. destruct (sends_fun _ _ _ _ _ _ _ _ R A1 IS) as [-> ->].
  exists i, sd. split; [exact D1|]. split; [reflexivity|]. unfold awaiting. rewrite D2. cbn [andb].
  assert (G : forall o, evd (view s tr) i o -> False).
  { intros o HE. destruct (evd_sends _ _ _ HE) as (id2 & q2 & text & S1 & S2 & S3). apply justifies_response in S3. destruct (sends_fun _ _ _ _ _ _ _ _ R S1 IS) as [-> _].
    pose proof (answers_once _ _ HR (other s)) as ND. rewrite F, responses_app in ND. apply (NoDup_app_disjoint _ _ (sd_id sd) ND); apply in_responses; [exists text; auto|exists t; split; [left; reflexivity|exact HX]]. }
  destruct (v_e _ _ _ V) as [_ VE]. specialize (VE _ _ D1). destruct (sd_pc sd) eqn:EP; cbn [past negb]; try reflexivity; cbn [sfact] in VE; try exact (False_ind _ (G _ VE)).
  - exfalso. destruct (k_done _ _ K _ _ _ D1 EP) as [X|X]; [exact (G _ (VE X))|exact (X _ A3)].
  - exfalso. destruct (v_c _ _ _ V _ _ D1) as (_ & _ & _ & X). rewrite EP in X. unfold request_text in A3. rewrite X in A3. discriminate A3.
Qed.
Theorem calm_kinv n tr : calm_reach n tr -> nreach n tr /\ forall s, kinv (conn_of s n) (view s tr).
Proof.
  induction 1 as [|n tr s e n' o HR [IH1 IH2] HC HS]; [split; [constructor|intros []; apply kinv_0]|]. split; [econstructor; eassumption|].
  intros s'. destruct (nstep_inv _ _ _ _ _ HS) as (c' & oc & q & S1 & S2 & S3 & S4 & _ & _ & ->).
  destruct (side_cases s s') as [-> | ->]; [|rewrite S4, !view_app, view_obs_other, view_sent, !app_nil_r; apply IH2].
  rewrite S3, !view_app, view_obs, view_sent, app_nil_r. eapply kinv_step; [exact (n_reach _ _ (nreach_inv _ _ IH1) s)|apply IH2|exact HC| |exact S1].
  intros r t id -> HX. cbn [allowed] in S2. destruct (queue_to s n) as [|t0 q0] eqn:EQ; [discriminate S2|]. destruct (String.eqb_spec t0 t) as [->|]; [|discriminate S2].
  exact (head_waits _ _ _ _ _ _ IH1 (IH2 s) EQ HX).
Qed.
