(** Crashes, the wedge after a late response, and all invariants together. *)
From Coq Require Import Arith.
From Verif Require Import GoBase Utf8 Json Float64 Codec Any Tables Registry Frame Conn SpecConn ConnBase ConnInv ConnSend ConnEvid ConnMore.
Open Scope string_scope.
Open Scope list_scope.
Opaque marshal_message read_text unmarshal_request call_to_request result_to_response utf8_valid msg_ok is_request action_of.

(** ** All together *)
Record inv (ro : role) (c : conn) (tr : list obs) : Prop := MkInv {
  v_a : inv_a c; v_q : inv_q c tr; v_r : inv_r c tr; v_h : inv_h ro c tr; v_t : inv_t c tr; v_l : inv_l c; v_b : inv_b c tr;
  v_ids : inv_ids c; v_m : inv_m c; v_i : inv_i c tr; v_c : inv_c c; v_o : inv_o c tr; v_e : inv_e c tr;
  v_x : inv_x c; v_d : inv_d c tr; v_n : inv_n c tr; v_w : inv_w c tr }.
Ltac nonth := let i := fresh in intros i; intros; match goal with H : nth_error _ ?k = Some _ |- _ => destruct k; discriminate H end.
Lemma inv_0 ro : inv ro conn0 [].
Proof.
  constructor; try reflexivity.
  - split; cbn; [discriminate|nonth].
  - repeat split; left; reflexivity.
  - repeat split; try nonth; try (cbn; intros; discriminate); constructor.
  - intros w. unfold is_writing, writing. destruct w as [i|r|]; cbn; try (destruct i); try (destruct r); split; intros; discriminate.
  - exists "". repeat split. cbn. discriminate.
  - nonth.
  - repeat split; try nonth; cbn; intros; discriminate.
  - nonth.
  - split; [|constructor]. intros i o. split; [intros []|intros (sd & H & _); destruct i; discriminate H].
  - split; nonth.
  - nonth.
  - repeat split; try (cbn; intros; try discriminate; tauto); try nonth; try (intros [H|H]; discriminate H).
  - split; [|constructor]. intros i t. split; [intros []|intros (sd & H & _); destruct i; discriminate H].
Qed.
Lemma inv_step ro e c c' o tr : inv ro c tr -> step ro e c = Some (c', o) -> inv ro c' (tr ++ o).
Proof.
  intros [] H. constructor.
  - eapply inv_a_step; eassumption.
  - eapply inv_q_step; eassumption.
  - eapply inv_r_step; eassumption.
  - eapply inv_h_step; eassumption.
  - eapply inv_t_step; eassumption.
  - eapply inv_l_step; eassumption.
  - eapply inv_b_step; eassumption.
  - eapply inv_ids_step; eassumption.
  - eapply inv_m_step; eassumption.
  - eapply inv_i_step; eassumption.
  - eapply inv_c_step; eassumption.
  - eapply inv_o_step; eassumption.
  - eapply inv_e_step; eassumption.
  - eapply inv_x_step; eassumption.
  - eapply inv_d_step; eassumption.
  - eapply inv_n_step; eassumption.
  - eapply inv_w_step; eassumption.
Qed.
Theorem reach_inv ro c tr : reach ro c tr -> inv ro c tr.
Proof. induction 1 as [|c tr e c' o HR IH HS]; [apply inv_0|eapply inv_step; eassumption]. Qed.
Lemma reach_run ro es c c' o tr : reach ro c tr -> run ro es c = Some (c', o) -> reach ro c' (tr ++ o).
Proof.
  revert c tr o. induction es as [|e es IH]; intros c tr o HR H; cbn [run] in H; [injection H as <- <-; rewrite app_nil_r; exact HR|].
  destruct (step ro e c) as [[c1 o1]|] eqn:E; [|discriminate H]. destruct (run ro es c1) as [[c2 o2]|] eqn:E2; [|discriminate H].
  injection H as <- <-. rewrite app_assoc. eapply IH; [|exact E2]. econstructor; eassumption.
Qed.
Lemma reach_of_run ro es c o : run ro es conn0 = Some (c, o) -> reach ro c o.
Proof. intros H. change o with ([] ++ o). eapply reach_run; [constructor|exact H]. Qed.

(** ** Crashes *)
Inductive crashes (ro : role) (tr : list obs) : Prop :=
| k_read text : In text (reads tr) -> inbound_of text = ICrash -> crashes ro tr
| k_call i id q : In (i, (id, q)) (sends tr) -> unmarshal_request id q = Panic -> crashes ro tr
| k_send i id q call : In (i, (id, q)) (sends tr) -> unmarshal_request id q = Ok call -> marshal_message call = Panic -> crashes ro tr
| k_result text id p i q a : In text (reads tr) -> inbound_of text = IResult id p -> In (i, (id, q)) (sends tr) -> action_of (m_ty q) = Some a ->
    result_to_response a p = Panic -> crashes ro tr
| k_reply id r : In (id, r) (returns tr) -> marshal_message (response_message id r) = Panic -> crashes ro tr
| k_panic id : ro = CP -> In id (panics tr) -> crashes ro tr
| k_reject text id e : In text (reads tr) -> inbound_of text = IRefused id e -> marshal_message (new_call_error id e reject_desc) = Panic -> crashes ro tr.
Lemma in_sends c tr i sd : inv_i c tr -> nth_error (c_senders c) i = Some sd -> In (i, (sd_id sd, sd_q sd)) (sends tr).
Proof. intros HI HN. rewrite HI. apply isends_in. exists sd. rewrite Nat.sub_0_r. auto with arith. Qed.
Lemma sends_in c tr i id q : inv_i c tr -> In (i, (id, q)) (sends tr) -> exists sd, nth_error (c_senders c) i = Some sd /\ sd_id sd = id /\ sd_q sd = q.
Proof. intros HI HN. rewrite HI in HN. apply isends_in in HN. destruct HN as (sd & _ & H & HH). rewrite Nat.sub_0_r in H. eauto. Qed.
Lemma last1_in {A} (l : list A) x : last1 l = [x] -> In x l.
Proof. intros H. assert (X := last1_app (@nil A) l x). cbn in X. apply X. exact H. Qed.
Lemma in_refused texts id c : In (id, c) (refused_in texts) -> exists t, In t texts /\ inbound_of t = IRefused id c.
Proof.
  unfold refused_in. intros H. apply in_flat_map in H. destruct H as (t & H1 & H2). exists t. split; [exact H1|].
  destruct (inbound_of t); try exact (False_ind _ H2). destruct H2 as [H2|[]]. congruence.
Qed.
Lemma flat_nth {A} (f : rpc -> list A) l r p x : nth_error l r = Some p -> In x (f p) -> In x (flat_map f l).
Proof. intros H HI. apply in_flat_map. exists p. split; [exact (nth_error_In _ _ H)|exact HI]. Qed.
Lemma crash_step ro e c c' o tr : inv ro c tr -> step ro e c = Some (c', o) -> In OCrash o -> crashes ro (tr ++ o).
Proof.
  intros HV H HC. assert (SUB : forall {A} (f : obs -> option A) x, In x (pick f tr) -> In x (pick f (tr ++ o))).
  { intros A f x HX. rewrite pick_app. apply in_or_app. left. exact HX. }
  destruct HV as [VA VQ VR VH VT VL VB VU VM VI VC VO VE VX VD VN VW]. revert HC SUB.
  step_inv H e; intros HC SUB; cbn [In] in HC; try (exfalso; tauto); try (exfalso; repeat destruct HC as [HC|HC]; try discriminate HC; exact HC).
  - eapply k_call; [|exact E0]. unfold sends. rewrite pick_app. apply in_or_app. right. left. reflexivity.
  - eapply k_call; [|exact E0]. unfold sends. rewrite pick_app. apply in_or_app. right. left. reflexivity.
  - eapply k_send; [apply SUB; exact (in_sends _ _ _ _ VI E)| |exact E2]. destruct (VC _ _ E) as (_ & _ & _ & X). rewrite E0 in X. exact X.
  - eapply k_read; [apply SUB; apply last1_in; destruct VE as [VE _]; exact (VE _ _ E)|]. unfold inbound_of. rewrite E1. reflexivity.
  - destruct VE as [VE _]. destruct (VE _ _ E) as (text & L1 & L2 & L3). destruct VM as (M1 & M2 & _). destruct (M2 _ _ E1) as (j & sd & S1 & S2).
    pose proof (M1 _ _ S1) as HL. rewrite S2, E1 in HL. destruct (regd (sd_pc sd)) eqn:ER; [|discriminate HL].
    destruct (regd_call _ _ _ VC S1 ER) as (a' & p' & A1 & A2). rewrite A2 in HL. cbn [call_action] in HL. injection HL as ->.
    destruct (read_result _ _ _ L2) as [z HZ]. eapply k_result; [apply SUB; exact (last1_in _ _ L1)| |apply SUB; rewrite <- S2; exact (in_sends _ _ _ _ VI S1)|exact A1|exact E3].
    unfold inbound_of. rewrite L2. congruence.
  - exfalso. destruct VE as [VE _]. destruct (VE _ _ E) as (text & L1 & L2 & L3). destruct (read_result _ _ _ L2) as [z HZ]. discriminate HZ.
  - exfalso. destruct VE as [VE _]. destruct (VE _ _ E) as (text & L1 & L2 & L3). destruct (read_result _ _ _ L2) as [z HZ]. discriminate HZ.
  - destruct (in_refused (reads tr) id c0) as (text & T1 & T2).
    { rewrite VR. apply in_or_app. right. eapply flat_nth; [exact E|]. left. reflexivity. }
    eapply k_reject; [apply SUB; exact T1|exact T2|exact E2].
  - eapply k_reply; [|exact E1]. apply SUB. destruct VH as (_ & _ & VH & _). fold returns. rewrite VH, E. apply in_or_app. right. left. reflexivity.
  - eapply k_panic; [reflexivity|]. unfold panics. rewrite pick_app. apply in_or_app. right. left. reflexivity.
Qed.
Lemma crashes_app ro tr o : crashes ro tr -> crashes ro (tr ++ o).
Proof.
  assert (SUB : forall {A} (f : obs -> option A) x, In x (pick f tr) -> In x (pick f (tr ++ o))).
  { intros A f x HX. rewrite pick_app. apply in_or_app. left. exact HX. }
  intros []; [eapply k_read|eapply k_call|eapply k_send|eapply k_result|eapply k_reply|eapply k_panic|eapply k_reject]; try (apply SUB); eassumption.
Qed.
Theorem crash_why ro c tr : reach ro c tr -> In OCrash tr -> crashes ro tr.
Proof.
  induction 1 as [|c tr e c' o HR IH HS]; intros HI; [destruct HI|]. apply in_app_or in HI. destruct HI as [HI|HI]; [apply crashes_app; auto|].
  eapply crash_step; [exact (reach_inv _ _ _ HR)|exact HS|exact HI].
Qed.

(** ** The wedge *)
Definition wedge_pc (text id : string) (i : nat) (p : rpc) : Prop :=
  match p with
  | RDecode t => t = text
  | RLook m => read_text text = Ok m
  | RConv id' pl => read_text text = Ok (MResult id' pl)
  | RChan id' _ => id' = id
  | RPut (Some j) _ => j = i
  | _ => False
  end.
Definition failed (o : outcome) : Prop := o = RTimeout \/ o = RSendErr.
Definition wedged (text id : string) (r i : nat) (c : conn) : Prop :=
  (c_loop c = LSel r \/ exiting (c_loop c) = true) /\
  (exists p, nth_error (c_readers c) r = Some p /\ wedge_pc text id i p) /\
  (exists sd o, nth_error (c_senders c) i = Some sd /\ sd_id sd = id /\ sd_pc sd = SDone o /\ failed o).
Definition is_response (text id : string) : Prop := (exists p, read_text text = Ok (MResult id p)) \/ (exists e d x, read_text text = Ok (MError id e d x)).
Definition silent (o : list obs) : Prop := reads o = [] /\ takens o = [] /\ handles o = [] /\ loop_writes o = [].
Lemma wedge_active text id i p : wedge_pc text id i p -> active p = true.
Proof. destruct p; cbn; tauto. Qed.
Lemma wedge_step ro e c c' o text id r i : is_response text id -> inv_a c -> inv_m c -> wedged text id r i c ->
  step ro e c = Some (c', o) -> wedged text id r i c' /\ silent o.
Proof.
  intros HR HA (M1 & M2 & M3 & M4 & M5) (W1 & (p & P1 & P2) & (sd & oc & S1 & S2 & S3 & S4)) H.
  pose proof (inv_a_only _ _ _ HA P1 (wedge_active _ _ _ _ P2)) as HO.
  assert (HS : exists sd o, nth_error (c_senders c') i = Some sd /\ sd_id sd = id /\ sd_pc sd = SDone o /\ failed o).
  { clear - H S1 S2 S3 S4. step_inv H e; csimp; rewrite ?nth_upd, ?nth_app1; try (exists sd, oc; tauto).
    all: match goal with |- context [Nat.eqb ?a ?b] => destruct (Nat.eqb_spec a b) as [EQ|EQ]; [subst|exists sd, oc; tauto] end; try congruence; try (rewrite nth_len in S1; discriminate S1). }
  assert (EO : forall j x, nth_error (c_readers c) j = Some x -> active x = true -> j = r /\ x = p).
  { intros j x HJ HX. destruct (Nat.eq_dec j r) as [->|D]; [split; [reflexivity|congruence]|]. rewrite (HO _ _ HJ D) in HX. discriminate HX. }
  assert (HL : c_loop c' = LSel r \/ exiting (c_loop c') = true).
  { clear - H W1 P1 P2 EO. step_inv H e; csimp; try exact W1; try (destruct W1 as [W1|W1]; first [discriminate W1 | rewrite E in W1; discriminate W1]); try (right; reflexivity).
    - exfalso. destruct (EO _ _ E0 eq_refl) as [-> <-]. exact P2.
    - exfalso. destruct W1 as [W1|W1]; [|discriminate W1]. injection W1 as ->. rewrite E0 in P1. injection P1 as <-. exact P2.
    - exfalso. destruct W1 as [W1|W1]; [|discriminate W1]. injection W1 as ->. rewrite E0 in P1. injection P1 as <-. exact P2.
    - exfalso. destruct W1 as [W1|W1]; [|discriminate W1]. injection W1 as ->. rewrite E0 in P1. injection P1 as <-. exact P2. }
  assert (HLK : lookup id (c_sent c) <> None /\ lookup id (c_resp c) = Some i).
  { rewrite <- S2, (M1 _ _ S1), (M3 _ _ S1), S3. destruct S4 as [-> | ->]; split; [discriminate|reflexivity|discriminate|reflexivity]. }
  destruct HLK as [LK1 LK2].
  assert (R1 : forall m, read_text text = Ok m -> is_resp m = true /\ id_of m = id).
  { intros m HX. destruct HR as [[q HR]|(x1 & x2 & x3 & HR)]; rewrite HR in HX; injection HX as <-; split; reflexivity. }
  assert (R2 : exists m, read_text text = Ok m).
  { destruct HR as [[q HR]|(x1 & x2 & x3 & HR)]; rewrite HR; eauto. }
  assert (HP : exists p, nth_error (c_readers c') r = Some p /\ wedge_pc text id i p).
  { clear HS HL HO HR. step_inv H e; csimp; rewrite ?nth_upd, ?nth_app1; try (exists p; split; [exact P1|exact P2]).
    all: match goal with |- context [Nat.eqb ?a ?b] => destruct (Nat.eqb_spec a b) as [EQ|EQ]; [subst|exists p; split; [exact P1|exact P2]] end.
    all: rewrite ?P1; try match goal with HX : nth_error (c_readers _) _ = Some _ |- _ => first [rewrite P1 in HX; injection HX as -> | rewrite HX in P1; injection P1 as <-] end; cbn [wedge_pc] in P2; try exact (False_ind _ P2).
    all: eexists; (split; [reflexivity|]); cbn [wedge_pc].
    all: try subst text0.
    all: try exact P2; try assumption.
    all: try (match goal with HX : read_text _ = Ok _ |- _ => destruct (R1 _ HX) as [Q1 Q2] end; cbn [id_of] in *; first [discriminate Q1 | exact Q2 | congruence]).
    - subst n. apply Nat.eqb_eq in E5. subst n0. pose proof (M5 _ _ _ E E3) as X. injection X as ->. congruence.
    - destruct R2 as [mm R2]. congruence.
    - rewrite P2, LK2. reflexivity.
    - rewrite nth_len in P1. discriminate P1. }
  split; [split; [exact HL|split; [exact HP|exact HS]]|]. unfold silent. clear HL HP HS HO HR R1 R2 LK1 LK2 M1 M2 M3 M4 M5 S1 S2 S3 S4 HA.
  step_inv H e; repeat split; try reflexivity; exfalso.
  all: try (destruct W1 as [W1|W1]; discriminate W1).
  all: try (match goal with HX : nth_error (c_readers _) _ = Some _ |- _ => destruct (EO _ _ HX eq_refl) as [_ <-]; exact P2 end).
  all: match goal with HX : nth_error (c_readers _) _ = Some (RReq _ _) |- _ => destruct (EO _ _ HX eq_refl) as [_ <-]; exact P2 end.
Qed.
Lemma silent_app a b : silent a -> silent b -> silent (a ++ b).
Proof.
  unfold silent, reads, takens, handles, loop_writes. rewrite !pick_app. intros (H1 & H2 & H3 & H4) (K1 & K2 & K3 & K4).
  rewrite H1, H2, H3, H4, K1, K2, K3, K4. auto.
Qed.
Lemma wedge_run ro es : forall c c' o tr text id r i, is_response text id -> reach ro c tr -> wedged text id r i c ->
  run ro es c = Some (c', o) -> wedged text id r i c' /\ silent o.
Proof.
  induction es as [|e es IH]; intros c c' o tr text id r i HI HR HW H; cbn [run] in H.
  - injection H as <- <-. split; [exact HW|repeat split].
  - destruct (step ro e c) as [[c1 o1]|] eqn:E; [|discriminate H]. destruct (run ro es c1) as [[c2 o2]|] eqn:E2; [|discriminate H]. injection H as <- <-.
    pose proof (reach_inv _ _ _ HR) as V. destruct (wedge_step _ _ _ _ _ _ _ _ _ HI (v_a _ _ _ V) (v_m _ _ _ V) HW E) as [W1 W2].
    destruct (IH _ _ _ _ _ _ _ _ HI (reach_S _ _ _ _ _ _ HR E) W1 E2) as [W3 W4]. split; [exact W3|apply silent_app; assumption].
Qed.
