(** Where answers come from. *)
From Coq Require Import Arith.
From Verif Require Import GoBase Utf8 Json JsonText Float64 Codec Any Tables Registry Frame Conn SpecConn ConnBase ConnInv ConnSend.
Open Scope string_scope.
Open Scope list_scope.

Lemma read_result text id p : read_text text = Ok (MResult id p) -> exists x, p = PAny x.
Proof.
  unfold read_text, unmarshal_message. generalize (frame_of (normalise text)); intros f H. destruct f as [fr|e|]; cbn [rbind] in H; try discriminate H.
  destruct (nth_any fr 0) as [a0|e|]; cbn [rbind] in H; try discriminate H.
  destruct (as_num a0 _) as [ty|e|]; cbn [rbind] in H; try discriminate H.
  destruct (nth_any fr 1) as [a1|e|]; cbn [rbind] in H; try discriminate H.
  destruct (as_str a1 _) as [i|e|]; cbn [rbind] in H; try discriminate H.
  destruct (f64_eqb ty t_call).
  - destruct (nth_any fr 2) as [a2|e|]; cbn [rbind] in H; try discriminate H. destruct (as_str a2 _) as [s|e|]; cbn [rbind] in H; try discriminate H.
    destruct (nth_any fr 3) as [a3|e|]; cbn [rbind] in H; try discriminate H. destruct (as_map a3 _) as [s3|e|]; cbn [rbind] in H; discriminate H.
  - destruct (f64_eqb ty t_result).
    + destruct (nth_any fr 2) as [a2|e|]; cbn [rbind] in H; try discriminate H. destruct (as_map a2 _) as [s|e|]; cbn [rbind] in H; try discriminate H.
      exists s. congruence.
    + destruct (f64_eqb ty t_error); [|discriminate H].
      destruct (nth_any fr 2) as [a2|e|]; cbn [rbind] in H; try discriminate H. destruct (as_str a2 _) as [s|e|]; cbn [rbind] in H; try discriminate H.
      destruct (nth_any fr 3) as [a3|e|]; cbn [rbind] in H; try discriminate H. destruct (as_str a3 _) as [s3|e|]; cbn [rbind] in H; try discriminate H.
      destruct (nth_any fr 4) as [a4|e|]; cbn [rbind] in H; try discriminate H. destruct (as_map a4 _) as [s4|e|]; cbn [rbind] in H; discriminate H.
Qed.
Lemma request_call id q call : unmarshal_request id q = Ok call -> exists a p, action_of (m_ty q) = Some a /\ call = MCall id a p.
Proof.
  unfold unmarshal_request. destruct (marshal_msg _ _) as [text|e|]; cbn [rbind]; try discriminate. intros H.
  destruct (unmarshal_any text) as [[]|]; try discriminate H; destruct (action_of (m_ty q)) as [a|]; try discriminate H; injection H as <-; eauto.
Qed.
Opaque marshal_message read_text unmarshal_request call_to_request result_to_response utf8_valid msg_ok is_request action_of.

Definition evd (tr : list obs) (i : nat) (o : outcome) : Prop :=
  exists before after id q text, tr = before ++ OCall i id q :: after /\ In text (candidates before after) /\ justifies text id q o.
Lemma evd_app tr o i x : evd tr i x -> evd (tr ++ o) i x.
Proof.
  intros (b & a & id & q & t & H1 & H2 & H3). exists b, (a ++ o), id, q, t. split; [rewrite H1, <- app_assoc; reflexivity|].
  split; [|exact H3]. unfold candidates, reads in *. rewrite pick_app, app_assoc. apply in_or_app. left. exact H2.
Qed.
Lemma last1_app {A} (a b : list A) x : last1 (a ++ b) = [x] -> In x (last1 a ++ b).
Proof.
  unfold last1. rewrite rev_app_distr. intros H. destruct (rev b) as [|y r] eqn:E; cbn [app] in H.
  - apply in_or_app. left. rewrite H. left. reflexivity.
  - injection H as ->. apply in_or_app. right. apply in_rev. rewrite E. left. reflexivity.
Qed.
Lemma last1_snoc {A} (a : list A) x : last1 (a ++ [x]) = [x].
Proof. unfold last1. rewrite rev_app_distr. reflexivity. Qed.
Lemma evd_now c tr i sd text o : inv_i c tr -> nth_error (c_senders c) i = Some sd -> last1 (reads tr) = [text] ->
  justifies text (sd_id sd) (sd_q sd) o -> evd tr i o.
Proof.
  intros HI HN HT HJ. assert (HS : In (i, (sd_id sd, sd_q sd)) (sends tr)).
  { rewrite HI. apply isends_in. exists sd. rewrite Nat.sub_0_r. auto with arith. }
  unfold sends in HS. apply pick_in in HS. destruct HS as (ob & HO & HE). destruct ob; try discriminate HE. injection HE as -> -> ->.
  apply in_split in HO. destruct HO as (b & a & ->). exists b, a, (sd_id sd), (sd_q sd), text. split; [reflexivity|]. split; [|exact HJ].
  unfold candidates. apply last1_app. unfold reads in *. rewrite <- HT. rewrite pick_app. reflexivity.
Qed.

Definition is_resp (m : message) : bool := match m with MCall _ _ _ => false | _ => true end.
(** A caller with this id has registered. *)
Definition begun (c : conn) (id : string) : Prop :=
  exists j sd, nth_error (c_senders c) j = Some sd /\ sd_id sd = id /\ sd_pc sd <> SReg1.
Definition meant (c : conn) (text : string) (j : nat) (x : cresp) : Prop :=
  exists sd, nth_error (c_senders c) j = Some sd /\ (past (sd_pc sd) = true \/ justifies text (sd_id sd) (sd_q sd) (outcome_of x)).
Definition rfact (c : conn) (tr : list obs) (p : rpc) : Prop :=
  match p with
  | RDecode text => last1 (reads tr) = [text]
  | RLook m => exists text, last1 (reads tr) = [text] /\ read_text text = Ok m /\ is_resp m = true
  | RConv id pl => exists text, last1 (reads tr) = [text] /\ read_text text = Ok (MResult id pl) /\ begun c id
  | RChan id x => exists text j sd, last1 (reads tr) = [text] /\ nth_error (c_senders c) j = Some sd /\ sd_id sd = id /\ meant c text j x
  | RPut (Some j) x => exists text, last1 (reads tr) = [text] /\ meant c text j x
  | _ => True
  end.
Definition sfact (tr : list obs) (i : nat) (p : spc) : Prop :=
  match p with
  | SDel1 x | SDel2 x => evd tr i (outcome_of x)
  | SDone o => answered o = true -> evd tr i o
  | _ => True
  end.
Definition inv_e (c : conn) (tr : list obs) : Prop :=
  (forall r p, nth_error (c_readers c) r = Some p -> rfact c tr p) /\
  (forall i sd, nth_error (c_senders c) i = Some sd -> sfact tr i (sd_pc sd)).

(** What moving a caller keeps. *)
Definition keeps (p p' : spc) : Prop := (past p = true -> past p' = true) /\ (p <> SReg1 -> p' <> SReg1).
Inductive smove2 (c c' : conn) : Prop :=
| sm2_same : c_senders c' = c_senders c -> smove2 c c'
| sm2_move i sd p : nth_error (c_senders c) i = Some sd -> keeps (sd_pc sd) p ->
    c_senders c' = upd i (MkSender (sd_id sd) (sd_q sd) (sd_inh sd) (sd_call sd) p) (c_senders c) -> smove2 c c'
| sm2_new sd : c_senders c' = c_senders c ++ [sd] -> smove2 c c'.
Lemma step_smove2 ro e c c' o : step ro e c = Some (c', o) -> smove2 c c'.
Proof.
  intros H. step_inv H e; try (apply sm2_same; reflexivity); try (eapply sm2_new; csimp; reflexivity).
  all: eapply sm2_move; [eassumption| |csimp; reflexivity]; repeat match goal with HX : sd_pc _ = _ |- _ => rewrite HX; clear HX end;
    split; [cbn [past]; intros HX; first [exact HX|discriminate HX|reflexivity]|intros _ HX; discriminate HX].
Qed.
Lemma sm2_nth c c' j sd : smove2 c c' -> nth_error (c_senders c) j = Some sd ->
  exists sd', nth_error (c_senders c') j = Some sd' /\ sd_id sd' = sd_id sd /\ sd_q sd' = sd_q sd /\ keeps (sd_pc sd) (sd_pc sd').
Proof.
  intros H HN. destruct H as [HS|k s p HK HP HS|s HS]; rewrite HS.
  - exists sd. unfold keeps. auto.
  - rewrite nth_upd. destruct (Nat.eqb_spec k j) as [->|D].
    + rewrite HN. rewrite HK in HN. injection HN as ->. eexists. split; [reflexivity|]. csimp. auto.
    + exists sd. unfold keeps. auto.
  - exists sd. rewrite nth_error_app1; [unfold keeps; auto|exact (nth_lt _ _ _ HN)].
Qed.
Lemma begun_keep c c' id : smove2 c c' -> begun c id -> begun c' id.
Proof.
  intros H (j & sd & H1 & H2 & H3). destruct (sm2_nth _ _ _ _ H H1) as (sd' & X1 & X2 & X3 & X4 & X5). exists j, sd'. split; [exact X1|]. split; [congruence|auto].
Qed.
Lemma meant_keep c c' t j x : smove2 c c' -> meant c t j x -> meant c' t j x.
Proof.
  intros H (sd & H1 & H2). destruct (sm2_nth _ _ _ _ H H1) as (sd' & X1 & X2 & X3 & X4 & X5). exists sd'. split; [exact X1|]. rewrite X2, X3.
  destruct H2; auto.
Qed.
Lemma rfact_keep c c' tr o p : smove2 c c' -> reads o = [] -> rfact c tr p -> rfact c' (tr ++ o) p.
Proof.
  intros H HO HF. unfold reads in *. destruct p; cbn [rfact] in *; auto; unfold reads in *; rewrite ?pick_app, ?HO, ?app_nil_r; auto.
  - destruct HF as (t & ? & ? & ?). exists t. eauto using begun_keep.
  - destruct HF as (t & j & sd & X1 & X2 & X3 & X4). destruct (sm2_nth _ _ _ _ H X2) as (sd' & Y1 & Y2 & _). exists t, j, sd'.
    split; [exact X1|]. split; [exact Y1|]. split; [congruence|]. eapply meant_keep; eassumption.
  - destruct ch; auto. destruct HF as (t & ? & ?). exists t. eauto using meant_keep.
Qed.
Lemma rfact_inactive c tr p : active p = false -> rfact c tr p.
Proof. destruct p; cbn [active]; intros H; try discriminate H; exact I. Qed.

Lemma regd_call sd c i : inv_c c -> nth_error (c_senders c) i = Some sd -> regd (sd_pc sd) = true ->
  exists a p, action_of (m_ty (sd_q sd)) = Some a /\ sd_call sd = MCall (sd_id sd) a p.
Proof.
  intros HC HN HR. destruct (HC _ _ HN) as (_ & _ & _ & X). apply request_call.
  destruct (sd_pc sd) as [| | | | | | | |o|]; try discriminate HR; try exact X. destruct o; try discriminate HR; exact X.
Qed.

Lemma look_begun c id a : inv_m c -> lookup id (c_sent c) = Some a -> begun c id.
Proof.
  intros (M1 & M2 & _) H. destruct (M2 _ _ H) as (j & sd & H1 & H2). exists j, sd. split; [exact H1|]. split; [exact H2|].
  intros HP. rewrite <- H2, (M1 _ _ H1), HP in H. discriminate H.
Qed.
Lemma error_meant c id a text ec d det : inv_m c -> lookup id (c_sent c) = Some a -> read_text text = Ok (MError id ec d det) ->
  exists j sd, nth_error (c_senders c) j = Some sd /\ sd_id sd = id /\ meant c text j (CErr id ec d det).
Proof.
  intros (_ & M2 & _) H HR. destruct (M2 _ _ H) as (j & sd & H1 & H2). exists j, sd. split; [exact H1|]. split; [exact H2|].
  exists sd. split; [exact H1|]. right. cbn [outcome_of justifies]. split; [symmetry; exact H2|]. unfold inbound_of. rewrite HR, H2. reflexivity.
Qed.
Lemma result_meant c id a text pl x y : inv_m c -> inv_c c -> lookup id (c_sent c) = Some a -> read_text text = Ok (MResult id pl) ->
  result_to_response a (match pl with PAny x => x | _ => ANull end) = Ok x ->
  y = match x with inl m => COk m | inr e => CCode e end ->
  exists j sd, nth_error (c_senders c) j = Some sd /\ sd_id sd = id /\ meant c text j y.
Proof.
  intros (M1 & M2 & _) HC H HR HX ->. destruct (M2 _ _ H) as (j & sd & H1 & H2). exists j, sd. split; [exact H1|]. split; [exact H2|].
  exists sd. split; [exact H1|]. right. pose proof (M1 _ _ H1) as HL. rewrite H2, H in HL. destruct (regd (sd_pc sd)) eqn:ER; [|discriminate HL].
  destruct (regd_call _ _ _ HC H1 ER) as (a' & p & A1 & A2). rewrite A2 in HL. cbn [call_action] in HL. injection HL as ->.
  destruct (read_result _ _ _ HR) as [z ->]. destruct x as [m|e]; cbn [outcome_of justifies]; exists z, a'; unfold inbound_of; rewrite HR, H2; auto.
Qed.
Lemma late_meant c id text pl x : inv_m c -> lookup id (c_sent c) = None -> read_text text = Ok (MResult id pl) -> begun c id ->
  exists j sd, nth_error (c_senders c) j = Some sd /\ sd_id sd = id /\ meant c text j x.
Proof.
  intros (M1 & _) H HR (j & sd & H1 & H2 & H3). exists j, sd. split; [exact H1|]. split; [exact H2|]. exists sd. split; [exact H1|]. left.
  pose proof (M1 _ _ H1) as HL. rewrite H2, H in HL. destruct (sd_pc sd) as [| | | | | | | |o|]; try discriminate HL; try reflexivity. contradiction H3. reflexivity.
Qed.

Lemma inv_e_step ro e c c' o tr : inv_a c -> inv_ids c -> inv_m c -> inv_c c -> inv_i c tr -> inv_e c tr ->
  step ro e c = Some (c', o) -> inv_e c' (tr ++ o).
Proof.
  intros HA HU HM HC HI [F1 F2] H. pose proof (step_smove2 _ _ _ _ _ H) as HS. split.
  - intros r' p' HN. destruct (list_eq_dec String.string_dec (reads o) []) as [HO|HO].
    + assert (K : forall q, nth_error (c_readers c) r' = Some q -> rfact c' (tr ++ o) q) by (intros q HQ; exact (rfact_keep _ _ _ _ _ HS HO (F1 _ _ HQ))).
      assert (KK : forall q r, nth_error (c_readers c) r = Some q -> rfact c' (tr ++ o) q) by (intros q r HQ; exact (rfact_keep _ _ _ _ _ HS HO (F1 _ _ HQ))).
      clear F1 F2. revert HN K KK. generalize dependent (tr ++ o). intros tr2.
      step_inv H e; csimp; intros HN K KK; try (exact (K _ HN)).
      all: try (apply nth_upd_inv in HN; destruct HN as [[-> ->]|[_ HN]]; [|exact (K _ HN)]; try exact I).
      all: try match goal with HX : nth_error (c_readers _) _ = Some _ |- _ => apply KK in HX; cbn [rfact] in HX end.
      all: try (apply nth_app_inv in HN; destruct HN as [HN|[-> ->]]; [exact (K _ HN)|exact I]).
      all: cbn [rfact].
      all: try (match type of E with True => fail 1 | _ => idtac end; destruct E as (text & L1 & L2 & L3)).
      * discriminate HO.
      * exists text. auto.
      * exists text. auto.
      * exists text. split; [exact L1|]. split; [exact L2|]. exact (look_begun c _ _ HM E1).
      * exists text. destruct (error_meant c _ _ text _ _ _ HM E1 L2) as (j & sd & X1 & X2 & X3). exists j, sd. auto.
      * exists text. destruct (result_meant c _ _ text _ _ _ HM HC E1 L2 E3 eq_refl) as (j & sd & X1 & X2 & X3). exists j, sd. auto.
      * exists text. destruct (result_meant c _ _ text _ _ _ HM HC E1 L2 E3 eq_refl) as (j & sd & X1 & X2 & X3). exists j, sd. auto.
      * exists text. destruct (result_meant c _ _ text _ _ _ HM HC E1 L2 E3 eq_refl) as (j & sd & X1 & X2 & X3). exists j, sd. auto.
      * exists text. destruct (result_meant c _ _ text _ _ _ HM HC E1 L2 E3 eq_refl) as (j & sd & X1 & X2 & X3). exists j, sd. auto.
      * exists text. destruct (result_meant c _ _ text _ _ _ HM HC E1 L2 E3 eq_refl) as (j & sd & X1 & X2 & X3). exists j, sd. auto.
      * exists text. destruct (result_meant c _ _ text _ _ _ HM HC E1 L2 E3 eq_refl) as (j & sd & X1 & X2 & X3). exists j, sd. auto.
      * exists text. destruct (late_meant c _ text _ (CCode GenericError) HM E1 L2 L3) as (j & sd & X1 & X2 & X3). exists j, sd. auto.
      * destruct L3 as (L3 & L4 & L5 & L6). destruct (lookup id (c_resp c)) as [j|] eqn:EL; [|exact I].
        destruct HM as (_ & _ & M3 & M4 & _). pose proof (M3 _ _ L4) as HL. rewrite L5, EL in HL. destruct (regr (sd_pc L2)); [|discriminate HL].
        injection HL as ->. exists text. auto.
    + (* a message is read *) revert HN HO. clear F2. step_inv H e; try (intros _ HO; exfalso; apply HO; reflexivity). csimp. intros HN _.
      apply nth_upd_inv in HN. destruct HN as [[-> ->]|[HD HN]].
      * cbn [rfact]. unfold reads. rewrite pick_app. apply last1_snoc.
      * apply rfact_inactive. exact (inv_a_only _ _ _ HA E eq_refl _ _ HN HD).
  - assert (K : forall i sd, nth_error (c_senders c) i = Some sd -> sfact (tr ++ o) i (sd_pc sd)).
    { intros i sd HN. specialize (F2 _ _ HN). destruct (sd_pc sd); cbn [sfact] in *; auto using evd_app. }
    intros i' sd' HN. revert HN K. destruct HM as (_ & _ & _ & _ & M5).
    assert (KR : forall i sd ch r x, nth_error (c_senders c) i = Some sd -> sd_pc sd = SWait (Some ch) -> nth_error (c_readers c) r = Some (RPut (Some ch) x) ->
       evd (tr ++ o) i (outcome_of x)).
    { intros i sd ch r x HN HP HR. apply evd_app. pose proof (M5 _ _ _ HN HP) as X. injection X as ->. destruct (F1 _ _ HR) as (text & L1 & sd2 & L2 & L3).
      rewrite HN in L2. injection L2 as <-. rewrite HP in L3. destruct L3 as [L3|L3]; [discriminate L3|]. exact (evd_now _ _ _ _ _ _ HI HN L1 L3). }
    clear F1 F2 HS. revert KR. generalize (tr ++ o). intros tr2. step_inv H e; csimp; intros KR HN K; try exact (K _ _ HN).
    all: first [apply nth_upd_inv in HN; destruct HN as [[-> ->]|[HD HN]]; [|exact (K _ _ HN)]|apply nth_app_inv in HN; destruct HN as [HN|[-> ->]]; [exact (K _ _ HN)|]]; csimp; cbn [sfact]; try exact I; try (intros HX; discriminate HX).
    all: try (specialize (K _ _ E); rewrite E0 in K; cbn [sfact] in K; auto).
    apply Nat.eqb_eq in E5. subst n0. exact (KR _ _ _ _ _ E E3 E0).
Qed.
