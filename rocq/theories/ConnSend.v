(** Invariants about callers of SendRequest and the two maps. *)
From Coq Require Import Arith.
From Verif Require Import GoBase Utf8 Json Float64 Codec Any Tables Registry Frame Conn SpecConn ConnBase ConnInv.
Open Scope string_scope.
Open Scope list_scope.
Opaque marshal_message read_text unmarshal_request call_to_request result_to_response utf8_valid msg_ok is_request.

(** In sentMessages; in responsesOf; no longer waiting. *)
Definition regd (p : spc) : bool :=
  match p with SReg2 | SLock | SWrite _ _ | SSel | SWait _ | SDel1 _ => true | SDone RTimeout | SDone RSendErr => true | _ => false end.
Definition regr (p : spc) : bool :=
  match p with SLock | SWrite _ _ | SSel | SWait _ | SDel1 _ | SDel2 _ => true | SDone RTimeout | SDone RSendErr => true | _ => false end.
Definition past (p : spc) : bool := match p with SDel1 _ | SDel2 _ | SDone _ | SDead => true | _ => false end.

Definition inv_ids (c : conn) : Prop := forall i j si sj,
  nth_error (c_senders c) i = Some si -> nth_error (c_senders c) j = Some sj -> sd_id si = sd_id sj -> i = j.

Lemma not_used id l : existsb (fun sd => String.eqb id (sd_id sd)) l = false -> forall i sd, nth_error l i = Some sd -> sd_id sd <> id.
Proof.
  intros H i sd HN E. apply nth_error_In in HN. assert (existsb (fun sd => String.eqb id (sd_id sd)) l = true); [|congruence].
  apply existsb_exists. exists sd. split; [exact HN|]. rewrite E. apply String.eqb_refl.
Qed.
Lemma send_ok_inv inh id q c : negb (send_ok inh id q c) = false ->
  (forall i sd, nth_error (c_senders c) i = Some sd -> sd_id sd <> id) /\ utf8_valid id = true /\ msg_ok q = true /\ is_request (m_ty q) = true /\
  (inh = true -> (exists x, c_loop c = LRun x) /\ forall i sd, nth_error (c_senders c) i = Some sd -> sd_inh sd = true -> sdone (sd_pc sd) = true).
Proof.
  intros H. apply negb_false_iff in H. unfold send_ok in H. repeat (apply andb_true_iff in H; destruct H as [H ?]).
  apply negb_true_iff in H. split; [exact (not_used _ _ H)|]. split; [assumption|]. split; [assumption|]. split; [assumption|].
  intros ->. cbn [negb orb] in *. destruct (c_loop c) as [| | |x| | | | |]; try (match goal with HX : false = true |- _ => discriminate HX end).
  split; [exists x; reflexivity|]. intros i sd HN HI. match goal with HX : negb _ = true |- _ => apply negb_true_iff in HX; rename HX into HE end.
  destruct (sdone (sd_pc sd)) eqn:ED; [reflexivity|]. apply nth_error_In in HN. exfalso.
  assert (existsb (fun sd : sender => sd_inh sd && negb (sdone (sd_pc sd))) (c_senders c) = true); [|congruence].
  apply existsb_exists. exists sd. split; [exact HN|]. rewrite HI, ED. reflexivity.
Qed.

(** What one step does to the callers: at most one of them moves, or one is added. *)
Inductive smove (c c' : conn) : Prop :=
| sm_same : c_senders c' = c_senders c -> smove c c'
| sm_move i sd p : nth_error (c_senders c) i = Some sd ->
    c_senders c' = upd i (MkSender (sd_id sd) (sd_q sd) (sd_inh sd) (sd_call sd) p) (c_senders c) -> smove c c'
| sm_new sd : c_senders c' = c_senders c ++ [sd] -> (forall i s, nth_error (c_senders c) i = Some s -> sd_id s <> sd_id sd) -> smove c c'.
Lemma step_smove ro e c c' o : step ro e c = Some (c', o) -> smove c c'.
Proof.
  intros H. step_inv H e; try (apply sm_same; reflexivity); try (eapply sm_move; [eassumption|csimp; reflexivity]).
  all: eapply sm_new; [csimp; reflexivity|]; apply send_ok_inv in E; csimp; apply E.
Qed.
Lemma inv_ids_step ro e c c' o : inv_ids c -> step ro e c = Some (c', o) -> inv_ids c'.
Proof.
  intros HI H. apply step_smove in H. intros i j si sj HN1 HN2 HE. destruct H as [HS|k sd p HK HS|sd HS HF]; rewrite HS in *.
  - eapply HI; eassumption.
  - apply nth_upd_inv in HN1, HN2. destruct HN1 as [[-> ->]|[? HN1]], HN2 as [[-> ->]|[? HN2]]; auto.
    + exact (HI _ _ _ _ HK HN2 HE).
    + exact (HI _ _ _ _ HN1 HK HE).
    + exact (HI _ _ _ _ HN1 HN2 HE).
  - apply nth_app_inv in HN1, HN2. destruct HN1 as [HN1|[-> ->]], HN2 as [HN2|[-> ->]]; auto.
    + exact (HI _ _ _ _ HN1 HN2 HE).
    + exfalso. exact (HF _ _ HN1 HE).
    + exfalso. exact (HF _ _ HN2 (eq_sym HE)).
Qed.

(** The maps *)
Definition inv_m (c : conn) : Prop :=
  (forall i sd, nth_error (c_senders c) i = Some sd -> lookup (sd_id sd) (c_sent c) = if regd (sd_pc sd) then Some (call_action (sd_call sd)) else None) /\
  (forall id a, lookup id (c_sent c) = Some a -> exists i sd, nth_error (c_senders c) i = Some sd /\ sd_id sd = id) /\
  (forall i sd, nth_error (c_senders c) i = Some sd -> lookup (sd_id sd) (c_resp c) = if regr (sd_pc sd) then Some i else None) /\
  (forall id a, lookup id (c_resp c) = Some a -> exists i sd, nth_error (c_senders c) i = Some sd /\ sd_id sd = id) /\
  (forall i sd ch, nth_error (c_senders c) i = Some sd -> sd_pc sd = SWait ch -> ch = Some i).

Lemma keep_sender c c' id : smove c c' -> (exists i sd, nth_error (c_senders c) i = Some sd /\ sd_id sd = id) ->
  exists i sd, nth_error (c_senders c') i = Some sd /\ sd_id sd = id.
Proof.
  intros H (i & sd & HN & HE). destruct H as [HS|k s p HK HS|s HS HF]; rewrite HS.
  - eauto.
  - exists i. rewrite nth_upd. destruct (Nat.eqb_spec k i) as [<-|D].
    + rewrite HN. eexists. split; [reflexivity|]. csimp. congruence.
    + eauto.
  - exists i, sd. rewrite nth_error_app1; [auto|]. exact (nth_lt _ _ _ HN).
Qed.

Lemma inv_m_step ro e c c' o : inv_ids c -> inv_m c -> step ro e c = Some (c', o) -> inv_m c'.
Proof.
  intros HI (M1 & M2 & M3 & M4 & M5) H. pose proof (step_smove _ _ _ _ _ H) as HM. unfold inv_m.
  assert (K : (forall id a, lookup id (c_sent c') = Some a -> exists i sd, nth_error (c_senders c') i = Some sd /\ sd_id sd = id) /\
              (forall id a, lookup id (c_resp c') = Some a -> exists i sd, nth_error (c_senders c') i = Some sd /\ sd_id sd = id)).
  { split; intros id' a' HL; apply (keep_sender c c' id' HM); revert HL; clear HM.
    - step_inv H e; csimp; intros HL; try (eapply M2; eassumption); rewrite ?lookup_mput, ?lookup_mdel in HL;
        match type of HL with context [String.eqb ?a ?b] => destruct (String.eqb_spec a b) as [EQ|EQ] end;
        try discriminate HL; try (eapply M2; eassumption). subst. eauto.
    - step_inv H e; csimp; intros HL; try (eapply M4; eassumption); rewrite ?lookup_mput, ?lookup_mdel in HL;
        match type of HL with context [String.eqb ?a ?b] => destruct (String.eqb_spec a b) as [EQ|EQ] end;
        try discriminate HL; try (eapply M4; eassumption). subst. eauto. }
  destruct K as [K1 K2]. clear HM. split; [|split; [exact K1|split; [|split; [exact K2|]]]]; clear K1 K2.
  - intros i' sd' HN. revert HN. step_inv H e; csimp; intros HN; try (apply (M1 _ _ HN)).
    all: try (apply nth_upd_inv in HN; destruct HN as [[-> ->]|[HD HN]]; csimp;
                 rewrite ?lookup_mput, ?lookup_mdel, ?String.eqb_refl;
                 [ pose proof (M1 _ _ E) as X; repeat match goal with HX : sd_pc _ = _ |- _ => rewrite HX in X; clear HX end; cbn [regd regr] in X |- *; first [exact X | reflexivity | destruct r; exact X | destruct r; reflexivity ]
                 | try match goal with |- context [String.eqb ?a ?b] => destruct (String.eqb_spec a b) as [EQ|EQ]; [exfalso; apply HD; exact (HI _ _ _ _ HN E EQ)|] end;
                   exact (M1 _ _ HN) ]).
    all: apply nth_app_inv in HN; destruct HN as [HN|[-> ->]]; [exact (M1 _ _ HN)|]; csimp; cbn [regd regr];
         apply send_ok_inv in E; destruct E as (E & _);
         match goal with |- ?l = _ => destruct l eqn:EL; [|reflexivity] end;
         apply M2 in EL; destruct EL as (j & s9 & X1 & X2); exfalso; exact (E _ _ X1 X2).
  - intros i' sd' HN. revert HN. step_inv H e; csimp; intros HN; try (apply (M3 _ _ HN)).
    all: try (apply nth_upd_inv in HN; destruct HN as [[-> ->]|[HD HN]]; csimp;
                 rewrite ?lookup_mput, ?lookup_mdel, ?String.eqb_refl;
                 [ pose proof (M3 _ _ E) as X; repeat match goal with HX : sd_pc _ = _ |- _ => rewrite HX in X; clear HX end; cbn [regd regr] in X |- *; first [exact X | reflexivity | destruct r; exact X | destruct r; reflexivity ]
                 | try match goal with |- context [String.eqb ?a ?b] => destruct (String.eqb_spec a b) as [EQ|EQ]; [exfalso; apply HD; exact (HI _ _ _ _ HN E EQ)|] end;
                   exact (M3 _ _ HN) ]).
    all: apply nth_app_inv in HN; destruct HN as [HN|[-> ->]]; [exact (M3 _ _ HN)|]; csimp; cbn [regd regr];
         apply send_ok_inv in E; destruct E as (E & _);
         match goal with |- ?l = _ => destruct l eqn:EL; [|reflexivity] end;
         apply M4 in EL; destruct EL as (j & s9 & X1 & X2); exfalso; exact (E _ _ X1 X2).
  - intros i' sd' ch' HN HP. revert HN HP. step_inv H e; csimp; intros HN HP; try (apply (M5 _ _ _ HN HP)).
    all: first [apply nth_upd_inv in HN; destruct HN as [[-> ->]|[HD HN]]; csimp_in HP; [|exact (M5 _ _ _ HN HP)]
               |apply nth_app_inv in HN; destruct HN as [HN|[-> ->]]; csimp_in HP; [exact (M5 _ _ _ HN HP)|]]; try discriminate HP.
    injection HP as <-. rewrite (M3 _ _ E), E0. reflexivity.
Qed.

(** ** Callers and the trace *)
Fixpoint isends (k : nat) (l : list sender) : list (nat * (string * msg)) :=
  match l with [] => [] | sd :: r => (k, (sd_id sd, sd_q sd)) :: isends (S k) r end.
Lemma isends_app k a sd : isends k (a ++ [sd]) = isends k a ++ [(k + length a, (sd_id sd, sd_q sd))].
Proof.
  revert k. induction a as [|x a IH]; intros k; cbn [isends app length]; [rewrite Nat.add_0_r; reflexivity|]. rewrite IH, Nat.add_succ_r. reflexivity.
Qed.
Lemma isends_upd k i sd p l : nth_error l i = Some sd -> isends k (upd i (MkSender (sd_id sd) (sd_q sd) (sd_inh sd) (sd_call sd) p) l) = isends k l.
Proof.
  revert k i. induction l as [|x l IH]; intros k [|i] H; cbn in H |- *; try discriminate H; [injection H as <-; reflexivity|]. f_equal. apply IH. exact H.
Qed.
Lemma isends_in k l i id q : In (i, (id, q)) (isends k l) <-> exists sd, k <= i /\ nth_error l (i - k) = Some sd /\ sd_id sd = id /\ sd_q sd = q.
Proof.
  revert k. induction l as [|x l IH]; intros k; cbn [isends In].
  - split; [intros []|intros (sd & _ & H & _)]. destruct (i - k); discriminate H.
  - rewrite IH. split.
    + intros [H|(sd & H1 & H2)].
      * injection H as -> <- <-. exists x. rewrite Nat.sub_diag. cbn. auto.
      * exists sd. split; [lia|]. replace (i - k) with (S (i - S k)) by lia. exact H2.
    + intros (sd & H1 & H2 & H3 & H4). destruct (i - k) as [|n] eqn:E; cbn in H2.
      * left. injection H2 as ->. replace i with k by lia. congruence.
      * right. exists sd. split; [lia|]. replace (i - S k) with n by lia. auto.
Qed.
Definition inv_i (c : conn) (tr : list obs) : Prop := sends tr = isends 0 (c_senders c).
Lemma inv_i_step ro e c c' o tr : inv_i c tr -> step ro e c = Some (c', o) -> inv_i c' (tr ++ o).
Proof.
  intros HI H. unfold inv_i, sends in *. rewrite pick_app, HI.
  step_inv H e; csimp; cbn [pick flat_map app]; rewrite ?app_nil_r, ?isends_app; try reflexivity; erewrite isends_upd; try reflexivity; assumption.
Qed.

Definition inv_c (c : conn) : Prop := forall i sd, nth_error (c_senders c) i = Some sd ->
  utf8_valid (sd_id sd) = true /\ msg_ok (sd_q sd) = true /\ is_request (m_ty (sd_q sd)) = true /\
  match sd_pc sd with
  | SDone RNoCall => exists e, unmarshal_request (sd_id sd) (sd_q sd) = Err e
  | SDead => unmarshal_request (sd_id sd) (sd_q sd) = Panic
  | _ => unmarshal_request (sd_id sd) (sd_q sd) = Ok (sd_call sd)
  end.
Lemma inv_c_step ro e c c' o : inv_c c -> step ro e c = Some (c', o) -> inv_c c'.
Proof.
  intros HC H i' sd' HN. revert HN. step_inv H e; csimp; intros HN; try exact (HC _ _ HN).
  all: first [apply nth_upd_inv in HN; destruct HN as [[-> ->]|[HD HN]]; [|exact (HC _ _ HN)]; csimp; pose proof (HC _ _ E) as X;
       repeat match goal with HX : sd_pc _ = _ |- _ => rewrite HX in X; clear HX end; first [exact X|destruct r; exact X]
      |apply nth_app_inv in HN; destruct HN as [HN|[-> ->]]; [exact (HC _ _ HN)|]; csimp; apply send_ok_inv in E; destruct E as (_ & X1 & X2 & X3 & _); eauto].
Qed.

(** Results: each call returns at most once. *)
Definition inv_o (c : conn) (tr : list obs) : Prop :=
  (forall i o, In (i, o) (rets tr) <-> exists sd, nth_error (c_senders c) i = Some sd /\ sd_pc sd = SDone o) /\ NoDup (map fst (rets tr)).
Lemma inv_o_step ro e c c' o tr : inv_o c tr -> step ro e c = Some (c', o) -> inv_o c' (tr ++ o).
Proof.
  intros [O1 O2] H. unfold inv_o, rets in *. rewrite pick_app, map_app.
  assert (Q : forall i sd p, nth_error (c_senders c) i = Some sd -> sdone (sd_pc sd) = false -> sdone p = false ->
     (forall k o, In (k, o) (pick (fun o => match o with ORet i o => Some (i, o) | _ => None end) tr) <-> exists s, nth_error (upd i (MkSender (sd_id sd) (sd_q sd) (sd_inh sd) (sd_call sd) p) (c_senders c)) k = Some s /\ sd_pc s = SDone o)).
  { intros i sd p HN H1 H2 k o'. rewrite O1. rewrite nth_upd. destruct (Nat.eqb_spec i k) as [<-|D]; [|reflexivity]. rewrite HN. split; intros (s & X & Y).
    - injection X as <-. rewrite Y in H1. discriminate H1.
    - injection X as <-. csimp_in Y. rewrite Y in H2. discriminate H2. }
  assert (Q1 : forall i sd, nth_error (c_senders c) i = Some sd -> sdone (sd_pc sd) = false -> ~ In i (map fst (pick (fun o => match o with ORet i o => Some (i, o) | _ => None end) tr))).
  { intros i sd HN HD HI. apply in_map_iff in HI. destruct HI as ([k o'] & HK & HI). cbn [fst] in HK. subst k. apply O1 in HI. destruct HI as (s & X & Y). rewrite HN in X. injection X as <-.
    rewrite Y in HD. discriminate HD. }
  assert (Q2 : forall i sd x, nth_error (c_senders c) i = Some sd -> sdone (sd_pc sd) = false ->
     (forall k o, In (k, o) (pick (fun o => match o with ORet i o => Some (i, o) | _ => None end) tr ++ [(i, x)]) <-> exists s, nth_error (upd i (MkSender (sd_id sd) (sd_q sd) (sd_inh sd) (sd_call sd) (SDone x)) (c_senders c)) k = Some s /\ sd_pc s = SDone o)
     /\ NoDup (map fst (pick (fun o => match o with ORet i o => Some (i, o) | _ => None end) tr) ++ [i])).
  { intros i sd x HN HD. split.
    - intros k o'. rewrite in_app_iff, O1, nth_upd. cbn [In]. destruct (Nat.eqb_spec i k) as [<-|D].
      + rewrite HN. split.
        * intros [(s & X & Y)|[X|[]]]; [injection X as <-; rewrite Y in HD; discriminate HD|]. injection X as <-. eauto.
        * intros (s & X & Y). injection X as <-. csimp_in Y. injection Y as <-. auto.
      + split; [intros [X|[X|[]]]; [exact X|congruence]|intros X; left; exact X].
    - apply NoDup_rev in O2. rewrite <- (rev_involutive (_ ++ [i])). apply NoDup_rev. rewrite rev_app_distr. cbn [rev app]. constructor; [|exact O2].
      rewrite <- in_rev. exact (Q1 _ _ HN HD). }
  assert (Q3 : forall sd k o, In (k, o) (pick (fun o => match o with ORet i o => Some (i, o) | _ => None end) tr) <->
     exists s, (nth_error (c_senders c ++ [sd]) k = Some s /\ sd_pc s = SDone o /\ k < length (c_senders c))).
  { intros sd k o'. rewrite O1. split.
    - intros (s & X & Y). exists s. split; [|split; [exact Y|exact (nth_lt _ _ _ X)]]. rewrite nth_error_app1; [exact X|exact (nth_lt _ _ _ X)].
    - intros (s & X & Y & Z). exists s. rewrite nth_error_app1 in X; auto. }
  step_inv H e; csimp; cbn [pick flat_map app map fst]; rewrite ?app_nil_r; auto.
  all: try (split; [|exact O2]; apply Q; [exact E|rewrite ?E0, ?E3; reflexivity|reflexivity]).
  all: try (apply Q2; [exact E|rewrite ?E0, ?E3; reflexivity]).
  - split; [|exact O2]. intros k o'. rewrite (Q3 (MkSender id q inh a SReg1)). split; [intros (s & X & Y & _); eauto|].
    intros (s & X & Y). exists s. split; [exact X|]. split; [exact Y|]. apply nth_app_inv in X. destruct X as [X|[_ ->]]; [exact (nth_lt _ _ _ X)|discriminate Y].
  - split.
    + intros k o'. rewrite in_app_iff, (Q3 (MkSender id q inh (MCall id "" ANull) (SDone RNoCall))). cbn [In]. split.
      * intros [(s & X & Y & _)|[X|[]]]; [eauto|]. injection X as <- <-. eexists. rewrite nth_error_app2, Nat.sub_diag by lia. split; reflexivity.
      * intros (s & X & Y). pose proof X as X'. apply nth_app_inv in X. destruct X as [X|[-> ->]].
        -- left. exists s. split; [exact X'|]. split; [exact Y|exact (nth_lt _ _ _ X)].
        -- right. left. injection Y as <-. reflexivity.
    + apply NoDup_rev in O2. rewrite <- (rev_involutive (_ ++ [_])). apply NoDup_rev. rewrite rev_app_distr. cbn [rev app]. constructor; [|exact O2].
      rewrite <- in_rev. intros HI. apply in_map_iff in HI. destruct HI as ([k o'] & HK & HI). cbn [fst] in HK. subst k. apply O1 in HI. destruct HI as (s & X & _).
      apply nth_lt in X. lia.
  - split; [|exact O2]. intros k o'. match goal with |- context [c_senders c ++ [?x]] => rewrite (Q3 x) end. split; [intros (s9 & X & Y & _); eauto|].
    intros (s9 & X & Y). exists s9. split; [exact X|]. split; [exact Y|]. apply nth_app_inv in X. destruct X as [X|[_ ->]]; [exact (nth_lt _ _ _ X)|discriminate Y].
  - split; [|exact O2]. intros k o'. match goal with |- context [c_senders c ++ [?x]] => rewrite (Q3 x) end. split; [intros (s9 & X & Y & _); eauto|].
    intros (s9 & X & Y). exists s9. split; [exact X|]. split; [exact Y|]. apply nth_app_inv in X. destruct X as [X|[_ ->]]; [exact (nth_lt _ _ _ X)|discriminate Y].
  - split; [|exact O2]. intros k o'. match goal with |- context [c_senders c ++ [?x]] => rewrite (Q3 x) end. split; [intros (s9 & X & Y & _); eauto|].
    intros (s9 & X & Y). exists s9. split; [exact X|]. split; [exact Y|]. apply nth_app_inv in X. destruct X as [X|[_ ->]]; [exact (nth_lt _ _ _ X)|discriminate Y].
Qed.
