(** Failed reads, and when the connection is given up. *)
From Coq Require Import Arith.
From Verif Require Import GoBase Utf8 Json Float64 Codec Any Tables Registry Frame Conn SpecConn ConnBase ConnInv ConnSend ConnEvid ConnFate ConnMore ConnTop ConnLive.
Open Scope string_scope.
Open Scope list_scope.
Opaque marshal_message read_text unmarshal_request call_to_request result_to_response utf8_valid msg_ok.

Definition owe (w : bool) (o : obs) : bool := match o with OReadErr _ => true | ODone => false | _ => w end.
Definition owed (tr : list obs) : bool := fold_left owe tr false.
Lemma owed_app a b : owed (a ++ b) = fold_left owe b (owed a).
Proof. apply fold_left_app. Qed.
Lemma owed_done a b m : owed (a ++ OReadErr b :: m) = false -> In ODone m.
Proof.
  rewrite owed_app. cbn [fold_left owe]. clear a b. assert (G : forall m w, fold_left owe m w = false -> w = false \/ In ODone m).
  { clear. induction m as [|o m IH]; intros w H; [left; exact H|]. cbn [fold_left] in H. destruct (IH _ H) as [K|K]; [|right; right; exact K]. destruct o; cbn [owe] in K; try (left; exact K); [discriminate K|right; left; reflexivity]. }
  intros H. destruct (G m true H) as [K|K]; [discriminate K|exact K].
Qed.
Definition closing_reader (p : rpc) : bool := match p with RClose _ | RCancel _ => true | _ => false end.
Definition is_err (o : obs) : bool := match o with OReadErr _ => true | _ => false end.
Definition spaced (tr : list obs) : Prop := forall a b m b' z, tr = a ++ OReadErr b :: m ++ OReadErr b' :: z -> In ODone m.
Lemma spaced_other tr o : spaced tr -> existsb is_err o = false -> spaced (tr ++ o).
Proof.
  intros HS. induction o as [|x o IH] using rev_ind; intros HO; [rewrite app_nil_r; exact HS|]. rewrite existsb_app in HO. apply orb_false_iff in HO as [H1 H2]. cbn [existsb] in H2. rewrite orb_false_r in H2.
  intros a b m b' z E. destruct z as [|y z] using rev_ind.
  - exfalso. rewrite app_assoc in E. replace (a ++ OReadErr b :: m ++ [OReadErr b']) with ((a ++ OReadErr b :: m) ++ [OReadErr b']) in E by (rewrite <- app_assoc; reflexivity). apply app_inj_tail in E as [_ ->]. discriminate H2.
  - clear IHz. apply (IH H1 a b m b' z). rewrite app_assoc in E. replace (a ++ OReadErr b :: m ++ OReadErr b' :: z ++ [y]) with ((a ++ OReadErr b :: m ++ OReadErr b' :: z) ++ [y]) in E by (repeat (rewrite <- app_assoc; cbn [app]); reflexivity).
    apply app_inj_tail in E as [E _]. exact E.
Qed.
Lemma spaced_err tr b : spaced tr -> owed tr = false -> spaced (tr ++ [OReadErr b]).
Proof.
  intros HS HO a c m b' z E. destruct z as [|y z] using rev_ind.
  - replace (a ++ OReadErr c :: m ++ [OReadErr b']) with ((a ++ OReadErr c :: m) ++ [OReadErr b']) in E by (rewrite <- app_assoc; reflexivity). apply app_inj_tail in E as [-> _]. exact (owed_done _ _ _ HO).
  - clear IHz. apply (HS a c m b' z). replace (a ++ OReadErr c :: m ++ OReadErr b' :: z ++ [y]) with ((a ++ OReadErr c :: m ++ OReadErr b' :: z) ++ [y]) in E by (repeat (rewrite <- app_assoc; cbn [app]); reflexivity). apply app_inj_tail in E as [E _]. exact E.
Qed.
Lemma err_event ro e c c' o : step ro e c = Some (c', o) -> existsb is_err o = true -> exists r b, e = EReadErr r b /\ o = [OReadErr b] /\ nth_error (c_readers c) r = Some RRead.
Proof. intros H. step_inv H e; cbn [existsb is_err orb]; intros X; try discriminate X. all: try (eexists; eexists; repeat split; eassumption). all: try (exfalso; destruct ro; discriminate X). Qed.
Lemma closing_keep ro e c c' o kk p : step ro e c = Some (c', o) -> nth_error (c_readers c) kk = Some p -> closing_reader p = true -> In ODone o \/ exists p', nth_error (c_readers c') kk = Some p' /\ closing_reader p' = true.
Proof.
  intros H HN HP. step_inv H e; csimp; try (right; exists p; split; [exact HN|exact HP]).
  all: try (left; cbn [In]; tauto).
  all: right; try (exists p; rewrite nth_error_app1 by (eapply nth_lt; eassumption); split; assumption).
  all: match goal with |- context [upd ?i _ _] => rewrite nth_upd; destruct (Nat.eqb_spec i kk) as [N|N]; [|exists p; split; assumption]; rewrite N in * end.
  all: match goal with HP : closing_reader ?y = true, B : nth_error ?l ?i = Some ?y, A : nth_error ?l ?i = Some ?x |- _ =>
         rewrite B in A; injection A as A; subst y; first [discriminate HP|rewrite B; eexists; split; [reflexivity|reflexivity]] end.
Qed.
Lemma retry_inv ro c tr : reach ro c tr -> spaced tr /\ (owed tr = true -> exists r p, nth_error (c_readers c) r = Some p /\ closing_reader p = true).
Proof.
  induction 1 as [|c tr e c' o HR [IH1 IH2] HS].
  - split; [|discriminate]. intros a b m b' z E. destruct a; discriminate E.
  - destruct (existsb is_err o) eqn:EO.
    + destruct (err_event _ _ _ _ _ HS EO) as (r & b & -> & -> & HN). split.
      * apply spaced_err; [exact IH1|]. destruct (owed tr) eqn:EW; [exfalso|reflexivity]. destruct (IH2 eq_refl) as (r' & p & N1 & N2).
        pose proof (one_reader ro c tr r r' RRead p HR HN N1 eq_refl ltac:(destruct p; try discriminate N2; reflexivity)) as X. subst r'. rewrite HN in N1. injection N1 as <-. discriminate N2.
      * intros _. unfold step in HS. destruct (c_crash c); [discriminate HS|]. rewrite HN in HS. injection HS as <-. exists r, (RClose b). csimp. split; [exact (nth_upd_same _ _ _ _ HN)|reflexivity].
    + split; [exact (spaced_other tr o IH1 EO)|]. rewrite owed_app. intros HO.
      assert (G : forall l w, existsb is_err l = false -> fold_left owe l w = true -> w = true /\ ~ In ODone l).
      { clear. induction l as [|x l IHl]; intros w H1 H2; [split; [exact H2|intros []]|]. cbn [existsb] in H1. apply orb_false_iff in H1 as [H0 H1]. cbn [fold_left] in H2. destruct (IHl _ H1 H2) as [K1 K2].
        destruct x; try discriminate H0; cbn [owe] in K1; try discriminate K1; (split; [exact K1|]); intros [K|K]; try discriminate K; exact (K2 K). }
      destruct (G o _ EO HO) as [K1 K2]. destruct (IH2 K1) as (r & p & N1 & N2). destruct (closing_keep _ _ _ _ _ _ _ HS N1 N2) as [K|(p' & P1 & P2)]; [contradiction|]. exists r, p'. split; assumption.
Qed.
Lemma reads_again ro c tr b r : reach ro c tr -> In (OReadErr b) tr -> nth_error (c_readers c) r = Some RRead -> c_done c = true.
Proof.
  intros HR HI HN. destruct (v_d _ _ _ (reach_inv _ _ _ HR)) as (_ & _ & D3 & _ & _ & _ & _ & _ & _ & _ & D).
  assert (RB : c_rbroken c = true). { rewrite D3. apply existsb_exists. eexists. split; [exact HI|reflexivity]. }
  destruct (D RB) as [X|(r' & p & X1 & X2)]; [exact X|]. exfalso.
  pose proof (one_reader ro c tr r r' RRead p HR HN X1 eq_refl ltac:(destruct p; try discriminate X2; reflexivity)) as X. subst r'. rewrite HN in X1. injection X1 as <-. discriminate X2.
Qed.
(** The select may pass over the closed connection any number of times. *)
Definition fail_turn (k : nat) : list event := [ELoop; EReadErr k false; EReader k; EReader k; EResult].
Fixpoint fail_turns (k n : nat) : list event := match n with O => [] | S m => fail_turn k ++ fail_turns (S k) m end.
Lemma turn_runs ro c k : c_crash c = false -> c_loop c = LTop -> length (c_readers c) = k -> exists c', run ro (fail_turn k) c = Some (c', [OReadErr false; OClosed; ODone]) /\
  c_crash c' = false /\ c_loop c' = LTop /\ length (c_readers c') = S k.
Proof.
  intros H1 H2 H3. assert (L : forall x, nth_error (c_readers c ++ [x]) k = Some x) by (intros x; rewrite nth_error_app2 by lia; rewrite H3, Nat.sub_diag; reflexivity).
  unfold fail_turn. cbn [run]. unfold step at 1. rewrite H1. unfold loop_step. rewrite H2, H3.
  unfold step at 1. csimp. rewrite H1, L. unfold step at 1. csimp. rewrite H1, (nth_upd_same k (RClose false) RRead _ (L RRead)). cbn [reader_step].
  unfold step at 1. csimp. rewrite H1. erewrite nth_upd_same; [|exact (nth_upd_same k (RClose false) RRead _ (L RRead))]. cbn [reader_step].
  unfold step at 1. csimp. rewrite H1. erewrite nth_upd_same; [|erewrite nth_upd_same; [reflexivity|exact (nth_upd_same k (RClose false) RRead _ (L RRead))]].
  eexists. split; [reflexivity|]. csimp. rewrite !upd_length, app_length. cbn [length]. split; [exact H1|]. split; [destruct ro; reflexivity|lia].
Qed.
Lemma turns_run ro n : forall c k, c_crash c = false -> c_loop c = LTop -> length (c_readers c) = k -> exists c' o, run ro (fail_turns k n) c = Some (c', o) /\ c_crash c' = false /\ length (filter is_err o) = n.
Proof.
  induction n as [|n IH]; intros c k H1 H2 H3; [exists c, []; repeat split; exact H1|]. destruct (turn_runs ro c k H1 H2 H3) as (c1 & E1 & G1 & G2 & G3). destruct (IH c1 (S k) G1 G2 G3) as (c2 & o & E2 & F1 & F2).
  exists c2, ([OReadErr false; OClosed; ODone] ++ o). cbn [fail_turns]. rewrite (run_app ro (fail_turn k) _ _ _ _ E1), E2. split; [reflexivity|]. split; [exact F1|]. rewrite filter_app, app_length, F2. reflexivity.
Qed.
