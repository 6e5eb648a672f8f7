(** Lemmas about runs of the charge point. *)
From Coq Require Import Arith.
From Verif Require Import GoBase Utf8 Json Float64 Codec Any Tables Registry Frame Conn SpecConn ConnBase ConnInv ConnFate ConnTop ChargePoint SpecCP CSInv CPInv.
Open Scope string_scope.
Open Scope list_scope.
Opaque marshal_message read_text unmarshal_request call_to_request result_to_response utf8_valid msg_ok is_request action_of.

Lemma xreach_run xs p p' o tr : xreach p tr -> xrun xs p = Some (p', o) -> xreach p' (tr ++ o).
Proof.
  revert p tr o. induction xs as [|x xs IH]; intros p tr o HR H; cbn [xrun] in H; [injection H as <- <-; rewrite app_nil_r; exact HR|].
  destruct (xstep x p) as [[p1 o1]|] eqn:E; [|discriminate H]. destruct (xrun xs p1) as [[p2 o2]|] eqn:E2; [|discriminate H].
  injection H as <- <-. rewrite app_assoc. eapply IH; [|exact E2]. econstructor; eassumption.
Qed.
Lemma xreach_of_run xs p o : xrun xs cpoint0 = Some (p, o) -> xreach p o.
Proof. intros H. change o with ([] ++ o). eapply xreach_run; [constructor|exact H]. Qed.
Lemma xreach_split p tr b q a : xreach p tr -> tr = b ++ q :: a ->
  exists p0 tr0 x p1 b1 a1 a2, xreach p0 tr0 /\ xstep x p0 = Some (p1, b1 ++ q :: a1) /\ b = tr0 ++ b1 /\ a = a1 ++ a2 /\ xreach p1 (tr0 ++ b1 ++ q :: a1).
Proof.
  intros HR. revert b q a. induction HR as [|s tr v s' o HR IH HS]; intros b x a HT; [destruct b; discriminate HT|].
  destruct (split_app _ _ _ _ _ HT) as [(a1 & -> & ->)|(b1 & -> & HO)].
  - destruct (IH _ _ _ eq_refl) as (s0 & tr0 & v0 & s1 & b1 & a2 & a3 & R & S & -> & -> & R1). exists s0, tr0, v0, s1, b1, a2, (a3 ++ o). rewrite app_assoc. auto.
  - subst o. exists s, tr, v, s', b1, a, []. rewrite app_nil_r. repeat split; auto. econstructor; eassumption.
Qed.
Lemma xrun_cons x xs p p1 o1 p2 o2 : xstep x p = Some (p1, o1) -> xrun xs p1 = Some (p2, o2) -> xrun (x :: xs) p = Some (p2, o1 ++ o2).
Proof. intros H1 H2. cbn [xrun]. rewrite H1, H2. reflexivity. Qed.

(** A connection whose loop is gone calls no handler. *)
Lemma gone_quiet e c c' o : step CP e c = Some (c', o) -> c_loop c = LGone -> handles o = [].
Proof. intros H L. step_inv H e; csimp; cbn; try reflexivity; try congruence. Qed.
Opaque step.

(** Shapes of the observations of a step *)
Lemma link_part b1 q a1 pre k oo tl : b1 ++ q :: a1 = pre ++ map (QConn k) oo ++ tl -> (forall j x, q <> QConn j x) -> In q pre \/ In q tl.
Proof.
  intros H N. assert (I : In q (pre ++ map (QConn k) oo ++ tl)) by (rewrite <- H; apply in_or_app; right; left; reflexivity).
  apply in_app_or in I. destruct I as [I|I]; [auto|]. apply in_app_or in I. destruct I as [I|I]; [|auto]. apply in_map_iff in I. destruct I as (x & <- & _). exfalso. exact (N _ _ eq_refl).
Qed.
Lemma stop_only (pc' pc : ppc) q : In q (match pc', pc with PEnd, PStop => [QStopped] | _, _ => [] end) -> q = QStopped.
Proof. destruct pc', pc; intros H; try (destruct H; fail); destruct H as [<-|[]]; reflexivity. Qed.
Lemma link_dial b1 ok a1 pre k oo pc' pc s : b1 ++ QDialed ok :: a1 = pre ++ map (QConn k) oo ++ (match pc', pc with PEnd, PStop => [QStopped] | _, _ => [] end) ->
  pre = [] \/ pre = [QSend s] -> False.
Proof.
  intros H HP. apply link_part in H; [|intros; discriminate]. destruct H as [H|H].
  - destruct HP as [-> | ->]; [destruct H|destruct H as [H|[]]; discriminate H].
  - apply stop_only in H. discriminate H.
Qed.

Lemma connected_app a b : connected (a ++ b) = connected a + connected b.
Proof. unfold connected, dials. rewrite qpick_app, filter_app, app_length. reflexivity. Qed.
Lemma connected_conn k o : connected (map (QConn k) o) = 0.
Proof. unfold connected, dials. rewrite qpick_conn; reflexivity. Qed.
Lemma connected_conns p tr : xreach p tr -> connected tr = length (p_conns p).
Proof.
  induction 1 as [|p tr x p' o HR IH HS]; [reflexivity|]. apply xstep_kind in HS. destruct HS as [_ HS]. rewrite connected_app, IH.
  destruct HS as [P E O|P N E O|P N E O|P E O|P E O|P E O|P I E O|P I E O|P E O|E O|E N O|E N O|k e c c' oo pre HN HK HS E HP O]; subst p' o; psimp; rewrite ?app_length; try (cbn; lia).
  - destruct (p_new p); cbn; lia.
  - rewrite !connected_app, connected_conn. cbv zeta. match goal with |- _ = ?x => assert (L : x = length (p_conns p)) by (destruct (c_crash c'); psimp; apply upd_length) end.
    rewrite L. assert (T : forall a b, connected (match a, b with PEnd, PStop => [QStopped] | _, _ => [] end) = 0) by (intros [] []; reflexivity). rewrite T. destruct HP as [-> | [-> _]]; cbn; lia.
Qed.
(** When a dial succeeds, every earlier connection has closed. *)
Lemma dial_after p tr b ok a : xreach p tr -> tr = b ++ QDialed ok :: a -> forall k, k < connected b -> link_closed k b.
Proof.
  intros HR HT k HK. destruct (xreach_split _ _ _ _ _ HR HT) as (p0 & tr0 & x & p1 & b1 & a1 & a2 & HR0 & HS & -> & -> & _).
  pose proof (xreach_inv _ _ HR0) as V. apply xstep_kind in HS. destruct HS as [_ HS].
  assert (P : p_pc p0 = PDial /\ b1 = []).
  { destruct HS as [P E O|P N E O|P N E O|P E O|P E O|P E O|P I E O|P I E O|P E O|E O|E N O|E N O|k0 e c c' oo pre HN HK0 HS E HP O]; try (destruct b1 as [|? b1]; discriminate O); try (symmetry in O; apply single in O; destruct O as (-> & _ & O); first [discriminate O|auto]).
    - split; [exact P|]. destruct b1 as [|y [|z b1]]; [reflexivity|discriminate O|]. destruct b1; discriminate O.
    - exfalso. destruct (p_new p0); [|symmetry in O; apply single in O; destruct O as (_ & _ & O); discriminate O]. destruct b1 as [|y [|z b1]]; [discriminate O|discriminate O|destruct b1; discriminate O].
    - exfalso. eapply link_dial; [exact O|]. destruct HP as [-> | [-> _]]; auto. }
  destruct P as [P ->]. rewrite app_nil_r in *. rewrite (connected_conns _ _ HR0) in HK.
  destruct (nth_error (p_conns p0) k) as [c|] eqn:E; [|apply nth_error_None in E; lia].
  pose proof (j_link _ _ V k) as L. rewrite E in L. apply (done_seen _ _ _ L).
  destruct (j_loop _ _ V _ _ E) as [A B]. rewrite P in A. cbn in A. destruct (Nat.eq_dec (S k) (length (p_conns p0))) as [Y|Y]; [exact (proj2 (A Y))|exact (proj2 (B Y))].
Qed.
(** A connection is noticed lost only once it closed. *)
Lemma lost_closed p tr b k a : xreach p tr -> tr = b ++ QLost k :: a -> link_closed k b.
Proof.
  intros HR HT. destruct (xreach_split _ _ _ _ _ HR HT) as (p0 & tr0 & x & p1 & b1 & a1 & a2 & HR0 & HS & -> & -> & _).
  pose proof (xreach_inv _ _ HR0) as V. apply xstep_kind in HS. destruct HS as [_ HS].
  assert (P : p_pc p0 = PMake /\ b1 = [] /\ k = p_cur p0).
  { destruct HS as [P E O|P N E O|P N E O|P E O|P E O|P E O|P I E O|P I E O|P E O|E O|E N O|E N O|k0 e c c' oo pre HN HK0 HS E HP O]; try (destruct b1 as [|? b1]; discriminate O); try (symmetry in O; apply single in O; destruct O as (-> & _ & O); first [discriminate O|idtac]).
    - exfalso. destruct b1 as [|y [|z b1]]; [discriminate O|discriminate O|destruct b1; discriminate O].
    - exfalso. destruct (p_new p0); [|symmetry in O; apply single in O; destruct O as (_ & _ & O); discriminate O]. destruct b1 as [|y [|z b1]]; [discriminate O|discriminate O|destruct b1; discriminate O].
    - injection O as ->. auto.
    - exfalso. apply link_part in O; [|intros; discriminate]. destruct O as [O|O].
      + destruct HP as [-> | [-> _]]; [destruct O|destruct O as [O|[]]; discriminate O].
      + apply stop_only in O. discriminate O. }
  destruct P as (P & -> & ->). rewrite app_nil_r. destruct (j_cur _ _ V) as [C _]. destruct (j_num _ _ V) as [N1 N2]. rewrite P in *. cbn in *.
  destruct (nth_error (p_conns p0) (p_cur p0)) as [c|] eqn:E; [|apply nth_error_None in E; lia].
  pose proof (j_link _ _ V (p_cur p0)) as L. rewrite E in L. apply (done_seen _ _ _ L).
  destruct (j_loop _ _ V _ _ E) as [A _]. rewrite P in A. apply A. lia.
Qed.
(** Which connection calls and WaitDisconnect go to *)
Lemma send_to p tr b k a : xreach p tr -> tr = b ++ QSend k :: a -> S k = length (ups b) \/ k = length (ups b).
Proof.
  intros HR HT. destruct (xreach_split _ _ _ _ _ HR HT) as (p0 & tr0 & x & p1 & b1 & a1 & a2 & HR0 & HS & -> & -> & _).
  pose proof (xreach_inv _ _ HR0) as V. apply xstep_kind in HS. destruct HS as [_ HS].
  assert (P : b1 = [] /\ k = p_svc p0 /\ p_new p0 = false).
  { destruct HS as [P E O|P N E O|P N E O|P E O|P E O|P E O|P I E O|P I E O|P E O|E O|E N O|E N O|k0 e c c' oo pre HN HK0 HS E HP O]; try (destruct b1 as [|? b1]; discriminate O); try (symmetry in O; apply single in O; destruct O as (-> & _ & O); first [discriminate O|idtac]).
    - exfalso. destruct b1 as [|y [|z b1]]; [discriminate O|discriminate O|destruct b1; discriminate O].
    - exfalso. destruct (p_new p0); [|symmetry in O; apply single in O; destruct O as (_ & _ & O); discriminate O]. destruct b1 as [|y [|z b1]]; [discriminate O|discriminate O|destruct b1; discriminate O].
    - assert (N : p_new p0 = false) by (unfold pconn_ok in HK0; apply andb_true_iff in HK0; destruct HK0 as [HK0 _]; apply andb_true_iff in HK0; destruct HK0 as [HK0 _]; apply negb_true_iff; exact HK0).
      destruct HP as [-> | [-> HP]].
      + exfalso. apply link_part in O; [|intros; discriminate]. destruct O as [[]|O]. apply stop_only in O. discriminate O.
      + destruct b1 as [|y b1]; [injection O as -> _; auto|]. exfalso. injection O as _ O. apply (link_part _ _ _ []) in O; [|intros; discriminate]. destruct O as [[]|O]. apply stop_only in O. discriminate O. }
  destruct P as (-> & -> & N). rewrite app_nil_r. destruct (j_cur _ _ V) as [_ C]. destruct (j_old _ _ V N) as [U _].
  assert (L : length (ups tr0) <> 0) by (intros X; apply U; apply length_zero_iff_nil; exact X).
  destruct (p_pc p0); rewrite C; try (left; lia); right; reflexivity.
Qed.
Lemma waitd_to p tr b k a : xreach p tr -> tr = b ++ QWaitD k :: a -> S k = length (ups b) \/ k = length (ups b).
Proof.
  intros HR HT. destruct (xreach_split _ _ _ _ _ HR HT) as (p0 & tr0 & x & p1 & b1 & a1 & a2 & HR0 & HS & -> & -> & _).
  pose proof (xreach_inv _ _ HR0) as V. apply xstep_kind in HS. destruct HS as [_ HS].
  assert (P : b1 = [] /\ k = p_cur p0 /\ p_new p0 = false).
  { destruct HS as [P E O|P N E O|P N E O|P E O|P E O|P E O|P I E O|P I E O|P E O|E O|E N O|E N O|k0 e c c' oo pre HN HK0 HS E HP O]; try (destruct b1 as [|? b1]; discriminate O); try (symmetry in O; apply single in O; destruct O as (-> & _ & O); first [discriminate O|idtac]).
    - exfalso. destruct b1 as [|y [|z b1]]; [discriminate O|discriminate O|destruct b1; discriminate O].
    - exfalso. destruct (p_new p0); [|symmetry in O; apply single in O; destruct O as (_ & _ & O); discriminate O]. destruct b1 as [|y [|z b1]]; [discriminate O|discriminate O|destruct b1; discriminate O].
    - injection O as ->. auto.
    - exfalso. apply link_part in O; [|intros; discriminate]. destruct O as [O|O].
      + destruct HP as [-> | [-> _]]; [destruct O|destruct O as [O|[]]; discriminate O].
      + apply stop_only in O. discriminate O. }
  destruct P as (-> & -> & N). rewrite app_nil_r. destruct (j_cur _ _ V) as [C _]. destruct (j_old _ _ V N) as [U _].
  assert (L : length (ups tr0) <> 0) by (intros X; apply U; apply length_zero_iff_nil; exact X).
  destruct (p_pc p0); rewrite C; try (left; lia); right; reflexivity.
Qed.

(** ** Stopping *)
Lemma stopping_cancelled p tr : xreach p tr -> p_pc p = PStop \/ p_pc p = PEnd -> p_cancel p = true.
Proof.
  induction 1 as [|p tr x p' o HR IH HS]; [intros [H|H]; discriminate H|]. apply xstep_kind in HS. destruct HS as [_ HS].
  destruct HS as [P E O|P N E O|P N E O|P E O|P E O|P E O|P I E O|P I E O|P E O|E O|E N O|E N O|k e c c' oo pre HN HK HS E HP O]; subst p' o; psimp; try (intros [H|H]; discriminate H); try exact IH; try reflexivity.
  - cbv zeta. intros H. assert (H' : ppc_after e c' (p_pc p) = PStop \/ ppc_after e c' (p_pc p) = PEnd) by (destruct (c_crash c'); exact H). 
    assert (G : p_cancel p = true); [|destruct (c_crash c'); exact G].
    destruct e; cbn [ppc_after] in H'; try (apply IH; exact H'); try (destruct H' as [H'|H']; discriminate H').
    + apply IH. destruct (p_pc p); destruct (c_loop c'); auto; destruct H' as [H'|H']; discriminate H'.
    + unfold pconn_ok in HK. apply andb_true_iff in HK. exact (proj2 HK).
Qed.
Lemma stop_why p tr b a : xreach p tr -> tr = b ++ QStopped :: a -> In QCancelled b /\ forall k, k < connected b -> link_closed k b.
Proof.
  intros HR HT. destruct (xreach_split _ _ _ _ _ HR HT) as (p0 & tr0 & x & p1 & b1 & a1 & a2 & HR0 & HS & -> & -> & HR1).
  pose proof (xreach_inv _ _ HR0) as V. pose proof (xreach_inv _ _ HR1) as V1. pose proof HS as HS0. apply xstep_kind in HS. destruct HS as [_ HS].
  destruct HS as [P E O|P N E O|P N E O|P E O|P E O|P E O|P I E O|P I E O|P E O|E O|E N O|E N O|k e c c' oo pre HN HK0 HS E HP O]; try (exfalso; destruct b1 as [|? b1]; discriminate O); try (exfalso; symmetry in O; apply single in O; destruct O as (-> & _ & O); discriminate O).
  - exfalso. destruct b1 as [|y [|z b1]]; [discriminate O|discriminate O|destruct b1; discriminate O].
  - exfalso. destruct (p_new p0); [|symmetry in O; apply single in O; destruct O as (_ & _ & O); discriminate O]. destruct b1 as [|y [|z b1]]; [discriminate O|discriminate O|destruct b1; discriminate O].
  - assert (P : ppc_after e c' (p_pc p0) = PEnd /\ p_pc p0 = PStop).
    { pose proof O as O'. apply link_part in O'; [|intros; discriminate]. destruct O' as [O'|O'].
      - exfalso. destruct HP as [-> | [-> _]]; [destruct O'|destruct O' as [O'|[]]; discriminate O'].
      - destruct (ppc_after e c' (p_pc p0)), (p_pc p0); try destruct O'; auto. }
    destruct P as [P1 P2]. rewrite P1, P2 in O.
    assert (B : b1 = pre ++ map (QConn k) oo /\ a1 = []).
    { rewrite app_assoc in O. symmetry in O. destruct (split_app _ _ _ _ _ O) as [(a3 & X & _)|(b3 & X & Y)].
      - exfalso. assert (I : In QStopped (pre ++ map (QConn k) oo)) by (rewrite X; apply in_or_app; right; left; reflexivity).
        apply in_app_or in I. destruct I as [I|I]; [|apply in_map_iff in I; destruct I as (? & I & _); discriminate I]. destruct HP as [-> | [-> _]]; [destruct I|destruct I as [I|[]]; discriminate I].
      - apply single in Y. destruct Y as (-> & -> & _). rewrite app_nil_r in X. auto. }
    destruct B as [-> ->]. split.
    + apply in_or_app. left. apply (j_cancel _ _ V). apply (stopping_cancelled _ _ HR0). auto.
    + intros j HJ. assert (E' : connected (tr0 ++ pre ++ map (QConn k) oo) = length (p_conns p1)).
      { rewrite <- (connected_conns _ _ HR1), !connected_app. cbn. lia. }
      rewrite E' in HJ. destruct (nth_error (p_conns p1) j) as [d|] eqn:EJ; [|apply nth_error_None in EJ; lia].
      pose proof (j_link _ _ V1 j) as L. rewrite EJ in L.
      assert (LE : link j (tr0 ++ (pre ++ map (QConn k) oo) ++ [QStopped]) = link j (tr0 ++ pre ++ map (QConn k) oo)) by (rewrite !link_app; cbn; rewrite !app_nil_r; reflexivity).
      rewrite LE in L. apply (done_seen _ _ _ L). destruct (j_loop _ _ V1 _ _ EJ) as [A B].
      assert (PC : p_pc p1 = PEnd) by (rewrite E; cbv zeta; destruct (c_crash c'); psimp; exact P1). rewrite PC in A. cbn in A.
      destruct (Nat.eq_dec (S j) (length (p_conns p1))) as [Y|Y]; [exact (proj2 (A Y))|exact (proj2 (B Y))].
Qed.
Lemma handles_app a b : handles (a ++ b) = handles a ++ handles b. Proof. apply flat_map_app. Qed.
Lemma end_keeps x p tr p' o : xreach p tr -> p_pc p = PEnd -> xstep x p = Some (p', o) -> p_pc p' = PEnd /\ dials o = [] /\ ups o = [] /\ forall k, handles (link k o) = [].
Proof.
  intros HR HP HS. pose proof (xreach_inv _ _ HR) as V. apply xstep_kind in HS. destruct HS as [_ HS].
  destruct HS as [P E O|P N E O|P N E O|P E O|P E O|P E O|P I E O|P I E O|P E O|E O|E N O|E N O|k e c c' oo pre HN HK HS E HX O]; try congruence; subst p' o; psimp.
  - split; [exact HP|]. repeat split; intros; reflexivity.
  - split; [exact HP|]. repeat split; intros; reflexivity.
  - split; [exact HP|]. repeat split; intros; reflexivity.
  - cbv zeta. assert (G : c_loop c = LGone /\ c_done c = true).
    { destruct (j_loop _ _ V _ _ HN) as [A B]. rewrite HP in A. cbn in A. destruct (Nat.eq_dec (S k) (length (p_conns p))) as [Y|Y]; [exact (A Y)|exact (B Y)]. }
    destruct G as [G1 G2]. destruct (old_move (p_pc p) _ _ _ _ HS G1 G2) as (Q & _ & _). rewrite Q, HP. split; [destruct (c_crash c'); reflexivity|]. rewrite app_nil_r. unfold dials. rewrite qpick_app, qpick_conn by reflexivity. rewrite ups_app, ups_conn, !app_nil_r.
    repeat split; try (destruct HX as [-> | [-> _]]; reflexivity). intros j. rewrite link_app, handles_app, link_conn. pose proof (gone_quiet _ _ _ _ HS G1) as GQ.
    destruct (Nat.eqb j k); rewrite ?GQ; destruct HX as [-> | [-> _]]; reflexivity.
Qed.
Lemma after_stop p tr : xreach p tr -> forall b a, tr = b ++ QStopped :: a -> dials a = [] /\ ups a = [] /\ forall k, handles (link k a) = [].
Proof.
  induction 1 as [|p tr x p' o HR IH HS]; intros b a HT; [destruct b; discriminate HT|].
  destruct (split_app _ _ _ _ _ HT) as [(a1 & -> & ->)|(b1 & -> & HO)].
  - destruct (IH _ _ eq_refl) as (A & B & C). assert (PC : p_pc p = PEnd) by (apply (j_stop _ _ (xreach_inv _ _ HR)); apply in_or_app; right; left; reflexivity).
    destruct (end_keeps _ _ _ _ _ HR PC HS) as (_ & D & E & F). unfold dials in *. rewrite qpick_app, A, D, ups_app, B, E. split; [reflexivity|]. split; [reflexivity|]. intros k. rewrite link_app, handles_app, C, F. reflexivity.
  - subst o. pose proof HS as HS0. apply xstep_kind in HS. destruct HS as [_ HS].
    destruct HS as [P E O|P N E O|P N E O|P E O|P E O|P E O|P I E O|P I E O|P E O|E O|E N O|E N O|k e c c' oo pre HN HK HS E HX O]; try (exfalso; destruct b1 as [|? b1]; discriminate O); try (exfalso; symmetry in O; apply single in O; destruct O as (-> & _ & O); discriminate O).
    + exfalso. destruct b1 as [|y [|z b1]]; [discriminate O|discriminate O|destruct b1; discriminate O].
    + exfalso. destruct (p_new p); [|symmetry in O; apply single in O; destruct O as (_ & _ & O); discriminate O]. destruct b1 as [|y [|z b1]]; [discriminate O|discriminate O|destruct b1; discriminate O].
    + assert (a = []) as ->; [|repeat split; reflexivity].
      rewrite app_assoc in O. symmetry in O. destruct (split_app _ _ _ _ _ O) as [(a3 & X & _)|(b3 & X & Y)].
      * exfalso. assert (I : In QStopped (pre ++ map (QConn k) oo)) by (rewrite X; apply in_or_app; right; left; reflexivity).
        apply in_app_or in I. destruct I as [I|I]; [|apply in_map_iff in I; destruct I as (? & I & _); discriminate I]. destruct HX as [-> | [-> _]]; [destruct I|destruct I as [I|[]]; discriminate I].
      * destruct (ppc_after e c' (p_pc p)), (p_pc p); try (exfalso; destruct b3; discriminate Y). apply single in Y. tauto.
Qed.

(** ** Redialling *)
Fixpoint failing (n : nat) : list pevent := match n with O => [] | S m => XDial false :: XStep :: failing m end.
Lemma fail_run n p : p_pc p = PDial -> p_new p = false -> p_crash p = false -> xrun (failing n) p = Some (p, failures n).
Proof.
  intros P N C. induction n as [|n IH]; [reflexivity|]. cbn [failing failures xrun]. unfold xstep at 1. rewrite C, P, N. unfold xstep. cbn [p_crash pset_pc]. rewrite C. unfold pstep. cbn [p_pc pset_pc].
  assert (E : pset_pc PDial (pset_pc PSleep p) = p) by (destruct p; cbn in *; subst; reflexivity). rewrite E, IH. reflexivity.
Qed.
Lemma xrun_app xs ys p p1 o1 : xrun xs p = Some (p1, o1) -> xrun (xs ++ ys) p = match xrun ys p1 with Some (p2, o2) => Some (p2, o1 ++ o2) | None => None end.
Proof.
  revert p o1. induction xs as [|x xs IH]; intros p o1 H; cbn [xrun app] in *.
  - injection H as <- <-. destruct (xrun ys p) as [[? ?]|]; reflexivity.
  - destruct (xstep x p) as [[p2 o2]|]; [|discriminate H]. destruct (xrun xs p2) as [[p3 o3]|] eqn:E; [|discriminate H]. injection H as <- <-. rewrite (IH _ _ E).
    destruct (xrun ys p3) as [[p4 o4]|]; [rewrite app_assoc|]; reflexivity.
Qed.
Lemma put_up p tr : xreach p tr -> p_crash p = false -> p_new p = false -> fresh (p_pc p) = true ->
  exists xs p', length xs <= 3 /\ xrun xs p = Some (p', [QUp (length (ups tr))]).
Proof.
  intros HR C N F. pose proof (xreach_inv _ _ HR) as V. destruct (j_chan _ _ V) as (_ & _ & K). destruct (j_cur _ _ V) as [CU _]. destruct (j_num _ _ V) as [NU _].
  assert (X : existsb (Nat.eqb (p_chan p)) (p_closed p) = false).
  { destruct (existsb (Nat.eqb (p_chan p)) (p_closed p)) eqn:E; [|reflexivity]. apply existsb_exists in E. destruct E as (y & Y1 & Y2). apply Nat.eqb_eq in Y2. subst y.
    apply K in Y1. destruct (p_pc p); discriminate. }
  destruct (p_pc p) eqn:P; try discriminate F; cbn in CU, NU.
  - exists [XStep; XStep; XStep]. eexists. split; [cbn; lia|]. cbn [xrun]. unfold xstep. rewrite C. unfold pstep. rewrite P. psimp. rewrite ?C. psimp. rewrite ?C, ?X, ?N. replace (length (p_conns p) - 1) with (length (ups tr)) by lia. reflexivity.
  - exists [XStep; XStep]. eexists. split; [cbn; lia|]. cbn [xrun]. unfold xstep. rewrite C. unfold pstep. rewrite P. psimp. rewrite ?C, ?X, ?N, CU. reflexivity.
  - exists [XStep]. eexists. split; [cbn; lia|]. cbn [xrun]. unfold xstep. rewrite C. unfold pstep. rewrite P. rewrite ?X, ?N, ?CU. reflexivity.
Qed.
(** From anywhere off line: whatever dial is in progress, n more can fail and the next succeed. *)
Lemma redial p tr n : xreach p tr -> p_crash p = false -> p_new p = false -> up_now tr = false -> fresh (p_pc p) = false ->
  exists xs p', xrun xs p = Some (p', failures n ++ [QDialed true; QUp (length (ups tr))]) /\ length xs <= 2 * n + 5.
Proof.
  intros HR C N U F. pose proof (xreach_inv _ _ HR) as V. rewrite (j_up _ _ V) in U. destruct (j_old _ _ V N) as [_ NF].
  assert (D : exists ys p1, length ys <= 1 /\ xrun ys p = Some (p1, []) /\ p_pc p1 = PDial /\ p_new p1 = false /\ p_crash p1 = false).
  { destruct (p_pc p) eqn:P; try discriminate U; try discriminate F; try congruence.
    - exists [], p. cbn. auto.
    - exists [XStep], (pset_pc PDial p). cbn [xrun length]. unfold xstep. rewrite C. unfold pstep. rewrite P. cbn. auto. }
  destruct D as (ys & p1 & LY & RY & P1 & N1 & C1). pose proof (xreach_run _ _ _ _ _ HR RY) as HR1. rewrite app_nil_r in HR1.
  pose proof (fail_run n p1 P1 N1 C1) as RF. pose proof (xreach_run _ _ _ _ _ HR1 RF) as HR2.
  set (p2 := pset_pc PSetConn (pset_conns (p_conns p1 ++ [conn0]) p1)).
  assert (S2 : xstep (XDial true) p1 = Some (p2, [QDialed true])) by (unfold xstep; rewrite C1, P1; reflexivity).
  pose proof (xreach_S _ _ _ _ _ HR2 S2) as HR3. destruct (put_up p2 _ HR3 C1 N1 eq_refl) as (zs & p3 & LZ & RZ).
  assert (UF : ups (failures n) = []) by (clear; induction n; [reflexivity|exact IHn]).
  rewrite !ups_app, UF in RZ. cbn [ups qpick flat_map] in RZ. rewrite !app_nil_r in RZ.
  exists (ys ++ failing n ++ XDial true :: zs), p3. split.
  - rewrite (xrun_app _ _ _ _ _ RY), (xrun_app _ _ _ _ _ RF). cbn [xrun]. rewrite S2, RZ. reflexivity.
  - rewrite !app_length. cbn [length]. assert (LF : length (failing n) = 2 * n) by (clear; induction n; cbn [failing length]; lia). lia.
Qed.
