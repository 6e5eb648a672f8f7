(** Invariants of the charge point. *)
From Coq Require Import Arith.
From Verif Require Import GoBase Utf8 Json Float64 Codec Any Tables Registry Frame Conn SpecConn ConnBase ConnInv ConnFate ConnTop ChargePoint SpecCP CSInv.
Open Scope string_scope.
Open Scope list_scope.
Opaque marshal_message read_text unmarshal_request call_to_request result_to_response utf8_valid msg_ok is_request action_of.

Lemma qpick_app {A} (f : pobs -> option A) a b : qpick f (a ++ b) = qpick f a ++ qpick f b.
Proof. apply flat_map_app. Qed.
Lemma qpick_in {A} (f : pobs -> option A) tr x : In x (qpick f tr) <-> exists o, In o tr /\ f o = Some x.
Proof.
  unfold qpick. rewrite in_flat_map. split; intros (o & H1 & H2); exists o; split; auto.
  - destruct (f o); [|destruct H2]. destruct H2 as [H2|[]]. congruence.
  - rewrite H2. left. reflexivity.
Qed.
Lemma qpick_conn {A} (f : pobs -> option A) k o : (forall x, f (QConn k x) = None) -> qpick f (map (QConn k) o) = [].
Proof. intros H. induction o as [|x o IH]; cbn; [reflexivity|]. rewrite H. exact IH. Qed.
Lemma link_conn k j o : link k (map (QConn j) o) = if Nat.eqb k j then o else [].
Proof.
  unfold link, qpick. induction o as [|x o IH]; cbn; [destruct (Nat.eqb k j); reflexivity|].
  destruct (Nat.eqb k j); cbn; rewrite IH; reflexivity.
Qed.
Lemma link_app k a b : link k (a ++ b) = link k a ++ link k b. Proof. apply qpick_app. Qed.
Lemma ups_app a b : ups (a ++ b) = ups a ++ ups b. Proof. apply qpick_app. Qed.
Lemma losts_app a b : losts (a ++ b) = losts a ++ losts b. Proof. apply qpick_app. Qed.
Lemma ups_conn k o : ups (map (QConn k) o) = []. Proof. apply qpick_conn. reflexivity. Qed.
Lemma losts_conn k o : losts (map (QConn k) o) = []. Proof. apply qpick_conn. reflexivity. Qed.
Lemma up_now_app a b : up_now (a ++ b) = fold_left (fun u o => match o with QUp _ => true | QLost _ => false | _ => u end) b (up_now a).
Proof. unfold up_now. rewrite fold_left_app. reflexivity. Qed.
Lemma fold_conn k o u : fold_left (fun u o => match o with QUp _ => true | QLost _ => false | _ => u end) (map (QConn k) o) u = u.
Proof. induction o as [|x o IH]; [reflexivity|]. exact IH. Qed.

(** ** How the loop of a charge point's connection moves *)
Lemma loop_moves e c c' o : step CP e c = Some (c', o) ->
  (e = ESeeClose /\ (exists r, c_loop c = LSel r) /\ c_loop c' = LGone /\ c_done c = true /\ c' = set_loop LGone c) \/
  (e = EStop /\ (exists r, c_loop c = LSel r) /\ c_loop c' = LClose /\ o = [OStop]) \/
  (e = ELoop /\ c_loop c = LTop /\ exists r, c_loop c' = LSel r) \/
  (e = ELoop /\ c_loop c = LClose /\ c_loop c' = LCancel) \/
  (e = ELoop /\ c_loop c = LCancel /\ c_loop c' = LGone /\ c_done c' = true) \/
  (e <> ESeeClose /\ e <> EStop /\ c_loop c <> LTop /\ exiting (c_loop c) = false /\ exiting (c_loop c') = false) \/
  (e <> ESeeClose /\ e <> EStop /\ e <> ELoop /\ c_loop c' = c_loop c) \/
  (e = EHPanic /\ c_crash c' = true /\ exists id, c_loop c = LRun id /\ o = [OHPanic id; OCrash]).
Proof.
  intros H. step_inv H e; csimp; first
   [ left; split; [reflexivity|]; split; [eexists; first [reflexivity|eassumption]|]; split; [reflexivity|]; split; [first [reflexivity|assumption]|reflexivity]
   | right; left; split; [reflexivity|]; split; [eexists; first [reflexivity|eassumption]|]; split; reflexivity
   | right; right; left; split; [reflexivity|]; split; [first [reflexivity|assumption]|eexists; reflexivity]
   | right; right; right; left; split; [reflexivity|]; split; [first [reflexivity|assumption]|reflexivity]
   | right; right; right; right; left; split; [reflexivity|]; split; [first [reflexivity|assumption]|split; reflexivity]
   | right; right; right; right; right; right; left; split; [intros X; discriminate X|split; [intros X; discriminate X|split; [intros X; discriminate X|first [reflexivity|congruence]]]]
   | right; right; right; right; right; left; split; [intros X; discriminate X|split; [intros X; discriminate X|]]; try match goal with L : c_loop _ = _ |- _ => rewrite ?L end; split; [intros X; discriminate X|split; reflexivity]
   | right; right; right; right; right; right; right; split; [reflexivity|]; split; [reflexivity|]; eexists; split; [first [reflexivity|eassumption]|reflexivity]
   | idtac ].
Qed.
Lemma done_mono ro e c c' o : step ro e c = Some (c', o) -> c_done c = true -> c_done c' = true.
Proof. exact (done_keeps ro e c c' o). Qed.

(** ** Case analysis of a step *)
Ltac psimp := cbn [p_pc p_new p_conns p_cur p_svc p_chan p_nchan p_closed p_cancel p_crash pset_pc pset_conns pset_crash].
Ltac psimp_in H := cbn [p_pc p_new p_conns p_cur p_svc p_chan p_nchan p_closed p_cancel p_crash pset_pc pset_conns pset_crash] in H.
(** A step is straight-line, or a step of a connection. *)
Inductive pkind (p p' : cpoint) (o : list pobs) : Prop :=
| pk_dial : p_pc p = PDial -> p' = pset_pc PSetConn (pset_conns (p_conns p ++ [conn0]) p) -> o = [QDialed true] -> pkind p p' o
| pk_fail : p_pc p = PDial -> p_new p = true -> p' = pset_pc PFailed p -> o = [QDialed false; QNew false] -> pkind p p' o
| pk_retry : p_pc p = PDial -> p_new p = false -> p' = pset_pc PSleep p -> o = [QDialed false] -> pkind p p' o
| pk_wake : p_pc p = PSleep -> p' = pset_pc PDial p -> o = [] -> pkind p p' o
| pk_conn : p_pc p = PSetConn -> p' = MkP PSetSvc (p_new p) (p_conns p) (length (p_conns p) - 1) (p_svc p) (p_chan p) (p_nchan p) (p_closed p) (p_cancel p) (p_crash p) -> o = [] -> pkind p p' o
| pk_svc : p_pc p = PSetSvc -> p' = MkP PCloseCh (p_new p) (p_conns p) (p_cur p) (p_cur p) (p_chan p) (p_nchan p) (p_closed p) (p_cancel p) (p_crash p) -> o = [] -> pkind p p' o
| pk_panic : p_pc p = PCloseCh -> In (p_chan p) (p_closed p) -> p' = pset_crash p -> o = [QPanic] -> pkind p p' o
| pk_up : p_pc p = PCloseCh -> ~ In (p_chan p) (p_closed p) ->
    p' = MkP PServe false (p_conns p) (p_cur p) (p_svc p) (p_chan p) (p_nchan p) (p_chan p :: p_closed p) (p_cancel p) (p_crash p) ->
    o = QUp (p_cur p) :: (if p_new p then [QNew true] else []) -> pkind p p' o
| pk_make : p_pc p = PMake -> p' = MkP PDial (p_new p) (p_conns p) (p_cur p) (p_svc p) (p_nchan p) (S (p_nchan p)) (p_closed p) (p_cancel p) (p_crash p) -> o = [QLost (p_cur p)] -> pkind p p' o
| pk_cancel : p' = MkP (p_pc p) (p_new p) (p_conns p) (p_cur p) (p_svc p) (p_chan p) (p_nchan p) (p_closed p) true (p_crash p) -> o = [QCancelled] -> pkind p p' o
| pk_waitc : p' = p -> p_new p = false -> o = [QWaitC (p_chan p)] -> pkind p p' o
| pk_waitd : p' = p -> p_new p = false -> o = [QWaitD (p_cur p)] -> pkind p p' o
| pk_link k e c c' oo pre : nth_error (p_conns p) k = Some c -> pconn_ok k e p = true -> step CP e c = Some (c', oo) ->
    p' = (let p1 := pset_pc (ppc_after e c' (p_pc p)) (pset_conns (upd k c' (p_conns p)) p) in if c_crash c' then pset_crash p1 else p1) ->
    (pre = [] \/ pre = [QSend (p_svc p)] /\ k = p_svc p /\ exists i u q, e = ESend i u q) ->
    o = pre ++ map (QConn k) oo ++ (match ppc_after e c' (p_pc p), p_pc p with PEnd, PStop => [QStopped] | _, _ => [] end) -> pkind p p' o.
Lemma pconn_inv k e p p' o : pconn k e p = Some (p', o) -> exists c c' oo, nth_error (p_conns p) k = Some c /\ pconn_ok k e p = true /\ step CP e c = Some (c', oo) /\
  p' = (let p1 := pset_pc (ppc_after e c' (p_pc p)) (pset_conns (upd k c' (p_conns p)) p) in if c_crash c' then pset_crash p1 else p1) /\
  o = map (QConn k) oo ++ (match ppc_after e c' (p_pc p), p_pc p with PEnd, PStop => [QStopped] | _, _ => [] end).
Proof.
  unfold pconn. intros H. destruct (nth_error (p_conns p) k) as [c|]; [|discriminate H]. destruct (pconn_ok k e p); [|discriminate H].
  destruct (step CP e c) as [[c' oo]|] eqn:E; [|discriminate H]. injection H as <- <-. exists c, c', oo. auto.
Qed.
Lemma xstep_kind x p p' o : xstep x p = Some (p', o) -> p_crash p = false /\ pkind p p' o.
Proof.
  unfold xstep. intros H. assert (CR : p_crash p = false) by (destruct (p_crash p); [discriminate H|reflexivity]). rewrite CR in H. split; [exact CR|]. destruct x as [ok| |k e|inh id q| | |].
  - destruct (p_pc p) eqn:P; try discriminate H. destruct ok; [injection H as <- <-; apply pk_dial; auto|]. destruct (p_new p) eqn:N; injection H as <- <-; [apply pk_fail|apply pk_retry]; auto.
  - unfold pstep in H. destruct (p_pc p) eqn:P; try discriminate H.
    + injection H as <- <-; apply pk_wake; auto.
    + injection H as <- <-; apply pk_conn; auto.
    + injection H as <- <-; apply pk_svc; auto.
    + destruct (existsb (Nat.eqb (p_chan p)) (p_closed p)) eqn:X; injection H as <- <-.
      * apply pk_panic; auto. apply existsb_exists in X. destruct X as (y & Y1 & Y2). apply Nat.eqb_eq in Y2. subst y. exact Y1.
      * apply pk_up; auto. intros HI. assert (existsb (Nat.eqb (p_chan p)) (p_closed p) = true) by (apply existsb_exists; exists (p_chan p); split; [exact HI|apply Nat.eqb_refl]). congruence.
    + injection H as <- <-; apply pk_make; auto.
  - destruct (pconn_inv _ _ _ _ _ H) as (c & c' & oo & H1 & H2 & H3 & H4 & H5). eapply (pk_link _ _ _ k e c c' oo []); eauto.
  - destruct (pconn (p_svc p) (ESend inh id q) p) as [[p1 o1]|] eqn:E; [|discriminate H]. injection H as <- <-. destruct (pconn_inv _ _ _ _ _ E) as (c & c' & oo & H1 & H2 & H3 & H4 & H5).
    eapply (pk_link _ _ _ (p_svc p) _ c c' oo [QSend (p_svc p)]); eauto; [right; split; [reflexivity|split; [reflexivity|eauto]]|]. rewrite H5. reflexivity.
  - injection H as <- <-. apply pk_cancel; [rewrite CR|]; reflexivity.
  - destruct (p_new p) eqn:N; [discriminate H|]. injection H as <- <-. apply pk_waitc; auto.
  - destruct (p_new p) eqn:N; [discriminate H|]. injection H as <- <-. apply pk_waitd; auto.
Qed.

(** ** Where the goroutine is *)
Definition down (x : ppc) : bool := match x with PServe | PMake | PStop | PEnd => false | _ => true end.
Definition fresh (x : ppc) : bool := match x with PSetConn | PSetSvc | PCloseCh => true | _ => false end.
(** The loop of the newest connection *)
Definition last_loop (x : ppc) (c : conn) : Prop :=
  match x with
  | PDial | PSleep | PMake | PEnd => c_loop c = LGone /\ c_done c = true
  | PSetConn | PSetSvc | PCloseCh => c_loop c = LTop
  | PServe => exiting (c_loop c) = false \/ c_crash c = true
  | PStop => c_loop c = LClose \/ c_loop c = LCancel
  | PFailed => False
  end.
Record pinv (p : cpoint) (tr : list pobs) : Prop := MkPInv {
  j_ups : ups tr = seq 0 (length (ups tr));
  j_losts : losts tr = seq 0 (length (losts tr));
  j_new : p_new p = true -> ups tr = [] /\ losts tr = [] /\ down (p_pc p) = true;
  j_old : p_new p = false -> ups tr <> [] /\ p_pc p <> PFailed;
  j_num : length (p_conns p) = length (ups tr) + (if fresh (p_pc p) then 1 else 0) /\
          length (ups tr) = length (losts tr) + (if down (p_pc p) then 0 else 1);
  j_cur : p_cur p = (match p_pc p with PSetSvc | PCloseCh => length (ups tr) | _ => length (ups tr) - 1 end) /\
          p_svc p = (match p_pc p with PCloseCh => length (ups tr) | _ => length (ups tr) - 1 end);
  j_loop : forall k c, nth_error (p_conns p) k = Some c ->
           (S k = length (p_conns p) -> last_loop (p_pc p) c) /\ (S k <> length (p_conns p) -> c_loop c = LGone /\ c_done c = true);
  j_chan : p_chan p < p_nchan p /\ (forall ch, In ch (p_closed p) -> ch < p_nchan p) /\ (In (p_chan p) (p_closed p) <-> down (p_pc p) = false);
  j_up : up_now tr = negb (down (p_pc p));
  j_wait : forall b a ch, tr = b ++ QWaitC ch :: a -> ch < p_nchan p /\ (In ch (p_closed p) <-> up_now b = true \/ ups a <> []) /\ (~ In ch (p_closed p) -> ch = p_chan p);
  j_link : forall k, match nth_error (p_conns p) k with Some c => reach CP c (link k tr) | None => link k tr = [] end;
  j_panic : ~ In QPanic tr;
  j_stop : In QStopped tr <-> p_pc p = PEnd;
  j_cancel : p_cancel p = true <-> In QCancelled tr }.

Lemma pinv_0 : pinv cpoint0 [].
Proof.
  constructor; cbn; try reflexivity.
  - auto.
  - intros H; discriminate H.
  - auto.
  - auto.
  - intros [|k] c H; discriminate H.
  - split; [lia|]. split; [intros ch []|]. split; [intros []|intros H; discriminate H].
  - intros [|b bs] a ch H; discriminate H.
  - intros [|k]; reflexivity.
  - intros [].
  - split; intros H; [destruct H|discriminate H].
  - split; intros H; [discriminate H|destruct H].
Qed.
Lemma seq_snoc n : seq 0 n ++ [n] = seq 0 (S n).
Proof. rewrite seq_S. reflexivity. Qed.
(** A step that shows nothing the trace functions look at *)
Lemma quiet_wait p p' tr o : (forall b a ch, tr = b ++ QWaitC ch :: a -> ch < p_nchan p /\ (In ch (p_closed p) <-> up_now b = true \/ ups a <> []) /\ (~ In ch (p_closed p) -> ch = p_chan p)) ->
  p_nchan p' = p_nchan p -> p_closed p' = p_closed p -> p_chan p' = p_chan p -> ups o = [] -> (forall ch, ~ In (QWaitC ch) o) ->
  forall b a ch, tr ++ o = b ++ QWaitC ch :: a -> ch < p_nchan p' /\ (In ch (p_closed p') <-> up_now b = true \/ ups a <> []) /\ (~ In ch (p_closed p') -> ch = p_chan p').
Proof.
  intros W -> -> -> HU HW b a ch HT. destruct (split_app _ _ _ _ _ HT) as [(a1 & HA & ->)|(b1 & -> & HO)].
  - rewrite ups_app, HU, app_nil_r. apply W. exact HA.
  - exfalso. apply (HW ch). rewrite HO. apply in_or_app. right. left. reflexivity.
Qed.
(** How the goroutine moves with a step of a connection *)
Lemma pc_move pc e c c' o : step CP e c = Some (c', o) -> last_loop pc c -> (e = ELoop -> pc = PServe \/ pc = PStop) ->
  last_loop (ppc_after e c' pc) c' /\
  (ppc_after e c' pc = pc \/ pc = PServe /\ ppc_after e c' pc = PMake \/ pc = PServe /\ ppc_after e c' pc = PStop \/ pc = PStop /\ ppc_after e c' pc = PEnd).
Proof.
  intros H L HE. pose proof (done_keeps _ _ _ _ _ H) as DK.
  assert (CR : c_crash c = false) by (unfold step in H; destruct (c_crash c); [discriminate H|reflexivity]).
  assert (L' : last_loop pc c /\ (pc = PServe -> exiting (c_loop c) = false)) by (split; [exact L|intros ->; destruct L as [L|L]; [exact L|congruence]]).
  clear L. destruct L' as [L LS].
  destruct (loop_moves _ _ _ _ H) as [(E & (r & A) & B & D & Q)|[(E & (r & A) & B & _)|[(E & A & r & B)|[(E & A & B)|[(E & A & B & D)|[(E1 & E2 & A & B & D)|[(E1 & E2 & E3 & A)|(E & CR' & id & A & O)]]]]]]].
  - subst e. cbn [ppc_after]. assert (pc = PServe) as -> by (destruct pc; cbn in L; try reflexivity; try (destruct L; congruence); try congruence; try (specialize (LS eq_refl); congruence); destruct L).
    split; [cbn; split; [exact B|apply DK; exact D]|auto].
  - subst e. cbn [ppc_after]. assert (pc = PServe) as -> by (destruct pc; cbn in L; try reflexivity; try (destruct L; congruence); try congruence; try (specialize (LS eq_refl); congruence); destruct L).
    split; [cbn; auto|auto].
  - subst e. destruct (HE eq_refl) as [-> | ->]; cbn in L; [|destruct L; congruence]. cbn [ppc_after]. split; [cbn; left; rewrite B; reflexivity|auto].
  - subst e. destruct (HE eq_refl) as [-> | ->]; cbn in L; [specialize (LS eq_refl); rewrite A in LS; discriminate LS|]. cbn [ppc_after]. rewrite B. split; [cbn; auto|auto].
  - subst e. destruct (HE eq_refl) as [-> | ->]; cbn in L; [specialize (LS eq_refl); rewrite A in LS; discriminate LS|]. cbn [ppc_after]. rewrite B. split; [cbn; auto|auto].
  - assert (pc = PServe) as -> by (destruct pc; cbn in L; try reflexivity; try (rewrite (proj1 L) in B; discriminate B); try (destruct L as [L|L]; rewrite L in B; discriminate B); try congruence; try (specialize (LS eq_refl); congruence); destruct L).
    assert (ppc_after e c' PServe = PServe) as -> by (destruct e; try reflexivity; congruence). split; [left; exact D|auto].
  - assert (ppc_after e c' pc = pc) as -> by (destruct e; try reflexivity; congruence). split; [|auto].
    destruct pc; cbn in *; rewrite ?A; try assumption; try (destruct L as [L1 L2]; auto; fail). left. exact (LS eq_refl).
  - subst e. cbn [ppc_after]. assert (pc = PServe) as -> by (destruct pc; cbn in L; try reflexivity; try (destruct L; congruence); try congruence; destruct L).
    split; [right; exact CR'|auto].
Qed.
Opaque step.
Lemma old_move pc e c c' o : step CP e c = Some (c', o) -> c_loop c = LGone -> c_done c = true ->
  ppc_after e c' pc = pc /\ c_loop c' = LGone /\ c_done c' = true.
Proof.
  intros H L D. pose proof (gone_keeps _ _ _ _ _ H L) as L'. pose proof (done_keeps _ _ _ _ _ H D) as D'. split; [|auto].
  destruct (loop_moves _ _ _ _ H) as [(E & (r & A) & _)|[(E & (r & A) & _)|[(E & A & _)|[(E & A & _)|[(E & A & _)|[(E1 & E2 & A & B & _)|[(E1 & E2 & E3 & _)|(E1 & _ & id & A & _)]]]]]]]; try congruence.
  - rewrite L in B. discriminate B.
  - destruct e; try reflexivity; congruence.
Qed.
Lemma quiet_link p p' tr o : (forall k, match nth_error (p_conns p) k with Some c => reach CP c (link k tr) | None => link k tr = [] end) ->
  p_conns p' = p_conns p -> (forall k, link k o = []) ->
  forall k, match nth_error (p_conns p') k with Some c => reach CP c (link k (tr ++ o)) | None => link k (tr ++ o) = [] end.
Proof. intros V -> O k. rewrite link_app, O, app_nil_r. apply V. Qed.
Ltac notin := let X := fresh in intros ? X; cbn in X; intuition discriminate.
Ltac popen := constructor; psimp; cbn [down fresh negb]; rewrite ?ups_app, ?losts_app, ?app_nil_r, ?app_length, ?up_now_app; cbn [ups losts qpick flat_map app length fold_left]; rewrite ?app_nil_r.
Ltac pwait V12 := eapply quiet_wait; [exact V12|reflexivity..|notin].
Ltac plink V13 := eapply quiet_link; [exact V13|reflexivity|reflexivity].
Ltac pin := rewrite ?in_app_iff; cbn [In].
Lemma pinv_step x p p' o tr : pinv p tr -> xstep x p = Some (p', o) -> pinv p' (tr ++ o).
Proof.
  intros V H. apply xstep_kind in H. destruct H as [_ H].
  destruct V as [V1 V2 V3 V4 [V5 V5'] [V6 V6'] V7 (V8 & V9 & V10) V11 V12 V13 V14 V15 V16].
  destruct H as [P E O|P N E O|P N E O|P E O|P E O|P E O|P I E O|P I E O|P E O|E O|E N O|E N O|k e c c' oo pre HN HK HS E HP O]; subst p' o; rewrite ?P in *;
   cbn [down fresh negb last_loop] in *.
  - (* dial *)
    popen; try assumption.
    + intros X. destruct (V4 X) as [A _]. split; [exact A|discriminate].
    + split; lia.
    + split; assumption.
    + intros k c HN. apply nth_app_inv in HN. destruct HN as [HN|[-> ->]].
      * pose proof (nth_lt _ _ _ HN) as L. destruct (V7 _ _ HN) as [A B]. split; [intros X; lia|intros _]. destruct (Nat.eq_dec (S k) (length (p_conns p))) as [Y|Y]; [exact (A Y)|exact (B Y)].
      * split; [reflexivity|intros X; lia].
    + split; [exact V8|]. split; [exact V9|exact V10].
    + pwait V12.
    + intros k. rewrite link_app. cbn [link qpick flat_map]. rewrite app_nil_r. specialize (V13 k). destruct (nth_error (p_conns p) k) as [c|] eqn:E.
      * rewrite nth_error_app1 by exact (nth_lt _ _ _ E). rewrite E. exact V13.
      * apply nth_error_None in E. destruct (Nat.eq_dec k (length (p_conns p))) as [->|NE].
        -- rewrite nth_error_app2, Nat.sub_diag by lia. cbn. rewrite V13. constructor.
        -- replace (nth_error (p_conns p ++ [conn0]) k) with (@None conn) by (symmetry; apply nth_error_None; rewrite app_length; cbn; lia). exact V13.
    + pin. intuition discriminate.
    + pin. rewrite V15. intuition discriminate.
    + pin. rewrite V16. intuition discriminate.
  - (* fail *)
    destruct (V3 N) as (U1 & U2 & _). assert (p_conns p = []) as C0 by (apply length_zero_iff_nil; rewrite V5, U1; reflexivity).
    popen; try assumption.
    + intros X. congruence.
    + split; lia.
    + split; assumption.
    + intros k c HN. rewrite C0 in HN. destruct k; discriminate HN.
    + split; [exact V8|]. split; [exact V9|exact V10].
    + pwait V12.
    + plink V13.
    + pin. intuition discriminate.
    + pin. rewrite V15. intuition discriminate.
    + pin. rewrite V16. intuition discriminate.
  - (* retry *)
    popen; try assumption.
    + intros X. destruct (V4 X) as [A _]. split; [exact A|discriminate].
    + split; lia.
    + split; assumption.
    + split; [exact V8|]. split; [exact V9|exact V10].
    + pwait V12.
    + plink V13.
    + pin. intuition discriminate.
    + pin. rewrite V15. intuition discriminate.
    + pin. rewrite V16. intuition discriminate.
  - (* wake *)
    popen; try assumption.
    + intros X. destruct (V4 X) as [A _]. split; [exact A|discriminate].
    + split; lia.
    + split; assumption.
    + split; [exact V8|]. split; [exact V9|exact V10].
    + rewrite V15. intuition discriminate.
  - (* cp.conn *)
    popen; try assumption.
    + intros X. destruct (V4 X) as [A _]. split; [exact A|discriminate].
    + split; lia.
    + split; [lia|assumption].
    + split; [exact V8|]. split; [exact V9|exact V10].
    + rewrite V15. intuition discriminate.
  - (* cp.CentralSystem *)
    popen; try assumption.
    + intros X. destruct (V4 X) as [A _]. split; [exact A|discriminate].
    + split; lia.
    + split; lia.
    + split; [exact V8|]. split; [exact V9|exact V10].
    + rewrite V15. intuition discriminate.
  - (* panic *) exfalso. apply V10 in I. discriminate I.
  - (* up *)
    assert (UU : ups (QUp (p_cur p) :: (if p_new p then [QNew true] else [])) = [p_cur p]) by (destruct (p_new p); reflexivity).
    assert (LL : losts (QUp (p_cur p) :: (if p_new p then [QNew true] else [])) = []) by (destruct (p_new p); reflexivity).
    assert (FF : forall u, fold_left (fun u o => match o with QUp _ => true | QLost _ => false | _ => u end) (QUp (p_cur p) :: (if p_new p then [QNew true] else [])) u = true) by (intros u; destruct (p_new p); reflexivity).
    constructor; psimp; cbn [down fresh negb]; rewrite ?ups_app, ?losts_app, ?UU, ?LL, ?app_nil_r, ?app_length, ?up_now_app, ?FF; cbn [length]; try assumption.
    + rewrite V6, V1 at 1. rewrite Nat.add_1_r. apply seq_snoc.
    + intros X; discriminate X.
    + intros _. split; [|discriminate]. intros X. apply (f_equal (@length nat)) in X. rewrite app_length in X. cbn in X. lia.
    + split; lia.
    + split; lia.
    + intros k c HN. destruct (V7 _ _ HN) as [A B]. split; [intros X; cbn [last_loop]; left; rewrite (A X); reflexivity|exact B].
    + split; [exact V8|]. split; [intros ch [<-|X]; [exact V8|exact (V9 _ X)]|]. split; [reflexivity|intros _; left; reflexivity].
    + reflexivity.
    + intros b a ch HT. destruct (split_app _ _ _ _ _ HT) as [(a1 & HA & ->)|(b1 & -> & HO)].
      * destruct (V12 _ _ _ HA) as (A & B & C). split; [exact A|]. rewrite ups_app, UU. split.
        -- split; [intros _; right; intros X; apply app_eq_nil in X; destruct X as [_ X]; discriminate X|]. intros _. cbn [In].
           destruct (in_dec Nat.eq_dec ch (p_closed p)) as [Y|Y]; [right; exact Y|left; symmetry; apply C; exact Y].
        -- intros X. apply C. intros Y. apply X. right. exact Y.
      * exfalso. assert (In (QWaitC ch) (QUp (p_cur p) :: (if p_new p then [QNew true] else []))) as X by (rewrite HO; apply in_or_app; right; left; reflexivity).
        destruct (p_new p); cbn in X; intuition discriminate.
    + eapply quiet_link; [exact V13|reflexivity|]. intros k. destruct (p_new p); reflexivity.
    + pin. destruct (p_new p); cbn; intuition discriminate.
    + pin. rewrite V15. destruct (p_new p); cbn; intuition discriminate.
    + pin. rewrite V16. destruct (p_new p); cbn; intuition discriminate.
  - (* make *)
    assert (N : p_new p = false) by (destruct (p_new p) eqn:N; [destruct (V3 eq_refl) as (_ & _ & X); discriminate X|reflexivity]).
    popen; try assumption.
    + rewrite V6, V2 at 1. rewrite Nat.add_1_r. replace (length (ups tr) - 1) with (length (losts tr)) by lia. apply seq_snoc.
    + intros X; congruence.
    + intros _. split; [apply V4; exact N|discriminate].
    + split; lia.
    + split; assumption.
    + split; [lia|]. split; [intros ch X; specialize (V9 _ X); lia|]. split; [intros X; specialize (V9 _ X); lia|intros X; discriminate X].
    + reflexivity.
    + intros b a ch HT. destruct (split_app _ _ _ _ _ HT) as [(a1 & HA & ->)|(b1 & -> & HO)]; [|exfalso; apply single in HO; destruct HO as (_ & _ & HO); discriminate HO].
      destruct (V12 _ _ _ HA) as (A & B & C). rewrite ups_app. cbn [ups qpick flat_map]. rewrite app_nil_r. split; [lia|]. split; [exact B|]. 
      intros X. exfalso. apply X. rewrite (C X). apply V10. reflexivity.
    + plink V13.
    + pin. intuition discriminate.
    + pin. rewrite V15. intuition discriminate.
    + pin. rewrite V16. intuition discriminate.
  - (* cancel *)
    popen; try assumption; try (split; assumption).
    + split; [exact V8|]. split; [exact V9|exact V10].
    + pwait V12.
    + plink V13.
    + pin. intuition discriminate.
    + pin. rewrite V15. intuition discriminate.
    + pin. intuition.
  - (* WaitConnect *)
    popen; try assumption; try (split; assumption).
    + split; [exact V8|]. split; [exact V9|exact V10].
    + intros b a ch HT. destruct (split_app _ _ _ _ _ HT) as [(a1 & HA & ->)|(b1 & -> & HO)].
      * rewrite ups_app. cbn [ups qpick flat_map]. rewrite app_nil_r. apply V12. exact HA.
      * apply single in HO. destruct HO as (-> & -> & HO). injection HO as ->. rewrite app_nil_r. split; [exact V8|]. split; [|auto].
        rewrite V10, V11. cbn. destruct (down (p_pc p)); cbn; intuition discriminate.
    + plink V13.
    + pin. intuition discriminate.
    + pin. rewrite V15. intuition discriminate.
    + pin. rewrite V16. intuition discriminate.
  - (* WaitDisconnect *)
    popen; try assumption; try (split; assumption).
    + split; [exact V8|]. split; [exact V9|exact V10].
    + pwait V12.
    + plink V13.
    + pin. intuition discriminate.
    + pin. rewrite V15. intuition discriminate.
    + pin. rewrite V16. intuition discriminate.
  - (* a connection *)
    unfold pconn_ok in HK. apply andb_true_iff in HK. destruct HK as [HK1 HK2]. apply andb_true_iff in HK1. destruct HK1 as [HK0 HK1].
    apply negb_true_iff in HK0. apply Nat.leb_le in HK1. rewrite HK0 in *.
    pose proof (nth_lt _ _ _ HN) as LK. destruct (V7 _ _ HN) as [A B]. set (pc' := ppc_after e c' (p_pc p)) in *.
    assert (Q : (pc' = p_pc p \/ p_pc p = PServe /\ pc' = PMake \/ p_pc p = PServe /\ pc' = PStop \/ p_pc p = PStop /\ pc' = PEnd) /\
                (S k = length (p_conns p) -> last_loop pc' c') /\ (S k <> length (p_conns p) -> c_loop c' = LGone /\ c_done c' = true /\ pc' = p_pc p)).
    { destruct (Nat.eq_dec (S k) (length (p_conns p))) as [Y|Y].
      - destruct (pc_move (p_pc p) e c c' oo HS (A Y)) as [Z1 Z2]; [|split; [exact Z2|split; [intros _; exact Z1|intros Z; congruence]]].
        intros ->. apply andb_true_iff in HK2. destruct HK2 as [_ HK2]. destruct (p_pc p); auto; discriminate HK2.
      - destruct (B Y) as [B1 B2]. destruct (old_move (p_pc p) e c c' oo HS B1 B2) as (Z1 & Z2 & Z3). split; [left; exact Z1|]. split; [intros Z; congruence|auto]. }
    destruct Q as (Q & Q1 & Q2).
    set (tl := match pc' with PEnd => match p_pc p with PStop => [QStopped] | _ => [] end | _ => [] end).
    assert (TL : tl = [] /\ (pc' = PEnd <-> p_pc p = PEnd) \/ tl = [QStopped] /\ pc' = PEnd).
    { destruct Q as [Q|[[Q Q']|[[Q Q']|[Q Q']]]]; unfold tl; rewrite ?Q', ?Q; [left; split; [destruct (p_pc p); reflexivity|reflexivity]|left; split; [reflexivity|split; discriminate]|left; split; [reflexivity|split; discriminate]|auto]. }
    assert (U : ups (pre ++ map (QConn k) oo ++ tl) = []) by (rewrite !ups_app, ups_conn; destruct HP as [-> | [-> _]]; destruct TL as [[-> _]|[-> _]]; reflexivity).
    assert (L : losts (pre ++ map (QConn k) oo ++ tl) = []) by (rewrite !losts_app, losts_conn; destruct HP as [-> | [-> _]]; destruct TL as [[-> _]|[-> _]]; reflexivity).
    assert (F : forall u, fold_left (fun u o => match o with QUp _ => true | QLost _ => false | _ => u end) (pre ++ map (QConn k) oo ++ tl) u = u).
    { intros u. rewrite !fold_left_app, fold_conn. destruct HP as [-> | [-> _]]; destruct TL as [[-> _]|[-> _]]; reflexivity. }
    assert (I : forall y, In y (pre ++ map (QConn k) oo ++ tl) -> (exists x, y = QConn k x) \/ y = QSend (p_svc p) \/ y = QStopped /\ pc' = PEnd).
    { intros y Y. apply in_app_or in Y. destruct Y as [Y|Y]; [destruct HP as [-> | [-> _]]; [destruct Y|destruct Y as [<-|[]]; auto]|].
      apply in_app_or in Y. destruct Y as [Y|Y]; [apply in_map_iff in Y; destruct Y as (x0 & <- & _); left; eauto|].
      destruct TL as [[-> _]|[-> TL]]; [destruct Y|destruct Y as [<-|[]]; auto]. }
    assert (KL : forall j, link j (pre ++ map (QConn k) oo ++ tl) = if Nat.eqb j k then oo else []).
    { intros j. rewrite !link_app, link_conn. destruct HP as [-> | [-> _]]; destruct TL as [[-> _]|[-> _]]; cbn; rewrite app_nil_r; reflexivity. }
    assert (DF : down pc' = down (p_pc p) /\ fresh pc' = fresh (p_pc p)) by (destruct Q as [->|[[-> ->]|[[-> ->]|[-> ->]]]]; auto). destruct DF as [DF1 DF2].
    assert (CU : p_cur p = (match pc' with PSetSvc | PCloseCh => length (ups tr) | _ => length (ups tr) - 1 end) /\ p_svc p = (match pc' with PCloseCh => length (ups tr) | _ => length (ups tr) - 1 end)) by (destruct Q as [->|[[Z ->]|[[Z ->]|[Z ->]]]]; rewrite ?Z in *; auto).
    set (p2 := pset_pc pc' (pset_conns (upd k c' (p_conns p)) p)).
    cbv zeta. fold p2.
    assert (G : pinv p2 (tr ++ pre ++ map (QConn k) oo ++ tl)).
    { constructor; unfold p2; psimp; rewrite ?(ups_app tr), ?(losts_app tr), ?U, ?L, ?app_nil_r, ?(up_now_app tr), ?F, ?DF1, ?DF2, ?upd_length; try assumption; try (split; assumption).
      - intros X; congruence.
      - intros X. destruct (V4 eq_refl) as [Z1 Z2]. split; [exact Z1|]. destruct Q as [->|[[_ ->]|[[_ ->]|[_ ->]]]]; [exact Z2|discriminate..].
      - intros j d HJ. apply nth_upd_inv in HJ. destruct HJ as [[-> ->]|[NE HJ]].
        + split; [exact Q1|]. intros X. destruct (Q2 X) as (Z1 & Z2 & _). auto.
        + destruct (V7 _ _ HJ) as [Z1 Z2]. split; [|exact Z2]. intros X.
          assert (S k <> length (p_conns p)) as Y by lia. destruct (Q2 Y) as (_ & _ & ->). exact (Z1 X).
      - split; [exact V8|]. split; [exact V9|exact V10].
      - eapply quiet_wait; [exact V12|reflexivity..|exact U|]. intros ch X. destruct (I _ X) as [(x0 & Y)|[Y|[Y _]]]; discriminate Y.
      - intros j. rewrite link_app, KL, nth_upd. specialize (V13 j). destruct (Nat.eqb_spec j k) as [Y|Y].
        + subst j. rewrite Nat.eqb_refl. rewrite HN in *. eapply reach_S; [exact V13|exact HS].
        + replace (Nat.eqb k j) with false by (symmetry; apply Nat.eqb_neq; congruence). rewrite app_nil_r. exact V13.
      - rewrite in_app_iff. intros [X|X]; [exact (V14 X)|]. destruct (I _ X) as [(x0 & Y)|[Y|[Y _]]]; discriminate Y.
      - rewrite in_app_iff, V15. destruct TL as [[T1 T2]|[T1 T2]].
        + rewrite T2. split; [intros [X|X]; [exact X|]|auto]. destruct (I _ X) as [(x0 & Y)|[Y|[_ Y]]]; [discriminate Y|discriminate Y|apply T2; exact Y].
        + split; [intros _; exact T2|intros _; right]. rewrite T1. rewrite !in_app_iff. right. right. left. reflexivity.
      - rewrite V16, in_app_iff. split; [auto|]. intros [X|X]; [exact X|]. destruct (I _ X) as [(x0 & Y)|[Y|[Y _]]]; discriminate Y. }
    destruct (c_crash c'); [|exact G]. destruct G; constructor; assumption.
Qed.
Lemma xreach_inv p tr : xreach p tr -> pinv p tr.
Proof. induction 1 as [|p tr x p' o HR IH HS]; [exact pinv_0|]. eapply pinv_step; eassumption. Qed.
