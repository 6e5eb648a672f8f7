(** Undisturbed, every schedule of the whole system ends, and it ends in rest. *)
From Coq Require Import Arith Wellfounded Permutation.
From Verif Require Import GoBase Utf8 Json JsonProofs Float64 Lang Types Codec Any Tables Registry Frame SpecFrame SpecEnc FrameRead FrameMore Leaves
  Conn SpecConn ConnBase ConnInv ConnSend ConnEvid ConnMore ConnFate ConnLast ConnTop ConnLive ConnServe CentralSystem SpecCS CSInv CSMore ChargePoint SpecCP CPInv CPMore
  Net SpecNet NetProofs NetMore NetOrder NetLive SpecLive SpecSettle ConnSettle LiveProofs SpecCalm NetCalm System SpecSys SysInv SysMore SysLive SpecSysCalm SysCalm.
From Verif Require CSSettle.
From Verif Require Import NetSettle.
Open Scope string_scope.
Open Scope list_scope.
Opaque marshal_message read_text unmarshal_request call_to_request result_to_response utf8_valid msg_ok is_request action_of.
Opaque step url_path.

(** ** A measure *)
Definition ksum (s : csys) : nat := sumf (fun x => CSSettle.krank (k_pc x) + crank (k_conn x)) (s_ks s) + length (s_goes s) + (if s_crash s then 0 else 1).
Definition prank (p : ppc) : nat := match p with PDial => 20 | PSetConn => 5 | PSetSvc => 4 | PCloseCh => 3 | _ => 2 end.
Definition psum (p : cpoint) : nat := prank (p_pc p) + sumf crank (p_conns p) + (if p_crash p then 0 else 1).
Definition wsum (w : wire) : nat := sumf tweight (w_in w) + sumf tweight (w_out w).
Definition yrank (y : sys) : nat := ksum (y_central y) + sumf (fun pt => psum (pt_cp pt)) (y_points y) + sumf wsum (y_wires y) + 40 * (length (y_points y) - length (y_wires y)).
Definition yleft (y : sys) : nat := sumf (fun x => left_to_write (k_conn x)) (s_ks (y_central y)) + sumf (fun pt => sumf left_to_write (p_conns (pt_cp pt))) (y_points y).
Definition ylighter (y' y : sys) : Prop := yrank y' < yrank y \/ yrank y' = yrank y /\ yleft y' < yleft y.
Lemma ylighter_wf : well_founded ylighter.
Proof.
  intros c. remember (yrank c) as n eqn:EN. revert c EN. induction n as [n IH] using lt_wf_ind. intros c EN.
  remember (yleft c) as m eqn:EM. revert c EN EM. induction m as [m IH2] using lt_wf_ind. intros c EN EM.
  constructor. intros c' [H|[H1 H2]]; [eapply IH; [|reflexivity]; lia|eapply IH2; [|congruence|reflexivity]; lia].
Qed.
Lemma central_less v s s' o : cstep v s = Some (s', o) -> (match v with VStep _ | VShake _ _ | VCall _ => True | _ => False end) -> ksum s' < ksum s.
Proof.
  intros H HV. unfold ksum.
  cstep_inv H v; try destruct HV; ssimp; rewrite ?app_length; sums;
    repeat match goal with HX : s_crash _ = _ |- _ => rewrite HX; clear HX end;
    repeat match goal with HX : k_pc _ = _ |- _ => rewrite HX in *; clear HX end; cbn [CSSettle.krank k_pc k_conn length] in *; try lia.
  all: match goal with HX : nth_error (s_goes _) _ = Some _ |- _ => apply CSSettle.drop_len in HX end; lia.
Qed.
Transparent step.
Lemma zero_write ro e c c' : step ro e c = Some (c', [OBytes ""]) -> finished e c = [].
Proof.
  intros H. destruct e; try reflexivity. cbn [finished]. unfold step in H. destruct (c_crash c); [discriminate H|].
  destruct (writing w c) as [[t rest]|]; [|discriminate H]. destruct (c_wbroken c || c_closed c); [discriminate H|]. injection H as _ H. destruct rest as [|x rest]; [reflexivity|]. destruct n; cbn in H |- *; [reflexivity|discriminate H].
Qed.
Opaque step.
Lemma taken_queue s e a b qi qo q : starts_call e = false -> allowed s e (MkNet a b qi qo) = Some q -> sumf tweight q + taken_in e = sumf tweight (queue_to s (MkNet a b qi qo)).
Proof.
  intros HE H. destruct e; cbn [allowed taken_in] in *; try (injection H as <-; lia); [discriminate HE|]. destruct (queue_to s (MkNet a b qi qo)) as [|t l]; [discriminate H|]. destruct (String.eqb_spec t text) as [->|]; [|discriminate H]. injection H as <-. unfold sumf. cbn [fold_right]. lia.
Qed.
Lemma out_sum e c : sumf tweight (map snd (finished e c)) = out_weight e c.
Proof. rewrite sumf_map. reflexivity. Qed.
(** Who has not asked yet is one more than those who have *)
Lemma unasked_room cfg y tr j pt : yci cfg y tr -> nth_error (y_points y) j = Some pt -> p_pc (pt_cp pt) = PDial -> existsb (dialling j) (y_wires y) = false -> length (y_wires y) < length (y_points y).
Proof.
  intros Z HJ HP HD. pose proof (z_inv _ _ _ Z) as V.
  assert (OWN : forall k w, nth_error (y_wires y) k = Some w -> exists j', whose (w_peer w) = Some j' /\ j' < length (y_points y) /\ j' <> j).
  { intros k w HK. destruct (wire_k _ _ _ _ _ V HK) as [x HX]. pose proof (z_wire _ _ _ Z _ _ _ HK HX) as N. unfold wire_calm in N. destruct (w_peer w) as [|jj|jj i|jj] eqn:EP; [destruct N| | |destruct N].
    - destruct N as (_ & pt0 & N1 & _). exists jj. split; [reflexivity|]. split; [apply nth_error_Some; congruence|]. intros ->.
      assert (Q : existsb (dialling j) (y_wires y) = true) by (apply existsb_exists; exists w; split; [exact (nth_error_In _ _ HK)|unfold dialling; rewrite EP; apply Nat.eqb_refl]). congruence.
    - destruct N as (pt0 & c & N1 & N2 & _). exists jj. split; [reflexivity|]. split; [apply nth_error_Some; congruence|]. intros ->.
      assert (pt0 = pt) by congruence. subst pt0. destruct (z_p _ _ _ Z _ _ HJ) as [_ PC]. rewrite HP in PC. rewrite PC in N2. destruct i; discriminate N2. }
  set (f := fun w => match whose (w_peer w) with Some j' => j' | None => 0 end).
  assert (ND : NoDup (map f (y_wires y))).
  { apply NoDup_nth_error. intros a b HA HB. rewrite map_length in HA. rewrite !nth_error_map in HB. destruct (nth_some _ _ HA) as [w HW]. rewrite HW in HB. cbn in HB. destruct (nth_error (y_wires y) b) as [w'|] eqn:EB; [|discriminate HB]. cbn in HB. injection HB as HB.
    destruct (OWN _ _ HW) as (j1 & O1 & _). destruct (OWN _ _ EB) as (j2 & O2 & _). unfold f in HB. rewrite O1, O2 in HB. subst j2. exact (z_one _ _ _ Z _ _ _ _ _ HW EB O1 O2). }
  assert (ND2 : NoDup (j :: map f (y_wires y))).
  { constructor; [|exact ND]. intros HI. apply in_map_iff in HI. destruct HI as (w & W1 & W2). apply In_nth_error in W2. destruct W2 as [k W2]. destruct (OWN _ _ W2) as (j1 & O1 & _ & O3). unfold f in W1. rewrite O1 in W1. congruence. }
  assert (IN : incl (j :: map f (y_wires y)) (seq 0 (length (y_points y)))).
  { intros a [<-|HI]; apply in_seq; [split; [lia|]; cbn; apply nth_error_Some; congruence|]. apply in_map_iff in HI. destruct HI as (w & W1 & W2). apply In_nth_error in W2. destruct W2 as [k W2]. destruct (OWN _ _ W2) as (j1 & O1 & O2 & _). unfold f in W1. rewrite O1 in W1. lia. }
  pose proof (NoDup_incl_length ND2 IN) as L. cbn [length] in L. rewrite map_length, seq_length in L. lia.
Qed.
Lemma set_point_length j pt p y : length (set_point j pt p y) = length (y_points y). Proof. apply upd_length. Qed.
Lemma crank0 : crank conn0 = 5. Proof. reflexivity. Qed.
Lemma left0 : left_to_write conn0 = 0. Proof. reflexivity. Qed.
Lemma sumf_one (A : Type) (f : A -> nat) x : sumf f [x] = f x. Proof. unfold sumf. cbn [fold_right]. lia. Qed.
Lemma ycalm_lighter cfg y tr y' o : yci cfg y tr -> ycalm_step y y' o -> ylighter y' y.
Proof.
  intros Z (v & HC & HO & H & HB). pose proof (z_inv _ _ _ Z) as V. unfold ylighter, yrank, yleft. destruct v as [v|j|j k|j x]; unfold ystep in H.
  - unfold ycentral in H. destruct (cstep v (y_central y)) as [[s' oo]|] eqn:E; [|discriminate H].
    destruct v as [up meth path|k|k ok|k e|id v url|id|id|f|f|n]; try discriminate HO.
    3:{ destruct (nth_error (y_wires y) k) as [w|] eqn:EW; [|discriminate H]. destruct (nth_error (s_ks (y_central y)) k) as [x|] eqn:EX; [|discriminate H]. destruct (central_allows e w) as [q|] eqn:EQ; [|discriminate H]. injection H as <- <-.
        destruct (cstep_conn _ _ _ _ _ E) as (x0 & c' & oc & X1 & X2 & X3 & X4). assert (x0 = x) by congruence. subst x0. cbn [y_central y_points y_wires]. cbn [ycalm from_outside] in HC, HO.
        assert (AL : wire_allows Central e w = Some q).
        { pose proof (z_wire _ _ _ Z _ _ _ EW EX) as N. unfold wire_calm in N. unfold central_allows in EQ. destruct (w_peer w); [destruct N|exact EQ..]. }
        assert (HB3 : oc <> [OBytes ""]).
        { intros ->. apply (HB (AtCentral (OConn k (OBytes ""))) I). rewrite X4, (zero_write _ _ _ _ X2). reflexivity. }
        destruct (wire_net _ _ _ _ _ _ Z EW EX) as (n & a & N1 & N2). destruct (calm_kinv _ _ N1) as [NR _].
        assert (L : less c' (out_weight e (k_conn x)) (k_conn x) (taken_in e)).
        { rewrite <- N2. apply (calm_less _ _ Central _ _ oc NR HC HO); [|exact HB3]. cbn [role_of conn_of]. rewrite N2. exact X2. }
        pose proof (taken_queue _ _ _ _ _ _ _ HO AL) as TQ. cbn [queue_to n_to_central] in TQ.
        assert (GS : s_goes s' = s_goes (y_central y) /\ s_crash (y_central y) = false).
        { unfold cstep in E. destruct (s_crash (y_central y)); [discriminate E|]. rewrite EX in E. destruct (conn_event_ok (k_pc x) e); [|discriminate E]. rewrite X2 in E. injection E as <- _. destruct (c_crash c'); split; reflexivity. }
        destruct GS as [GS1 GS2]. unfold ksum. rewrite GS1, GS2, X3, upd_length.
        pose proof (sumf_upd (fun x => CSSettle.krank (k_pc x) + crank (k_conn x)) _ _ _ (MkK (k_id x) (k_pc x) c') EX) as S1. pose proof (sumf_upd (fun x => left_to_write (k_conn x)) _ _ _ (MkK (k_id x) (k_pc x) c') EX) as S2.
        pose proof (sumf_upd wsum _ _ _ (MkW (w_peer w) q (w_out w ++ map snd (finished e (k_conn x)))) EW) as S3. cbv beta in S1, S2. cbn [k_pc k_conn] in S1, S2. unfold wsum in S3 at 2 4. cbn [w_in w_out] in S3. rewrite sumf_app, out_sum in S3.
        unfold less in L. destruct (s_crash s'); lia. }
    all: injection H as <- <-; left; pose proof (central_less _ _ _ _ E I) as L; cbn [y_central y_points y_wires]; lia.
  - destruct (nth_error (y_points y) j) as [pt|] eqn:EJ; [|discriminate H]. destruct (p_crash (pt_cp pt)); [discriminate H|]. destruct (p_pc (pt_cp pt)) eqn:EP; try discriminate H. destruct (existsb (dialling j) (y_wires y)) eqn:ED; [discriminate H|].
    destruct (url_path (pt_url pt ++ "/" ++ pt_id pt)) as [path|] eqn:EU; [|discriminate H]. destruct (cstep (VHttp true "GET" path) (y_central y)) as [[s' oo]|] eqn:E; [|discriminate H]. injection H as <- <-.
    pose proof (unasked_room _ _ _ _ _ Z EJ EP ED) as RM. left. cbn [y_central y_points y_wires]. rewrite app_length, sumf_app, !sumf_one. unfold cstep in E. destruct (s_crash (y_central y)) eqn:EC; [discriminate E|]. cbn [dispatch] in E. injection E as <- _.
    unfold ksum. ssimp. rewrite sumf_app, sumf_one, EC. cbn [length k_pc k_conn CSSettle.krank]. rewrite crank0. match goal with |- context [wsum ?w] => change (wsum w) with 0 end. lia.
  - destruct (nth_error (y_points y) j) as [pt|] eqn:EJ; [|discriminate H]. destruct (nth_error (y_wires y) k) as [w|] eqn:EW; [|discriminate H]. destruct (nth_error (s_ks (y_central y)) k) as [x|] eqn:EX; [|discriminate H].
    destruct (dialling j w && shaken (k_pc x)) eqn:ED; [|discriminate H]. destruct (xstep (XDial true) (pt_cp pt)) as [[p' oo]|] eqn:E; [|discriminate H]. injection H as <- <-. left. cbn [y_central y_points y_wires]. rewrite set_point_length, upd_length. unfold set_point.
    pose proof (sumf_upd (fun pt => psum (pt_cp pt)) _ _ _ (MkPt (pt_url pt) (pt_id pt) p') EJ) as S1. pose proof (sumf_upd wsum _ _ _ (MkW (Met j (length (p_conns (pt_cp pt)))) (w_in w) (w_out w)) EW) as S2. cbv beta in S1. cbn [pt_cp] in S1. unfold wsum in S2 at 2 4. cbn [w_in w_out] in S2.
    assert (PS : psum p' < psum (pt_cp pt)).
    { unfold xstep in E. destruct (p_crash (pt_cp pt)) eqn:EC; [discriminate E|]. destruct (p_pc (pt_cp pt)) eqn:EP; try discriminate E. injection E as <- _. unfold psum. psimp. rewrite EP, EC, sumf_app, sumf_one. cbn [prank]. rewrite crank0. lia. }
    lia.
  - destruct (nth_error (y_points y) j) as [pt|] eqn:EJ; [|discriminate H]. destruct x as [ok| |i e|inh id q| | |]; cbn [ycalm from_outside] in HC, HO; try discriminate HC; try discriminate HO.
    + destruct (xstep XStep (pt_cp pt)) as [[p' oo]|] eqn:E; [|discriminate H]. injection H as <- <-. left. cbn [y_central y_points y_wires]. rewrite set_point_length. unfold set_point.
      pose proof (sumf_upd (fun pt => psum (pt_cp pt)) _ _ _ (MkPt (pt_url pt) (pt_id pt) p') EJ) as S1. cbv beta in S1. cbn [pt_cp] in S1.
      assert (PS : psum p' < psum (pt_cp pt)).
      { destruct (z_p _ _ _ Z _ _ EJ) as [_ PC]. unfold xstep in E. destruct (p_crash (pt_cp pt)) eqn:EC; [discriminate E|]. unfold pstep in E. destruct (p_pc (pt_cp pt)) eqn:EP; try discriminate E; try exact (False_ind _ PC); try (injection E as <- _; unfold psum; psimp; rewrite EP, EC; cbn [prank]; lia).
        destruct (existsb (Nat.eqb (p_chan (pt_cp pt))) (p_closed (pt_cp pt))); injection E as <- _; unfold psum; psimp; rewrite EP, EC; cbn [prank]; lia. }
      lia.
    + destruct (ylink_inv _ _ _ _ _ _ _ _ H) as (k & w & c & q & p' & oo & A1 & A2 & A3 & A4 & A5 & -> & ->). cbn [y_central y_points y_wires]. rewrite set_point_length, upd_length. unfold set_point.
      unfold xstep in A5. destruct (p_crash (pt_cp pt)) eqn:EC; [discriminate A5|]. destruct (pconn_inv _ _ _ _ _ A5) as (c1 & c' & oc & Y1 & _ & Y3 & Y4 & Y5). assert (c1 = c) by congruence. subst c1.
      destruct (wire_k _ _ _ _ _ V A1) as [x HX]. pose proof (z_wire _ _ _ Z _ _ _ A1 HX) as N. unfold wire_calm in N. rewrite A2 in N. destruct N as (pt0 & c0 & N1 & N2 & N3). assert (pt0 = pt) by congruence. subst pt0. assert (c0 = c) by congruence. subst c0.
      destruct (calm_kinv _ _ N3) as [NR KI].
      assert (PA : ppc_after e c' (p_pc (pt_cp pt)) = p_pc (pt_cp pt)).
      { destruct (z_p _ _ _ Z _ _ EJ) as [_ PC]. destruct e; try reflexivity; try discriminate HC.
        - cbn [ppc_after]. destruct (p_pc (pt_cp pt)); try reflexivity. destruct PC.
        - exfalso. apply see_close in Y3. destruct (k_up _ _ (KI Point)) as (_ & _ & U & _). cbn [conn_of n_point] in U. congruence. }
      rewrite PA in Y4, Y5.
      assert (HB3 : oc <> [OBytes ""]).
      { intros ->. apply (HB (AtPoint j (QConn i (OBytes ""))) I). rewrite Y5, (zero_write _ _ _ _ Y3). cbn [map app]. destruct (z_p _ _ _ Z _ _ EJ) as [_ PC]. destruct (p_pc (pt_cp pt)); try reflexivity; destruct PC. }
      pose proof (calm_less _ _ Point _ _ oc NR HC HO Y3 HB3) as L. cbn [conn_of n_point] in L. pose proof (taken_queue _ _ _ _ _ _ _ HO A4) as TQ. cbn [queue_to n_to_point] in TQ.
      pose proof (sumf_upd (fun pt => psum (pt_cp pt)) _ _ _ (MkPt (pt_url pt) (pt_id pt) p') EJ) as S1. pose proof (sumf_upd (fun pt => sumf left_to_write (p_conns (pt_cp pt))) _ _ _ (MkPt (pt_url pt) (pt_id pt) p') EJ) as S2.
      pose proof (sumf_upd wsum _ _ _ (MkW (w_peer w) (w_in w ++ map snd (finished e c)) q) A1) as S3. cbv beta in S1, S2. cbn [pt_cp] in S1, S2. unfold wsum in S3 at 2 4. cbn [w_in w_out] in S3. rewrite sumf_app, out_sum in S3.
      pose proof (sumf_upd crank _ _ _ c' A3) as S4. pose proof (sumf_upd left_to_write _ _ _ c' A3) as S5.
      assert (PS : psum p' + crank c <= psum (pt_cp pt) + crank c' /\ sumf left_to_write (p_conns p') + left_to_write c = sumf left_to_write (p_conns (pt_cp pt)) + left_to_write c').
      { rewrite Y4. cbv zeta. unfold psum. destruct (c_crash c'); psimp; rewrite EC; lia. }
      unfold less in L. lia.
Qed.

(** ** Either somebody can go on, or everything rests *)
Lemma either_all {A} (P : Prop) (Q : nat -> A -> Prop) l : (forall k x, nth_error l k = Some x -> P \/ Q k x) -> P \/ forall k x, nth_error l k = Some x -> Q k x.
Proof.
  revert Q. induction l as [|x l IH]; intros Q D; [right; intros [|k] x H; discriminate H|].
  destruct (IH (fun k => Q (S k))) as [H|H]; [intros k y HN; exact (D (S k) y HN)|left; exact H|]. destruct (D 0 x eq_refl) as [D0|D0]; [left; exact D0|right]. intros [|k] y HN; [injection HN as <-; exact D0|exact (H _ _ HN)].
Qed.
Transparent step.
Lemma calm_ordinary ro e c c' o t : kinv c t -> calm e = true -> step ro e c = Some (c', o) -> ordinary e.
Proof.
  intros K HE H. destruct (k_up _ _ K) as (_ & _ & U3 & _ & U5 & _). destruct e; try exact I; try discriminate HE; exfalso; unfold step in H; destruct (c_crash c); try discriminate H.
  - rewrite U3 in H. destruct (c_loop c); discriminate H.
  - rewrite U5 in H. discriminate H.
Qed.
Opaque step.
Lemma still_moves {A} (f : A -> yobs) (g : obs -> A) s oc (l : list (who * string)) k r :
  (forall o, moves_nothing (f (g o)) -> o = OBytes "") -> map (NObs s) oc ++ map (fun wt => NSent r (fst wt) (snd wt)) l <> [NObs s (OBytes "")] -> forall x, moves_nothing x -> map f (map g oc) ++ put k r l <> [x].
Proof.
  intros HF HO x HX E. destruct oc as [|o1 [|o2 oc]]; cbn [map app] in *.
  - destruct l as [|[w t] l]; [discriminate E|]. cbn [put map] in E. injection E as <- _. exact HX.
  - injection E as <- E. apply HF in HX. subst o1. apply HO. destruct l; [reflexivity|discriminate E].
  - discriminate E.
Qed.
Lemma lift_ycalm cfg y tr k j i n s e n' o : yinv cfg y tr -> on_wire_k k j i y n -> nstep s e n = Some (n', o) -> calm e = true -> starts_call e = false -> ordinary e -> o <> [NObs s (OBytes "")] ->
  exists y' yo, ycalm_step y y' yo.
Proof.
  intros V [(x & X1 & X2 & X3) HA (pt & P1 & P2 & P3 & P4 & P5 & P6) HW] HS HC HE HO HB.
  unfold nstep in HS. destruct (allowed s e n) as [q|] eqn:EA; [|discriminate HS]. destruct (step (role_of s) e (conn_of s n)) as [[c' oc]|] eqn:ES; [|discriminate HS]. injection HS as <- <-.
  destruct s; cbn [lifted other conn_of queue_to set_queue set_conn role_of n_central n_point n_to_central n_to_point] in *.
  - eexists _, _, (YCentral (VConn k e)). split; [exact HC|]. split; [exact HE|]. split.
    + unfold ystep, ycentral. unfold cstep. rewrite HA, X1. assert (OK : conn_event_ok (k_pc x) e = true) by (rewrite X2; destruct e; try reflexivity; destruct HO). rewrite OK, X3, ES. rewrite HW.
      unfold central_allows. cbn [w_peer]. unfold wire_allows. cbn [w_in w_out].
      assert (AL : allowed Central e (MkNet conn0 conn0 (n_to_central n) (n_to_point n)) = Some q) by (destruct e; exact EA). rewrite AL. reflexivity.
    + apply (still_moves AtCentral (OConn k) Central); [|exact HB]. intros oo HX. cbn [moves_nothing] in HX. destruct oo; try exact (False_ind _ HX). match goal with |- OBytes ?b = _ => destruct b; [reflexivity|exact (False_ind _ HX)] end.
  - assert (FW : find_wire j i (y_wires y) = Some k).
    { apply find_wire_is; [|eexists; split; [exact HW|reflexivity]]. intros k' w' A B. exact (y_inj _ _ _ V _ _ _ _ _ _ A HW B eq_refl). }
    assert (AL : allowed Point e (MkNet conn0 conn0 (n_to_central n) (n_to_point n)) = Some q) by (destruct e; exact EA).
    assert (PK : pconn_ok i e (pt_cp pt) = true).
    { unfold pconn_ok. rewrite P4, P3, P2, Nat.leb_refl. cbn [negb andb]. destruct e; try reflexivity; [rewrite Nat.eqb_refl; reflexivity|destruct HO]. }
    eexists _, _, (YPoint j (XConn i e)). split; [exact HC|]. split; [exact HE|]. split.
    + unfold ystep. rewrite P1. unfold ylink. rewrite FW, P6, HW. unfold wire_allows. cbn [w_in w_out w_peer]. rewrite AL. unfold xstep. rewrite P5. unfold pconn. rewrite P6, PK, ES. reflexivity.
    + assert (PP : ppc_after e c' (p_pc (pt_cp pt)) = PServe) by (rewrite P2; destruct e; try reflexivity; destruct HO). rewrite PP, app_nil_r.
      apply (still_moves (AtPoint j) (QConn i) Point); [|exact HB]. intros oo HX. cbn [moves_nothing] in HX. destruct oo; try exact (False_ind _ HX). match goal with |- OBytes ?b = _ => destruct b; [reflexivity|exact (False_ind _ HX)] end.
Qed.
Definition yrest (y : sys) (tr : list yobs) : Prop :=
  s_goes (y_central y) = [] /\ (forall k x, nth_error (s_ks (y_central y)) k = Some x -> k_pc x = KServe) /\
  (forall j pt, nth_error (y_points y) j = Some pt -> p_pc (pt_cp pt) = PServe \/ p_pc (pt_cp pt) = PDial /\ url_path (pt_url pt ++ "/" ++ pt_id pt) = None) /\
  (forall k w, nth_error (y_wires y) k = Some w -> exists j i n, on_wire_k k j i y n /\ calm_reach n (wire_trace k (Some (j, i)) tr) /\ forall s, quiet s n).
Lemma ycalm_or_rest cfg y tr : yci cfg y tr -> s_crash (y_central y) = false -> (forall j pt, nth_error (y_points y) j = Some pt -> p_crash (pt_cp pt) = false) ->
  (exists y' o, ycalm_step y y' o) \/ yrest y tr.
Proof.
  intros Z HC HP. pose proof (z_inv _ _ _ Z) as V. pose proof (creach_inv _ _ (y_c _ _ _ V)) as VC. set (s := y_central y) in *.
  assert (GC : forall v s' o, cstep v s = Some (s', o) -> (match v with VStep _ | VShake _ true | VCall _ => True | _ => False end) -> (forall k x, ~ In (OConn k x) o) -> exists y' o, ycalm_step y y' o).
  { intros v s' o H HV HO. eexists _, _, (YCentral v). split; [destruct v as [| |? []| | | | | | |]; try reflexivity; destruct HV|]. split; [destruct v; try reflexivity; destruct HV|].
    split; [unfold ystep, ycentral; fold s; rewrite H; destruct v; try reflexivity; destruct HV|]. intros x HX E. assert (HI : In x (match v with VHttp _ _ _ | VConn _ _ => map AtCentral o | _ => map AtCentral o end)) by (destruct v; try (rewrite E; left; reflexivity); destruct HV).
    assert (HI' : In x (map AtCentral o)) by (destruct v; exact HI). apply in_map_iff in HI'. destruct HI' as (c & <- & HI'). destruct c; cbn in HX; try destruct HX. exact (HO _ _ HI'). }
  assert (GK : forall k x s' o, nth_error (s_ks s) k = Some x -> kstep k x s = Some (s', o) -> (forall k x, ~ In (OConn k x) o) -> exists y' o, ycalm_step y y' o).
  { intros k x s' o HN HS HO. apply (GC (VStep k) s' o); [|exact I|exact HO]. unfold cstep. rewrite HC, HN. exact HS. }
  destruct (s_goes s) as [|[[on f] id] gs] eqn:EG.
  2:{ left. eapply (GC (VCall 0)); [unfold cstep; rewrite HC, EG; reflexivity|exact I|]. intros k x. destruct on; intros [HI|[]]; discriminate HI. }
  destruct (s_mux s) as [k|] eqn:EM.
  { left. apply (i_mux _ _ VC) in EM. destruct EM as (x & HN & HI). specialize (GK k x). unfold kstep in GK. pose proof (z_k _ _ _ Z _ _ HN) as ON. destruct (k_pc x) eqn:P; try discriminate HI; try discriminate ON.
    destruct (do_register k x s) as [s' o] eqn:ER. apply (GK s' o HN eq_refl). unfold do_register in ER. cbv zeta in ER.
    destruct (match lookup (k_id x) (s_chans s) with Some _ => _ | None => _ end) as [[a b] c]. destruct (_ && _); injection ER as <- <-; intros k0 x0 [HX|[]]; discriminate HX. }
  destruct (CSSettle.find_not (fun x => match k_pc x with KServe => true | _ => false end) (s_ks s)) as [(k & x & HN & HX)|ST].
  { left. pose proof (z_k _ _ _ Z _ _ HN) as ON. specialize (GK k x). unfold kstep in GK. destruct (k_pc x) eqn:P; try discriminate HX; try discriminate ON.
    - eapply GK; [exact HN|reflexivity|intros k0 x0 []].
    - eapply (GC (VShake k true)); [unfold cstep; rewrite HC, HN, P; reflexivity|exact I|intros k0 x0 []].
    - rewrite EM in GK. eapply GK; [exact HN|reflexivity|intros k0 x0 []].
    - exfalso. assert (X : s_mux s = Some k) by (apply (i_mux _ _ VC); exists x; rewrite P; auto). congruence.
    - eapply GK; [exact HN|reflexivity|intros k0 x0 [HI|[]]; discriminate HI]. }
  assert (SV : forall k x, nth_error (s_ks s) k = Some x -> k_pc x = KServe) by (intros k x HN; pose proof (ST _ _ HN) as X; cbv beta in X; destruct (k_pc x); try discriminate X; reflexivity). clear ST.
  destruct (either_all (exists y' o, ycalm_step y y' o) (fun j pt => p_pc (pt_cp pt) = PServe \/ p_pc (pt_cp pt) = PDial /\ url_path (pt_url pt ++ "/" ++ pt_id pt) = None) (y_points y)) as [G|PT].
  { intros j pt HJ. pose proof (HP _ _ HJ) as PC. destruct (z_p _ _ _ Z _ _ HJ) as [_ PL].
    assert (GP : forall p' o, pstep (pt_cp pt) = Some (p', o) -> (forall i x, ~ In (QConn i x) o) -> exists y' o, ycalm_step y y' o).
    { intros p' o H HO. eexists _, _, (YPoint j XStep). split; [reflexivity|]. split; [reflexivity|]. split; [unfold ystep; rewrite HJ; unfold xstep; rewrite PC, H; reflexivity|].
      intros x HX E. assert (HI : In x (map (AtPoint j) o)) by (rewrite E; left; reflexivity). apply in_map_iff in HI. destruct HI as (c & <- & HI). destruct c; cbn in HX; try destruct HX. exact (HO _ _ HI). }
    unfold pstep in GP. destruct (p_pc (pt_cp pt)) eqn:EP; try exact (False_ind _ PL); auto.
    - destruct (existsb (dialling j) (y_wires y)) eqn:ED.
      + left. apply existsb_exists in ED. destruct ED as (w & W1 & W2). apply In_nth_error in W1. destruct W1 as [k W1]. destruct (wire_k _ _ _ _ _ V W1) as [x HX].
        eexists _, _, (YMeet j k). split; [reflexivity|]. split; [reflexivity|]. split; [unfold ystep; rewrite HJ, W1, HX, W2, (SV _ _ HX); cbn [shaken andb]; unfold xstep; rewrite PC, EP; reflexivity|]. discriminate.
      + destruct (url_path (pt_url pt ++ "/" ++ pt_id pt)) as [path|] eqn:EU; [left|auto].
        eexists _, _, (YAsk j). split; [reflexivity|]. split; [reflexivity|]. split; [unfold ystep; rewrite HJ, PC, EP, ED, EU; unfold cstep; fold s; rewrite HC; reflexivity|]. discriminate.
    - left. eapply GP; [reflexivity|intros i x []].
    - left. eapply GP; [reflexivity|intros i x []].
    - left. destruct (existsb _ _); (eapply GP; [reflexivity|]); intros i x HI; destruct (p_new (pt_cp pt)); cbn [In] in HI; repeat (destruct HI as [HI|HI]; [discriminate HI|]); exact HI. }
  { left. exact G. }
  destruct (either_all (exists y' o, ycalm_step y y' o) (fun k w => exists j i n, on_wire_k k j i y n /\ calm_reach n (wire_trace k (Some (j, i)) tr) /\ forall s, quiet s n) (y_wires y)) as [G|WT].
  { intros k w HK. destruct (wire_k _ _ _ _ _ V HK) as [x HX]. pose proof (z_wire _ _ _ Z _ _ _ HK HX) as N. unfold wire_calm in N. destruct (w_peer w) as [|jj|jj i|jj] eqn:EP; [destruct N| | |destruct N].
    - left. destruct N as (_ & pt & N1 & N2). eexists _, _, (YMeet jj k). split; [reflexivity|]. split; [reflexivity|].
      split; [unfold ystep; rewrite N1, HK, HX; unfold dialling; rewrite EP, Nat.eqb_refl, (SV _ _ HX); cbn [shaken andb]; unfold xstep; rewrite (HP _ _ N1), N2; reflexivity|]. discriminate.
    - destruct N as (pt & c & N1 & N2 & N3). set (n := MkNet (k_conn x) c (w_in w) (w_out w)) in *. pose proof (xreach_inv _ _ (y_p _ _ _ V _ _ N1)) as J. destruct (z_p _ _ _ Z _ _ N1) as [_ PL].
      assert (PS : p_pc (pt_cp pt) = PServe). { destruct (PT _ _ N1) as [X|[X _]]; [exact X|exfalso]. rewrite X in PL. rewrite PL in N2. destruct i; discriminate N2. }
      rewrite PS in PL. assert (i = 0) as -> by (assert (i < length (p_conns (pt_cp pt))) by (apply nth_error_Some; congruence); lia).
      destruct (j_num _ _ J) as [J1 _]. rewrite PS, PL in J1. cbn [fresh] in J1. destruct (j_cur _ _ J) as [J2 _]. rewrite PS in J2.
      assert (PN : p_new (pt_cp pt) = false). { destruct (p_new (pt_cp pt)) eqn:E; [|reflexivity]. destruct (j_new _ _ J E) as [X _]. rewrite X in J1. discriminate J1. }
      assert (OW : on_wire_k k jj 0 y n).
      { constructor; [exists x; split; [exact HX|]; split; [exact (SV _ _ HX)|reflexivity]|exact HC| |rewrite <- EP; destruct w; exact HK].
        exists pt. split; [exact N1|]. split; [exact PS|]. split; [rewrite J2; lia|]. split; [exact PN|]. split; [exact (HP _ _ N1)|exact N2]. }
      assert (CC : forall s, c_crash (conn_of s n) = false). { intros []; [exact (no_crash_conn _ _ (y_c _ _ _ V) HC _ _ HX)|exact (no_crash_point _ _ (y_p _ _ _ V _ _ N1) (HP _ _ N1) _ _ N2)]. }
      assert (LF : (exists n' o, calm_step n n' o) -> exists y' o, ycalm_step y y' o).
      { intros (n' & o & sd & e & E1 & E2 & E3 & E4). apply (lift_ycalm _ _ _ _ _ _ _ _ _ _ _ V OW E3 E1 E2); [|exact E4]. pose proof (proj2 (calm_kinv _ _ N3) sd) as KI.
        unfold nstep in E3. destruct (allowed sd e n); [|discriminate E3]. destruct (step (role_of sd) e (conn_of sd n)) as [[c' oc]|] eqn:ES; [|discriminate E3]. exact (calm_ordinary _ _ _ _ _ _ KI E1 ES). }
      destruct (calm_or_quiet _ _ Central N3 (CC Central)) as [G|Q1]; [left; exact (LF G)|]. destruct (calm_or_quiet _ _ Point N3 (CC Point)) as [G|Q2]; [left; exact (LF G)|].
      right. exists jj, 0, n. split; [exact OW|]. split; [exact N3|]. intros []; assumption. }
  { left. exact G. }
  right. split; [exact EG|]. split; [exact SV|]. split; [exact PT|exact WT].
Qed.

(** ** No process dies *)
Lemma crash_conn s tr : creach s tr -> s_crash s = true -> exists k x, nth_error (s_ks s) k = Some x /\ c_crash (k_conn x) = true.
Proof.
  intros HR. destruct HR as [|s tr v s' o HR HS]; [discriminate|]. intros HC.
  pose proof (no_panic _ _ _ _ _ (i_maps _ _ (creach_inv _ _ HR)) (i_chans _ _ (creach_inv _ _ HR)) HS) as NP.
  cstep_inv HS v; ssimp_in HC; try congruence; try (exfalso; apply NP; left; reflexivity).
  all: match goal with E : nth_error _ ?k = Some ?x, C : c_crash ?c = true |- _ => exists k; eexists; split; [ssimp; rewrite nth_upd, Nat.eqb_refl, E; reflexivity|exact C] end.
Qed.
Lemma crash_link p tr : xreach p tr -> p_crash p = true -> exists k c, nth_error (p_conns p) k = Some c /\ c_crash c = true.
Proof.
  intros HX. pose proof (j_panic _ _ (xreach_inv _ _ HX)) as NP. destruct HX as [|p tr x p' o HR HS]; [discriminate|]. intros HC.
  destruct (xstep_kind _ _ _ _ HS) as [C0 HK].
  destruct HK as [A1 A2 A3|A1 A2 A3 A4|A1 A2 A3 A4|A1 A2 A3|A1 A2 A3|A1 A2 A3|A1 A2 A3 A4|A1 A2 A3 A4|A1 A2 A3|A1 A2|A1 A2 A3|A1 A2 A3|j e d d' oo pre HJ OK ST E HP HO]; try subst p'; psimp_in HC; try congruence.
  - exfalso. apply NP. subst o. apply in_or_app. right. left. reflexivity.
  - cbv zeta in HC. exists j, d'. destruct (c_crash d') eqn:CD; [|psimp_in HC; congruence]. split; [|reflexivity]. cbv zeta. psimp. rewrite nth_upd, Nat.eqb_refl, HJ. reflexivity.
Qed.
Lemma wire_of_central k a tr o : In (NObs Central o) (wire_trace k a tr) -> In (AtCentral (OConn k o)) tr.
Proof. destruct a as [[j i]|]; intros H; [apply in_wire in H; exact H|apply none_central; exact H]. Qed.
Lemma calm_alive n tr s : calm_reach n tr -> c_crash (conn_of s n) = true -> exists i id q, In (NObs s (OCall i id q)) tr /\ expiry_present (TStruct (m_ty q)) (m_val q) = false.
Proof.
  intros CR HC. destruct (calm_kinv _ _ CR) as [NR _]. pose proof (crash_shown (role_of s) _ _ (n_reach _ _ (nreach_inv _ _ NR) s) HC) as X. apply in_view in X.
  destruct (crash_cause _ _ _ NR X) as [H|(_ & id & H)]; [exact H|destruct (calm_no_panic _ _ _ _ CR H)].
Qed.
Lemma all_alive cfg y tr : yci cfg y tr -> all_present tr -> s_crash (y_central y) = false /\ forall j pt, nth_error (y_points y) j = Some pt -> p_crash (pt_cp pt) = false.
Proof.
  intros Z [H1 H2]. pose proof (z_inv _ _ _ Z) as V. split.
  - destruct (s_crash (y_central y)) eqn:E; [|reflexivity]. exfalso. destruct (crash_conn _ _ (y_c _ _ _ V) E) as (k & x & HX & HC). destruct (k_wire _ _ _ _ _ V HX) as [w HW]. destruct (wire_net _ _ _ _ _ _ Z HW HX) as (n & a & N1 & N2).
    destruct (calm_alive _ _ Central N1) as (i & id & q & C1 & C2); [cbn [conn_of]; rewrite N2; exact HC|]. apply wire_of_central in C1. rewrite (H1 _ _ _ _ C1) in C2. discriminate C2.
  - intros j pt HJ. destruct (p_crash (pt_cp pt)) eqn:E; [|reflexivity]. exfalso. destruct (crash_link _ _ (y_p _ _ _ V _ _ HJ) E) as (i & c & HN & HC).
    destruct (y_all _ _ _ V _ _ i HJ) as (k & w & W1 & W2); [apply nth_error_Some; congruence|]. destruct (wire_k _ _ _ _ _ V W1) as [x HX].
    pose proof (z_wire _ _ _ Z _ _ _ W1 HX) as N. unfold wire_calm in N. rewrite W2 in N. destruct N as (pt' & c' & N1 & N2 & N3). assert (pt' = pt) by congruence. subst pt'. assert (c' = c) by congruence. subst c'.
    destruct (calm_alive _ _ Point N3) as (n & id & q & C1 & C2); [exact HC|]. apply in_wire in C1. rewrite (H2 _ _ _ _ _ C1) in C2. discriminate C2.
Qed.
(** New has returned once the first connection was put in place *)
Lemma new_returned p tr : xreach p tr -> p_new p = false -> In (QNew true) tr.
Proof.
  induction 1 as [|p tr x p' o HR IH HS]; [discriminate|]. intros HN. apply in_or_app.
  destruct (xstep_kind _ _ _ _ HS) as [C0 HK].
  destruct HK as [A1 A2 A3|A1 A2 A3 A4|A1 A2 A3 A4|A1 A2 A3|A1 A2 A3|A1 A2 A3|A1 A2 A3 A4|A1 A2 A3 A4|A1 A2 A3|A1 A2|A1 A2 A3|A1 A2 A3|j e d d' oo pre HJ OK ST E HP HO]; try subst p'; psimp_in HN; try (left; exact (IH HN)).
  - destruct (p_new p); [right|left; exact (IH eq_refl)]. subst o. right. left. reflexivity.
  - left. apply IH. cbv zeta in HN. destruct (c_crash d'); psimp_in HN; exact HN.
Qed.
