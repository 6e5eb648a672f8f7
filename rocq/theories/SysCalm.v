(** Undisturbed, the whole system comes to rest, whatever the schedule. *)
From Coq Require Import Arith Wellfounded Permutation.
From Verif Require Import GoBase Utf8 Json JsonProofs Float64 Lang Types Codec Any Tables Registry Frame SpecFrame SpecEnc FrameRead FrameMore Leaves
  Conn SpecConn ConnBase ConnInv ConnSend ConnEvid ConnMore ConnFate ConnLast ConnTop ConnLive ConnServe CentralSystem SpecCS CSInv CSMore ChargePoint SpecCP CPInv CPMore
  Net SpecNet NetProofs NetMore NetOrder NetLive SpecLive SpecSettle ConnSettle LiveProofs SpecCalm NetCalm System SpecSys SysInv SysMore SysLive SpecSysCalm.
From Verif Require CSSettle.
From Verif Require Import NetSettle.
Open Scope string_scope.
Open Scope list_scope.
Opaque marshal_message read_text unmarshal_request call_to_request result_to_response utf8_valid msg_ok is_request action_of.
Opaque step url_path.

(** ** The invariant *)
Definition onward (p : kpc) : bool := match p with KLog | KShake | KLock1 | KReg | KListen | KServe => true | _ => false end.
Definition wire_calm (y : sys) (tr : list yobs) (k : nat) (w : wire) (x : csconn) : Prop :=
  match w_peer w with
  | Dialling j => calm_reach (MkNet (k_conn x) conn0 [] (w_out w)) (wire_trace k None tr) /\ exists pt, nth_error (y_points y) j = Some pt /\ p_pc (pt_cp pt) = PDial
  | Met j i => exists pt c, nth_error (y_points y) j = Some pt /\ nth_error (p_conns (pt_cp pt)) i = Some c /\ calm_reach (MkNet (k_conn x) c (w_in w) (w_out w)) (wire_trace k (Some (j, i)) tr)
  | _ => False
  end.
Definition point_calm (p : cpoint) : Prop :=
  p_cancel p = false /\ match p_pc p with PDial => p_conns p = [] | PSetConn | PSetSvc | PCloseCh | PServe => length (p_conns p) = 1 | _ => False end.
Record yci (cfg : list (string * string)) (y : sys) (tr : list yobs) : Prop := MkYci {
  z_inv : yinv cfg y tr;
  z_wire : forall k w x, nth_error (y_wires y) k = Some w -> nth_error (s_ks (y_central y)) k = Some x -> wire_calm y tr k w x;
  z_k : forall k x, nth_error (s_ks (y_central y)) k = Some x -> onward (k_pc x) = true;
  z_p : forall j pt, nth_error (y_points y) j = Some pt -> point_calm (pt_cp pt);
  z_one : forall k k' w w' j, nth_error (y_wires y) k = Some w -> nth_error (y_wires y) k' = Some w' -> whose (w_peer w) = Some j -> whose (w_peer w') = Some j -> k = k' }.

Lemma yci_0 cfg : yci cfg (sys0 cfg) [].
Proof.
  constructor; [apply yinv_0|..]; cbn [sys0 y_central y_points y_wires csys0 s_ks].
  - intros [|k] w x H; discriminate H.
  - intros [|k] x H; discriminate H.
  - intros j pt H. rewrite nth_error_map in H. destruct (nth_error cfg j); [|discriminate H]. injection H as <-. split; reflexivity.
  - intros [|k] k' w w' j H; discriminate H.
Qed.
(** Each wire, with its two ends, is an undisturbed network *)
Lemma wire_net cfg y tr k w x : yci cfg y tr -> nth_error (y_wires y) k = Some w -> nth_error (s_ks (y_central y)) k = Some x ->
  exists n a, calm_reach n (wire_trace k a tr) /\ n_central n = k_conn x.
Proof.
  intros Z HW HX. pose proof (z_wire _ _ _ Z _ _ _ HW HX) as N. unfold wire_calm in N. destruct (w_peer w) as [|j|j i|j]; [destruct N| | |destruct N].
  - eexists _, _. split; [exact (proj1 N)|reflexivity].
  - destruct N as (pt & c & _ & _ & N). eexists _, _. split; [exact N|reflexivity].
Qed.
Lemma k_wire cfg y tr k x : yinv cfg y tr -> nth_error (s_ks (y_central y)) k = Some x -> exists w, nth_error (y_wires y) k = Some w.
Proof. intros V HX. apply nth_some. rewrite (y_len _ _ _ V). apply nth_error_Some. congruence. Qed.
Lemma wire_k cfg y tr k w : yinv cfg y tr -> nth_error (y_wires y) k = Some w -> exists x, nth_error (s_ks (y_central y)) k = Some x.
Proof. intros V HX. apply nth_some. rewrite <- (y_len _ _ _ V). apply nth_error_Some. congruence. Qed.
Lemma central_up cfg y tr k x : yci cfg y tr -> nth_error (s_ks (y_central y)) k = Some x -> exists t, kinv (k_conn x) t.
Proof.
  intros Z HX. destruct (k_wire _ _ _ _ _ (z_inv _ _ _ Z) HX) as [w HW]. destruct (wire_net _ _ _ _ _ _ Z HW HX) as (n & a & N1 & N2). rewrite <- N2. eexists. exact (proj2 (calm_kinv _ _ N1) Central).
Qed.
Lemma point_up cfg y tr j pt i c : yci cfg y tr -> nth_error (y_points y) j = Some pt -> nth_error (p_conns (pt_cp pt)) i = Some c -> exists t, kinv c t.
Proof.
  intros Z HJ HC. pose proof (z_inv _ _ _ Z) as V. destruct (y_all _ _ _ V _ _ i HJ) as (k & w & W1 & W2); [apply nth_error_Some; congruence|]. destruct (wire_k _ _ _ _ _ V W1) as [x HX].
  pose proof (z_wire _ _ _ Z _ _ _ W1 HX) as N. unfold wire_calm in N. rewrite W2 in N. destruct N as (pt' & c' & N1 & N2 & N3). assert (pt' = pt) by congruence. subst pt'. assert (c' = c) by congruence. subst c'.
  eexists. exact (proj2 (calm_kinv _ _ N3) Point).
Qed.

(** ** Steps keep it *)
Lemma cstep_onward v s s' o : cstep v s = Some (s', o) -> (match v with VShake _ ok => ok = true | VHttp up meth _ => dispatch up meth <> BWebsocket | VConn _ _ => False | _ => True end) ->
  (forall k x, nth_error (s_ks s) k = Some x -> onward (k_pc x) = true /\ c_loop (k_conn x) <> LGone) -> forall k x, nth_error (s_ks s') k = Some x -> onward (k_pc x) = true.
Proof.
  intros H HV HK k9 x9 H9. revert H9. cstep_inv H v; ssimp; intros H9; try exact (proj1 (HK _ _ H9)); try destruct HV; try reflexivity; try congruence.
  all: try discriminate HV.
  all: apply nth_upd_inv in H9; destruct H9 as [[-> ->]|[_ H9]]; [|exact (proj1 (HK _ _ H9))]; cbn [k_pc onward]; try reflexivity.
  all: match goal with HX : nth_error (s_ks ?s0) _ = Some ?x, HY : k_pc ?x = _ |- _ => destruct (HK _ _ HX) as [KA KB]; rewrite HY in KA; try discriminate KA; try contradiction end.
Qed.
Lemma calm_central cfg y tr v s' o : yci cfg y tr -> cstep v (y_central y) = Some (s', o) -> (forall k e, v <> VConn k e) ->
  (match v with VHttp up meth _ => dispatch up meth <> BWebsocket | VShake _ ok => ok = true | _ => True end) -> yci cfg (MkY s' (y_points y) (y_wires y)) (tr ++ map AtCentral o).
Proof.
  intros Z H HV HW. pose proof (z_inv _ _ _ Z) as V. destruct (cstep_conns _ _ _ _ H HV) as [CT CK].
  assert (K : length (s_ks s') = length (s_ks (y_central y)) /\ forall k x, nth_error (s_ks (y_central y)) k = Some x -> exists x', nth_error (s_ks s') k = Some x' /\ k_id x' = k_id x /\ k_conn x' = k_conn x).
  { destruct v; try exact CK. destruct (dispatch upgrade meth); [congruence|rewrite CK; eauto..]. }
  clear CK. destruct K as [K1 K2].
  constructor; cbn [y_central y_points y_wires].
  - eapply keep_central; [exact V|exact H|exact HV|]. destruct v; auto.
  - intros k w x' HK HX. assert (LX : k < length (s_ks (y_central y))) by (rewrite <- K1; apply nth_error_Some; congruence).
    destruct (nth_some _ _ LX) as [x HX0]. destruct (K2 _ _ HX0) as (x1 & X1 & X2 & X3). assert (x1 = x') by congruence. subst x1.
    pose proof (z_wire _ _ _ Z _ _ _ HK HX0) as N. unfold wire_calm in *. rewrite X3. destruct (w_peer w); try exact N; rewrite wire_app, wire_central, CT, app_nil_r; exact N.
  - eapply cstep_onward; [exact H| |].
    + destruct v; auto. exact (HV _ _ eq_refl).
    + intros k x HX. split; [exact (z_k _ _ _ Z _ _ HX)|]. destruct (central_up _ _ _ _ _ Z HX) as [t KI]. destruct (k_up _ _ KI) as (_ & _ & _ & _ & _ & U). intros L. rewrite L in U. discriminate U.
  - exact (z_p _ _ _ Z).
  - exact (z_one _ _ _ Z).
Qed.
Lemma calm_new cfg y tr path s' o j pt : yci cfg y tr -> cstep (VHttp true "GET" path) (y_central y) = Some (s', o) -> nth_error (y_points y) j = Some pt -> p_pc (pt_cp pt) = PDial -> existsb (dialling j) (y_wires y) = false ->
  known_as cfg j (trim_slash path) -> yci cfg (MkY s' (y_points y) (y_wires y ++ [MkW (Dialling j) [] []])) (tr ++ map AtCentral o ++ [Asked (length (y_wires y)) j]).
Proof.
  intros Z H HJ HP HD HN. pose proof (z_inv _ _ _ Z) as V. destruct (cstep_conns _ _ _ _ H (fun k e => ltac:(discriminate))) as [CT CK]. cbn [dispatch] in CK.
  assert (A3 : forall k q, wire_trace k q [Asked (length (y_wires y)) j] = []) by reflexivity.
  assert (NEW : forall k w, nth_error (y_wires y) k = Some w -> whose (w_peer w) <> Some j).
  { intros k w HK HO. destruct (wire_k _ _ _ _ _ V HK) as [x HX]. pose proof (z_wire _ _ _ Z _ _ _ HK HX) as N. unfold wire_calm in N. destruct (w_peer w) as [|jj|jj i|jj] eqn:EP; try destruct N; injection HO as ->.
    - assert (Q : existsb (dialling j) (y_wires y) = true) by (apply existsb_exists; exists w; split; [exact (nth_error_In _ _ HK)|unfold dialling; rewrite EP; apply Nat.eqb_refl]). congruence.
    - destruct H0 as (c & N1 & N2 & _). assert (x0 = pt) by congruence. subst x0. destruct (z_p _ _ _ Z _ _ HJ) as [_ PC]. rewrite HP in PC. rewrite PC in N2. destruct i; discriminate N2. }
  constructor; cbn [y_central y_points y_wires].
  - exact (keep_new _ _ _ _ _ _ (Dialling j) V H (or_intror (ex_intro _ j (conj eq_refl HN)))).
  - intros k w x HK HX. rewrite CK in HX. rewrite nth_app1 in HK. rewrite nth_app1 in HX. rewrite <- (y_len _ _ _ V) in HX. destruct (Nat.eqb_spec k (length (y_wires y))) as [->|NE].
    + injection HK as <-. injection HX as <-. unfold wire_calm. cbn [w_peer w_in w_out k_id k_conn y_points]. split; [|eauto].
      rewrite !wire_app, wire_central, CT, A3, !app_nil_r. rewrite (wire_none _ _ _ _ None V); [exact calm_0|apply nth_error_None; lia|exact I].
    + pose proof (z_wire _ _ _ Z _ _ _ HK HX) as N. unfold wire_calm in *. cbn [y_points]. destruct (w_peer w); try exact N; rewrite !wire_app, !wire_central, CT, !A3, !app_nil_r; exact N.
  - intros k x HX. rewrite CK, nth_app1 in HX. destruct (Nat.eqb k (length (s_ks (y_central y)))); [injection HX as <-; reflexivity|exact (z_k _ _ _ Z _ _ HX)].
  - exact (z_p _ _ _ Z).
  - intros k k' w w' jj H1 H2 H3 H4. rewrite nth_app1 in H1. rewrite nth_app1 in H2.
    destruct (Nat.eqb_spec k (length (y_wires y))) as [->|], (Nat.eqb_spec k' (length (y_wires y))) as [->|]; try reflexivity.
    + injection H1 as <-. injection H3 as <-. destruct (NEW _ _ H2 H4).
    + injection H2 as <-. injection H4 as <-. destruct (NEW _ _ H1 H3).
    + exact (z_one _ _ _ Z _ _ _ _ _ H1 H2 H3 H4).
Qed.
Lemma calm_conn cfg y tr k e s' o w x q : yci cfg y tr -> calm e = true -> cstep (VConn k e) (y_central y) = Some (s', o) ->
  nth_error (y_wires y) k = Some w -> nth_error (s_ks (y_central y)) k = Some x -> central_allows e w = Some q ->
  yci cfg (MkY s' (y_points y) (upd k (MkW (w_peer w) q (w_out w ++ map snd (finished e (k_conn x)))) (y_wires y))) (tr ++ map AtCentral o ++ put k Central (finished e (k_conn x))).
Proof.
  intros Z HE H HW HX HQ. pose proof (z_inv _ _ _ Z) as V. destruct (cstep_conn _ _ _ _ _ H) as (x0 & c' & oc & X1 & X2 & X3 & X4). assert (x0 = x) by congruence. subst x0. set (out := finished e (k_conn x)).
  assert (CT : forall k' p, wire_trace k' p (map AtCentral o ++ put k Central out) = if Nat.eqb k' k then map (NObs Central) oc ++ map (fun wt => NSent Central (fst wt) (snd wt)) out else []).
  { intros k' p. rewrite wire_app, wire_central, wire_put, X4, conn_trace_conn. destruct (Nat.eqb k' k); reflexivity. }
  constructor; cbn [y_central y_points y_wires].
  - exact (keep_conn _ _ _ _ _ _ _ _ _ _ V H HW HX HQ).
  - intros k' w' x' HK HX'. rewrite X3 in HX'. apply nth_upd_inv in HX'. apply nth_upd_inv in HK. destruct HK as [[-> ->]|[NE HK]].
    + destruct HX' as [[_ ->]|[NE _]]; [|congruence]. pose proof (z_wire _ _ _ Z _ _ _ HW HX) as N. unfold wire_calm, central_allows in *. cbn [w_peer w_in w_out k_id k_conn y_points].
      pose proof (y_net _ _ _ V _ _ _ HW HX) as J. unfold joined in J. destruct (w_peer w) as [|j|j i|j] eqn:EP; [destruct N| | |destruct N].
      * destruct N as (N1 & N2). split; [|exact N2]. destruct J as (_ & J & _). unfold wire_allows in HQ. rewrite J in HQ.
        assert (q = []) as -> by (exact (allowed_nil Central _ _ _ _ _ eq_refl HQ)).
        rewrite wire_app, CT, Nat.eqb_refl. eapply calm_S; [exact N1|exact HE|]. apply (nstep_central _ _ _ _ _ _ _ _ HQ X2).
      * destruct N as (pt & c & N1 & N2 & N3). exists pt, c. split; [exact N1|]. split; [exact N2|].
        rewrite wire_app, CT, Nat.eqb_refl. eapply calm_S; [exact N3|exact HE|]. apply (nstep_central _ _ _ _ _ _ _ _ HQ X2).
    + destruct HX' as [[-> _]|[_ HX']]; [congruence|]. pose proof (z_wire _ _ _ Z _ _ _ HK HX') as N. unfold wire_calm in *. cbn [y_points].
      destruct (w_peer w') as [|j|j i|j]; try exact N; rewrite wire_app, CT, (neqb _ _ NE), app_nil_r; exact N.
  - intros k' x' HX'. rewrite X3 in HX'. apply nth_upd_inv in HX'. destruct HX' as [[-> ->]|[_ HX']]; [exact (z_k _ _ _ Z _ _ HX)|exact (z_k _ _ _ Z _ _ HX')].
  - exact (z_p _ _ _ Z).
  - assert (PEER : forall k' w', nth_error (upd k (MkW (w_peer w) q (w_out w ++ map snd out)) (y_wires y)) k' = Some w' -> exists w0, nth_error (y_wires y) k' = Some w0 /\ w_peer w0 = w_peer w').
    { intros k' w' HK. apply nth_upd_inv in HK. destruct HK as [[-> ->]|[_ HK]]; eauto. }
    intros k1 k2 w1 w2 j H1 H2 H3 H4. destruct (PEER _ _ H1) as (w3 & W1 & W2). destruct (PEER _ _ H2) as (w4 & W3 & W4). eapply (z_one _ _ _ Z); [exact W1|exact W3|rewrite W2; exact H3|rewrite W4; exact H4].
Qed.
Lemma calm_point cfg y tr j pt x p' o : yci cfg y tr -> nth_error (y_points y) j = Some pt -> xstep x (pt_cp pt) = Some (p', o) ->
  (match x with XStep | XWaitC | XWaitD => True | _ => False end) -> yci cfg (MkY (y_central y) (set_point j pt p' y) (y_wires y)) (tr ++ map (AtPoint j) o).
Proof.
  intros Z HJ HS HX. pose proof (z_inv _ _ _ Z) as V. pose proof (xstep_conns _ _ _ _ HS) as C. assert (C' : p_conns p' = p_conns (pt_cp pt) /\ forall i, link i o = []) by (destruct x as [[]| | | | | |]; try exact C; destruct HX).
  destruct C' as [HC HL]. clear C.
  assert (WT : forall k p, wire_trace k p (map (AtPoint j) o) = []).
  { intros k p. rewrite wire_point. destruct p as [[j' i]|]; [|reflexivity]. destruct (Nat.eqb j' j); [rewrite HL|]; reflexivity. }
  pose proof (z_p _ _ _ Z _ _ HJ) as PC.
  assert (PC' : point_calm p' /\ (p_pc (pt_cp pt) = PDial -> p_pc p' = PDial)).
  { unfold point_calm in *. rewrite HC. destruct PC as [PC1 PC2]. unfold xstep in HS. destruct (p_crash (pt_cp pt)); [discriminate HS|]. destruct x; try destruct HX.
    - unfold pstep in HS. destruct (p_pc (pt_cp pt)) eqn:EP; try discriminate HS; try exact (False_ind _ PC2); try (injection HS as <- _; split; [split; [exact PC1|assumption]|discriminate]).
      destruct (existsb _ _); injection HS as <- _; psimp; (split; [split; [exact PC1|]|discriminate]); [rewrite EP|]; assumption.
    - destruct (p_new (pt_cp pt)); [discriminate HS|]. injection HS as <- _. auto.
    - destruct (p_new (pt_cp pt)); [discriminate HS|]. injection HS as <- _. auto. }
  constructor; cbn [y_central y_points y_wires].
  - pose proof (keep_point _ _ _ _ _ _ _ _ (fun w => w) V HJ HS HC HL (fun w => or_introl eq_refl)) as K. rewrite (map_same _ (fun w => w)) in K by reflexivity. exact K.
  - intros k w x0 HK HX0. pose proof (z_wire _ _ _ Z _ _ _ HK HX0) as N. unfold wire_calm in *. cbn [y_points]. destruct (w_peer w) as [|jj|jj i|jj]; try exact N; rewrite wire_app, WT, app_nil_r.
    + destruct N as (N1 & pt0 & N2 & N3). split; [exact N1|]. destruct (set_point_get _ _ _ p' _ _ HJ N2) as (pt1 & G1 & G2 & G3). exists pt1. split; [exact G1|].
      destruct (Nat.eq_dec jj j) as [->|NE]; [rewrite (G2 eq_refl); apply (proj2 PC'); congruence|rewrite (G3 NE); exact N3].
    + destruct N as (pt0 & c & N2 & N3 & N4). destruct (set_point_get _ _ _ p' _ _ HJ N2) as (pt1 & G1 & G2 & G3). exists pt1, c. split; [exact G1|]. split; [|exact N4]. destruct (Nat.eq_dec jj j) as [->|NE]; [rewrite (G2 eq_refl), HC|rewrite (G3 NE)]; congruence.
  - exact (z_k _ _ _ Z).
  - intros j' pt' H. destruct (point_upd _ _ _ _ _ _ HJ H) as [[-> ->]|[NE H']]; [exact (proj1 PC')|exact (z_p _ _ _ Z _ _ H')].
  - exact (z_one _ _ _ Z).
Qed.
Lemma calm_meet cfg y tr j k pt w x p' o : yci cfg y tr -> nth_error (y_points y) j = Some pt -> nth_error (y_wires y) k = Some w -> nth_error (s_ks (y_central y)) k = Some x ->
  w_peer w = Dialling j -> xstep (XDial true) (pt_cp pt) = Some (p', o) ->
  yci cfg (MkY (y_central y) (set_point j pt p' y) (upd k (MkW (Met j (length (p_conns (pt_cp pt)))) (w_in w) (w_out w)) (y_wires y))) (tr ++ map (AtPoint j) o ++ [Connected k j (length (p_conns (pt_cp pt)))]).
Proof.
  intros Z HJ HW HX HD HS. pose proof (z_inv _ _ _ Z) as V. destruct (xstep_dial _ _ _ HS) as (D1 & D2 & D3). set (n := length (p_conns (pt_cp pt))).
  assert (WT : forall k' p, wire_trace k' p (map (AtPoint j) o ++ [Connected k j n]) = []).
  { intros k' p. rewrite wire_app, wire_point, D3. destruct p as [[j' i]|]; [|reflexivity]. destruct (Nat.eqb j' j); reflexivity. }
  pose proof (z_p _ _ _ Z _ _ HJ) as [PC1 PC2]. rewrite D1 in PC2.
  assert (OTHER : forall k' w', k' <> k -> nth_error (y_wires y) k' = Some w' -> whose (w_peer w') <> Some j).
  { intros k' w' NE HK HO. apply NE. eapply (z_one _ _ _ Z); [exact HK|exact HW|exact HO|rewrite HD; reflexivity]. }
  constructor; cbn [y_central y_points y_wires].
  - exact (keep_meet _ _ _ _ _ _ _ _ _ _ V HJ HW HX HD HS).
  - intros k' w0 x0 HK HX0. apply nth_upd_inv in HK. destruct HK as [[-> ->]|[NE HK]].
    + assert (x0 = x) by congruence. subst x0. pose proof (z_wire _ _ _ Z _ _ _ HW HX) as N. unfold wire_calm in *. rewrite HD in N. cbn [w_peer w_in w_out y_points]. destruct N as (N1 & _).
      pose proof (y_net _ _ _ V _ _ _ HW HX) as J. unfold joined in J. rewrite HD in J. destruct J as (_ & J & _).
      destruct (set_point_get _ _ _ p' _ _ HJ HJ) as (pt1 & G1 & G2 & G3). exists pt1, conn0. split; [exact G1|]. rewrite (G2 eq_refl), D2. split; [apply nth_app1_eq|]. rewrite wire_app, WT, app_nil_r, J.
      rewrite (wire_later _ _ _ _ _ _ n V HJ (le_n _)). exact N1.
    + pose proof (z_wire _ _ _ Z _ _ _ HK HX0) as N. pose proof (OTHER _ _ NE HK) as OT. unfold wire_calm in *. cbn [y_points]. destruct (w_peer w0) as [|jj|jj i|jj]; try exact N; rewrite wire_app, WT, app_nil_r; cbn [whose] in OT.
      * destruct N as (N1 & pt0 & N2 & N3). split; [exact N1|]. destruct (set_point_get _ _ _ p' _ _ HJ N2) as (pt1 & G1 & G2 & G3). exists pt1. split; [exact G1|]. rewrite G3 by congruence. exact N3.
      * destruct N as (pt0 & c & N2 & N3 & N4). destruct (set_point_get _ _ _ p' _ _ HJ N2) as (pt1 & G1 & G2 & G3). exists pt1, c. split; [exact G1|]. rewrite G3 by congruence. auto.
  - exact (z_k _ _ _ Z).
  - intros j' pt' H. destruct (point_upd _ _ _ _ _ _ HJ H) as [[-> ->]|[NE H']]; [|exact (z_p _ _ _ Z _ _ H')]. cbn [pt_cp]. unfold point_calm. rewrite D2, PC2. unfold xstep in HS. destruct (p_crash (pt_cp pt)); [discriminate HS|]. rewrite D1 in HS. injection HS as <- _. split; [exact PC1|reflexivity].
  - assert (PEER : forall k' w', nth_error (upd k (MkW (Met j n) (w_in w) (w_out w)) (y_wires y)) k' = Some w' -> exists w0, nth_error (y_wires y) k' = Some w0 /\ whose (w_peer w0) = whose (w_peer w')).
    { intros k' w' HK. apply nth_upd_inv in HK. destruct HK as [[-> ->]|[_ HK]]; [exists w; rewrite HD; auto|eauto]. }
    intros k1 k2 w1 w2 jj H1 H2 H3 H4. destruct (PEER _ _ H1) as (w3 & W1 & W2). destruct (PEER _ _ H2) as (w4 & W3 & W4). eapply (z_one _ _ _ Z); [exact W1|exact W3|rewrite W2; exact H3|rewrite W4; exact H4].
Qed.
Transparent step.
Lemma see_close c c' o : step CP ESeeClose c = Some (c', o) -> c_done c = true.
Proof. unfold step. destruct (c_crash c); [discriminate|]. destruct (c_loop c); try discriminate. destruct (c_done c); [reflexivity|discriminate]. Qed.
Opaque step.
Lemma calm_link cfg y tr j k pt w x i e c p' o q : yci cfg y tr -> calm e = true -> nth_error (y_points y) j = Some pt -> nth_error (y_wires y) k = Some w -> w_peer w = Met j i ->
  nth_error (p_conns (pt_cp pt)) i = Some c -> wire_allows Point e w = Some q -> xstep x (pt_cp pt) = Some (p', o) ->
  (x = XConn i e \/ i = p_svc (pt_cp pt) /\ exists inh id m, x = XSend inh id m /\ e = ESend inh id m) ->
  yci cfg (MkY (y_central y) (set_point j pt p' y) (upd k (MkW (w_peer w) (w_in w ++ map snd (finished e c)) q) (y_wires y))) (tr ++ map (AtPoint j) o ++ put k Point (finished e c)).
Proof.
  intros Z HE HJ HW HP HC HQ HS HX. pose proof (z_inv _ _ _ Z) as V. destruct (xstep_link _ _ _ _ _ _ HS HX) as (c0 & c' & oc & X1 & X2 & X3 & X4). assert (c0 = c) by congruence. subst c0. set (out := finished e c).
  set (wires := upd k (MkW (w_peer w) (w_in w ++ map snd out) q) (y_wires y)).
  assert (PEER : forall k' w', nth_error wires k' = Some w' -> exists w0, nth_error (y_wires y) k' = Some w0 /\ w_peer w0 = w_peer w').
  { intros k' w' HK. apply nth_upd_inv in HK. destruct HK as [[-> ->]|[_ HK]]; eauto. }
  assert (WT : forall k' p, k' <> k -> p <> Some (j, i) -> wire_trace k' p (map (AtPoint j) o ++ put k Point out) = []).
  { intros k' p NK NP. rewrite wire_app, wire_point, wire_put, (neqb _ _ NK), app_nil_r. destruct p as [[j' i']|]; [|reflexivity]. destruct (Nat.eqb_spec j' j) as [->|]; [|reflexivity]. rewrite X4. destruct (Nat.eqb_spec i' i) as [->|]; [congruence|reflexivity]. }
  assert (WT1 : wire_trace k (Some (j, i)) (map (AtPoint j) o ++ put k Point out) = map (NObs Point) oc ++ map (fun wt => NSent Point (fst wt) (snd wt)) out).
  { rewrite wire_app, wire_point, wire_put, !Nat.eqb_refl, X4, Nat.eqb_refl. reflexivity. }
  pose proof (z_p _ _ _ Z _ _ HJ) as [PC1 PC2].
  assert (NP : p_pc (pt_cp pt) <> PDial) by (intros EP; rewrite EP in PC2; rewrite PC2 in HC; destruct i; discriminate HC).
  assert (PP : p_pc p' = p_pc (pt_cp pt) /\ p_cancel p' = p_cancel (pt_cp pt)).
  { assert (X : exists oo, pconn i e (pt_cp pt) = Some (p', oo)).
    { unfold xstep in HS. destruct (p_crash (pt_cp pt)); [discriminate HS|]. destruct HX as [->|(-> & inh & id & m & -> & ->)]; [eauto|]. destruct (pconn _ _ _) as [[p1 o1]|]; [|discriminate HS]. injection HS as <- _. eauto. }
    destruct X as [oo X]. destruct (pconn_inv _ _ _ _ _ X) as (c1 & c2 & o2 & Y1 & _ & Y3 & Y4 & _). assert (c1 = c) by congruence. subst c1.
    assert (PA : ppc_after e c2 (p_pc (pt_cp pt)) = p_pc (pt_cp pt)).
    { destruct e; try reflexivity; try discriminate HE.
      - cbn [ppc_after]. destruct (p_pc (pt_cp pt)); try reflexivity. destruct PC2.
      - exfalso. apply see_close in Y3. destruct (point_up _ _ _ _ _ _ _ Z HJ HC) as [t KI]. destruct (k_up _ _ KI) as (_ & _ & U & _). congruence. }
    rewrite PA in Y4. rewrite Y4. cbv zeta. destruct (c_crash c2); psimp; auto. }
  destruct PP as [PP PQ].
  constructor; cbn [y_central y_points y_wires].
  - exact (keep_link _ _ _ _ _ _ _ _ _ _ _ _ _ _ V HJ HW HP HC HQ HS HX).
  - intros k' w0 x0 HK HX0. apply nth_upd_inv in HK. destruct HK as [[-> ->]|[NE HK]].
    + pose proof (z_wire _ _ _ Z _ _ _ HW HX0) as N. unfold wire_calm in *. rewrite HP in *. cbn [w_peer w_in w_out y_points]. destruct N as (pt0 & c0 & N2 & N3 & N4).
      assert (pt0 = pt) by congruence. subst pt0. assert (c0 = c) by congruence. subst c0. destruct (set_point_get _ _ _ p' _ _ HJ HJ) as (pt1 & G1 & G2 & G3). exists pt1, c'. split; [exact G1|]. rewrite (G2 eq_refl), X3.
      split; [rewrite nth_upd, Nat.eqb_refl, HC; reflexivity|]. rewrite wire_app, WT1. eapply calm_S; [exact N4|exact HE|]. apply (nstep_point _ _ _ _ _ _ _ _ HQ X2).
    + pose proof (z_wire _ _ _ Z _ _ _ HK HX0) as N.
      assert (OT : whose (w_peer w0) <> Some j) by (intros HO; apply NE; eapply (z_one _ _ _ Z); [exact HK|exact HW|exact HO|rewrite HP; reflexivity]).
      unfold wire_calm in *. cbn [y_points]. destruct (w_peer w0) as [|jj|jj ii|jj]; try exact N; cbn [whose] in OT; rewrite wire_app, WT, app_nil_r by (exact NE || congruence).
      * destruct N as (N1 & pt0 & N2 & N3). split; [exact N1|]. destruct (set_point_get _ _ _ p' _ _ HJ N2) as (pt1 & G1 & G2 & G3). exists pt1. split; [exact G1|]. rewrite G3 by congruence. exact N3.
      * destruct N as (pt0 & c0 & N2 & N3 & N4). destruct (set_point_get _ _ _ p' _ _ HJ N2) as (pt1 & G1 & G2 & G3). exists pt1, c0. split; [exact G1|]. rewrite G3 by congruence. auto.
  - exact (z_k _ _ _ Z).
  - intros j' pt' H. destruct (point_upd _ _ _ _ _ _ HJ H) as [[-> ->]|[NE H']]; [|exact (z_p _ _ _ Z _ _ H')]. cbn [pt_cp]. unfold point_calm. rewrite PP, PQ, X3, upd_length. split; [exact PC1|]. destruct (p_pc (pt_cp pt)); try exact PC2. congruence.
  - intros k1 k2 w1 w2 jj H1 H2 H3 H4. destruct (PEER _ _ H1) as (w3 & W1 & W2). destruct (PEER _ _ H2) as (w4 & W3 & W4). eapply (z_one _ _ _ Z); [exact W1|exact W3|rewrite W2; exact H3|rewrite W4; exact H4].
Qed.
Lemma yci_step cfg v y y' o tr : yci cfg y tr -> ycalm v = true -> ystep v y = Some (y', o) -> yci cfg y' (tr ++ o).
Proof.
  intros Z HC H. pose proof (z_inv _ _ _ Z) as V. destruct v as [v|j|j k|j x]; unfold ystep in H.
  - unfold ycentral in H. destruct (cstep v (y_central y)) as [[s' oo]|] eqn:E; [|discriminate H].
    destruct v as [up meth path|k|k ok|k e|id v url|id|id|f|f|n]; cbn [ycalm] in HC.
    1:{ injection H as <- <-. destruct (dispatch up meth) eqn:ED; [discriminate HC|..]; (eapply calm_central; [exact Z|exact E|discriminate|cbn beta iota; rewrite ED; discriminate]). }
    3:{ destruct (nth_error (y_wires y) k) as [w|] eqn:EW; [|discriminate H]. destruct (nth_error (s_ks (y_central y)) k) as [x|] eqn:EX; [|discriminate H]. destruct (central_allows e w) as [q|] eqn:EQ; [|discriminate H]. injection H as <- <-.
        exact (calm_conn _ _ _ _ _ _ _ _ _ _ Z HC E EW EX EQ). }
    all: injection H as <- <-; eapply calm_central; [exact Z|exact E|discriminate|first [exact I|exact HC]].
  - destruct (nth_error (y_points y) j) as [pt|] eqn:EJ; [|discriminate H]. destruct (p_crash (pt_cp pt)); [discriminate H|]. destruct (p_pc (pt_cp pt)) eqn:EP; try discriminate H. destruct (existsb (dialling j) (y_wires y)) eqn:ED; [discriminate H|].
    destruct (url_path (pt_url pt ++ "/" ++ pt_id pt)) as [path|] eqn:EU; [|discriminate H]. destruct (cstep (VHttp true "GET" path) (y_central y)) as [[s' oo]|] eqn:E; [|discriminate H]. injection H as <- <-.
    exact (calm_new _ _ _ _ _ _ _ _ Z E EJ EP ED (known_get _ _ _ _ _ _ V EJ EU)).
  - destruct (nth_error (y_points y) j) as [pt|] eqn:EJ; [|discriminate H]. destruct (nth_error (y_wires y) k) as [w|] eqn:EW; [|discriminate H]. destruct (nth_error (s_ks (y_central y)) k) as [x|] eqn:EX; [|discriminate H].
    destruct (dialling j w && shaken (k_pc x)) eqn:ED; [|discriminate H]. destruct (xstep (XDial true) (pt_cp pt)) as [[p' oo]|] eqn:E; [|discriminate H]. injection H as <- <-.
    apply andb_prop in ED. destruct ED as [ED _]. unfold dialling in ED. destruct (w_peer w) as [|jj|jj ii|jj] eqn:EP; try discriminate ED. apply Nat.eqb_eq in ED. subst jj.
    exact (calm_meet _ _ _ _ _ _ _ _ _ _ Z EJ EW EX EP E).
  - destruct (nth_error (y_points y) j) as [pt|] eqn:EJ; [|discriminate H]. destruct x as [ok| |i e|inh id q| | |]; cbn [ycalm] in HC; try discriminate HC.
    + destruct (xstep XStep (pt_cp pt)) as [[p' oo]|] eqn:E; [|discriminate H]. injection H as <- <-. exact (calm_point _ _ _ _ _ _ _ _ Z EJ E I).
    + destruct (ylink_inv _ _ _ _ _ _ _ _ H) as (k & w & c & q & p' & oo & A1 & A2 & A3 & A4 & A5 & -> & ->). refine (calm_link _ _ _ _ _ _ _ _ _ _ _ _ _ _ Z HC EJ A1 A2 A3 A4 A5 (or_introl eq_refl)).
    + destruct (ylink_inv _ _ _ _ _ _ _ _ H) as (k & w & c & q' & p' & oo & A1 & A2 & A3 & A4 & A5 & -> & ->). refine (calm_link _ _ _ _ _ _ _ _ _ (ESend inh id q) _ _ _ _ Z HC EJ A1 A2 A3 A4 A5 (or_intror (conj eq_refl _))). eauto.
    + destruct (xstep XWaitC (pt_cp pt)) as [[p' oo]|] eqn:E; [|discriminate H]. injection H as <- <-. exact (calm_point _ _ _ _ _ _ _ _ Z EJ E I).
    + destruct (xstep XWaitD (pt_cp pt)) as [[p' oo]|] eqn:E; [|discriminate H]. injection H as <- <-. exact (calm_point _ _ _ _ _ _ _ _ Z EJ E I).
Qed.
Theorem ycalm_inv cfg y tr : ycalm_reach cfg y tr -> yci cfg y tr.
Proof. induction 1 as [|y tr v y' o HR IH HC HS]; [apply yci_0|exact (yci_step _ _ _ _ _ _ IH HC HS)]. Qed.
Lemma ycalm_yreach cfg y tr : ycalm_reach cfg y tr -> yreach cfg y tr.
Proof. induction 1 as [|y tr v y' o HR IH HC HS]; [constructor|econstructor; eassumption]. Qed.
