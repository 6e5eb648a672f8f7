(** Every schedule of the charge point's own steps ends, and it ends in rest. *)
From Coq Require Import Arith Wellfounded.
From Verif Require Import GoBase Utf8 Json Float64 Lang Types Codec Any Tables Registry Frame Conn SpecConn ConnBase ConnInv ConnSend ConnEvid ConnMore ConnFate ConnLast ConnTop ConnServe
  CentralSystem ChargePoint SpecCP CSInv CPInv CPMore SpecLive SpecSettle ConnLive ConnSettle LiveProofs CSSettle.
Open Scope string_scope.
Open Scope list_scope.
Opaque marshal_message read_text unmarshal_request call_to_request result_to_response utf8_valid msg_ok is_request action_of.

Definition prank (x : ppc) : nat := match x with PSetConn => 5 | PSetSvc => 4 | PCloseCh => 3 | PServe => 2 | PMake | PSleep => 1 | PDial | PStop | PEnd | PFailed => 0 end.
Definition xrank (p : cpoint) : nat := sumf rank (p_conns p) + prank (p_pc p) + (if p_crash p then 0 else 1).
Definition xleft (p : cpoint) : nat := sumf left_to_write (p_conns p).
Definition xbelow (p' p : cpoint) : Prop := xrank p' < xrank p \/ xrank p' = xrank p /\ xleft p' < xleft p.
Lemma stop_below ro c c' o : step ro EStop c = Some (c', o) -> rank c' < rank c.
Proof. intros H. unfold rank. unfold step in H. destruct (c_crash c) eqn:CC; [discriminate H|]. destruct ro; [discriminate H|]. destruct (c_loop c) eqn:L; try discriminate H. injection H as <- <-. csimp. rewrite ?CC, ?L. cbn [lrank]. lia. Qed.
Lemma see_below c c' o : step CP ESeeClose c = Some (c', o) -> rank c' + 2 < rank c.
Proof. intros H. unfold rank. unfold step in H. destruct (c_crash c) eqn:CC; [discriminate H|]. destruct (c_loop c) eqn:L; try discriminate H. destruct (c_done c); [|discriminate H]. injection H as <- <-. csimp. rewrite ?CC, ?L. cbn [lrank]. lia. Qed.
Lemma own_less ro e c c' o : own e = true -> step ro e c = Some (c', o) -> (forall w n, e <> EChunk w n) -> rank c' < rank c.
Proof.
  intros HO H HB. unfold rank.
  step_inv H e; try discriminate HO; try (destruct (HB _ _ eq_refl)); csimp; rewrite ?sumf_app; sums; repeat match goal with HX : c_crash _ = _ |- _ => rewrite HX; clear HX end;
    repeat match goal with HX : sd_pc _ = _ |- _ => rewrite HX in *; clear HX end; repeat match goal with HX : c_loop _ = _ |- _ => rewrite HX in *; clear HX end;
    repeat match goal with HX : c_closers _ = _ |- _ => rewrite HX in *; clear HX end;
    cbn [srank rrank lrank sleft rleft lleft sumf fold_right] in *; lia.
Qed.
Lemma stop_sel c r : c_crash c = false -> c_loop c = LSel r -> step CP EStop c = Some (set_loop LClose c, [OStop]).
Proof. intros H1 H2. unfold step. rewrite H1, H2. reflexivity. Qed.
Opaque step.
Lemma cp_own_below x p p' o : cp_own x = true -> xstep x p = Some (p', o) -> (forall k, o <> [QConn k (OBytes "")]) -> xbelow p' p.
Proof.
  intros HO H HB. unfold xstep in H. destruct (p_crash p) eqn:CR; [discriminate H|]. unfold xbelow, xrank, xleft. rewrite CR. destruct x as [ok| |k e|inh id q| | |]; try discriminate HO.
  - left. unfold pstep in H. destruct (p_pc p) eqn:P; try discriminate H; [..|destruct (existsb _ _)|]; injection H as <- <-; psimp; rewrite ?P, ?CR; cbn [prank]; lia.
  - destruct (pconn_inv _ _ _ _ _ H) as (c & c' & oo & H1 & H2 & H3 & -> & ->). cbv zeta.
    assert (S1 := sumf_upd rank _ _ _ c' H1). assert (S2 := sumf_upd left_to_write _ _ _ c' H1).
    assert (G : rank c' + prank (ppc_after e c' (p_pc p)) < rank c + prank (p_pc p) \/ rank c' = rank c /\ ppc_after e c' (p_pc p) = p_pc p /\ left_to_write c' < left_to_write c).
    { destruct (own e) eqn:OE; [|destruct e; try discriminate HO; try discriminate OE; apply stop_below in H3; cbn [ppc_after prank]; left; lia].
      destruct e; try discriminate OE; cbn [ppc_after] in *.
      all: try (match type of H3 with step _ (EChunk _ _) _ = _ => fail 1 | _ => idtac end; pose proof (own_less _ _ _ _ _ OE H3 ltac:(intros; discriminate)); left; lia).
      - assert (B : below c' c) by (eapply own_below; [exact OE|exact H3|intros ->; apply (HB k); destruct (p_pc p); reflexivity]). destruct B as [B|[B1 B2]]; [left; lia|right; auto].
      - pose proof (own_less _ _ _ _ _ OE H3 ltac:(intros; discriminate)). left. destruct (p_pc p), (c_loop c'); cbn [prank]; lia.
      - apply see_below in H3. left. cbn [prank]. lia. }
    destruct G as [G|(G1 & G2 & G3)]; [left; destruct (c_crash c'); psimp; rewrite ?CR; lia|]. destruct (c_crash c'); psimp; rewrite ?CR, ?G2; [left; lia|right; lia].
Qed.
Lemma xbelow_wf : well_founded xbelow.
Proof.
  intros c. remember (xrank c) as n eqn:EN. revert c EN. induction n as [n IH] using lt_wf_ind. intros c EN.
  remember (xleft c) as m eqn:EM. revert c EN EM. induction m as [m IH2] using lt_wf_ind. intros c EN EM.
  constructor. intros c' [H|[H1 H2]]; [eapply IH; [|reflexivity]; lia|eapply IH2; [|congruence|reflexivity]; lia].
Qed.
(** No own step can be taken. *)
Definition xrest (p : cpoint) : Prop :=
  (forall k c, nth_error (p_conns p) k = Some c -> rest c /\ c_closers c = 0) /\
  match p_pc p with
  | PDial | PFailed | PEnd => True
  | PServe => p_cancel p = false /\ forall c, nth_error (p_conns p) (p_cur p) = Some c -> c_loop c <> LGone
  | _ => False
  end.
Lemma cp_own_or_rest p tr : xreach p tr -> p_crash p = false -> (exists p' o, cp_own_step p p' o) \/ xrest p.
Proof.
  intros HR HC. pose proof (xreach_inv _ _ HR) as V. destruct (j_num _ _ V) as [N1 N2]. destruct (j_cur _ _ V) as [C1 _].
  assert (GO : forall p' o, pstep p = Some (p', o) -> (forall k, o <> [QConn k (OBytes "")]) -> (exists p' o, cp_own_step p p' o) \/ xrest p).
  { intros p' o H1 H2. left. exists p', o, XStep. split; [reflexivity|]. split; [unfold xstep; rewrite HC; exact H1|exact H2]. }
  unfold pstep in GO.
  assert (LI : forall k e c c' o, nth_error (p_conns p) k = Some c -> pconn_ok k e p = true -> (own e = true \/ e = EStop) -> step CP e c = Some (c', o) -> o <> [OBytes ""] -> exists p' o, cp_own_step p p' o).
  { intros k e c c' o H1 H2 H3 H4 H5. eexists _, _, (XConn k e). split; [destruct H3 as [H3| ->]; [destruct e; try exact H3; reflexivity|reflexivity]|]. split; [unfold xstep, pconn; rewrite HC, H1, H2, H4; reflexivity|].
    intros j HX. destruct o as [|o1 [|o2 o]]; [..|discriminate HX].
    - destruct (ppc_after e c' (p_pc p)), (p_pc p); discriminate HX.
    - injection HX as _ -> _. exact (H5 eq_refl). }
  assert (CN : (exists p' o, cp_own_step p p' o) \/ fresh (p_pc p) = true \/ forall k c, nth_error (p_conns p) k = Some c -> rest c /\ c_closers c = 0).
  { destruct (fresh (p_pc p)) eqn:F; [auto|].
    assert (D : forall k c, nth_error (p_conns p) k = Some c -> (exists p' o, cp_own_step p p' o) \/ rest c /\ c_closers c = 0).
    { intros k c HN. pose proof (j_link _ _ V k) as R. rewrite HN in R. destruct (j_loop _ _ V _ _ HN) as [L1 L2]. pose proof (no_crash_point _ _ HR HC _ _ HN) as CC. pose proof (nth_lt _ _ _ HN) as LT.
      assert (NW : p_new p = false) by (destruct (p_new p) eqn:NW; [destruct (j_new _ _ V NW) as (X & _); rewrite X in N1; cbn in N1; lia|reflexivity]).
      destruct (own_or_rest _ _ _ R CC) as [(c' & o & e & O1 & O2 & O3)|RS]; [left|right; exact RS].
      eapply (LI k e); [exact HN| |left; exact O1|exact O2|exact O3]. unfold pconn_ok. rewrite NW. assert (KC : k <= p_cur p) by (rewrite C1; destruct (p_pc p); try discriminate F; lia).
      apply Nat.leb_le in KC. rewrite KC. cbn [negb andb]. destruct e; try reflexivity; try discriminate O1.
      destruct (c_loop c) eqn:L; try (rewrite (loop_gone _ _ L) in O2; discriminate O2).
      all: destruct (Nat.eq_dec (S k) (length (p_conns p))) as [E|E]; [|destruct (L2 E) as [X _]; discriminate X].
      all: specialize (L1 E); assert (KE : Nat.eqb k (p_cur p) = true) by (apply Nat.eqb_eq; rewrite C1; destruct (p_pc p); try discriminate F; lia); rewrite KE; cbn [andb].
      all: destruct (p_pc p); try reflexivity; try discriminate F; cbn [last_loop] in L1; rewrite ?L in L1; destruct L1; congruence. }
    clear - D. remember (p_conns p) as l eqn:EL. clear EL. assert (Q : (exists p' o, cp_own_step p p' o) \/ forall k c, nth_error l k = Some c -> rest c /\ c_closers c = 0); [|destruct Q; auto].
    induction l as [|x l IH]; [right; intros [|k] x H; discriminate H|].
    destruct IH as [IH|IH]; [intros k y HN; exact (D (S k) y HN)|left; exact IH|]. destruct (D 0 x eq_refl) as [D0|D0]; [left; exact D0|right]. intros [|k] y H; [injection H as <-; exact D0|exact (IH _ _ H)]. }
  destruct CN as [CN|CN]; [left; exact CN|].
  destruct (p_pc p) eqn:P; try (eapply GO; [reflexivity|intros; discriminate]); try (destruct CN as [CN|CN]; [discriminate CN|right; unfold xrest; rewrite P; split; [exact CN|exact I]]).
  - destruct (existsb _ _); (eapply GO; [reflexivity|intros; discriminate]).
  - destruct CN as [CN|CN]; [discriminate CN|].
    assert (LE : length (ups tr) <> 0) by (intros X; cbn in N2; lia).
    assert (EX : exists c, nth_error (p_conns p) (p_cur p) = Some c) by (destruct (nth_error (p_conns p) (p_cur p)) as [c|] eqn:E; [eauto|apply nth_error_None in E; cbn in N1; lia]). destruct EX as (c & EX).
    assert (LL : S (p_cur p) = length (p_conns p)) by (cbn in N1; lia). destruct (j_loop _ _ V _ _ EX) as [L1 _]. specialize (L1 LL). rewrite P in L1. cbn [last_loop] in L1. pose proof (no_crash_point _ _ HR HC _ _ EX) as CC. destruct L1 as [L1|L1]; [|congruence].
    destruct (p_cancel p) eqn:PC; [left|right; unfold xrest; rewrite P; split; [exact CN|split; [exact PC|]]].
    + destruct (CN _ _ EX) as [(_ & _ & [X|(r & X & _)]) _]; [rewrite X in L1; discriminate L1|].
      assert (NW : p_new p = false) by (destruct (p_new p) eqn:NW; [destruct (j_new _ _ V NW) as (_ & _ & Z); rewrite P in Z; discriminate Z|reflexivity]).
      eapply (LI (p_cur p) EStop); [exact EX| |right; reflexivity| |]; [unfold pconn_ok; rewrite NW, PC, Nat.leb_refl; reflexivity|exact (stop_sel _ _ CC X)|discriminate].
    + intros c' HX. assert (c' = c) as -> by congruence. intros Y. rewrite Y in L1. discriminate L1.
  - destruct CN as [CN|CN]; [discriminate CN|]. exfalso.
    assert (LE : length (ups tr) <> 0) by (intros X; cbn in N2; lia).
    assert (EX : exists c, nth_error (p_conns p) (p_cur p) = Some c) by (destruct (nth_error (p_conns p) (p_cur p)) as [c|] eqn:E; [eauto|apply nth_error_None in E; cbn in N1; lia]). destruct EX as (c & EX).
    assert (LL : S (p_cur p) = length (p_conns p)) by (cbn in N1; lia). destruct (j_loop _ _ V _ _ EX) as [L1 _]. specialize (L1 LL). rewrite P in L1. cbn [last_loop] in L1.
    destruct (CN _ _ EX) as [(_ & _ & [X|(r & X & _)]) _]; destruct L1; congruence.
Qed.
Lemma cp_settles (P : cpoint -> list pobs -> Prop) :
  (forall p tr, xreach p tr -> p_crash p = true -> P p tr) -> (forall p tr, xreach p tr -> p_crash p = false -> xrest p -> P p tr) -> forall p tr, xreach p tr -> inevitably cp_own_step P p tr.
Proof.
  intros P1 P2 p. induction p as [p IH] using (well_founded_induction xbelow_wf). intros tr HR. destruct (p_crash p) eqn:HC; [apply iv_now; exact (P1 _ _ HR HC)|].
  destruct (cp_own_or_rest _ _ HR HC) as [GO|RS]; [|apply iv_now; exact (P2 _ _ HR HC RS)].
  apply iv_later; [exact GO|]. intros p' o (x & O1 & O2 & O3). apply IH; [exact (cp_own_below _ _ _ _ O1 O2 O3)|exact (xreach_S _ _ _ _ _ HR O2)].
Qed.
(** A charge point whose first dial failed has told New's caller. *)
Lemma failed_told p tr : xreach p tr -> p_pc p = PFailed -> In (QNew false) tr.
Proof.
  induction 1 as [|p tr x p' o HR IH HS]; [discriminate|]. intros HP. destruct (xstep_kind _ _ _ _ HS) as [_ HK]. apply in_or_app.
  destruct HK as [A1 A2 A3|A1 A2 A3 A4|A1 A2 A3 A4|A1 A2 A3|A1 A2 A3|A1 A2 A3|A1 A2 A3 A4|A1 A2 A3 A4|A1 A2 A3|A1 A2|A1 A2 A3|A1 A2 A3|j e d d' oo pre HJ OK ST E HPR HO]; subst p'; psimp_in HP; try discriminate HP; try congruence; auto.
  - right. subst o. cbn. auto.
  - left. apply IH. destruct (c_crash d'); psimp_in HP; destruct e; cbn [ppc_after] in HP; try exact HP; try discriminate HP; destruct (p_pc p), (c_loop d'); try discriminate HP; reflexivity.
Qed.
