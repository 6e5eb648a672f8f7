(** Invariants of the whole system: each part runs as it does alone, each wire with
    its two ends as Net.v has it. *)
From Coq Require Import Arith.
From Verif Require Import GoBase Utf8 Json Float64 Codec Any Tables Registry Frame Conn SpecConn ConnBase ConnInv ConnFate CentralSystem SpecCS CSInv ChargePoint SpecCP CPInv Net SpecNet NetProofs System SpecSys.
Open Scope string_scope.
Open Scope list_scope.
Opaque marshal_message read_text unmarshal_request call_to_request result_to_response utf8_valid msg_ok is_request action_of.
Opaque step url_path.

(** ** Projections *)
Definition here (at_ : option (nat * nat)) (j i : nat) : bool :=
  match at_ with Some (j', i') => Nat.eqb j' j && Nat.eqb i' i | None => false end.
(** What happens on wire k, whose client is connection [at_] *)
Definition pick_wire (k : nat) (at_ : option (nat * nat)) (x : yobs) : list nobs :=
  match x with
  | AtCentral (OConn k' o) => if Nat.eqb k k' then [NObs Central o] else []
  | AtPoint j (QConn i o) => if here at_ j i then [NObs Point o] else []
  | OnWire k' s w t => if Nat.eqb k k' then [NSent s w t] else []
  | _ => []
  end.
Definition wire_trace (k : nat) (at_ : option (nat * nat)) (tr : list yobs) : list nobs := flat_map (pick_wire k at_) tr.

Lemma central_app a b : central (a ++ b) = central a ++ central b. Proof. apply flat_map_app. Qed.
Lemma point_app j a b : at_charge_point j (a ++ b) = at_charge_point j a ++ at_charge_point j b. Proof. apply flat_map_app. Qed.
Lemma wire_app k p a b : wire_trace k p (a ++ b) = wire_trace k p a ++ wire_trace k p b. Proof. apply flat_map_app. Qed.
Lemma central_central o : central (map AtCentral o) = o.
Proof. induction o as [|x o IH]; [reflexivity|]. cbn. f_equal. exact IH. Qed.
Lemma central_point j o : central (map (AtPoint j) o) = [].
Proof. induction o as [|x o IH]; [reflexivity|exact IH]. Qed.
Lemma central_put k s l : central (put k s l) = [].
Proof. induction l as [|x o IH]; [reflexivity|exact IH]. Qed.
Lemma point_central j o : at_charge_point j (map AtCentral o) = [].
Proof. induction o as [|x o IH]; [reflexivity|exact IH]. Qed.
Lemma point_point j j' o : at_charge_point j (map (AtPoint j') o) = if Nat.eqb j j' then o else [].
Proof. unfold at_charge_point. induction o as [|x o IH]; [destruct (Nat.eqb j j'); reflexivity|]. cbn. rewrite IH. destruct (Nat.eqb j j'); reflexivity. Qed.
Lemma point_put j k s l : at_charge_point j (put k s l) = [].
Proof. induction l as [|x o IH]; [reflexivity|exact IH]. Qed.
Lemma wire_central k p o : wire_trace k p (map AtCentral o) = map (NObs Central) (conn_trace k o).
Proof.
  unfold wire_trace, conn_trace, cpick. induction o as [|x o IH]; [reflexivity|]. cbn [map flat_map]. rewrite IH.
  destruct x; cbn [pick_wire app]; try reflexivity. destruct (Nat.eqb k k0); reflexivity.
Qed.
Lemma wire_point k p j o : wire_trace k p (map (AtPoint j) o) = match p with Some (j', i) => if Nat.eqb j' j then map (NObs Point) (link i o) else [] | None => [] end.
Proof.
  unfold wire_trace, link, qpick. induction o as [|x o IH]; [destruct p as [[j' i]|]; [destruct (Nat.eqb j' j)|]; reflexivity|]. cbn [map flat_map]. rewrite IH.
  destruct p as [[j' i]|]; destruct x; cbn [pick_wire here app]; try reflexivity; try (destruct (Nat.eqb j' j); reflexivity).
  destruct (Nat.eqb j' j); cbn [andb app]; [|reflexivity]. destruct (Nat.eqb i k0); reflexivity.
Qed.
Lemma wire_put k p k' s l : wire_trace k p (put k' s l) = if Nat.eqb k k' then map (fun wt => NSent s (fst wt) (snd wt)) l else [].
Proof.
  unfold wire_trace, put. induction l as [|x o IH]; [destruct (Nat.eqb k k'); reflexivity|]. cbn [map flat_map pick_wire]. rewrite IH. destruct (Nat.eqb k k'); reflexivity.
Qed.

(** ** Steps of the parts *)
(** A step of the central system that is not on a connection leaves all connections as they were, but for a new one. *)
Lemma cstep_conns v s s' o : cstep v s = Some (s', o) -> (forall k e, v <> VConn k e) ->
  (forall k, conn_trace k o = []) /\
  (match v with VHttp up meth path => match dispatch up meth with BWebsocket => s_ks s' = s_ks s ++ [MkK (trim_slash path) KLog conn0] | _ => s_ks s' = s_ks s end
   | _ => length (s_ks s') = length (s_ks s) /\ forall k x, nth_error (s_ks s) k = Some x -> exists x', nth_error (s_ks s') k = Some x' /\ k_id x' = k_id x /\ k_conn x' = k_conn x end).
Proof.
  intros H HV. split; [intros k; cstep_inv H v; try reflexivity; exfalso; eapply HV; reflexivity|].
  cstep_inv H v; ssimp; try reflexivity; rewrite ?upd_length; try (exfalso; eapply HV; reflexivity).
  all: split; [reflexivity|]; intros jj y HJ; rewrite ?nth_upd; try (exists y; auto; fail).
  all: match goal with |- context [Nat.eqb ?a ?b] => destruct (Nat.eqb_spec a b) as [EQ|NE]; [subst; rewrite HJ in *|exists y; auto; fail] end.
  all: eexists; split; [reflexivity|]; cbn [k_id k_conn].
  all: match goal with E : Some _ = Some _ |- _ => injection E as -> | _ => idtac end; auto.
Qed.
(** A step of a charge point that is neither on a connection nor a successful dial *)
Lemma xstep_conns x p p' o : xstep x p = Some (p', o) ->
  match x with XConn _ _ | XSend _ _ _ | XDial true => True | _ => p_conns p' = p_conns p /\ forall i, link i o = [] end.
Proof.
  unfold xstep. intros H. destruct (p_crash p); [discriminate H|]. destruct x as [ok| |k e|inh id q| | |]; try exact I.
  - destruct (p_pc p); try discriminate H. destruct ok; [exact I|]. destruct (p_new p); injection H as <- <-; split; reflexivity.
  - unfold pstep in H. destruct (p_pc p); try discriminate H; try (injection H as <- <-; split; reflexivity).
    destruct (existsb _ _); injection H as <- <-; split; try reflexivity. intros i. destruct (p_new p); reflexivity.
  - injection H as <- <-; split; reflexivity.
  - destruct (p_new p); [discriminate H|]. injection H as <- <-; split; reflexivity.
  - destruct (p_new p); [discriminate H|]. injection H as <- <-; split; reflexivity.
Qed.
Lemma xstep_link x i e p p' o : xstep x p = Some (p', o) -> (x = XConn i e \/ i = p_svc p /\ exists inh id q, x = XSend inh id q /\ e = ESend inh id q) ->
  exists c c' oc, nth_error (p_conns p) i = Some c /\ step CP e c = Some (c', oc) /\ p_conns p' = upd i c' (p_conns p) /\ forall j, link j o = if Nat.eqb j i then oc else [].
Proof.
  unfold xstep. intros H HX. destruct (p_crash p); [discriminate H|].
  assert (X : exists o', pconn i e p = Some (p', o') /\ (o = o' \/ o = QSend i :: o')).
  { destruct HX as [->|(-> & inh & id & q & -> & ->)]; [exists o; auto|]. destruct (pconn (p_svc p) (ESend inh id q) p) as [[p1 o1]|]; [|discriminate H]. injection H as <- <-. eauto. }
  destruct X as (o' & HP & HO). destruct (pconn_inv _ _ _ _ _ HP) as (c & c' & oc & H1 & H2 & H3 & H4 & H5). exists c, c', oc. split; [exact H1|]. split; [exact H3|]. split.
  - rewrite H4. cbv zeta. destruct (c_crash c'); reflexivity.
  - intros j. assert (L : link j o' = if Nat.eqb j i then oc else []).
    { rewrite H5, link_app, link_conn. replace (link j (match ppc_after e c' (p_pc p), p_pc p with PEnd, PStop => [QStopped] | _, _ => [] end)) with (@nil obs) by (destruct (ppc_after e c' (p_pc p)), (p_pc p); reflexivity). apply app_nil_r. }
    destruct HO as [->| ->]; [exact L|]. exact L.
Qed.
Lemma xstep_dial p p' o : xstep (XDial true) p = Some (p', o) -> p_pc p = PDial /\ p_conns p' = p_conns p ++ [conn0] /\ o = [QDialed true].
Proof.
  unfold xstep. intros H. destruct (p_crash p); [discriminate H|]. destruct (p_pc p); try discriminate H. injection H as <- <-. auto.
Qed.
Lemma cstep_conn k e s s' o : cstep (VConn k e) s = Some (s', o) -> exists x c' oc, nth_error (s_ks s) k = Some x /\ step CS e (k_conn x) = Some (c', oc) /\
  s_ks s' = upd k (MkK (k_id x) (k_pc x) c') (s_ks s) /\ o = map (OConn k) oc.
Proof.
  unfold cstep. intros H. destruct (s_crash s); [discriminate H|]. destruct (nth_error (s_ks s) k) as [x|]; [|discriminate H]. destruct (conn_event_ok (k_pc x) e); [|discriminate H].
  destruct (step CS e (k_conn x)) as [[c' oc]|] eqn:E; [|discriminate H]. injection H as <- <-. exists x, c', oc. repeat split; auto. destruct (c_crash c'); reflexivity.
Qed.

(** ** The invariant *)
Definition whose (p : peer) : option nat := match p with Stranger => None | Dialling j | Met j _ | GaveUp j => Some j end.
Definition joined (cfg : list (string * string)) (y : sys) (tr : list yobs) (k : nat) (w : wire) (x : csconn) : Prop :=
  match w_peer w with
  | Stranger => True
  | Dialling j | GaveUp j => known_as cfg j (k_id x) /\ w_in w = [] /\ nreach (MkNet (k_conn x) conn0 [] (w_out w)) (wire_trace k None tr)
  | Met j i => known_as cfg j (k_id x) /\ exists pt c, nth_error (y_points y) j = Some pt /\ nth_error (p_conns (pt_cp pt)) i = Some c /\
                 nreach (MkNet (k_conn x) c (w_in w) (w_out w)) (wire_trace k (Some (j, i)) tr)
  end.
Record yinv (cfg : list (string * string)) (y : sys) (tr : list yobs) : Prop := MkYInv {
  y_c : creach (y_central y) (central tr);
  y_p : forall j pt, nth_error (y_points y) j = Some pt -> xreach (pt_cp pt) (at_charge_point j tr);
  y_none : forall j, nth_error (y_points y) j = None -> at_charge_point j tr = [];
  y_cfg : map (fun pt => (pt_url pt, pt_id pt)) (y_points y) = cfg;
  y_len : length (y_wires y) = length (s_ks (y_central y));
  y_net : forall k w x, nth_error (y_wires y) k = Some w -> nth_error (s_ks (y_central y)) k = Some x -> joined cfg y tr k w x;
  y_inj : forall k k' w w' j i, nth_error (y_wires y) k = Some w -> nth_error (y_wires y) k' = Some w' -> w_peer w = Met j i -> w_peer w' = Met j i -> k = k';
  y_all : forall j pt i, nth_error (y_points y) j = Some pt -> i < length (p_conns (pt_cp pt)) -> exists k w, nth_error (y_wires y) k = Some w /\ w_peer w = Met j i;
  y_ask : forall k j, In (Asked k j) tr <-> exists w, nth_error (y_wires y) k = Some w /\ whose (w_peer w) = Some j;
  y_conn : forall k j i, In (Connected k j i) tr <-> exists w, nth_error (y_wires y) k = Some w /\ w_peer w = Met j i;
  y_sent : forall k s w t, In (OnWire k s w t) tr -> k < length (y_wires y) }.

Lemma yinv_0 cfg : yinv cfg (sys0 cfg) [].
Proof.
  constructor; cbn [sys0 y_central y_points y_wires].
  - constructor.
  - intros j pt H. rewrite nth_error_map in H. destruct (nth_error cfg j); [|discriminate H]. injection H as <-. constructor.
  - reflexivity.
  - rewrite map_map. cbn. rewrite <- (map_id cfg) at 2. apply map_ext. intros []; reflexivity.
  - reflexivity.
  - intros [|k] w x H; discriminate H.
  - intros [|k] k' w w' j i H; discriminate H.
  - intros j pt i H HI. rewrite nth_error_map in H. destruct (nth_error cfg j); [|discriminate H]. injection H as <-. cbn in HI. lia.
  - intros k j. split; [intros []|intros (w & H & _); destruct k; discriminate H].
  - intros k j i. split; [intros []|intros (w & H & _); destruct k; discriminate H].
  - intros k s w t [].
Qed.
Lemma wire_none y cfg tr k p : yinv cfg y tr -> nth_error (y_wires y) k = None -> (match p with Some (j, i) => match nth_error (y_points y) j with Some pt => length (p_conns (pt_cp pt)) <= i | None => True end | None => True end) ->
  wire_trace k p tr = [].
Proof.
  intros V HN HP. apply nth_error_None in HN. pose proof (y_len _ _ _ V) as L.
  assert (Z : forall x, In x tr -> pick_wire k p x = []).
  { intros x HX. destruct x as [o|j o|k' j|k' j i|k' s w t]; cbn [pick_wire]; try reflexivity.
    - destruct o; try reflexivity. destruct (Nat.eqb_spec k k0) as [<-|]; [|reflexivity]. exfalso.
      pose proof (proj2 (i_proj _ _ (creach_inv _ _ (y_c _ _ _ V))) k) as CT. assert (CN : nth_error (s_ks (y_central y)) k = None) by (apply nth_error_None; lia).
      specialize (CT CN). assert (I : In o (conn_trace k (central tr))); [|rewrite CT in I; destruct I].
      apply cpick_in. exists (OConn k o). rewrite Nat.eqb_refl. split; [|reflexivity]. unfold central. apply in_flat_map. exists (AtCentral (OConn k o)). split; [exact HX|left; reflexivity].
    - destruct o; try reflexivity. destruct p as [[j' i]|]; cbn [here]; [|reflexivity]. destruct (Nat.eqb_spec j' j) as [->|]; [|reflexivity]. destruct (Nat.eqb_spec i k0) as [->|]; [|reflexivity]. exfalso.
      assert (I : In (QConn k0 o) (at_charge_point j tr)) by (unfold at_charge_point; apply in_flat_map; exists (AtPoint j (QConn k0 o)); rewrite Nat.eqb_refl; split; [exact HX|left; reflexivity]).
      destruct (nth_error (y_points y) j) as [pt|] eqn:EP; [|rewrite (y_none _ _ _ V _ EP) in I; destruct I].
      pose proof (j_link _ _ (xreach_inv _ _ (y_p _ _ _ V _ _ EP)) k0) as J. rewrite (proj2 (nth_error_None _ _) HP) in J.
      assert (I2 : In o (link k0 (at_charge_point j tr))); [|rewrite J in I2; destruct I2]. apply qpick_in. exists (QConn k0 o). rewrite Nat.eqb_refl. auto.
    - destruct (Nat.eqb_spec k k') as [<-|]; [|reflexivity]. pose proof (y_sent _ _ _ V _ _ _ _ HX). lia. }
  unfold wire_trace. clear - Z. induction tr as [|x tr IH]; [reflexivity|]. cbn [flat_map]. rewrite (Z x) by (left; reflexivity). apply IH. intros z HZ. apply Z. right. exact HZ.
Qed.
(** Nothing was seen on a connection not made yet *)
Lemma wire_later y cfg tr k j pt i : yinv cfg y tr -> nth_error (y_points y) j = Some pt -> length (p_conns (pt_cp pt)) <= i -> wire_trace k (Some (j, i)) tr = wire_trace k None tr.
Proof.
  intros V EP HI. unfold wire_trace.
  assert (Z : forall x, In x tr -> pick_wire k (Some (j, i)) x = pick_wire k None x).
  { intros x HX. destruct x as [o|j' o|k' j'|k' j' i'|k' s w t]; cbn [pick_wire]; try reflexivity. destruct o; try reflexivity. cbn [here].
    destruct (Nat.eqb_spec j j') as [<-|]; [|reflexivity]. destruct (Nat.eqb_spec i k0) as [<-|]; [|reflexivity]. exfalso.
    pose proof (j_link _ _ (xreach_inv _ _ (y_p _ _ _ V _ _ EP)) i) as J. rewrite (proj2 (nth_error_None _ _) HI) in J.
    assert (I2 : In o (link i (at_charge_point j tr))); [|rewrite J in I2; destruct I2]. apply qpick_in. exists (QConn i o). rewrite Nat.eqb_refl. split; [|reflexivity].
    unfold at_charge_point; apply in_flat_map; exists (AtPoint j (QConn i o)); rewrite Nat.eqb_refl; split; [exact HX|left; reflexivity]. }
  clear - Z. induction tr as [|x tr IH]; [reflexivity|]. cbn [flat_map]. rewrite (Z x) by (left; reflexivity). f_equal. apply IH. intros z HZ. apply Z. right. exact HZ.
Qed.

(** ** Steps keep it *)
Lemma not_central o x : In x (map AtCentral o) -> exists c, x = AtCentral c.
Proof. intros H. apply in_map_iff in H. destruct H as (c & <- & _). eauto. Qed.
Lemma not_point j o x : In x (map (AtPoint j) o) -> exists c, x = AtPoint j c.
Proof. intros H. apply in_map_iff in H. destruct H as (c & <- & _). eauto. Qed.
Lemma in_put k s l x : In x (put k s l) -> exists w t, x = OnWire k s w t.
Proof. intros H. apply in_map_iff in H. destruct H as ([w t] & <- & _). eauto. Qed.
(** What was announced *)
Definition unannounced (o : list yobs) : Prop := (forall k j, ~ In (Asked k j) o) /\ (forall k j i, ~ In (Connected k j i) o).
Lemma unannounced_central o : unannounced (map AtCentral o).
Proof. split; intros; intros H; apply not_central in H; destruct H as [c H]; discriminate H. Qed.
Lemma unannounced_point j o : unannounced (map (AtPoint j) o).
Proof. split; intros; intros H; apply not_point in H; destruct H as [c H]; discriminate H. Qed.
Lemma unannounced_put k s l : unannounced (put k s l).
Proof. split; intros; intros H; apply in_put in H; destruct H as (w & t & H); discriminate H. Qed.
Lemma unannounced_app a b : unannounced a -> unannounced b -> unannounced (a ++ b).
Proof. intros [A1 A2] [B1 B2]. split; intros; intros H; apply in_app_or in H; destruct H; firstorder. Qed.
Lemma ask_unannounced tr o k j : unannounced o -> (In (Asked k j) (tr ++ o) <-> In (Asked k j) tr).
Proof. intros [A _]. rewrite in_app_iff. firstorder. Qed.
Lemma conn_unannounced tr o k j i : unannounced o -> (In (Connected k j i) (tr ++ o) <-> In (Connected k j i) tr).
Proof. intros [_ A]. rewrite in_app_iff. firstorder. Qed.
Lemma known_get y cfg tr j pt path : yinv cfg y tr -> nth_error (y_points y) j = Some pt -> url_path (pt_url pt ++ "/" ++ pt_id pt) = Some path -> known_as cfg j (trim_slash path).
Proof.
  intros V HJ HU. exists (pt_url pt, pt_id pt). split.
  - rewrite <- (y_cfg _ _ _ V), nth_error_map, HJ. reflexivity.
  - unfold identity_seen. cbn [fst snd]. rewrite HU. reflexivity.
Qed.
Lemma nth_some {A} (l : list A) k : k < length l -> exists x, nth_error l k = Some x.
Proof. intros H. destruct (nth_error l k) eqn:E; [eauto|]. apply nth_error_None in E. lia. Qed.

(** The central system, away from its connections *)
Lemma keep_central cfg y tr v s' o : yinv cfg y tr -> cstep v (y_central y) = Some (s', o) -> (forall k e, v <> VConn k e) ->
  (match v with VHttp up meth _ => dispatch up meth <> BWebsocket | _ => True end) -> yinv cfg (MkY s' (y_points y) (y_wires y)) (tr ++ map AtCentral o).
Proof.
  intros V H HV HW. destruct (cstep_conns _ _ _ _ H HV) as [CT CK].
  assert (K : length (s_ks s') = length (s_ks (y_central y)) /\ forall k x, nth_error (s_ks (y_central y)) k = Some x -> exists x', nth_error (s_ks s') k = Some x' /\ k_id x' = k_id x /\ k_conn x' = k_conn x).
  { destruct v; try exact CK. destruct (dispatch upgrade meth); [congruence|rewrite CK; eauto..]. }
  clear CK. destruct K as [K1 K2]. constructor; cbn [y_central y_points y_wires].
  - rewrite central_app, central_central. econstructor; [exact (y_c _ _ _ V)|exact H].
  - intros j pt HJ. rewrite point_app, point_central, app_nil_r. exact (y_p _ _ _ V _ _ HJ).
  - intros j HJ. rewrite point_app, point_central, app_nil_r. exact (y_none _ _ _ V _ HJ).
  - exact (y_cfg _ _ _ V).
  - rewrite K1. exact (y_len _ _ _ V).
  - intros k w x' HK HX. assert (LX : k < length (s_ks (y_central y))) by (rewrite <- K1; apply nth_error_Some; congruence).
    destruct (nth_some _ _ LX) as [x HX0]. destruct (K2 _ _ HX0) as (x1 & X1 & X2 & X3). assert (x1 = x') by congruence. subst x1.
    pose proof (y_net _ _ _ V _ _ _ HK HX0) as N. unfold joined in *. rewrite X2, X3, !wire_app, !wire_central, CT, !app_nil_r.
    destruct (w_peer w); try exact N. rewrite wire_app, wire_central, CT, app_nil_r. exact N.
  - exact (y_inj _ _ _ V).
  - exact (y_all _ _ _ V).
  - intros k j. rewrite (ask_unannounced _ _ _ _ (unannounced_central o)). exact (y_ask _ _ _ V k j).
  - intros k j i. rewrite (conn_unannounced _ _ _ _ _ (unannounced_central o)). exact (y_conn _ _ _ V k j i).
  - intros k s w t HI. apply in_app_or in HI. destruct HI as [HI|HI]; [exact (y_sent _ _ _ V _ _ _ _ HI)|]. apply not_central in HI. destruct HI as [c HI]. discriminate HI.
Qed.
(** A new websocket *)
Lemma keep_new cfg y tr path s' o p : yinv cfg y tr -> cstep (VHttp true "GET" path) (y_central y) = Some (s', o) ->
  (p = Stranger \/ exists j, p = Dialling j /\ known_as cfg j (trim_slash path)) ->
  yinv cfg (MkY s' (y_points y) (y_wires y ++ [MkW p [] []])) (tr ++ map AtCentral o ++ match p with Dialling j => [Asked (length (y_wires y)) j] | _ => [] end).
Proof.
  intros V H HP. destruct (cstep_conns _ _ _ _ H (fun k e => ltac:(discriminate))) as [CT CK]. cbn [dispatch] in CK.
  set (ann := match p with Dialling j => [Asked (length (y_wires y)) j] | _ => [] end).
  assert (A1 : central ann = []) by (destruct p; reflexivity). assert (A2 : forall j, at_charge_point j ann = []) by (intros j; destruct p; reflexivity).
  assert (A3 : forall k q, wire_trace k q ann = []) by (intros k q; destruct p; reflexivity).
  constructor; cbn [y_central y_points y_wires].
  - rewrite !central_app, central_central, A1, app_nil_r. econstructor; [exact (y_c _ _ _ V)|exact H].
  - intros j pt HJ. rewrite !point_app, point_central, A2, !app_nil_r. exact (y_p _ _ _ V _ _ HJ).
  - intros j HJ. rewrite !point_app, point_central, A2, !app_nil_r. exact (y_none _ _ _ V _ HJ).
  - exact (y_cfg _ _ _ V).
  - rewrite CK, !app_length. rewrite (y_len _ _ _ V). reflexivity.
  - intros k w x HK HX. rewrite CK in HX. rewrite nth_app1 in HK. rewrite nth_app1 in HX. rewrite <- (y_len _ _ _ V) in HX. destruct (Nat.eqb_spec k (length (y_wires y))) as [->|NE].
    + injection HK as <-. injection HX as <-. destruct HP as [->|(j & -> & HN)]; [exact I|]. unfold joined. cbn [w_peer w_in w_out k_id k_conn]. split; [exact HN|]. split; [reflexivity|].
      rewrite !wire_app, wire_central, CT, A3, !app_nil_r. rewrite (wire_none _ _ _ _ None V); [constructor|apply nth_error_None; lia|exact I].
    + pose proof (y_net _ _ _ V _ _ _ HK HX) as N. unfold joined in *. rewrite !wire_app, !wire_central, CT, !A3, !app_nil_r.
      destruct (w_peer w); try exact N. rewrite !wire_app, wire_central, CT, A3, !app_nil_r. exact N.
  - intros k k' w w' j i H1 H2 H3 H4. rewrite nth_app1 in H1. rewrite nth_app1 in H2.
    assert (NM : p <> Met j i) by (destruct HP as [->|(j0 & -> & _)]; discriminate).
    destruct (Nat.eqb k (length (y_wires y))); [injection H1 as <-; contradiction|]. destruct (Nat.eqb k' (length (y_wires y))); [injection H2 as <-; contradiction|]. exact (y_inj _ _ _ V _ _ _ _ _ _ H1 H2 H3 H4).
  - intros j pt i HJ HI. destruct (y_all _ _ _ V _ _ _ HJ HI) as (k & w & W1 & W2). exists k, w. split; [|exact W2]. rewrite nth_error_app1; [exact W1|apply nth_error_Some; congruence].
  - intros k j. rewrite app_assoc, in_app_iff, (ask_unannounced _ _ _ _ (unannounced_central o)), (y_ask _ _ _ V k j). split.
    + intros [(w & W1 & W2)|HI].
      * exists w. split; [|exact W2]. rewrite nth_error_app1; [exact W1|apply nth_error_Some; congruence].
      * unfold ann in HI. destruct HP as [->|(j0 & -> & _)]; [destruct HI|]. destruct HI as [HI|[]]. injection HI as <- <-. exists (MkW (Dialling j0) [] []). rewrite nth_app1, Nat.eqb_refl. split; reflexivity.
    + intros (w & W1 & W2). rewrite nth_app1 in W1. destruct (Nat.eqb_spec k (length (y_wires y))) as [->|NE]; [|left; eauto]. injection W1 as <-. right.
      destruct HP as [->|(j0 & -> & _)]; [discriminate W2|]. injection W2 as ->. left. reflexivity.
  - intros k j i. rewrite app_assoc, in_app_iff, (conn_unannounced _ _ _ _ _ (unannounced_central o)), (y_conn _ _ _ V k j i). split.
    + intros [(w & W1 & W2)|HI].
      * exists w. split; [|exact W2]. rewrite nth_error_app1; [exact W1|apply nth_error_Some; congruence].
      * unfold ann in HI. destruct p; cbn in HI; intuition discriminate.
    + intros (w & W1 & W2). rewrite nth_app1 in W1. destruct (Nat.eqb_spec k (length (y_wires y))) as [->|NE]; [|left; eauto]. injection W1 as <-. destruct HP as [->|(j0 & -> & _)]; discriminate W2.
  - intros k s w t HI. rewrite app_length. apply in_app_or in HI. destruct HI as [HI|HI]; [pose proof (y_sent _ _ _ V _ _ _ _ HI); lia|]. exfalso. apply in_app_or in HI. destruct HI as [HI|HI].
    + apply not_central in HI. destruct HI as [c HI]. discriminate HI.
    + unfold ann in HI. destruct p; cbn in HI; intuition discriminate.
Qed.
Lemma nstep_central e a b qi qo q c' oc : allowed Central e (MkNet conn0 conn0 qi qo) = Some q -> step CS e a = Some (c', oc) ->
  nstep Central e (MkNet a b qi qo) = Some (MkNet c' b q (qo ++ map snd (finished e a)), map (NObs Central) oc ++ map (fun wt => NSent Central (fst wt) (snd wt)) (finished e a)).
Proof.
  intros H1 H2. unfold nstep. replace (allowed Central e (MkNet a b qi qo)) with (allowed Central e (MkNet conn0 conn0 qi qo)) by (destruct e; reflexivity). rewrite H1. cbn [role_of conn_of n_central]. rewrite H2. reflexivity.
Qed.
Lemma nstep_point e a b qi qo q c' oc : allowed Point e (MkNet conn0 conn0 qi qo) = Some q -> step CP e b = Some (c', oc) ->
  nstep Point e (MkNet a b qi qo) = Some (MkNet a c' (qi ++ map snd (finished e b)) q, map (NObs Point) oc ++ map (fun wt => NSent Point (fst wt) (snd wt)) (finished e b)).
Proof.
  intros H1 H2. unfold nstep. replace (allowed Point e (MkNet a b qi qo)) with (allowed Point e (MkNet conn0 conn0 qi qo)) by (destruct e; reflexivity). rewrite H1. cbn [role_of conn_of n_point]. rewrite H2. reflexivity.
Qed.
Lemma allowed_nil s e a b qo q : queue_to s (MkNet a b [] qo) = [] -> allowed s e (MkNet a b [] qo) = Some q -> q = [].
Proof. intros Q H. destruct e; cbn [allowed] in H; rewrite Q in H; try discriminate H; try (injection H as <-; reflexivity). destruct (may_send s q0); [injection H as <-; reflexivity|discriminate H]. Qed.
(** A step on a connection of the central system *)
Lemma keep_conn cfg y tr k e s' o w x q : yinv cfg y tr -> cstep (VConn k e) (y_central y) = Some (s', o) ->
  nth_error (y_wires y) k = Some w -> nth_error (s_ks (y_central y)) k = Some x -> central_allows e w = Some q ->
  yinv cfg (MkY s' (y_points y) (upd k (MkW (w_peer w) q (w_out w ++ map snd (finished e (k_conn x)))) (y_wires y))) (tr ++ map AtCentral o ++ put k Central (finished e (k_conn x))).
Proof.
  intros V H HW HX HQ. destruct (cstep_conn _ _ _ _ _ H) as (x0 & c' & oc & X1 & X2 & X3 & X4). assert (x0 = x) by congruence. subst x0. set (out := finished e (k_conn x)).
  assert (PEER : forall k' w', nth_error (upd k (MkW (w_peer w) q (w_out w ++ map snd out)) (y_wires y)) k' = Some w' -> exists w0, nth_error (y_wires y) k' = Some w0 /\ w_peer w0 = w_peer w').
  { intros k' w' HK. apply nth_upd_inv in HK. destruct HK as [[-> ->]|[_ HK]]; eauto. }
  assert (PEER' : forall k' w0, nth_error (y_wires y) k' = Some w0 -> exists w', nth_error (upd k (MkW (w_peer w) q (w_out w ++ map snd out)) (y_wires y)) k' = Some w' /\ w_peer w' = w_peer w0).
  { intros k' w0 HK. rewrite nth_upd. destruct (Nat.eqb_spec k k') as [<-|NE]; [|eauto]. rewrite HK. eexists. split; [reflexivity|]. cbn. congruence. }
  assert (SIL : unannounced (map AtCentral o ++ put k Central out)) by (apply unannounced_app; [apply unannounced_central|apply unannounced_put]).
  assert (CT : forall k' p, wire_trace k' p (map AtCentral o ++ put k Central out) = if Nat.eqb k' k then map (NObs Central) oc ++ map (fun wt => NSent Central (fst wt) (snd wt)) out else []).
  { intros k' p. rewrite wire_app, wire_central, wire_put, X4, conn_trace_conn. destruct (Nat.eqb k' k); reflexivity. }
  constructor; cbn [y_central y_points y_wires].
  - rewrite !central_app, central_central, central_put, app_nil_r. econstructor; [exact (y_c _ _ _ V)|exact H].
  - intros j pt HJ. rewrite !point_app, point_central, point_put, !app_nil_r. exact (y_p _ _ _ V _ _ HJ).
  - intros j HJ. rewrite !point_app, point_central, point_put, !app_nil_r. exact (y_none _ _ _ V _ HJ).
  - exact (y_cfg _ _ _ V).
  - rewrite X3, !upd_length. exact (y_len _ _ _ V).
  - intros k' w' x' HK HX'. rewrite X3 in HX'. apply nth_upd_inv in HX'. apply nth_upd_inv in HK. destruct HK as [[-> ->]|[NE HK]].
    + destruct HX' as [[_ ->]|[NE _]]; [|congruence]. pose proof (y_net _ _ _ V _ _ _ HW HX) as N. unfold joined, central_allows in *. cbn [w_peer w_in w_out k_id k_conn].
      destruct (w_peer w) as [|j|j i|j] eqn:EP; [exact I| | |].
      * destruct N as (N1 & N2 & N3). split; [exact N1|]. unfold wire_allows in HQ. rewrite N2 in HQ. assert (q = []) as -> by (exact (allowed_nil Central _ _ _ _ _ eq_refl HQ)). split; [reflexivity|].
        rewrite wire_app, CT, Nat.eqb_refl. econstructor; [exact N3|]. apply (nstep_central _ _ _ _ _ _ _ _ HQ X2).
      * destruct N as (N1 & pt & c & N2 & N3 & N4). split; [exact N1|]. exists pt, c. split; [exact N2|]. split; [exact N3|].
        rewrite wire_app, CT, Nat.eqb_refl. econstructor; [exact N4|]. apply (nstep_central _ _ _ _ _ _ _ _ HQ X2).
      * destruct N as (N1 & N2 & N3). split; [exact N1|]. unfold wire_allows in HQ. rewrite N2 in HQ. assert (q = []) as -> by (exact (allowed_nil Central _ _ _ _ _ eq_refl HQ)). split; [reflexivity|].
        rewrite wire_app, CT, Nat.eqb_refl. econstructor; [exact N3|]. apply (nstep_central _ _ _ _ _ _ _ _ HQ X2).
    + destruct HX' as [[-> _]|[_ HX']]; [congruence|]. pose proof (y_net _ _ _ V _ _ _ HK HX') as N. unfold joined in *.
      destruct (w_peer w') as [|j|j i|j]; try exact N; rewrite wire_app, CT, (neqb _ _ NE), app_nil_r; exact N.
  - intros k1 k2 w1 w2 j i H1 H2 H3 H4. destruct (PEER _ _ H1) as (w3 & W1 & W2). destruct (PEER _ _ H2) as (w4 & W3 & W4). eapply (y_inj _ _ _ V); [exact W1|exact W3|rewrite W2; exact H3|rewrite W4; exact H4].
  - intros j pt i HJ HI. destruct (y_all _ _ _ V _ _ _ HJ HI) as (k' & w' & W1 & W2). destruct (PEER' _ _ W1) as (w3 & W3 & W4). exists k', w3. split; [exact W3|congruence].
  - intros k' j. rewrite (ask_unannounced _ _ _ _ SIL), (y_ask _ _ _ V). split; intros (w' & W1 & W2); [destruct (PEER' _ _ W1) as (w3 & W3 & W4)|destruct (PEER _ _ W1) as (w3 & W3 & W4)]; exists w3; (split; [exact W3|congruence]).
  - intros k' j i. rewrite (conn_unannounced _ _ _ _ _ SIL), (y_conn _ _ _ V). split; intros (w' & W1 & W2); [destruct (PEER' _ _ W1) as (w3 & W3 & W4)|destruct (PEER _ _ W1) as (w3 & W3 & W4)]; exists w3; (split; [exact W3|congruence]).
  - intros k' s w' t HI. rewrite upd_length. apply in_app_or in HI. destruct HI as [HI|HI]; [exact (y_sent _ _ _ V _ _ _ _ HI)|]. apply in_app_or in HI. destruct HI as [HI|HI].
    + apply not_central in HI. destruct HI as [c HI]. discriminate HI.
    + apply in_put in HI. destruct HI as (w1 & t1 & HI). injection HI as -> _ _ _. apply nth_error_Some. congruence.
Qed.
Lemma nth_app1_eq {A} (l : list A) x : nth_error (l ++ [x]) (length l) = Some x.
Proof. rewrite nth_app1, Nat.eqb_refl. reflexivity. Qed.
(** Points *)
Lemma point_upd y j pt p j' pt' : nth_error (y_points y) j = Some pt -> nth_error (set_point j pt p y) j' = Some pt' ->
  (j' = j /\ pt' = MkPt (pt_url pt) (pt_id pt) p) \/ (j' <> j /\ nth_error (y_points y) j' = Some pt').
Proof. intros HJ H. apply nth_upd_inv in H. exact H. Qed.
Lemma cfg_upd y j pt p : nth_error (y_points y) j = Some pt -> map (fun pt => (pt_url pt, pt_id pt)) (set_point j pt p y) = map (fun pt => (pt_url pt, pt_id pt)) (y_points y).
Proof.
  unfold set_point. generalize (y_points y). intros l. revert j. induction l as [|a l IH]; intros [|j] H; cbn in *; try discriminate H.
  - injection H as ->. reflexivity.
  - f_equal. apply IH. exact H.
Qed.
Lemma points_keep y j pt p' o tr x cfg : yinv cfg y tr -> nth_error (y_points y) j = Some pt -> xstep x (pt_cp pt) = Some (p', o) -> forall extra, (forall j', at_charge_point j' extra = []) ->
  (forall j' pt', nth_error (set_point j pt p' y) j' = Some pt' -> xreach (pt_cp pt') (at_charge_point j' (tr ++ map (AtPoint j) o ++ extra))) /\
  (forall j', nth_error (set_point j pt p' y) j' = None -> at_charge_point j' (tr ++ map (AtPoint j) o ++ extra) = []).
Proof.
  intros V HJ HS extra HE. split.
  - intros j' pt' H. rewrite !point_app, point_point, HE, app_nil_r. destruct (point_upd _ _ _ _ _ _ HJ H) as [[-> ->]|[NE H']].
    + rewrite Nat.eqb_refl. econstructor; [exact (y_p _ _ _ V _ _ HJ)|exact HS].
    + rewrite (neqb _ _ NE), app_nil_r. exact (y_p _ _ _ V _ _ H').
  - intros j' H. unfold set_point in H. apply nth_none_upd in H. assert (NE : j' <> j) by congruence. rewrite !point_app, point_point, HE, app_nil_r, (neqb _ _ NE), app_nil_r. exact (y_none _ _ _ V _ H).
Qed.
Lemma set_point_get y j pt p j' pt' : nth_error (y_points y) j = Some pt -> nth_error (y_points y) j' = Some pt' ->
  exists pt'', nth_error (set_point j pt p y) j' = Some pt'' /\ (j' = j -> pt_cp pt'' = p) /\ (j' <> j -> pt'' = pt').
Proof.
  intros HJ H. unfold set_point. rewrite nth_upd. destruct (Nat.eqb_spec j j') as [<-|NE].
  - rewrite HJ. eexists. split; [reflexivity|]. split; [reflexivity|congruence].
  - exists pt'. split; [exact H|]. split; [congruence|reflexivity].
Qed.
(** A charge point, away from its connections; some of its dials may be given up *)
Lemma keep_point cfg y tr j pt x p' o (f : wire -> wire) : yinv cfg y tr -> nth_error (y_points y) j = Some pt -> xstep x (pt_cp pt) = Some (p', o) ->
  p_conns p' = p_conns (pt_cp pt) -> (forall i, link i o = []) ->
  (forall w, f w = w \/ exists j', w_peer w = Dialling j' /\ f w = MkW (GaveUp j') (w_in w) (w_out w)) ->
  yinv cfg (MkY (y_central y) (set_point j pt p' y) (map f (y_wires y))) (tr ++ map (AtPoint j) o).
Proof.
  intros V HJ HS HC HL HF.
  assert (WT : forall k p, wire_trace k p (map (AtPoint j) o) = []).
  { intros k p. rewrite wire_point. destruct p as [[j' i]|]; [|reflexivity]. destruct (Nat.eqb j' j); [rewrite HL|]; reflexivity. }
  pose proof (points_keep _ _ _ _ _ _ _ _ V HJ HS [] (fun _ => eq_refl)) as [P1 P2]. rewrite app_nil_r in P1, P2.
  constructor; cbn [y_central y_points y_wires].
  - rewrite central_app, central_point, app_nil_r. exact (y_c _ _ _ V).
  - exact P1.
  - exact P2.
  - rewrite (cfg_upd _ _ _ _ HJ). exact (y_cfg _ _ _ V).
  - rewrite map_length. exact (y_len _ _ _ V).
  - intros k w0 x0 HK HX. rewrite nth_error_map in HK. destruct (nth_error (y_wires y) k) as [w|] eqn:EW; [|discriminate HK]. cbn in HK. injection HK as <-.
    pose proof (y_net _ _ _ V _ _ _ EW HX) as N. unfold joined in *. destruct (HF w) as [->|(j' & D1 & ->)].
    + destruct (w_peer w) as [|jj|jj i|jj]; try exact N; rewrite wire_app, WT, app_nil_r; try exact N. destruct N as (N1 & pt0 & c & N2 & N3 & N4). split; [exact N1|].
      destruct (set_point_get _ _ _ p' _ _ HJ N2) as (pt1 & G1 & G2 & G3). exists pt1, c. split; [exact G1|]. split; [|exact N4]. destruct (Nat.eq_dec jj j) as [->|NE]; [rewrite (G2 eq_refl), HC|rewrite (G3 NE)]; congruence.
    + rewrite D1 in N. cbn [w_peer w_in w_out]. rewrite wire_app, WT, app_nil_r. exact N.
  - intros k k' w w' jj i H1 H2 H3 H4. rewrite nth_error_map in H1, H2. destruct (nth_error (y_wires y) k) as [w1|] eqn:E1; [|discriminate H1]. destruct (nth_error (y_wires y) k') as [w2|] eqn:E2; [|discriminate H2].
    cbn in H1, H2. injection H1 as <-. injection H2 as <-. destruct (HF w1) as [X1|(? & _ & X1)]; rewrite X1 in H3; [|discriminate H3]. destruct (HF w2) as [X2|(? & _ & X2)]; rewrite X2 in H4; [|discriminate H4].
    exact (y_inj _ _ _ V _ _ _ _ _ _ E1 E2 H3 H4).
  - intros jj pt0 i H1 H2. assert (OLD : exists pt1, nth_error (y_points y) jj = Some pt1 /\ i < length (p_conns (pt_cp pt1))).
    { destruct (point_upd _ _ _ _ _ _ HJ H1) as [[-> ->]|[NE H1']]; [exists pt; split; [exact HJ|cbn [pt_cp] in H2; rewrite HC in H2; exact H2]|eauto]. }
    destruct OLD as (pt1 & O1 & O2). destruct (y_all _ _ _ V _ _ _ O1 O2) as (k & w & W1 & W2). exists k, (f w). rewrite nth_error_map, W1. split; [reflexivity|]. destruct (HF w) as [->|(? & D1 & _)]; [exact W2|congruence].
  - intros k jj. rewrite (ask_unannounced _ _ _ _ (unannounced_point j o)), (y_ask _ _ _ V). assert (Q : forall w, whose (w_peer (f w)) = whose (w_peer w)) by (intros w; destruct (HF w) as [->|(? & D1 & ->)]; [reflexivity|rewrite D1; reflexivity]).
    split.
    + intros (w & W1 & W2). exists (f w). rewrite nth_error_map, W1, Q. auto.
    + intros (w & W1 & W2). rewrite nth_error_map in W1. destruct (nth_error (y_wires y) k) as [w1|]; [|discriminate W1]. cbn in W1. injection W1 as <-. exists w1. rewrite Q in W2. auto.
  - intros k jj i. rewrite (conn_unannounced _ _ _ _ _ (unannounced_point j o)), (y_conn _ _ _ V). assert (Q : forall w, w_peer (f w) = Met jj i <-> w_peer w = Met jj i) by (intros w; destruct (HF w) as [->|(? & D1 & ->)]; [tauto|rewrite D1; cbn; split; discriminate]).
    split.
    + intros (w & W1 & W2). exists (f w). rewrite nth_error_map, W1, Q. auto.
    + intros (w & W1 & W2). rewrite nth_error_map in W1. destruct (nth_error (y_wires y) k) as [w1|]; [|discriminate W1]. cbn in W1. injection W1 as <-. exists w1. rewrite Q in W2. auto.
  - intros k s w t HI. rewrite map_length. apply in_app_or in HI. destruct HI as [HI|HI]; [exact (y_sent _ _ _ V _ _ _ _ HI)|]. apply not_point in HI. destruct HI as [c HI]. discriminate HI.
Qed.
(** A dial succeeds *)
Lemma keep_meet cfg y tr j k pt w x p' o : yinv cfg y tr -> nth_error (y_points y) j = Some pt -> nth_error (y_wires y) k = Some w -> nth_error (s_ks (y_central y)) k = Some x ->
  w_peer w = Dialling j -> xstep (XDial true) (pt_cp pt) = Some (p', o) ->
  yinv cfg (MkY (y_central y) (set_point j pt p' y) (upd k (MkW (Met j (length (p_conns (pt_cp pt)))) (w_in w) (w_out w)) (y_wires y))) (tr ++ map (AtPoint j) o ++ [Connected k j (length (p_conns (pt_cp pt)))]).
Proof.
  intros V HJ HW HX HD HS. destruct (xstep_dial _ _ _ HS) as (D1 & D2 & D3). set (n := length (p_conns (pt_cp pt))).
  assert (WT : forall k' p, wire_trace k' p (map (AtPoint j) o ++ [Connected k j n]) = []).
  { intros k' p. rewrite wire_app, wire_point, D3. destruct p as [[j' i]|]; [|reflexivity]. destruct (Nat.eqb j' j); reflexivity. }
  pose proof (points_keep _ _ _ _ _ _ _ _ V HJ HS [Connected k j n] (fun _ => eq_refl)) as [P1 P2].
  assert (ML : forall k' w' i, nth_error (y_wires y) k' = Some w' -> w_peer w' = Met j i -> i < n).
  { intros k' w' i HK HM. assert (LK : k' < length (s_ks (y_central y))) by (rewrite <- (y_len _ _ _ V); apply nth_error_Some; congruence). destruct (nth_some _ _ LK) as [x' HX'].
    pose proof (y_net _ _ _ V _ _ _ HK HX') as N. unfold joined in N. rewrite HM in N. destruct N as (_ & pt0 & c & N2 & N3 & _). assert (pt0 = pt) by congruence. subst pt0. apply nth_error_Some. congruence. }
  constructor; cbn [y_central y_points y_wires].
  - rewrite !central_app, central_point, app_nil_r. exact (y_c _ _ _ V).
  - exact P1.
  - exact P2.
  - rewrite (cfg_upd _ _ _ _ HJ). exact (y_cfg _ _ _ V).
  - rewrite upd_length. exact (y_len _ _ _ V).
  - intros k' w0 x0 HK HX0. apply nth_upd_inv in HK. destruct HK as [[-> ->]|[NE HK]].
    + assert (x0 = x) by congruence. subst x0. pose proof (y_net _ _ _ V _ _ _ HW HX) as N. unfold joined in *. rewrite HD in N. cbn [w_peer w_in w_out]. destruct N as (N1 & N2 & N3). split; [exact N1|].
      destruct (set_point_get _ _ _ p' _ _ HJ HJ) as (pt1 & G1 & G2 & G3). exists pt1, conn0. split; [exact G1|]. rewrite (G2 eq_refl), D2. split; [apply nth_app1_eq|]. rewrite wire_app, WT, app_nil_r, N2.
      rewrite (wire_later _ _ _ _ _ _ n V HJ (le_n _)). exact N3.
    + pose proof (y_net _ _ _ V _ _ _ HK HX0) as N. unfold joined in *. destruct (w_peer w0) as [|jj|jj i|jj]; try exact N; rewrite wire_app, WT, app_nil_r; try exact N. destruct N as (N1 & pt0 & c & N2 & N3 & N4). split; [exact N1|].
      destruct (set_point_get _ _ _ p' _ _ HJ N2) as (pt1 & G1 & G2 & G3). exists pt1, c. split; [exact G1|]. split; [|exact N4]. destruct (Nat.eq_dec jj j) as [->|NE']; [|rewrite (G3 NE'); exact N3].
      rewrite (G2 eq_refl), D2. assert (pt0 = pt) by congruence. subst pt0. rewrite nth_error_app1; [exact N3|]. apply nth_error_Some. congruence.
  - intros k1 k2 w1 w2 jj i H1 H2 H3 H4. apply nth_upd_inv in H1. apply nth_upd_inv in H2. destruct H1 as [[-> ->]|[N1 H1]], H2 as [[-> ->]|[N2 H2]]; try reflexivity.
    + cbn [w_peer] in H3. injection H3 as <- <-. pose proof (ML _ _ _ H2 H4). lia.
    + cbn [w_peer] in H4. injection H4 as <- <-. pose proof (ML _ _ _ H1 H3). lia.
    + exact (y_inj _ _ _ V _ _ _ _ _ _ H1 H2 H3 H4).
  - intros jj pt0 i H1 H2.
    assert (NEW : jj = j /\ i = n \/ exists pt1, nth_error (y_points y) jj = Some pt1 /\ i < length (p_conns (pt_cp pt1))).
    { destruct (point_upd _ _ _ _ _ _ HJ H1) as [[-> ->]|[NE H1']]; [|eauto]. cbn [pt_cp] in H2. rewrite D2, app_length in H2. cbn in H2. destruct (Nat.eq_dec i n); [auto|]. right. exists pt. split; [exact HJ|lia]. }
    destruct NEW as [[-> ->]|(pt1 & O1 & O2)].
    + exists k. eexists. rewrite nth_upd, Nat.eqb_refl, HW. split; reflexivity.
    + destruct (y_all _ _ _ V _ _ _ O1 O2) as (k' & w' & W1 & W2). exists k', w'. split; [|exact W2]. rewrite nth_upd. destruct (Nat.eqb_spec k k') as [<-|NE]; [congruence|exact W1].
  - intros k' jj. rewrite in_app_iff. rewrite (y_ask _ _ _ V). split.
    + intros [(w0 & W1 & W2)|HI].
      * rewrite nth_upd. destruct (Nat.eqb_spec k k') as [<-|NE]; [|eauto]. rewrite W1. eexists. split; [reflexivity|]. assert (w0 = w) by congruence. subst w0. rewrite HD in W2. exact W2.
      * exfalso. apply in_app_or in HI. destruct HI as [HI|[HI|[]]]; [|discriminate HI]. exact (proj1 (unannounced_point j o) _ _ HI).
    + intros (w0 & W1 & W2). left. apply nth_upd_inv in W1. destruct W1 as [[-> ->]|[NE W1]]; [|eauto]. exists w. rewrite HD. auto.
  - intros k' jj i. rewrite in_app_iff. rewrite (y_conn _ _ _ V). split.
    + intros [(w0 & W1 & W2)|HI].
      * rewrite nth_upd. destruct (Nat.eqb_spec k k') as [<-|NE]; [|eauto]. congruence.
      * apply in_app_or in HI. destruct HI as [HI|[HI|[]]]; [destruct (proj2 (unannounced_point j o) _ _ _ HI)|]. injection HI as <- <- <-. rewrite nth_upd, Nat.eqb_refl, HW. eexists. split; reflexivity.
    + intros (w0 & W1 & W2). apply nth_upd_inv in W1. destruct W1 as [[-> ->]|[NE W1]]; [|left; eauto]. injection W2 as <- <-. right. apply in_or_app. right. left. reflexivity.
  - intros k' s w0 t HI. rewrite upd_length. apply in_app_or in HI. destruct HI as [HI|HI]; [exact (y_sent _ _ _ V _ _ _ _ HI)|]. apply in_app_or in HI. destruct HI as [HI|[HI|[]]]; [|discriminate HI]. apply not_point in HI. destruct HI as [c HI]. discriminate HI.
Qed.
Lemma find_wire_some j i l k : find_wire j i l = Some k -> exists w, nth_error l k = Some w /\ w_peer w = Met j i.
Proof.
  revert k. induction l as [|w l IH]; intros k H; [discriminate H|]. cbn [find_wire] in H.
  assert (R : option_map S (find_wire j i l) = Some k -> exists w0, nth_error (w :: l) k = Some w0 /\ w_peer w0 = Met j i).
  { intros E. destruct (find_wire j i l) as [k'|]; [|discriminate E]. cbn in E. injection E as <-. exact (IH _ eq_refl). }
  destruct (w_peer w) as [|jj|jj ii|jj] eqn:EP; auto. destruct (Nat.eqb_spec j jj) as [->|]; [|exact (R H)]. destruct (Nat.eqb_spec i ii) as [->|]; [|exact (R H)]. cbn in H. injection H as <-. exists w. auto.
Qed.
(** A step on a connection of a charge point *)
Lemma keep_link cfg y tr j k pt w x i e c p' o q : yinv cfg y tr -> nth_error (y_points y) j = Some pt -> nth_error (y_wires y) k = Some w -> w_peer w = Met j i ->
  nth_error (p_conns (pt_cp pt)) i = Some c -> wire_allows Point e w = Some q -> xstep x (pt_cp pt) = Some (p', o) ->
  (x = XConn i e \/ i = p_svc (pt_cp pt) /\ exists inh id m, x = XSend inh id m /\ e = ESend inh id m) ->
  yinv cfg (MkY (y_central y) (set_point j pt p' y) (upd k (MkW (w_peer w) (w_in w ++ map snd (finished e c)) q) (y_wires y))) (tr ++ map (AtPoint j) o ++ put k Point (finished e c)).
Proof.
  intros V HJ HW HP HC HQ HS HX. destruct (xstep_link _ _ _ _ _ _ HS HX) as (c0 & c' & oc & X1 & X2 & X3 & X4). assert (c0 = c) by congruence. subst c0. set (out := finished e c).
  set (wires := upd k (MkW (w_peer w) (w_in w ++ map snd out) q) (y_wires y)).
  assert (PEER : forall k' w', nth_error wires k' = Some w' -> exists w0, nth_error (y_wires y) k' = Some w0 /\ w_peer w0 = w_peer w').
  { intros k' w' HK. apply nth_upd_inv in HK. destruct HK as [[-> ->]|[_ HK]]; eauto. }
  assert (PEER' : forall k' w0, nth_error (y_wires y) k' = Some w0 -> exists w', nth_error wires k' = Some w' /\ w_peer w' = w_peer w0).
  { intros k' w0 HK. unfold wires. rewrite nth_upd. destruct (Nat.eqb_spec k k') as [<-|NE]; [|eauto]. rewrite HK. eexists. split; [reflexivity|]. cbn. congruence. }
  assert (SIL : unannounced (map (AtPoint j) o ++ put k Point out)) by (apply unannounced_app; [apply unannounced_point|apply unannounced_put]).
  assert (WT : forall k' p, k' <> k -> p <> Some (j, i) -> wire_trace k' p (map (AtPoint j) o ++ put k Point out) = []).
  { intros k' p NK NP. rewrite wire_app, wire_point, wire_put, (neqb _ _ NK), app_nil_r. destruct p as [[j' i']|]; [|reflexivity]. destruct (Nat.eqb_spec j' j) as [->|]; [|reflexivity]. rewrite X4. destruct (Nat.eqb_spec i' i) as [->|]; [congruence|reflexivity]. }
  assert (WT1 : wire_trace k (Some (j, i)) (map (AtPoint j) o ++ put k Point out) = map (NObs Point) oc ++ map (fun wt => NSent Point (fst wt) (snd wt)) out).
  { rewrite wire_app, wire_point, wire_put, !Nat.eqb_refl, X4, Nat.eqb_refl. reflexivity. }
  pose proof (points_keep _ _ _ _ _ _ _ _ V HJ HS (put k Point out) (fun j' => point_put j' k Point out)) as [P1 P2].
  constructor; cbn [y_central y_points y_wires].
  - rewrite !central_app, central_point, central_put, !app_nil_r. exact (y_c _ _ _ V).
  - exact P1.
  - exact P2.
  - rewrite (cfg_upd _ _ _ _ HJ). exact (y_cfg _ _ _ V).
  - unfold wires. rewrite upd_length. exact (y_len _ _ _ V).
  - intros k' w0 x0 HK HX0. apply nth_upd_inv in HK. destruct HK as [[-> ->]|[NE HK]].
    + pose proof (y_net _ _ _ V _ _ _ HW HX0) as N. unfold joined in *. rewrite HP in *. cbn [w_peer w_in w_out]. destruct N as (N1 & pt0 & c0 & N2 & N3 & N4). split; [exact N1|].
      assert (pt0 = pt) by congruence. subst pt0. assert (c0 = c) by congruence. subst c0. destruct (set_point_get _ _ _ p' _ _ HJ HJ) as (pt1 & G1 & G2 & G3). exists pt1, c'. split; [exact G1|]. rewrite (G2 eq_refl), X3.
      split; [rewrite nth_upd, Nat.eqb_refl, HC; reflexivity|]. rewrite wire_app, WT1. econstructor; [exact N4|]. apply (nstep_point _ _ _ _ _ _ _ _ HQ X2).
    + pose proof (y_net _ _ _ V _ _ _ HK HX0) as N. unfold joined in *. destruct (w_peer w0) as [|jj|jj ii|jj] eqn:E0; [exact I|rewrite wire_app, WT, app_nil_r by (exact NE || discriminate); exact N| |rewrite wire_app, WT, app_nil_r by (exact NE || discriminate); exact N].
      destruct N as (N1 & pt0 & c0 & N2 & N3 & N4). split; [exact N1|].
      assert (DIF : (jj, ii) <> (j, i)) by (intros Q; injection Q as -> ->; apply NE; exact (y_inj _ _ _ V _ _ _ _ _ _ HK HW E0 HP)).
      destruct (set_point_get _ _ _ p' _ _ HJ N2) as (pt1 & G1 & G2 & G3). exists pt1, c0. split; [exact G1|]. split.
      * destruct (Nat.eq_dec jj j) as [->|NE']; [|rewrite (G3 NE'); exact N3]. rewrite (G2 eq_refl), X3, nth_upd. assert (pt0 = pt) by congruence. subst pt0. destruct (Nat.eqb_spec i ii) as [->|]; [congruence|exact N3].
      * rewrite wire_app, WT, app_nil_r by congruence. exact N4.
  - intros k1 k2 w1 w2 jj ii H1 H2 H3 H4. destruct (PEER _ _ H1) as (w3 & W1 & W2). destruct (PEER _ _ H2) as (w4 & W3 & W4). eapply (y_inj _ _ _ V); [exact W1|exact W3|rewrite W2; exact H3|rewrite W4; exact H4].
  - intros jj pt0 ii H1 H2. assert (OLD : exists pt1, nth_error (y_points y) jj = Some pt1 /\ ii < length (p_conns (pt_cp pt1))).
    { destruct (point_upd _ _ _ _ _ _ HJ H1) as [[-> ->]|[NE H1']]; [exists pt; split; [exact HJ|cbn [pt_cp] in H2; rewrite X3, upd_length in H2; exact H2]|eauto]. }
    destruct OLD as (pt1 & O1 & O2). destruct (y_all _ _ _ V _ _ _ O1 O2) as (k' & w' & W1 & W2). destruct (PEER' _ _ W1) as (w3 & W3 & W4). exists k', w3. split; [exact W3|congruence].
  - intros k' jj. rewrite (ask_unannounced _ _ _ _ SIL), (y_ask _ _ _ V). split; intros (w' & W1 & W2); [destruct (PEER' _ _ W1) as (w3 & W3 & W4)|destruct (PEER _ _ W1) as (w3 & W3 & W4)]; exists w3; (split; [exact W3|congruence]).
  - intros k' jj ii. rewrite (conn_unannounced _ _ _ _ _ SIL), (y_conn _ _ _ V). split; intros (w' & W1 & W2); [destruct (PEER' _ _ W1) as (w3 & W3 & W4)|destruct (PEER _ _ W1) as (w3 & W3 & W4)]; exists w3; (split; [exact W3|congruence]).
  - intros k' s w' t HI. unfold wires. rewrite upd_length. apply in_app_or in HI. destruct HI as [HI|HI]; [exact (y_sent _ _ _ V _ _ _ _ HI)|]. apply in_app_or in HI. destruct HI as [HI|HI].
    + apply not_point in HI. destruct HI as [c1 HI]. discriminate HI.
    + apply in_put in HI. destruct HI as (w1 & t1 & HI). injection HI as -> _ _ _. apply nth_error_Some. congruence.
Qed.
Lemma map_same {A} (l : list A) (f : A -> A) : (forall x, f x = x) -> map f l = l.
Proof. intros H. rewrite <- (map_id l) at 2. apply map_ext. exact H. Qed.
Lemma dispatch_ws up meth path s : dispatch up meth = BWebsocket -> cstep (VHttp up meth path) s = cstep (VHttp true "GET" path) s.
Proof. unfold cstep. intros ->. reflexivity. Qed.
Lemma ylink_inv j pt x i e y y' o : ylink j pt x i e y = Some (y', o) -> exists k w c q p' oo,
  nth_error (y_wires y) k = Some w /\ w_peer w = Met j i /\ nth_error (p_conns (pt_cp pt)) i = Some c /\ wire_allows Point e w = Some q /\ xstep x (pt_cp pt) = Some (p', oo) /\
  y' = MkY (y_central y) (set_point j pt p' y) (upd k (MkW (w_peer w) (w_in w ++ map snd (finished e c)) q) (y_wires y)) /\ o = map (AtPoint j) oo ++ put k Point (finished e c).
Proof.
  unfold ylink. intros H. destruct (find_wire j i (y_wires y)) as [k|] eqn:EF; [|discriminate H]. destruct (nth_error (p_conns (pt_cp pt)) i) as [c|]; [|discriminate H].
  destruct (find_wire_some _ _ _ _ EF) as (w & W1 & W2). rewrite W1 in H. destruct (wire_allows Point e w) as [q|] eqn:EQ; [|discriminate H]. destruct (xstep x (pt_cp pt)) as [[p' oo]|] eqn:EX; [|discriminate H]. injection H as <- <-.
  exists k, w, c, q, p', oo. repeat split; assumption.
Qed.
Lemma yinv_step cfg v y y' o tr : yinv cfg y tr -> ystep v y = Some (y', o) -> yinv cfg y' (tr ++ o).
Proof.
  intros V H. destruct v as [v|j|j k|j x]; unfold ystep in H.
  - unfold ycentral in H. destruct (cstep v (y_central y)) as [[s' oo]|] eqn:E; [|discriminate H].
    destruct v as [up meth path|k|k ok|k e|id v url|id|id|f|f|n].
    1:{ injection H as <- <-. destruct (dispatch up meth) eqn:ED.
        - rewrite (dispatch_ws _ _ _ _ ED) in E. pose proof (keep_new _ _ _ _ _ _ Stranger V E (or_introl eq_refl)) as N. cbn beta iota in N. rewrite app_nil_r in N. exact N.
        - eapply keep_central; [exact V|exact E|discriminate|cbn beta iota; rewrite ED; discriminate].
        - eapply keep_central; [exact V|exact E|discriminate|cbn beta iota; rewrite ED; discriminate]. }
    3:{ destruct (nth_error (y_wires y) k) as [w|] eqn:EW; [|discriminate H]. destruct (nth_error (s_ks (y_central y)) k) as [x|] eqn:EX; [|discriminate H]. destruct (central_allows e w) as [q|] eqn:EQ; [|discriminate H]. injection H as <- <-.
        exact (keep_conn _ _ _ _ _ _ _ _ _ _ V E EW EX EQ). }
    all: injection H as <- <-; eapply keep_central; [exact V|exact E|discriminate|exact I].
  - destruct (nth_error (y_points y) j) as [pt|] eqn:EJ; [|discriminate H]. destruct (p_crash (pt_cp pt)); [discriminate H|]. destruct (p_pc (pt_cp pt)); try discriminate H. destruct (existsb (dialling j) (y_wires y)); [discriminate H|].
    destruct (url_path (pt_url pt ++ "/" ++ pt_id pt)) as [path|] eqn:EU; [|discriminate H]. destruct (cstep (VHttp true "GET" path) (y_central y)) as [[s' oo]|] eqn:E; [|discriminate H]. injection H as <- <-.
    exact (keep_new _ _ _ _ _ _ (Dialling j) V E (or_intror (ex_intro _ j (conj eq_refl (known_get _ _ _ _ _ _ V EJ EU))))).
  - destruct (nth_error (y_points y) j) as [pt|] eqn:EJ; [|discriminate H]. destruct (nth_error (y_wires y) k) as [w|] eqn:EW; [|discriminate H]. destruct (nth_error (s_ks (y_central y)) k) as [x|] eqn:EX; [|discriminate H].
    destruct (dialling j w && shaken (k_pc x)) eqn:ED; [|discriminate H]. destruct (xstep (XDial true) (pt_cp pt)) as [[p' oo]|] eqn:E; [|discriminate H]. injection H as <- <-.
    apply andb_prop in ED. destruct ED as [ED _]. unfold dialling in ED. destruct (w_peer w) as [|jj|jj ii|jj] eqn:EP; try discriminate ED. apply Nat.eqb_eq in ED. subst jj.
    exact (keep_meet _ _ _ _ _ _ _ _ _ _ V EJ EW EX EP E).
  - destruct (nth_error (y_points y) j) as [pt|] eqn:EJ; [|discriminate H].
    assert (Q : forall x p' oo, xstep x (pt_cp pt) = Some (p', oo) -> (match x with XConn _ _ | XSend _ _ _ | XDial true => False | _ => True end) -> yinv cfg (MkY (y_central y) (set_point j pt p' y) (y_wires y)) (tr ++ map (AtPoint j) oo)).
    { intros x0 p' oo E HX. pose proof (xstep_conns _ _ _ _ E) as C. assert (C' : p_conns p' = p_conns (pt_cp pt) /\ forall i, link i oo = []) by (destruct x0 as [[]| | | | | |]; try exact C; destruct HX).
      pose proof (keep_point _ _ _ _ _ _ _ _ (fun w => w) V EJ E (proj1 C') (proj2 C') (fun w => or_introl eq_refl)) as K. rewrite (map_same _ (fun w => w)) in K by reflexivity. exact K. }
    destruct x as [ok| |i e|inh id q| | |].
    + destruct ok; [discriminate H|]. destruct (xstep (XDial false) (pt_cp pt)) as [[p' oo]|] eqn:E; [|discriminate H]. injection H as <- <-.
      pose proof (xstep_conns _ _ _ _ E) as C. cbn beta iota in C. refine (keep_point _ _ _ _ _ _ _ _ _ V EJ E (proj1 C) (proj2 C) _).
      intros w. destruct (dialling j w) eqn:ED; [|left; reflexivity]. right. exists j. unfold dialling in ED. destruct (w_peer w); try discriminate ED. apply Nat.eqb_eq in ED. subst. auto.
    + destruct (xstep XStep (pt_cp pt)) as [[p' oo]|] eqn:E; [|discriminate H]. injection H as <- <-. exact (Q _ _ _ E I).
    + destruct (ylink_inv _ _ _ _ _ _ _ _ H) as (k & w & c & q & p' & oo & A1 & A2 & A3 & A4 & A5 & -> & ->). refine (keep_link _ _ _ _ _ _ _ _ _ _ _ _ _ _ V EJ A1 A2 A3 A4 A5 (or_introl eq_refl)).
    + destruct (ylink_inv _ _ _ _ _ _ _ _ H) as (k & w & c & q' & p' & oo & A1 & A2 & A3 & A4 & A5 & -> & ->). refine (keep_link _ _ _ _ _ _ _ _ _ _ _ _ _ _ V EJ A1 A2 A3 A4 A5 (or_intror (conj eq_refl _))). eauto.
    + destruct (xstep XCancel (pt_cp pt)) as [[p' oo]|] eqn:E; [|discriminate H]. injection H as <- <-. exact (Q _ _ _ E I).
    + destruct (xstep XWaitC (pt_cp pt)) as [[p' oo]|] eqn:E; [|discriminate H]. injection H as <- <-. exact (Q _ _ _ E I).
    + destruct (xstep XWaitD (pt_cp pt)) as [[p' oo]|] eqn:E; [|discriminate H]. injection H as <- <-. exact (Q _ _ _ E I).
Qed.
Theorem yreach_inv cfg y tr : yreach cfg y tr -> yinv cfg y tr.
Proof. induction 1 as [|y tr v y' o HR IH HS]; [apply yinv_0|exact (yinv_step _ _ _ _ _ _ IH HS)]. Qed.
Lemma yreach_run cfg vs y y' o tr : yreach cfg y tr -> yrun vs y = Some (y', o) -> yreach cfg y' (tr ++ o).
Proof.
  revert y tr o. induction vs as [|v vs IH]; intros y tr o HR H; cbn [yrun] in H; [injection H as <- <-; rewrite app_nil_r; exact HR|].
  destruct (ystep v y) as [[y1 o1]|] eqn:E; [|discriminate H]. destruct (yrun vs y1) as [[y2 o2]|] eqn:E2; [|discriminate H].
  injection H as <- <-. rewrite app_assoc. eapply IH; [|exact E2]. econstructor; eassumption.
Qed.
Lemma yreach_of_run cfg vs y o : yrun vs (sys0 cfg) = Some (y, o) -> yreach cfg y o.
Proof. intros H. change o with ([] ++ o). eapply yreach_run; [constructor|exact H]. Qed.

(** ** From a wire to the whole *)
Definition unpick (k : nat) (at_ : nat * nat) (x : nobs) : yobs :=
  match x with NObs s o => seen k (fst at_) (snd at_) s o | NSent s w t => OnWire k s w t end.
Lemma pick_unpick k j i x y : In x (pick_wire k (Some (j, i)) y) -> y = unpick k (j, i) x.
Proof.
  destruct y as [o|j' o|k' j'|k' j' i'|k' s w t]; cbn [pick_wire]; try (intros []).
  - destruct o; try (intros []). destruct (Nat.eqb_spec k k0) as [<-|]; [|intros []]. intros [<-|[]]. reflexivity.
  - destruct o; try (intros []). cbn [here]. destruct (Nat.eqb_spec j j') as [<-|]; [|intros []]. destruct (Nat.eqb_spec i k0) as [<-|]; [|intros []]. intros [<-|[]]. reflexivity.
  - destruct (Nat.eqb_spec k k') as [<-|]; [|intros []]. intros [<-|[]]. reflexivity.
Qed.
Lemma unpick_pick k j i x : pick_wire k (Some (j, i)) (unpick k (j, i) x) = [x].
Proof. destruct x as [[|] o|s w t]; cbn; rewrite ?Nat.eqb_refl; reflexivity. Qed.
Lemma pick_one k p y : length (pick_wire k p y) <= 1.
Proof.
  destruct y as [o|j' o|k' j'|k' j' i'|k' s w t]; cbn [pick_wire]; try (cbn; lia).
  - destruct o; try (cbn; lia). destruct (Nat.eqb k k0); cbn; lia.
  - destruct o; try (cbn; lia). destruct (here p j' k0); cbn; lia.
  - destruct (Nat.eqb k k'); cbn; lia.
Qed.
Lemma in_wire k j i tr x : In x (wire_trace k (Some (j, i)) tr) <-> In (unpick k (j, i) x) tr.
Proof.
  unfold wire_trace. rewrite in_flat_map. split.
  - intros (y & H1 & H2). rewrite <- (pick_unpick _ _ _ _ _ H2). exact H1.
  - intros H. exists (unpick k (j, i) x). split; [exact H|]. rewrite unpick_pick. left. reflexivity.
Qed.
Lemma wire_split k p tr : forall a x b, wire_trace k p tr = a ++ x :: b -> exists u z v, tr = u ++ z :: v /\ wire_trace k p u = a /\ pick_wire k p z = [x] /\ wire_trace k p v = b.
Proof.
  induction tr as [|z tr IH]; intros a x b H; [destruct a; discriminate H|]. unfold wire_trace in H. cbn [flat_map] in H. fold (wire_trace k p tr) in H.
  pose proof (pick_one k p z) as L. destruct (pick_wire k p z) as [|y [|y' r]] eqn:E; [| |cbn in L; lia].
  - destruct (IH _ _ _ H) as (u & z' & v & -> & H1 & H2 & H3). exists (z :: u), z', v. split; [reflexivity|]. split; [unfold wire_trace; cbn [flat_map]; rewrite E; exact H1|]. auto.
  - cbn [app] in H. destruct a as [|a0 a]; cbn [app] in H; injection H as -> H.
    + exists [], z, tr. auto.
    + destruct (IH _ _ _ H) as (u & z' & v & -> & H1 & H2 & H3). exists (z :: u), z', v. split; [reflexivity|]. split; [unfold wire_trace; cbn [flat_map]; rewrite E; cbn [app]; f_equal; exact H1|]. auto.
Qed.
Lemma happened_whole k j i xs : forall tr, happened xs (wire_trace k (Some (j, i)) tr) -> in_turn (map (unpick k (j, i)) xs) tr.
Proof.
  induction xs as [|x xs IH]; intros tr H; cbn [map in_turn happened] in *; [exact I|]. destruct H as (a & b & HT & H).
  destruct (wire_split _ _ _ _ _ _ HT) as (u & z & v & -> & _ & HZ & HV). exists u, v. rewrite (pick_unpick k j i x z) by (rewrite HZ; left; reflexivity). split; [reflexivity|]. apply IH. rewrite HV. exact H.
Qed.
Lemma in_turn_In xs : forall tr x, in_turn xs tr -> In x xs -> In x tr.
Proof.
  induction xs as [|y xs IH]; intros tr x H HI; [destruct HI|]. cbn [in_turn] in H. destruct H as (a & b & -> & H). apply in_or_app. right.
  destruct HI as [->|HI]; [left; reflexivity|right; exact (IH _ _ H HI)].
Qed.
(** The wire of a connection *)
Lemma met_net cfg y tr k j i : yreach cfg y tr -> In (Connected k j i) tr -> exists n cid, nreach n (wire_trace k (Some (j, i)) tr) /\ known_as cfg j cid /\ In (AtCentral (OArrived k cid)) tr.
Proof.
  intros HR HC. pose proof (yreach_inv _ _ _ HR) as V. apply (y_conn _ _ _ V) in HC. destruct HC as (w & W1 & W2).
  assert (LK : k < length (s_ks (y_central y))) by (rewrite <- (y_len _ _ _ V); apply nth_error_Some; congruence). destruct (nth_some _ _ LK) as [x HX].
  pose proof (y_net _ _ _ V _ _ _ W1 HX) as N. unfold joined in N. rewrite W2 in N. destruct N as (N1 & pt & c & _ & _ & N4). eexists. exists (k_id x). split; [exact N4|]. split; [exact N1|].
  pose proof (proj1 (i_life _ _ (creach_inv _ _ (y_c _ _ _ V))) _ _ HX) as S.
  assert (A : In (OArrived k (k_id x)) (life k (central tr))).
  { unfold script in S. destruct (k_pc x); repeat match type of S with exists _, _ => let f := fresh "f" in destruct S as [f S] end; rewrite S; left; reflexivity. }
  apply life_in in A. unfold central in A. apply in_flat_map in A. destruct A as (z & A1 & A2). destruct z; try destruct A2 as [A2|[]]; try destruct A2. exact A1.
Qed.
