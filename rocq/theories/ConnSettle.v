(** Every schedule of a connection's own steps ends, and it ends in rest. *)
From Coq Require Import Arith Wellfounded.
From Verif Require Import GoBase Utf8 Json Float64 Lang Types Codec Any Tables Registry Frame Conn SpecConn ConnBase ConnInv ConnSend ConnEvid ConnMore ConnFate ConnLast ConnTop ConnServe SpecLive SpecSettle ConnLive.
Open Scope string_scope.
Open Scope list_scope.
Opaque marshal_message read_text unmarshal_request call_to_request result_to_response utf8_valid msg_ok is_request action_of.

(** ** A measure *)
Definition srank (p : spc) : nat := match p with SReg1 => 8 | SReg2 => 7 | SLock => 6 | SWrite _ _ => 5 | SSel => 4 | SWait _ => 3 | SDel1 _ => 2 | SDel2 _ => 1 | _ => 0 end.
Definition rrank (p : rpc) : nat :=
  match p with
  | RRead => 0 | RDecode _ => 9 | RLook _ => 6 | RConv _ _ => 5 | RChan _ _ => 4 | RPut _ _ => 3 | RReq _ _ => 8 | RLock _ _ => 4 | RWrite _ _ _ _ => 3
  | RClose _ => 4 | RCancel _ => 3 | RRes _ => 2 | RDone => 0
  end.
Definition lrank (p : lpc) : nat := match p with LDispatch _ _ => 8 | LRun _ => 7 | LLock _ _ => 6 | LWrite _ _ _ _ => 5 | LTop => 4 | LSel _ => 3 | LClose => 2 | LCancel => 1 | LGone => 0 end.
Definition sleft (p : spc) : nat := match p with SWrite _ r => String.length r | _ => 0 end.
Definition rleft (p : rpc) : nat := match p with RWrite _ _ _ r => String.length r | _ => 0 end.
Definition lleft (p : lpc) : nat := match p with LWrite _ _ _ r => String.length r | _ => 0 end.
Definition sumf {A} (f : A -> nat) (l : list A) : nat := fold_right (fun x n => f x + n) 0 l.
Definition rank (c : conn) : nat := sumf (fun s => srank (sd_pc s)) (c_senders c) + sumf rrank (c_readers c) + lrank (c_loop c) + c_closers c + (if c_crash c then 0 else 1).
Definition left_to_write (c : conn) : nat := sumf (fun s => sleft (sd_pc s)) (c_senders c) + sumf rleft (c_readers c) + lleft (c_loop c).

Lemma sumf_upd {A} (f : A -> nat) l : forall i x y, nth_error l i = Some x -> sumf f (upd i y l) + f x = sumf f l + f y.
Proof. unfold sumf. induction l as [|a l IH]; intros [|i] x y H; cbn in *; try discriminate H; [injection H as ->; lia|]. specialize (IH _ _ y H). lia. Qed.
Lemma sumf_app {A} (f : A -> nat) l1 l2 : sumf f (l1 ++ l2) = sumf f l1 + sumf f l2.
Proof. unfold sumf. induction l1 as [|a l1 IH]; cbn in *; [reflexivity|]. rewrite IH. lia. Qed.
Lemma sdrop_len n : forall s, String.length (sdrop n s) <= String.length s.
Proof. induction n as [|n IH]; intros [|a s]; cbn; try lia. specialize (IH s). lia. Qed.
Lemma sdrop_less n s : stake n s <> "" -> String.length (sdrop n s) < String.length s.
Proof. destruct n, s; cbn; try congruence. intros _. pose proof (sdrop_len n s). lia. Qed.

Definition below (c' c : conn) : Prop := rank c' < rank c \/ rank c' = rank c /\ left_to_write c' < left_to_write c.
Ltac sums := repeat match goal with
  | HX : nth_error ?l ?i = Some ?x |- context [sumf ?f (upd ?i ?y ?l)] =>
    let K := fresh "K" in pose proof (sumf_upd f l i x y HX) as K; cbv beta in K; csimp_in K; revert K; generalize (sumf f (upd i y l)); intros ? K
  end.
Lemma own_below ro e c c' o : own e = true -> step ro e c = Some (c', o) -> o <> [OBytes ""] -> below c' c.
Proof.
  intros HO H HB. unfold below, rank, left_to_write.
  step_inv H e; try discriminate HO; csimp; rewrite ?sumf_app; sums; repeat match goal with HX : c_crash _ = _ |- _ => rewrite HX; clear HX end;
    repeat match goal with HX : sd_pc _ = _ |- _ => rewrite HX in *; clear HX end; repeat match goal with HX : c_loop _ = _ |- _ => rewrite HX in *; clear HX end;
    repeat match goal with HX : c_closers _ = _ |- _ => rewrite HX in *; clear HX end;
    cbn [srank rrank lrank sleft rleft lleft sumf fold_right] in *; try (left; lia).
  all: assert (X : stake n rest <> "") by (intros X; apply HB; rewrite X; reflexivity); apply sdrop_less in X; right; lia.
Qed.
Lemma below_wf : well_founded below.
Proof.
  intros c. remember (rank c) as n eqn:EN. revert c EN. induction n as [n IH] using lt_wf_ind. intros c EN.
  remember (left_to_write c) as m eqn:EM. revert c EN EM. induction m as [m IH2] using lt_wf_ind. intros c EN EM.
  constructor. intros c' [H|[H1 H2]]; [eapply IH; [|reflexivity]; lia|eapply IH2; [|congruence|reflexivity]; lia].
Qed.

(** ** Rest *)
Definition inv_z (c : conn) : Prop :=
  (forall r m, nth_error (c_readers c) r = Some (RLook m) -> match m with MCall _ _ _ => False | _ => True end) /\
  (forall r, c_loop c = LSel r -> exists p, nth_error (c_readers c) r = Some p /\ live p = true).
Lemma inv_z_step ro e c c' o : inv_a c -> inv_z c -> step ro e c = Some (c', o) -> inv_z c'.
Proof.
  intros HA [Z1 Z2] H. split.
  - intros r9 m9 HN. revert HN. step_inv H e; csimp; intros HN; try exact (Z1 _ _ HN).
    all: first [apply nth_upd_inv in HN; destruct HN as [[-> HN]|[_ HN]]; [|exact (Z1 _ _ HN)]|apply nth_app_inv in HN; destruct HN as [HN|[-> HN]]; [exact (Z1 _ _ HN)|]]; try discriminate HN; injection HN as ->; exact I.
  - intros r9 HL. revert HL. step_inv H e; csimp; intros HL; try exact (Z2 _ HL); try discriminate HL; try congruence.
    all: try (injection HL as <-; rewrite nth_error_app2, Nat.sub_diag; [eexists; split; [reflexivity|reflexivity]|lia]).
    all: try (destruct (Z2 _ HL) as (p9 & P1 & P2); rewrite nth_upd; match goal with |- context [Nat.eqb ?a ?b] => destruct (Nat.eqb_spec a b) as [EQ|EQ]; [subst a|eexists; split; [exact P1|exact P2]] end; rewrite P1; eexists; split; [reflexivity|reflexivity]).
    all: try (destruct ro; [destruct e as [[]|]|]; discriminate HL).
Qed.
Lemma reach_inv_z ro c tr : reach ro c tr -> inv_z c.
Proof.
  induction 1 as [|c tr e c' o HR IH HS]; [split; [intros r m H; destruct r; discriminate H|intros r H; discriminate H]|].
  exact (inv_z_step _ _ _ _ _ (v_a _ _ _ (reach_inv _ _ _ HR)) IH HS).
Qed.
(** No own step can be taken: everything is at rest. *)
Definition rest (c : conn) : Prop :=
  (forall i sd, nth_error (c_senders c) i = Some sd -> sover (sd_pc sd) = true) /\ c_lock c = None /\
  (c_loop c = LGone \/ exists r, c_loop c = LSel r /\ c_done c = false /\ (nth_error (c_readers c) r = Some RRead \/ exists ch x, nth_error (c_readers c) r = Some (RPut ch x))).
Definition own2 (e : event) : bool := own e && match e with EUserCancel => false | _ => true end.
Definition own_enabled (ro : role) (c : conn) : Prop := exists e c' o, own2 e = true /\ step ro e c = Some (c', o) /\ forall s, o <> [OBytes s].
Lemma own_or_rest0 ro c tr : reach ro c tr -> c_crash c = false -> own_enabled ro c \/ rest c.
Proof.
  intros HR HC. pose proof (reach_inv _ _ _ HR) as V. destruct (reach_inv_z _ _ _ HR) as [Z1 Z2]. pose proof (reach_inv_u _ _ _ HR) as [_ U2].
  assert (GO : forall e c' o, own2 e = true -> step ro e c = Some (c', o) -> (forall s, o <> [OBytes s]) -> own_enabled ro c \/ rest c).
  { intros e c' o H1 H2 H3. left. exists e, c', o. auto. }
  destruct (c_lock c) as [w|] eqn:EK.
  { apply (v_l _ _ _ V) in EK. unfold is_writing in EK. destruct (writing w c) as [[t rs]|] eqn:EW; [|discriminate EK].
    apply (GO (EWFail w) (fst (end_write w false (set_wbroken (set_lock None c)))) (snd (end_write w false (set_wbroken (set_lock None c))))); [reflexivity|unfold step; rewrite HC, EW, <- surjective_pairing; reflexivity|].
    intros s. unfold end_write. destruct w as [i|j|]; csimp; [destruct (nth_error (c_senders c) i)|destruct (nth_error (c_readers c) j) as [[]|]|destruct (c_loop c)]; cbn [snd]; discriminate. }
  assert (NW : forall w, is_writing w c = false) by (intros w; destruct (is_writing w c) eqn:E; [apply (v_l _ _ _ V) in E; congruence|reflexivity]).
  destruct (existsb (fun sd => negb (sover (sd_pc sd))) (c_senders c)) eqn:EX.
  { apply existsb_exists in EX. destruct EX as (sd & HI & HX). apply In_nth_error in HI. destruct HI as [i HN]. apply negb_true_iff in HX.
    assert (G2 : forall c' o, sender_step i sd c = Some (c', o) -> (forall s, o <> [OBytes s]) -> own_enabled ro c \/ rest c).
    { intros c' o H1. eapply (GO (EStep i)); [reflexivity|unfold step; rewrite HC, HN; exact H1]. }
    unfold sender_step in G2. destruct (sd_pc sd) eqn:P; try discriminate HX; try (eapply G2; [reflexivity|discriminate]).
    - rewrite EK in G2. unfold crash in G2. destruct (marshal_message (sd_call sd)); (eapply G2; [reflexivity|discriminate]).
    - exfalso. specialize (NW (WS i)). unfold is_writing, writing in NW. rewrite HN, P in NW. discriminate NW.
    - eapply (GO (ETimeout i)); [reflexivity|unfold step; rewrite HC, HN, P; reflexivity|discriminate]. }
  assert (SO : forall i sd, nth_error (c_senders c) i = Some sd -> sover (sd_pc sd) = true) by (intros i sd HN; pose proof (existsb_nth _ _ _ _ EX HN) as X; apply negb_false_iff in X; exact X).
  assert (LO : forall c' o, loop_step ro c = Some (c', o) -> (forall s, o <> [OBytes s]) -> own_enabled ro c \/ rest c).
  { intros c' o H1. eapply (GO ELoop); [reflexivity|unfold step; rewrite HC; exact H1]. }
  unfold loop_step in LO. destruct (c_loop c) as [|r|q id|id|id x|id x t rs| | |] eqn:EL.
  - eapply LO; [reflexivity|discriminate].
  - destruct (c_done c) eqn:ED; [eapply (GO ESeeClose); [reflexivity|unfold step; rewrite HC, EL, ED; reflexivity|discriminate]|].
    destruct (Z2 r eq_refl) as (p & P1 & P2).
    assert (G2 : forall c' o, reader_step r p c = Some (c', o) -> (forall s, o <> [OBytes s]) -> own_enabled ro c \/ rest c).
    { intros c' o H1. eapply (GO (EReader r)); [reflexivity|unfold step; rewrite HC, P1; exact H1]. }
    unfold reader_step, crash in G2. destruct p; try discriminate P2; try (eapply G2; [reflexivity|discriminate]).
    + right. split; [exact SO|]. split; [exact EK|]. right. exists r. auto.
    + destruct (read_text text) as [m| |]; [|eapply G2; [reflexivity|discriminate]..]. destruct m as [i a pl| |]; [destruct (call_to_request a pl)|..]; (eapply G2; [reflexivity|discriminate]).
    + pose proof (Z1 _ _ P1) as Z3. destruct (lookup (id_of m) (c_sent c)); [|eapply G2; [reflexivity|discriminate]]. destruct m; [destruct Z3|..]; (eapply G2; [reflexivity|discriminate]).
    + destruct (lookup id (c_sent c)) as [a|]; [|eapply G2; [reflexivity|discriminate]].
      destruct (result_to_response a (match p with PAny x => x | _ => ANull end)) as [[m|e]|e|] eqn:ER; try (eapply G2; [reflexivity|discriminate]). exfalso. clear - ER.
      Transparent result_to_response. unfold result_to_response in ER. Opaque result_to_response.
      destruct (req_from_action a); [|discriminate ER]. destruct (response_of s); [|discriminate ER]. destruct (marshal_any _); [destruct (unmarshal_msg _ _)|..]; discriminate ER.
    + right. split; [exact SO|]. split; [exact EK|]. right. exists r. split; [exact EL|]. split; [exact ED|]. right. eauto.
    + eapply (GO (ETake r)); [reflexivity|unfold step; rewrite HC, EL, P1; reflexivity|discriminate].
    + rewrite EK in G2. destruct (marshal_message _); (eapply G2; [reflexivity|discriminate]).
    + exfalso. specialize (NW (WR r)). unfold is_writing, writing in NW. rewrite P1 in NW. discriminate NW.
    + eapply (GO EResult); [reflexivity|unfold step; rewrite HC, EL, P1; reflexivity|discriminate].
  - destruct ro; [destruct (is_cp_request (m_ty q))|]; (eapply LO; [reflexivity|discriminate]).
  - assert (CO : calls_over c = true).
    { unfold calls_over. apply negb_true_iff. match goal with |- ?g = false => destruct g eqn:EE end; [|reflexivity]. exfalso. apply existsb_exists in EE. destruct EE as (sd & HI & HX). apply andb_true_iff in HX. destruct HX as [HX1 HX2]. apply negb_true_iff in HX2.
      apply In_nth_error in HI. destruct HI as [i HN]. specialize (SO _ _ HN). destruct (sd_pc sd) eqn:P; try discriminate SO; [discriminate HX2|]. destruct (U2 _ _ HN P) as [X|X]; [congruence|rewrite ?EL in X; discriminate X]. }
    eapply (GO (EReturn (inr ""))); [reflexivity|unfold step; rewrite HC, EL; unfold return_ok; cbn [hret_ok]; rewrite CO; reflexivity|discriminate].
  - rewrite EK in LO. unfold crash in LO. destruct (marshal_message _); (eapply LO; [reflexivity|discriminate]).
  - exfalso. specialize (NW WL). unfold is_writing, writing in NW. rewrite EL in NW. discriminate NW.
  - eapply LO; [reflexivity|discriminate].
  - eapply LO; [reflexivity|discriminate].
  - right. split; [exact SO|]. split; [exact EK|]. left. exact EL.
Qed.
Lemma own_or_rest ro c tr : reach ro c tr -> c_crash c = false -> (exists c' o, own_step ro c c' o) \/ rest c /\ c_closers c = 0.
Proof.
  intros HR HC. destruct (c_closers c) as [|n] eqn:EC.
  - destruct (own_or_rest0 _ _ _ HR HC) as [(e & c' & o & H1 & H2 & H3)|H]; [left|right; auto]. exists c', o, e. unfold own2 in H1. apply andb_true_iff in H1. destruct H1 as [H1 _]. auto.
  - left. eexists _, _, EUserCancel. split; [reflexivity|]. split; [unfold step; rewrite HC, EC; reflexivity|discriminate].
Qed.
(** Whatever the schedule *)
Lemma settles ro (P : conn -> list obs -> Prop) :
  (forall c tr, reach ro c tr -> c_crash c = true -> P c tr) -> (forall c tr, reach ro c tr -> c_crash c = false -> rest c -> c_closers c = 0 -> P c tr) -> forall c tr, reach ro c tr -> inevitably (own_step ro) P c tr.
Proof.
  intros P1 P2 c. induction c as [c IH] using (well_founded_induction below_wf). intros tr HR. destruct (c_crash c) eqn:HC; [apply iv_now; exact (P1 _ _ HR HC)|].
  destruct (own_or_rest _ _ _ HR HC) as [GO|[RS RC]]; [|apply iv_now; exact (P2 _ _ HR HC RS RC)].
  apply iv_later; [exact GO|]. intros c' o (e & O1 & O2 & O3). apply IH; [exact (own_below _ _ _ _ _ O1 O2 O3)|exact (reach_S _ _ _ _ _ _ HR O2)].
Qed.

(** A reader that delivers a response has read it last, and it answers a call that was made. *)
Definition tardy (tr : list obs) (id : string) : Prop := exists text i q, last1 (reads tr) = [text] /\ response_to text id /\ In (i, (id, q)) (sends tr).
Definition yfact (tr : list obs) (p : rpc) : Prop := match p with RConv id _ | RChan id _ => tardy tr id | RPut _ _ => exists id, tardy tr id | _ => True end.
Definition inv_y (c : conn) (tr : list obs) : Prop := forall r p, nth_error (c_readers c) r = Some p -> yfact tr p.
Lemma tardy_app tr o id : reads o = [] -> tardy tr id -> tardy (tr ++ o) id.
Proof.
  intros HO (t & i & q & H1 & H2 & H3). exists t, i, q. unfold reads, sends in *. rewrite !pick_app, HO, app_nil_r. split; [exact H1|]. split; [exact H2|]. apply in_or_app. left. exact H3.
Qed.
Lemma yfact_app tr o p : reads o = [] -> yfact tr p -> yfact (tr ++ o) p.
Proof. intros HO. destruct p; cbn [yfact]; auto using tardy_app. intros (id & H). exists id. apply tardy_app; assumption. Qed.
Lemma inv_y_step ro e c c' o tr : reach ro c tr -> inv_y c tr -> step ro e c = Some (c', o) -> inv_y c' (tr ++ o).
Proof.
  intros HR HY H r9 p9 HN. pose proof (reach_inv _ _ _ HR) as V. destruct (v_e _ _ _ V) as [F1 _]. pose proof (v_a _ _ _ V) as HA.
  assert (LK : forall r m a, nth_error (c_readers c) r = Some (RLook m) -> lookup (id_of m) (c_sent c) = Some a -> tardy tr (id_of m)).
  { intros r m a H1 H2. pose proof (F1 _ _ H1) as F. cbn [rfact] in F. destruct F as (text & F2 & F3 & F4). destruct (pending_sent _ _ _ (id_of m) HR) as (i & q & HI); [unfold pending; congruence|].
    exists text, i, q. split; [exact F2|]. split; [|exact HI]. destruct m as [i9 a9 p9'|i9 p9'|i9 x d d']; [discriminate F4| |]; cbn [id_of].
    - left. destruct (read_result _ _ _ F3) as [z ->]. exists z. apply inbound_result. exact F3.
    - right. exists x, d, d'. apply inbound_error. exact F3. }
  destruct (list_eq_dec String.string_dec (reads o) []) as [HO|HO].
  - assert (K : forall r q, nth_error (c_readers c) r = Some q -> yfact (tr ++ o) q) by (intros r q HQ; apply yfact_app; [exact HO|exact (HY _ _ HQ)]).
    assert (LK2 : forall r m a, nth_error (c_readers c) r = Some (RLook m) -> lookup (id_of m) (c_sent c) = Some a -> tardy (tr ++ o) (id_of m)) by (intros r m a H1 H2; apply tardy_app; [exact HO|exact (LK _ _ _ H1 H2)]).
    clear LK HO HY F1 V HR. revert HN K LK2. generalize (tr ++ o). intros tr2.
    step_inv H e; csimp; intros HN K LK2; try exact (K _ _ HN).
    all: first [apply nth_upd_inv in HN; destruct HN as [[-> ->]|[_ HN]]; [|exact (K _ _ HN)]; try exact I|apply nth_app_inv in HN; destruct HN as [HN|[-> ->]]; [exact (K _ _ HN)|exact I]].
    all: cbn [yfact]; first [exact (LK2 _ _ _ E E1)|exact (K _ _ E)|eexists; exact (K _ _ E)].
  - assert (R9 : exists r text, e = ERead r text) by (revert HO; clear - H; step_inv H e; intros HO; try (exfalso; apply HO; reflexivity); eauto).
    destruct R9 as (r & text & ->). unfold step in H. destruct (c_crash c); [discriminate H|]. destruct (nth_error (c_readers c) r) as [q|] eqn:E; [|discriminate H]. destruct q; try discriminate H. destruct (c_rbroken c); [discriminate H|]. injection H as <- <-.
    csimp_in HN. apply nth_upd_inv in HN. destruct HN as [[-> ->]|[NE HN]]; [exact I|].
    destruct (active p9) eqn:AP; [|destruct p9; try discriminate AP; exact I]. destruct HA as [_ A2]. destruct (A2 _ _ HN AP) as [X1 _]. destruct (A2 _ _ E eq_refl) as [X2 _]. lia.
Qed.
Lemma reach_inv_y ro c tr : reach ro c tr -> inv_y c tr.
Proof. induction 1 as [|c tr e c' o HR IH HS]; [intros r p H; destruct r; discriminate H|exact (inv_y_step _ _ _ _ _ _ HR IH HS)]. Qed.
(** The loop leaves only a connection that has closed. *)
Lemma left_done ro c tr : reach ro c tr -> c_crash c = false -> c_loop c = LGone -> c_done c = true.
Proof.
  induction 1 as [|c tr e c' o HR IH HS]; [discriminate|]. revert IH. step_inv HS e; csimp; intros IH HC HL; auto; try discriminate HL; try discriminate HC; try (match goal with HX : c_loop _ = _ |- _ => rewrite HX in * end; auto; discriminate).
Qed.
