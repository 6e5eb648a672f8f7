(** Undisturbed, both ends come to rest, whatever the schedule, and then every call has been answered. *)
From Coq Require Import Arith Wellfounded.
From Verif Require Import GoBase Utf8 Json JsonProofs Float64 Lang Types Codec Any Tables Registry Frame SpecFrame SpecEnc FrameRead FrameMore Leaves
  Conn SpecConn ConnBase ConnInv ConnSend ConnEvid ConnMore ConnFate ConnLast ConnTop ConnLive Net SpecNet NetProofs NetMore NetOrder NetLive SpecSettle ConnSettle SpecCalm NetCalm.
Open Scope string_scope.
Open Scope list_scope.
Opaque marshal_message read_text unmarshal_request call_to_request result_to_response utf8_valid msg_ok is_request action_of.

(** ** A measure: a text in the network weighs what it can still cause *)
Definition tweight (t : string) : nat := match read_text t with Ok (MCall _ _ _) => 60 | _ => 10 end.
Definition srank2 (p : spc) : nat :=
  match p with SReg1 => 69 | SReg2 => 68 | SLock => 67 | SWrite _ EmptyString => 5 | SWrite _ _ => 66 | SSel => 4 | SWait _ => 3 | SDel1 _ => 2 | SDel2 _ => 1 | _ => 0 end.
Definition rrank2 (p : rpc) : nat :=
  match p with
  | RRead => 0 | RDecode t => tweight t - 1 | RLook _ => 6 | RConv _ _ => 5 | RChan _ _ => 4 | RPut _ _ => 3 | RReq _ _ => 25
  | RLock _ _ => 15 | RWrite _ _ _ EmptyString => 3 | RWrite _ _ _ _ => 14 | RClose _ => 4 | RCancel _ => 3 | RRes _ => 2 | RDone => 0
  end.
Definition lrank2 (p : lpc) : nat :=
  match p with
  | LDispatch _ _ => 19 | LRun _ => 18 | LLock _ _ => 17 | LWrite _ _ _ EmptyString => 5 | LWrite _ _ _ _ => 16 | LTop => 4 | LSel _ => 3 | LClose => 2 | LCancel => 1 | LGone => 0
  end.
Definition crank (c : conn) : nat := sumf (fun s => srank2 (sd_pc s)) (c_senders c) + sumf rrank2 (c_readers c) + lrank2 (c_loop c) + c_closers c + (if c_crash c then 0 else 1).
Definition taken_in (e : event) : nat := match e with ERead _ t => tweight t | _ => 0 end.
Definition less (c' : conn) (out : nat) (c : conn) (inn : nat) : Prop := crank c' + out < crank c + inn \/ (crank c' + out = crank c + inn /\ left_to_write c' < left_to_write c).

Lemma tweight_le t : 10 <= tweight t <= 60.
Proof. unfold tweight. destruct (read_text t) as [[]| |]; lia. Qed.
Lemma calm_less0 ro e c c' o : calm e = true -> starts_call e = false -> (forall w k, e <> EChunk w k) -> step ro e c = Some (c', o) -> crank c' < crank c + taken_in e.
Proof.
  intros HC HE HK H. unfold crank.
  step_inv H e; try discriminate HC; try discriminate HE; try (exfalso; exact (HK _ _ eq_refl)); csimp; rewrite ?sumf_app; sums; repeat match goal with HX : c_crash _ = _ |- _ => rewrite HX; clear HX end;
    repeat match goal with HX : sd_pc _ = _ |- _ => rewrite HX in *; clear HX end; repeat match goal with HX : c_loop _ = _ |- _ => rewrite HX in *; clear HX end;
    repeat match goal with HX : c_closers _ = _ |- _ => rewrite HX in *; clear HX end;
    cbn [srank2 rrank2 lrank2 sumf fold_right taken_in] in *; try lia.
  all: try (match goal with HX : read_text _ = _ |- _ => unfold tweight in *; rewrite HX in *; clear HX end; lia).
  all: try (match goal with |- context [match ?t with EmptyString => _ | String _ _ => _ end] => destruct t end; lia).
  all: try (match goal with HX : context [match ?t with EmptyString => _ | String _ _ => _ end] |- _ => destruct t end; lia).
  all: try (pose proof (tweight_le text); lia).
Qed.
Definition out_weight (e : event) (c : conn) : nat := sumf (fun wt => tweight (snd wt)) (finished e c).
Lemma chunk_less ro w k c c' o : step ro (EChunk w k) c = Some (c', o) -> o <> [OBytes ""] ->
  (forall t rest, w <> WS 0 -> (forall i, w <> WS i) -> writing w c = Some (t, rest) -> tweight t = 10) -> less c' (out_weight (EChunk w k) c) c 0.
Proof.
  intros H HB HT. unfold step in H. destruct (c_crash c) eqn:HC; [discriminate H|]. destruct (writing w c) as [[t rest]|] eqn:EW; [|discriminate H]. destruct (c_wbroken c || c_closed c); [discriminate H|]. injection H as <- <-.
  assert (X : stake k rest <> "") by (intros X; apply HB; rewrite X; reflexivity). pose proof (sdrop_less _ _ X) as HL. clear X HB.
  destruct rest as [|x rest]; [destruct k; cbn in HL; lia|]. unfold less, out_weight. cbn [finished]. rewrite EW. unfold crank, left_to_write.
  destruct w as [i|j|]; unfold writing in EW; unfold set_rest.
  - destruct (nth_error (c_senders c) i) as [sd|] eqn:EN; [|discriminate EW]. destruct (sd_pc sd) eqn:EP; try discriminate EW. injection EW as -> ->. csimp. rewrite HC. sums. rewrite EP in *. cbn [srank2 sleft] in *.
    pose proof (tweight_le t). destruct (sdrop k (String x rest)) as [|y r2] eqn:ED; cbn [sumf fold_right snd map]; [left; lia|right; split; [lia|]; cbn [String.length] in *; lia].
  - specialize (HT t (String x rest) ltac:(discriminate) ltac:(discriminate) eq_refl). destruct (nth_error (c_readers c) j) as [p|] eqn:EN; [|discriminate EW]. destruct p; try discriminate EW. injection EW as -> ->. csimp. rewrite HC. sums. cbn [rrank2 rleft] in *.
    destruct (sdrop k (String x rest)) as [|y r2] eqn:ED; cbn [sumf fold_right snd map]; [left; lia|right; split; [lia|]; cbn [String.length] in *; lia].
  - specialize (HT t (String x rest) ltac:(discriminate) ltac:(discriminate) eq_refl). destruct (c_loop c) eqn:EL; try discriminate EW. injection EW as -> ->. csimp. rewrite HC. cbn [lrank2 lleft] in *.
    destruct (sdrop k (String x rest)) as [|y r2] eqn:ED; cbn [sumf fold_right snd map]; [left; lia|right; split; [lia|]; cbn [String.length] in *; lia].
Qed.
Lemma answer_weight n tr s w t rest : nreach n tr -> (forall i, w <> WS i) -> writing w (conn_of s n) = Some (t, rest) -> tweight t = 10.
Proof.
  intros HR HW H. pose proof (n_reach _ _ (nreach_inv _ _ HR) s) as R. pose proof (writing_origin _ _ _ _ _ _ (reach_inv _ _ _ R) H) as HO. apply (origin_kind _ _ _ _ _ HR) in HO.
  assert (G : is_call (inbound_of t) = false -> tweight t = 10) by (unfold inbound_of, tweight; destruct (read_text t) as [[i a p| |]| |]; auto; destruct (call_to_request a p); discriminate).
  apply G. destruct w as [i|j|]; [exfalso; exact (HW _ eq_refl)| |].
  - destruct HO as (tx & id & e & _ & _ & ->). reflexivity.
  - destruct HO as (id & r & _ & H2 & H3 & H4). pose proof (reply_text _ _ _ _ H3 H4 H2) as X. destruct r as [[m|]|e]; [destruct X as [[p ->] _]|rewrite X|rewrite X]; reflexivity.
Qed.
Lemma calm_less n tr s e c' o : nreach n tr -> calm e = true -> starts_call e = false -> step (role_of s) e (conn_of s n) = Some (c', o) -> o <> [OBytes ""] ->
  less c' (out_weight e (conn_of s n)) (conn_of s n) (taken_in e).
Proof.
  intros HR HC HE H HB. destruct (match e with EChunk _ _ => true | _ => false end) eqn:EK.
  - destruct e; try discriminate EK. eapply chunk_less; [exact H|exact HB|]. intros t rest _ HW HX. exact (answer_weight _ _ _ _ _ _ HR HW HX).
  - left. assert (out_weight e (conn_of s n) = 0) as -> by (destruct e; try reflexivity; discriminate EK). rewrite Nat.add_0_r. eapply calm_less0; [exact HC|exact HE|intros w k ->; discriminate EK|exact H].
Qed.
Definition weigh (n : net) : nat := crank (n_central n) + crank (n_point n) + sumf tweight (n_to_central n) + sumf tweight (n_to_point n).
Definition unwritten (n : net) : nat := left_to_write (n_central n) + left_to_write (n_point n).
Definition lighter (n' n : net) : Prop := weigh n' < weigh n \/ weigh n' = weigh n /\ unwritten n' < unwritten n.
Lemma lighter_wf : well_founded lighter.
Proof.
  intros c. remember (weigh c) as n eqn:EN. revert c EN. induction n as [n IH] using lt_wf_ind. intros c EN.
  remember (unwritten c) as m eqn:EM. revert c EN EM. induction m as [m IH2] using lt_wf_ind. intros c EN EM.
  constructor. intros c' [H|[H1 H2]]; [eapply IH; [|reflexivity]; lia|eapply IH2; [|congruence|reflexivity]; lia].
Qed.
Lemma sumf_map {A B} (f : B -> nat) (g : A -> B) l : sumf f (map g l) = sumf (fun x => f (g x)) l.
Proof. unfold sumf. induction l as [|x l IH]; cbn; [reflexivity|]. rewrite IH. reflexivity. Qed.
Lemma calm_lighter n tr n' o : nreach n tr -> calm_step n n' o -> lighter n' n.
Proof.
  intros HR (s & e & HC & HE & HS & HB). destruct (nstep_inv _ _ _ _ _ HS) as (c' & oc & q & S1 & S2 & S3 & S4 & S5 & S6 & EO).
  assert (HB2 : oc <> [OBytes ""] \/ finished e (conn_of s n) <> []).
  { destruct (finished e (conn_of s n)) as [|x l]; [left|right; discriminate]. intros ->. cbn [map app] in EO. subst o. exact (HB eq_refl). }
  assert (HB3 : oc <> [OBytes ""]).
  { destruct HB2 as [HB2|HB2]; [exact HB2|]. intros ->. destruct e; cbn [finished] in HB2; try (exact (HB2 eq_refl)). unfold step in S1. destruct (c_crash (conn_of s n)); [discriminate S1|].
    destruct (writing w (conn_of s n)) as [[t rest]|]; [|discriminate S1]. destruct (c_wbroken _ || c_closed _); [discriminate S1|]. injection S1 as _ S1. destruct rest as [|x rest]; [exact (HB2 eq_refl)|]. destruct n0; cbn in S1, HB2; [exact (HB2 eq_refl)|discriminate S1]. }
  pose proof (calm_less _ _ _ _ _ _ HR HC HE S1 HB3) as L.
  assert (QW : sumf tweight q + taken_in e = sumf tweight (queue_to s n)).
  { destruct e; cbn [allowed taken_in] in *; try (injection S2 as <-; lia); [discriminate HE|]. destruct (queue_to s n) as [|t l]; [discriminate S2|]. destruct (String.eqb_spec t text) as [->|]; [|discriminate S2]. injection S2 as <-. unfold sumf. cbn [fold_right]. lia. }
  assert (OW : sumf tweight (queue_to (other s) n') = sumf tweight (queue_to (other s) n) + out_weight e (conn_of s n)) by (rewrite S6, sumf_app, sumf_map; reflexivity).
  assert (W : forall m : net, weigh m = crank (conn_of s m) + crank (conn_of (other s) m) + sumf tweight (queue_to s m) + sumf tweight (queue_to (other s) m)) by (intros m; unfold weigh; destruct s; cbn [conn_of queue_to other]; lia).
  assert (U : forall m : net, unwritten m = left_to_write (conn_of s m) + left_to_write (conn_of (other s) m)) by (intros m; unfold unwritten; destruct s; cbn [conn_of other]; lia).
  unfold lighter. rewrite !W, !U, S3, S4, S5, OW. unfold less in L. lia.
Qed.

(** ** Rest *)
Lemma lift_calm n s e c' o : step (role_of s) e (conn_of s n) = Some (c', o) -> calm e = true -> starts_call e = false -> (forall r t, e <> ERead r t) -> o <> [OBytes ""] -> exists n' o', calm_step n n' o'.
Proof.
  intros H HC HE HR HB. assert (A : allowed s e n = Some (queue_to s n)) by (destruct e; try reflexivity; [discriminate HE|exfalso; exact (HR _ _ eq_refl)]).
  eexists _, _, s, e. split; [exact HC|]. split; [exact HE|]. split; [unfold nstep; rewrite A, H; reflexivity|]. intros X. destruct o as [|x o].
  - cbn [map app] in X. destruct (finished e (conn_of s n)) as [|[w t] l]; discriminate X.
  - cbn [map app] in X. injection X as -> X. apply app_eq_nil in X. destruct X as [X _]. destruct o; [exact (HB eq_refl)|discriminate X].
Qed.
Definition parked (p : spc) : bool := match p with SWait _ | SDone _ | SDead => true | _ => false end.
Definition quiet (s : side) (n : net) : Prop :=
  c_lock (conn_of s n) = None /\ (forall i sd, nth_error (c_senders (conn_of s n)) i = Some sd -> parked (sd_pc sd) = true) /\ queue_to s n = [] /\
  exists r, c_loop (conn_of s n) = LSel r /\ nth_error (c_readers (conn_of s n)) r = Some RRead.
Lemma calm_or_quiet n tr s : calm_reach n tr -> c_crash (conn_of s n) = false -> (exists n' o, calm_step n n' o) \/ quiet s n.
Proof.
  intros CR HC. destruct (calm_kinv _ _ CR) as [HR KI]. specialize (KI s). pose proof (n_reach _ _ (nreach_inv _ _ HR) s) as R. pose proof (reach_inv _ _ _ R) as V. destruct (reach_inv_z _ _ _ R) as [Z1 Z2].
  destruct (k_up _ _ KI) as (U1 & U2 & U3 & U4 & U5 & U6).
  assert (GO : forall e c' o, step (role_of s) e (conn_of s n) = Some (c', o) -> calm e = true -> starts_call e = false -> (forall r t, e <> ERead r t) -> o <> [OBytes ""] -> (exists n' o', calm_step n n' o') \/ quiet s n).
  { intros e c' o H1 H2 H3 H4 H5. left. eapply lift_calm; eassumption. }
  set (c := conn_of s n) in *.
  destruct (c_lock c) as [w|] eqn:EK.
  { apply (v_l _ _ _ V) in EK. unfold is_writing in EK. destruct (writing w c) as [[t rs]|] eqn:EW; [|discriminate EK]. destruct rs as [|x rs].
    - eapply (GO (EWritten w)); try reflexivity; try discriminate; [unfold step; rewrite HC, EW, U1; rewrite (surjective_pairing (end_write w true (set_lock None c))); reflexivity|discriminate].
    - eapply (GO (EChunk w 1)); try reflexivity; try discriminate; [unfold step; rewrite HC, EW, U1, U2; reflexivity|destruct rs; discriminate]. }
  assert (NW : forall w, is_writing w c = false) by (intros w; destruct (is_writing w c) eqn:E; [apply (v_l _ _ _ V) in E; congruence|reflexivity]).
  destruct (existsb (fun sd => negb (parked (sd_pc sd))) (c_senders c)) eqn:EX.
  { apply existsb_exists in EX. destruct EX as (sd & HI & HX). apply In_nth_error in HI. destruct HI as [i HN]. apply negb_true_iff in HX.
    assert (G2 : forall c' o, sender_step i sd c = Some (c', o) -> o <> [OBytes ""] -> (exists n' o, calm_step n n' o) \/ quiet s n).
    { intros c' o H1. eapply (GO (EStep i)); try reflexivity; try discriminate. unfold step. rewrite HC, HN. exact H1. }
    unfold sender_step in G2. destruct (sd_pc sd) eqn:P; try discriminate HX; try (eapply G2; [reflexivity|discriminate]).
    - rewrite EK in G2. unfold crash in G2. destruct (marshal_message (sd_call sd)); (eapply G2; [reflexivity|discriminate]).
    - exfalso. specialize (NW (WS i)). unfold is_writing, writing in NW. rewrite HN, P in NW. discriminate NW. }
  assert (SO : forall i sd, nth_error (c_senders c) i = Some sd -> parked (sd_pc sd) = true) by (intros i sd HN; pose proof (existsb_nth _ _ _ _ EX HN) as X; apply negb_false_iff in X; exact X).
  assert (LO : forall c' o, loop_step (role_of s) c = Some (c', o) -> o <> [OBytes ""] -> (exists n' o, calm_step n n' o) \/ quiet s n).
  { intros c' o H1. eapply (GO ELoop); try reflexivity; try discriminate. unfold step. rewrite HC. exact H1. }
  unfold loop_step in LO. destruct (c_loop c) as [|r|q id|id|id x|id x t rs| | |] eqn:EL; try discriminate U6.
  - eapply LO; [reflexivity|discriminate].
  - destruct (Z2 r eq_refl) as (p & P1 & P2).
    assert (G2 : forall c' o, reader_step r p c = Some (c', o) -> o <> [OBytes ""] -> (exists n' o, calm_step n n' o) \/ quiet s n).
    { intros c' o H1. eapply (GO (EReader r)); try reflexivity; try discriminate. unfold step. rewrite HC, P1. exact H1. }
    pose proof (k_rd _ _ KI _ _ P1) as KF.
    unfold reader_step, crash in G2. destruct p; try discriminate P2; cbn [kfact] in KF; try (eapply G2; [reflexivity|discriminate]).
    + destruct (queue_to s n) as [|t q] eqn:EQ; [right; repeat split; [exact EK|exact SO|exact EQ|exists r; split; [exact EL|exact P1]]|].
      left. eexists _, _, s, (ERead r t). split; [reflexivity|]. split; [reflexivity|]. split; [unfold nstep; cbn [allowed]; rewrite EQ, String.eqb_refl; unfold step; fold c; rewrite HC, P1, U4; reflexivity|discriminate].
    + destruct (read_text text) as [m| |]; [|eapply G2; [reflexivity|discriminate]..]. destruct m as [i a pl| |]; [destruct (call_to_request a pl)|..]; (eapply G2; [reflexivity|discriminate]).
    + pose proof (Z1 _ _ P1) as Z3. destruct (lookup (id_of m) (c_sent c)); [|eapply G2; [reflexivity|discriminate]]. destruct m; [destruct Z3|..]; (eapply G2; [reflexivity|discriminate]).
    + destruct (lookup id (c_sent c)) as [a|]; [|eapply G2; [reflexivity|discriminate]].
      destruct (result_to_response a (match p with PAny x => x | _ => ANull end)) as [[m|e]|e|] eqn:ER; try (eapply G2; [reflexivity|discriminate]). exfalso. clear - ER.
      Transparent result_to_response. unfold result_to_response in ER. Opaque result_to_response.
      destruct (req_from_action a); [|discriminate ER]. destruct (response_of s); [|discriminate ER]. destruct (marshal_any _); [destruct (unmarshal_msg _ _)|..]; discriminate ER.
    + destruct KF as (i & sd & -> & K1 & K2). pose proof (SO _ _ K1) as PK. destruct (sd_pc sd) eqn:EP; try discriminate PK; try discriminate K2.
      destruct (v_m _ _ _ V) as (_ & _ & _ & _ & M5). pose proof (M5 _ _ _ K1 EP) as ->.
      eapply (GO (EReceive i r)); try reflexivity; try discriminate; [unfold step; rewrite HC, K1, P1, EP, Nat.eqb_refl; reflexivity|discriminate].
    + eapply (GO (ETake r)); try reflexivity; try discriminate; [unfold step; rewrite HC, EL, P1; reflexivity|discriminate].
    + rewrite EK in G2. destruct (marshal_message _); (eapply G2; [reflexivity|discriminate]).
    + exfalso. specialize (NW (WR r)). unfold is_writing, writing in NW. rewrite P1 in NW. discriminate NW.
    + eapply (GO EResult); try reflexivity; try discriminate; [unfold step; rewrite HC, EL, P1; reflexivity|discriminate].
  - destruct (role_of s); [destruct (is_cp_request (m_ty q))|]; (eapply LO; [reflexivity|discriminate]).
  - assert (CO : calls_over c = true).
    { unfold calls_over. apply negb_true_iff. match goal with |- ?g = false => destruct g eqn:EE end; [|reflexivity]. exfalso. apply existsb_exists in EE. destruct EE as (sd & HI & HX). apply andb_true_iff in HX. destruct HX as [HX1 _].
      apply In_nth_error in HI. destruct HI as [i HN]. rewrite (k_inh _ _ KI _ _ HN) in HX1. discriminate HX1. }
    eapply (GO (EReturn (inr ""))); try reflexivity; try discriminate; [unfold step; rewrite HC, EL; unfold return_ok; cbn [hret_ok]; rewrite CO; reflexivity|discriminate].
  - rewrite EK in LO. unfold crash in LO. destruct (marshal_message _); (eapply LO; [reflexivity|discriminate]).
  - exfalso. specialize (NW WL). unfold is_writing, writing in NW. rewrite EL in NW. discriminate NW.
Qed.
Lemma crash_shown ro c tr : reach ro c tr -> c_crash c = true -> In OCrash tr.
Proof.
  induction 1 as [|c tr e c' o HR IH HS]; [discriminate|]. intros HX. apply in_or_app. revert HX IH. step_inv HS e; csimp; intros HX IH; try (left; auto; fail); try congruence; right; cbn [In]; auto.
Qed.
(** Who got as far as the select has written a text. *)
Definition written_pc (p : spc) : bool := match p with SWrite _ _ | SSel | SWait _ => true | _ => false end.
Lemma waiting_text ro c tr : reach ro c tr -> forall i sd, nth_error (c_senders c) i = Some sd -> written_pc (sd_pc sd) = true -> exists t, marshal_message (sd_call sd) = Ok t.
Proof.
  induction 1 as [|c tr e c' o HR IH HS]; [intros i sd H; destruct i; discriminate H|].
  intros i' sd' HN HP. revert HN HP. step_inv HS e; csimp; intros HN HP; try exact (IH _ _ HN HP);
  try (apply nth_upd_inv in HN; destruct HN as [[-> ->]|[_ HN]]; [|exact (IH _ _ HN HP)]; csimp_in HP; try discriminate HP; cbn [sd_call]; try (eexists; eassumption);
       match goal with X : nth_error (c_senders c) _ = Some ?sd, Y : sd_pc ?sd = _ |- _ => apply (IH _ _ X); rewrite Y; reflexivity end).
  all: try (apply nth_app_inv in HN; destruct HN as [HN|[_ ->]]; [exact (IH _ _ HN HP)|discriminate HP]).
Qed.
Lemma quiet_pending {A} (f : rpc -> list A) c r : inv_a c -> nth_error (c_readers c) r = Some RRead -> f RRead = [] -> (forall p, active p = false -> f p = []) -> flat_map f (c_readers c) = [].
Proof.
  intros HA HR F1 F2. destruct (flat_map f (c_readers c)) as [|x l] eqn:E; [reflexivity|exfalso]. assert (X : In x (flat_map f (c_readers c))) by (rewrite E; left; reflexivity).
  apply in_flat_map in X. destruct X as (p & X1 & X2). apply In_nth_error in X1. destruct X1 as [k X1]. destruct (Nat.eq_dec k r) as [->|D].
  - rewrite HR in X1. injection X1 as <-. rewrite F1 in X2. exact X2.
  - rewrite (F2 _ (inv_a_only _ _ _ HA HR eq_refl _ _ X1 D)) in X2. exact X2.
Qed.
Lemma quiet_done n tr : calm_reach n tr -> (forall s, c_crash (conn_of s n) = false) -> (forall s, quiet s n) -> forall s i id q, In (NObs s (OCall i id q)) tr -> call_done tr s i id q.
Proof.
  intros CR HC HQ s i id q HI. destruct (calm_kinv _ _ CR) as [HR KI]. pose proof (nreach_inv _ _ HR) as NI.
  pose proof (n_reach _ _ NI) as R. pose proof (fun s => reach_inv _ _ _ (R s)) as V. apply in_sends_view in HI. pose proof (n_may _ _ NI _ _ _ _ HI) as MAY.
  destruct (sends_in _ _ _ _ _ (v_i _ _ _ (V s)) HI) as (sd & S1 & S2 & S3). destruct (HQ s) as (Q1 & Q2 & Q3 & r & Q4 & Q5). pose proof (Q2 _ _ S1) as PK.
  destruct (sd_pc sd) eqn:EP; try discriminate PK.
  2:{ left. exists o. split; [apply in_rets_view; apply (proj1 (v_o _ _ _ (V s))); exists sd; auto|]. rewrite <- S2, <- S3. exact (k_done _ _ (KI s) _ _ _ S1 EP). }
  2:{ exfalso. destruct (reach_inv_u _ _ _ (R s)) as [_ U]. destruct (U _ _ S1 EP) as [X|X]; [rewrite HC in X; discriminate X|]. destruct (k_up _ _ (KI s)) as (_ & _ & _ & _ & _ & Y). congruence. }
  (* still waiting: the answer never came *)
  assert (NOANS : forall t, In t (reads (view s tr)) -> ~ response_to t id).
  { intros t T1 T2. destruct (k_carry _ _ (KI s) _ _ _ _ T1 T2 S1 S2 ltac:(rewrite EP; reflexivity)) as (r9 & p9 & X1 & X2).
    assert (AP : active p9 = true) by (destruct p9; try reflexivity; exact (False_ind _ X2)). pose proof (v_a _ _ _ (V s)) as HA.
    destruct (Nat.eq_dec r9 r) as [->|D]; [rewrite Q5 in X1; injection X1 as <-; exact X2|]. rewrite (inv_a_only _ _ _ HA Q5 eq_refl _ _ X1 D) in AP. discriminate AP. }
  (* everything written has been read *)
  assert (ALL : forall s t, In t (writes (view s tr)) -> In t (reads (view (other s) tr))).
  { intros s0 t HT. destruct (HQ s0) as (L0 & _). destruct (HQ (other s0)) as (_ & _ & QE & _). destruct (k_up _ _ (KI s0)) as (W0 & _).
    rewrite <- (sent_is_written _ _ _ HR L0 W0), (n_fifo _ _ NI s0), QE, app_nil_r in HT. exact HT. }
  assert (ALL' : forall t, In t (writes (view (other s) tr)) -> In t (reads (view s tr))) by (intros t HT; apply ALL in HT; rewrite other_other in HT; exact HT).
  destruct (waiting_text _ _ _ (R s) _ _ S1 ltac:(rewrite EP; reflexivity)) as [t TM].
  assert (RT : request_text id q = Ok t). { destruct (v_c _ _ _ (V s) _ _ S1) as (_ & _ & _ & C). rewrite EP in C. unfold request_text. rewrite <- S2, <- S3, C. exact TM. }
  assert (T1 : In t (reads (view (other s) tr))).
  { apply ALL. apply writes_split. left. exists i. apply (proj1 (v_w _ _ _ (V s))). exists sd. rewrite EP. auto. }
  destruct (sends_id _ _ _ _ _ _ (R s) HI) as (U1 & U2 & U3). pose proof (proj2 (sanitize_id_iff id) U1) as SA. set (s' := other s) in *.
  destruct (HQ s') as (P1 & P2 & P3 & r' & P4 & P5). destruct (request_kind _ _ _ U2 U3 U1 RT) as [(q' & _ & K1 & K2 & _)|(e & _ & K1 & _)].
  - (* the handler was given it *)
    assert (TK : In (id, q') (takens (view s' tr))).
    { pose proof (v_q _ _ _ (V s')) as VQ. unfold inv_q in VQ. rewrite (quiet_pending pend_req _ _ (v_a _ _ _ (V s')) P5 eq_refl pend_req_inactive), app_nil_r in VQ. rewrite <- VQ. apply in_requests. eauto. }
    destruct (v_h _ _ _ (V s')) as (H1 & H2 & H3 & H4). rewrite P4 in H1, H2, H3, H4. cbn [pend_disp pend_run pend_rep exiting] in *. rewrite !app_nil_r in *.
    destruct H4 as [H4|[H4 _]]; [|discriminate H4]. rewrite H4, app_nil_r in H2.
    assert (HH : In id (map fst (returns (view s' tr)))).
    { rewrite <- H2, <- H1. apply in_map_iff. exists (id, Some q'). split; [reflexivity|]. apply in_flat_map. exists (id, q'). split; [exact TK|]. unfold s'. rewrite (seen_by_peer _ _ _ _ MAY K2). left. reflexivity. }
    apply in_map_iff in HH. destruct HH as ((id1 & rr) & <- & HH). cbn [fst] in *. pose proof HH as HH0. rewrite H3 in HH. apply in_map_iff in HH. destruct HH as ((y & x) & Y1 & HH). cbn [fst] in Y1. subst y.
    right. exists rr. split; [apply in_returns_view; exact HH0|].
    destruct x as [t'| |].
    + left. assert (TT : In t' (reads (view s tr))). { apply ALL'. apply writes_split. right. left. apply (loop_text _ _ _ _ (R s')). eauto. }
      destruct (returned_call _ _ _ _ _ (R s') HH0) as (_ & _ & _ & _ & HO & _). destruct (v_t _ _ _ (V s')) as (_ & _ & _ & TF & _). rewrite Forall_forall in TF. specialize (TF _ HH). cbn [fst snd sent_with] in TF.
      pose proof (reply_text _ _ _ _ HO SA TF) as RTX. destruct rr as [[m|]|e]; [exfalso|reflexivity|exfalso].
      * destruct RTX as ((p & RTX) & _). apply (NOANS _ TT). left. eauto.
      * apply (NOANS _ TT). right. eauto.
    + right. apply in_view. unfold replies in HH. apply pick_in in HH. destruct HH as (ob & X1 & X2). destruct ob; try discriminate X2. injection X2 as -> -> ->. exact X1.
    + exfalso. exact (proj1 (k_wf _ _ (KI s')) _ _ HH).
  - exfalso. pose proof (v_r _ _ _ (V s')) as VR. unfold inv_r in VR. rewrite (quiet_pending pend_rej _ _ (v_a _ _ _ (V s')) P5 eq_refl pend_rej_inactive), app_nil_r in VR.
    assert (RJ : In (id, e) (map fst (rejects (view s' tr)))). { rewrite <- VR. unfold refused_in. apply in_flat_map. exists t. split; [exact T1|]. rewrite K1. left. reflexivity. }
    apply in_map_iff in RJ. destruct RJ as ((y & x) & Y1 & RJ). cbn [fst] in Y1. subst y. pose proof (reject_written _ _ _ _ _ _ (R s') RJ) as W. destruct x as [t'| |]; [|exact W|exact (proj2 (k_wf _ _ (KI s')) _ _ RJ)].
    assert (TT : In t' (reads (view s tr))). { apply ALL'. apply writes_split. right. right. apply (reader_text _ _ _ _ (R s')). eauto. }
    apply (NOANS _ TT). right. exists e, reject_desc, (AObj []). apply inbound_error. exact W.
Qed.
(** ** Which crashes two ends can bring about *)
Lemma crash_cause n tr s : nreach n tr -> In (NObs s OCrash) tr ->
  (exists i id q, In (NObs s (OCall i id q)) tr /\ expiry_present (TStruct (m_ty q)) (m_val q) = false) \/ (s = Point /\ exists id, In (NObs s (OHPanic id)) tr).
Proof.
  intros HR HI. pose proof (nreach_inv _ _ HR) as NI. pose proof (n_reach _ _ NI) as R. apply in_view in HI.
  assert (KIND : forall text, In text (reads (view s tr)) -> exists w, In (w, text) (sent_by (other s) tr)) by (intros text HT; destruct (read_sent _ _ _ _ HR HT) as [w W]; exists w; apply in_sent; exact W).
  destruct (crash_why _ _ _ (R s) HI) as [text H1 H2|i id q H1 H2|i id q call H1 H2 H3|text id p i q a H1 H2 H3 H4 H5|id r H1 H2|id H1 H2|text id e H1 H2 H3].
  - exfalso. destruct (KIND _ H1) as [w W]. pose proof (origin_kind _ _ _ _ _ HR (n_origin _ _ NI _ _ _ W)) as K. destruct w as [i|j|].
    + destruct K as (id & q & _ & K2 & K3 & K4 & K5 & _). destruct (request_kind _ _ _ K3 K4 K5 K2) as [(q' & _ & X & _)|(e & _ & X & _)]; congruence.
    + destruct K as (tx & id & e & _ & _ & X). congruence.
    + destruct K as (id & r & _ & K2 & K3 & K4). pose proof (reply_text _ _ _ _ K3 K4 K2) as X. destruct r as [[m|]|e]; [destruct X as ([p X] & _)|..]; congruence.
  - left. destruct (sends_id _ _ _ _ _ _ (R s) H1) as (_ & X1 & X2). destruct (request_crash id q X1 X2) as [X _]. exists i, id, q. split; [apply in_sends_view; exact H1|exact (X H2)].
  - exfalso. destruct (sends_id _ _ _ _ _ _ (R s) H1) as (_ & X1 & X2). destruct (request_crash id q X1 X2) as [_ X]. destruct (X _ H2) as [t Y]. congruence.
  - exfalso. destruct (KIND _ H1) as [w W]. assert (ND : is_dt (m_ty q) = false).
    { pose proof (origin_kind _ _ _ _ _ HR (n_origin _ _ NI _ _ _ W)) as K. destruct w as [k|j|].
      - destruct K as (id' & q' & _ & K2 & K3 & K4 & K5 & _). destruct (request_kind _ _ _ K3 K4 K5 K2) as [(q2 & _ & X & _)|(e & _ & X & _)]; congruence.
      - destruct K as (tx & id' & e & _ & _ & X). congruence.
      - destruct K as (id' & r & K1 & K2 & K3 & K4). pose proof (reply_text _ _ _ _ K3 K4 K2) as X.
        assert (id' = id) as -> by (destruct r as [[m|]|e]; [destruct X as ([p' X] & _)|..]; congruence).
        destruct (returned_call _ _ _ _ _ (R (other s)) K1) as (t2 & q2 & T1 & T2 & _). destruct (call_text _ _ _ _ _ HR T1 (or_introl (ex_intro _ _ T2))) as (i2 & q3 & Y1 & _ & Y3).
        destruct (sends_inj _ _ _ _ _ _ _ _ (R s) H3 Y1) as [_ <-]. destruct (sends_id _ _ _ _ _ _ (R s) H3) as (U1 & U2 & U3).
        destruct (request_kind _ _ _ U2 U3 U1 Y3) as [(q4 & _ & _ & _ & Z & _)|(e & _ & Z & _)]; [exact Z|congruence]. }
    apply inbound_result in H2. apply read_wf in H2. destruct H2 as (_ & l & H2 & HW). injection H2 as ->. pose proof (result_fate _ _ _ H4 HW) as F.
    rewrite ND in F. destruct F as (rr & _ & [(v & F & _)|F]); congruence.
  - exfalso. pose proof (returns_ok _ _ _ (R s)) as HK. rewrite Forall_forall in HK. specialize (HK _ H1). cbn [snd] in HK.
    apply (response_no_crash id r); [|exact H2]. destruct r as [[m|]|]; [|exact I..]. cbn [hret_ok] in HK. apply andb_true_iff in HK. destruct HK as [K1 K2]. split; [exact K1|]. destruct (role_of s); auto.
  - right. destruct s; [discriminate H1|]. split; [reflexivity|]. exists id. apply in_view. unfold panics in H2. apply pick_in in H2. destruct H2 as (o & O1 & O2). destruct o; try discriminate O2. injection O2 as ->. exact O1.
  - exfalso. destruct (error_written id e reject_desc) as (t & S1 & _). congruence.
Qed.
(** ** Whatever the schedule *)
Lemma calm_no_panic n tr s id : calm_reach n tr -> ~ In (NObs s (OHPanic id)) tr.
Proof.
  induction 1 as [|n tr s0 e n' o HR IH HE HS]; [intros []|]. intros HI. apply in_app_or in HI. destruct HI as [HI|HI]; [exact (IH HI)|]. clear IH HR.
  apply nstep_inv in HS. destruct HS as (c' & oc & qq & S1 & _ & _ & _ & _ & _ & ->). apply in_app_or in HI. destruct HI as [HI|HI].
  - apply in_map_iff in HI. destruct HI as (x & X1 & X2). injection X1 as -> ->. revert X2. step_inv S1 e; cbn [In]; intros X2; try discriminate HE; repeat (destruct X2 as [X2|X2]; [discriminate X2|]); exact X2.
  - apply in_map_iff in HI. destruct HI as (x & X1 & _). discriminate X1.
Qed.
Lemma calm_settles (P : net -> list nobs -> Prop) :
  (forall n tr s, calm_reach n tr -> In (NObs s OCrash) tr -> P n tr) -> (forall n tr, calm_reach n tr -> (forall s, c_crash (conn_of s n) = false) -> (forall s, quiet s n) -> P n tr) ->
  forall n tr, calm_reach n tr -> inevitably calm_step P n tr.
Proof.
  intros P1 P2 n. induction n as [n IH] using (well_founded_induction lighter_wf). intros tr HR. destruct (calm_kinv _ _ HR) as [NR _].
  assert (CR : forall s, c_crash (conn_of s n) = true -> inevitably calm_step P n tr).
  { intros s HC. apply iv_now. apply (P1 _ _ s HR). apply in_view. apply (crash_shown (role_of s) (conn_of s n)); [exact (n_reach _ _ (nreach_inv _ _ NR) s)|exact HC]. }
  destruct (c_crash (conn_of Central n)) eqn:C1; [exact (CR _ C1)|]. destruct (c_crash (conn_of Point n)) eqn:C2; [exact (CR _ C2)|]. clear CR.
  assert (GO : (exists n' o, calm_step n n' o) -> inevitably calm_step P n tr).
  { intros G. apply iv_later; [exact G|]. intros n' o ST. apply IH; [exact (calm_lighter _ _ _ _ NR ST)|]. destruct ST as (s & e & E1 & _ & E3 & _). exact (calm_S _ _ _ _ _ _ HR E1 E3). }
  destruct (calm_or_quiet _ _ Central HR C1) as [G|Q1]; [exact (GO G)|]. destruct (calm_or_quiet _ _ Point HR C2) as [G|Q2]; [exact (GO G)|].
  apply iv_now. apply P2; [exact HR|intros []; assumption|intros []; assumption].
Qed.
