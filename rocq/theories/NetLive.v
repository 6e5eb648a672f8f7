(** Two connected ends: calls one after the other, what was written is in the
    network, and calls can complete. *)
From Coq Require Import Arith.
From Verif Require Import GoBase Utf8 Json JsonProofs Float64 Lang Types Codec Any Tables Registry Frame SpecCodec SpecFrame FrameRead FrameMore Leaves
  Conn SpecConn ConnBase ConnInv ConnSend ConnEvid ConnMore ConnFate ConnLast ConnTop ConnServe Net SpecNet NetProofs NetMore NetOrder.
Open Scope string_scope.
Open Scope list_scope.
Opaque marshal_message read_text unmarshal_request call_to_request result_to_response utf8_valid msg_ok is_request action_of.

(** ** Calls one after the other *)
Lemma split_compare {A} (u v u' v' : list A) x y : u ++ x :: v = u' ++ y :: v' -> x <> y ->
  (exists z, u = u' ++ y :: z) \/ (exists z, u' = u ++ x :: z).
Proof.
  revert u'. induction u as [|a u IH]; intros [|b u'] H D; cbn [app] in H.
  - injection H as H _. contradiction.
  - injection H as <- H. right. exists u'. reflexivity.
  - injection H as <- H. left. exists u. reflexivity.
  - injection H as <- H. destruct (IH _ H D) as [[z ->]|[z ->]]; [left|right]; exists z; reflexivity.
Qed.
Lemma call_once n a b s i id q : nreach n (a ++ NObs s (OCall i id q) :: b) -> ~ In (NObs s (OCall i id q)) a.
Proof.
  intros HR HI. pose proof (sends_nodup _ _ _ (n_reach _ _ (nreach_inv _ _ HR) s)) as ND. apply in_sends_view in HI.
  change (NObs s (OCall i id q) :: b) with ([NObs s (OCall i id q)] ++ b) in ND. rewrite !view_app in ND. unfold sends in ND. rewrite !pick_app, !map_app in ND.
  replace (view s [NObs s (OCall i id q)]) with [OCall i id q] in ND by (destruct s; reflexivity). cbn [pick flat_map app map fst] in ND.
  apply NoDup_remove_2 in ND. apply ND. apply in_or_app. left. apply in_map_iff. exists (i, (id, q)). split; [reflexivity|exact HI].
Qed.
Lemma sequential n tr s i o j idj qj ti tj : nreach n tr -> happened [NObs s (ORet i o); NObs s (OCall j idj qj)] tr ->
  In (NSent s (WS i) ti) tr -> In (NSent s (WS j) tj) tr -> happened [NSent s (WS i) ti; NSent s (WS j) tj] tr.
Proof.
  intros HR (a & b0 & E1 & (b & c & E2 & _)) HI HJ. subst b0.
  destruct (moment_sent _ _ _ _ _ HR HI) as (n1 & tr1 & k1 & c1 & o1 & rest1 & r1 & x1 & A1 & A2 & A3 & A4).
  destruct (moment_sent _ _ _ _ _ HR HJ) as (n2 & tr2 & k2 & c2 & o2 & rest2 & r2 & x2 & B1 & B2 & B3 & B4).
  assert (OB : forall w k cc c' oo, step (role_of s) (EChunk w k) cc = Some (c', oo) -> exists z, oo = [OBytes z]).
  { clear. intros w k cc c' oo H. unfold step in H. destruct (c_crash cc); [discriminate H|]. destruct (writing w cc) as [[t r]|]; [|discriminate H]. destruct (c_wbroken cc || c_closed cc); [discriminate H|].
    injection H as <- <-. eauto. }
  destruct (OB _ _ _ _ _ A2) as [z1 ->]. destruct (OB _ _ _ _ _ B2) as [z2 ->]. clear OB. cbn [map app] in A4, B4.
  assert (P1 : exists z, a = (tr1 ++ [NObs s (OBytes z1)]) ++ NSent s (WS i) ti :: z).
  { rewrite E1 in A4. change (NObs s (OBytes z1) :: NSent s (WS i) ti :: rest1) with ([NObs s (OBytes z1)] ++ NSent s (WS i) ti :: rest1) in A4. rewrite app_assoc in A4.
    destruct (split_compare _ _ _ _ _ _ A4 ltac:(discriminate)) as [H|[z H]]; [exact H|]. exfalso.
    assert (IR : In (NObs s (ORet i o)) (tr1 ++ [NObs s (OBytes z1)])) by (rewrite H; apply in_or_app; right; left; reflexivity).
    apply in_app_or in IR. destruct IR as [IR|[IR|[]]]; [|discriminate IR]. apply in_rets_view in IR.
    destruct (ret_call _ _ _ _ _ (n_reach _ _ (nreach_inv _ _ A1) s) IR) as (sd & S1 & S2 & _). cbn [writing] in A3. rewrite S1, S2 in A3. discriminate A3. }
  destruct P1 as [z P1].
  assert (IC : In (NObs s (OCall j idj qj)) tr2).
  { cbn [writing] in B3. destruct (nth_error (c_senders (conn_of s n2)) j) as [sd|] eqn:E; [|discriminate B3].
    pose proof (in_sends _ _ _ _ (v_i _ _ _ (reach_inv _ _ _ (n_reach _ _ (nreach_inv _ _ B1) s))) E) as X. apply in_sends_view in X.
    assert (X1 : In (NObs s (OCall j (sd_id sd) (sd_q sd))) tr) by (rewrite B4; apply in_or_app; left; exact X).
    assert (X2 : In (NObs s (OCall j idj qj)) tr) by (rewrite E1; apply in_or_app; right; right; apply in_or_app; right; left; reflexivity).
    destruct (call_fun _ _ _ _ _ _ _ _ HR X1 X2) as [<- <-]. exact X. }
  assert (E1' : tr = (a ++ NObs s (ORet i o) :: b) ++ NObs s (OCall j idj qj) :: c) by (rewrite E1, <- app_assoc; reflexivity).
  change (NObs s (OBytes z2) :: NSent s (WS j) tj :: rest2) with ([NObs s (OBytes z2)] ++ NSent s (WS j) tj :: rest2) in B4. rewrite app_assoc in B4.
  pose proof B4 as B5. rewrite E1' in B5.
  destruct (split_compare _ _ _ _ _ _ B5 ltac:(discriminate)) as [[y H]|[y H]].
  - exfalso. rewrite E1' in HR. apply (call_once _ _ _ _ _ _ _ HR). rewrite H. apply in_or_app. left. apply in_or_app. left. exact IC.
  - rewrite B4. apply (happened_snoc [NSent s (WS i) ti]). apply happened_1. rewrite H. apply in_or_app. left. apply in_or_app. left. rewrite P1. apply in_or_app. right. left. reflexivity.
Qed.

(** ** What was written is in the network *)
Definition inflight (c : conn) : list string :=
  match c_lock c with Some w => match writing w c with Some (t, EmptyString) => [t] | _ => [] end | None => [] end.
Lemma sdrop_nil k : sdrop k "" = "".
Proof. destruct k; reflexivity. Qed.
Lemma wrote_step ro e c c' o tr l : inv ro c tr -> (c_wbroken c = false -> l = inflight c) -> length l <= 1 -> step ro e c = Some (c', o) ->
  exists l', l ++ map snd (finished e c) = writes o ++ l' /\ (c_wbroken c' = false -> l' = inflight c') /\ length l' <= 1.
Proof.
  intros V HB HL H. pose proof (v_l _ _ _ V) as VL. destruct (is_write_event e) eqn:EW.
  - destruct e; try discriminate EW; clear EW; unfold step in H; destruct (c_crash c); try discriminate H;
     destruct (writing w c) as [[t rest]|] eqn:Ew; try discriminate H;
     assert (HK : c_lock c = Some w) by (apply VL; unfold is_writing; rewrite Ew; reflexivity).
    + destruct (c_wbroken c) eqn:EB; [discriminate H|]. destruct (c_closed c) eqn:EC; [discriminate H|]. cbn [orb] in H.
      injection H as <- <-. specialize (HB eq_refl). subst l.
      assert (HS : writing w (set_rest w (sdrop n rest) c) = Some (t, sdrop n rest) /\ c_lock (set_rest w (sdrop n rest) c) = Some w).
      { clear - Ew EB HK. destruct w as [i|j|]; unfold writing, set_rest in *.
        - destruct (nth_error (c_senders c) i) as [sd|] eqn:E; [|discriminate Ew]. destruct (sd_pc sd) eqn:E1; try discriminate Ew. injection Ew as <- <-.
          csimp. rewrite (nth_upd_same _ _ _ _ E). auto.
        - destruct (nth_error (c_readers c) j) as [[]|] eqn:E; try discriminate Ew. injection Ew as <- <-. csimp. rewrite (nth_upd_same _ _ _ _ E). auto.
        - destruct (c_loop c) eqn:E; try discriminate Ew. injection Ew as <- <-. csimp. auto. }
      destruct HS as (S1 & S3). unfold inflight. rewrite S3, S1, HK, Ew. cbn [finished]. rewrite Ew. unfold writes. cbn [pick flat_map app].
      destruct rest as [|x rest].
      * rewrite sdrop_nil. exists [t]. repeat split; auto.
      * destruct (sdrop n (String x rest)) as [|y r'].
        -- exists [t]. repeat split; auto.
        -- exists []. repeat split; auto.
    + destruct rest; [|discriminate H]. destruct (c_wbroken c) eqn:EB; [discriminate H|]. specialize (HB eq_refl). subst l.
      destruct (end_write w true (set_lock None c)) as [c1 o1] eqn:EE. injection H as <- <-. exists [].
      assert (HS : c_lock c1 = None /\ writes o1 = []).
      { clear - EE EB. destruct w as [i|j|]; unfold end_write in EE; csimp_in EE.
        - destruct (nth_error (c_senders c) i); injection EE as <- <-; auto.
        - destruct (nth_error (c_readers c) j) as [[]|]; injection EE as <- <-; auto.
        - destruct (c_loop c); injection EE as <- <-; auto. }
      destruct HS as (S1 & S4). unfold inflight. rewrite S1, HK, Ew. cbn [finished map app]. unfold writes in *. cbn [pick flat_map app].
      fold (pick (fun o : obs => match o with OWrote _ t0 => Some t0 | _ => None end) o1). rewrite S4. repeat split; auto.
    + destruct (end_write w false (set_wbroken (set_lock None c))) as [c1 o1] eqn:EE. injection H as <- <-. exists l.
      assert (HS : c_wbroken c1 = true /\ writes o1 = []).
      { clear - EE. destruct w as [i|j|]; unfold end_write in EE; csimp_in EE.
        - destruct (nth_error (c_senders c) i); injection EE as <- <-; auto.
        - destruct (nth_error (c_readers c) j) as [[]|]; injection EE as <- <-; auto.
        - destruct (c_loop c); injection EE as <- <-; auto. }
      destruct HS as (S1 & S4). rewrite S1, S4. cbn [finished map app]. rewrite app_nil_r. split; [reflexivity|]. split; [discriminate|exact HL].
  - pose proof (inv_step _ _ _ _ _ _ V H) as V'. destruct (quiet _ _ _ _ _ H EW) as (_ & Q2 & Q3 & Q4). exists l. rewrite Q2, Q3. assert (HF : finished e c = []) by (destruct e; try reflexivity; discriminate EW).
    rewrite HF. cbn [map app]. rewrite app_nil_r. split; [reflexivity|]. split; [|exact HL]. intros EB. rewrite (HB EB). unfold inflight. destruct Q4 as [[Q4 Q5]|[Q4 (w & t & Q5 & Q6)]].
    + rewrite Q4. destruct (c_lock c) as [w|]; [rewrite Q5|]; reflexivity.
    + rewrite Q4, Q5, Q6. destruct (writing_text _ _ _ _ _ (v_t _ _ _ V') Q6) as [m HM]. apply text_nonempty in HM. destruct t; [congruence|reflexivity].
Qed.
Theorem wrote_sent n tr : nreach n tr -> forall s, exists l, map snd (sent_by s tr) = writes (view s tr) ++ l /\
  (c_wbroken (conn_of s n) = false -> l = inflight (conn_of s n)) /\ length l <= 1.
Proof.
  induction 1 as [|n tr s e n' o HR IH HS]; intros s'.
  - exists []. destruct s'; repeat split; auto.
  - destruct (nstep_inv _ _ _ _ _ HS) as (c' & oc & q & S1 & S2 & S3 & S4 & S5 & S6 & ->). destruct (side_cases s s') as [-> | ->].
    + destruct (IH s) as (l & L1 & L2 & L3). destruct (wrote_step _ _ _ _ _ _ l (reach_inv _ _ _ (n_reach _ _ (nreach_inv _ _ HR) s)) L2 L3 S1) as (l' & M1 & M2 & M3).
      exists l'. rewrite S3. split; [|auto]. rewrite !sent_app, sent_obs, sent_sent, !view_app, view_obs, view_sent, app_nil_r. cbn [app]. rewrite map_app, L1, <- app_assoc, M1.
      unfold writes. rewrite pick_app, <- app_assoc. reflexivity.
    + destruct (IH (other s)) as (l & L1 & L2 & L3). exists l. rewrite S4. rewrite !sent_app, sent_obs, sent_sent_other, !view_app, view_obs_other, view_sent, !app_nil_r. auto.
Qed.

(** ** Running one end inside the network *)
Definition send_allowed (s : side) (e : event) : Prop := match e with ESend _ _ q => may_send s q = true | _ => True end.
Lemma nrun_app a : forall b n n1 o1 n2 o2, nrun a n = Some (n1, o1) -> nrun b n1 = Some (n2, o2) -> nrun (a ++ b) n = Some (n2, o1 ++ o2).
Proof.
  induction a as [|[s e] a IH]; intros b n n1 o1 n2 o2 H1 H2; cbn [nrun app] in *; [injection H1 as <- <-; exact H2|].
  destruct (nstep s e n) as [[n3 o3]|]; [|discriminate H1]. destruct (nrun a n3) as [[n4 o4]|] eqn:E4; [|discriminate H1]. injection H1 as <- <-. rewrite (IH _ _ _ _ _ _ E4 H2), app_assoc. reflexivity.
Qed.
Lemma lift_run s es : forall n c' o qs, run (role_of s) es (conn_of s n) = Some (c', o) -> queue_to s n = reads o ++ qs -> Forall (send_allowed s) es ->
  exists n' no, nrun (map (pair s) es) n = Some (n', no) /\ conn_of s n' = c' /\ conn_of (other s) n' = conn_of (other s) n /\
    queue_to s n' = qs /\ view s no = o /\ view (other s) no = [] /\ queue_to (other s) n' = queue_to (other s) n ++ map snd (sent_by s no).
Proof.
  induction es as [|e es IH]; intros n c' o qs H HQ HF; cbn [run map nrun] in *.
  - injection H as <- <-. exists n, []. cbn in HQ. repeat split; auto; [destruct s; reflexivity..|]. cbn. rewrite app_nil_r. reflexivity.
  - destruct (step (role_of s) e (conn_of s n)) as [[c1 o1]|] eqn:ES; [|discriminate H]. destruct (run (role_of s) es c1) as [[c2 o2]|] eqn:ER; [|discriminate H]. injection H as <- <-.
    inversion HF as [|? ? F1 F2]. subst. unfold reads in HQ. rewrite pick_app, <- app_assoc in HQ. fold reads in HQ. pose proof (reads_step _ _ _ _ _ ES) as RS.
    assert (AL : allowed s e n = Some (reads o2 ++ qs)).
    { destruct e; cbn [allowed]; rewrite ?HQ, ?RS; cbn [app]; try reflexivity.
      - cbn [send_allowed] in F1. rewrite F1. reflexivity.
      - rewrite String.eqb_refl. reflexivity. }
    set (n1 := set_queue (other s) (queue_to (other s) n ++ map snd (finished e (conn_of s n))) (set_queue s (reads o2 ++ qs) (set_conn s c1 n))).
    assert (EN : nstep s e n = Some (n1, map (NObs s) o1 ++ map (fun wt => NSent s (fst wt) (snd wt)) (finished e (conn_of s n)))).
    { unfold nstep. rewrite AL, ES. reflexivity. }
    assert (P1 : conn_of s n1 = c1 /\ conn_of (other s) n1 = conn_of (other s) n /\ queue_to s n1 = reads o2 ++ qs /\ queue_to (other s) n1 = queue_to (other s) n ++ map snd (finished e (conn_of s n))).
    { unfold n1. destruct s; repeat split. }
    destruct P1 as (P1 & P2 & P3 & P4). rewrite EN. rewrite <- P1 in ER. destruct (IH n1 c2 o2 qs ER P3 F2) as (n' & no & R1 & R2 & R3 & R4 & R5 & R6 & R7).
    rewrite R1. eexists _, _. split; [reflexivity|]. split; [exact R2|]. split; [congruence|]. split; [exact R4|].
    rewrite !view_app, !sent_app, view_obs, view_obs_other, !view_sent, sent_obs, sent_sent, R5, R6, R7, P4. cbn [app]. rewrite app_nil_r, map_app, app_assoc. auto.
Qed.

(** ** A call runs to its end *)
Definition settled (c : conn) : Prop :=
  (exists r, idle c r) /\ c_lock c = None /\ c_wbroken c = false /\ c_closed c = false /\
  (forall i sd, nth_error (c_senders c) i = Some sd -> sd_inh sd = true -> sdone (sd_pc sd) = true).
Definition quiet_net (n : net) : Prop := settled (n_central n) /\ settled (n_point n) /\ n_to_central n = [] /\ n_to_point n = [].
Lemma quiet_side n s : quiet_net n -> settled (conn_of s n) /\ queue_to s n = [].
Proof. intros (H1 & H2 & H3 & H4). destruct s; auto. Qed.

Lemma send_run ro c id q t r : idle c r -> c_lock c = None -> c_wbroken c = false -> c_closed c = false ->
  send_ok false id q c = true -> request_text id q = Ok t ->
  exists c', let i := length (c_senders c) in
    run ro [ESend false id q; EStep i; EStep i; EStep i; EChunk (WS i) (String.length t); EWritten (WS i); EStep i] c = Some (c', [OCall i id q; OBytes t; OWrote (WS i) t]) /\
    idle c' r /\ c_lock c' = None /\ c_wbroken c' = false /\ c_closed c' = false /\ c_done c' = c_done c /\
    exists sd, c_senders c' = c_senders c ++ [sd] /\ sd_id sd = id /\ sd_q sd = q /\ sd_inh sd = false /\ exists ch, sd_pc sd = SWait ch.
Proof.
  intros (HL & HN & HC & HB) HK HW HX HS HT. unfold request_text in HT. destruct (unmarshal_request id q) as [call|e|] eqn:EU; try discriminate HT. cbn [rbind] in HT.
  destruct (take_all t) as [T2 T3]. set (i := length (c_senders c)).
  assert (NI : forall x, nth_error (c_senders c ++ [x]) i = Some x) by (intros x; unfold i; rewrite nth_error_app2, Nat.sub_diag; [reflexivity|lia]).
  assert (UI : forall x y, upd i y (c_senders c ++ [x]) = c_senders c ++ [y]).
  { intros x y. unfold i. generalize (c_senders c) as l. induction l as [|z l IH]; cbn [upd app length]; [reflexivity|]. rewrite IH. reflexivity. }
  eexists. cbv zeta. split; [change [OCall i id q; OBytes t; OWrote (WS i) t] with ([OCall i id q] ++ [] ++ [] ++ [] ++ [OBytes t] ++ [OWrote (WS i) t] ++ [] ++ [])|].
  - eapply run_cons; [unfold step; rewrite HC; unfold do_send; rewrite HS, EU; cbn [negb]; fold i; reflexivity|].
    eapply run_cons; [unfold step; csimp; rewrite HC, NI; unfold sender_step; csimp; rewrite ?UI; reflexivity|].
    eapply run_cons; [unfold step; csimp; rewrite HC, ?UI, NI; unfold sender_step; csimp; reflexivity|].
    eapply run_cons; [unfold step; csimp; rewrite HC, ?UI, NI; unfold sender_step; csimp; rewrite HK, HT; reflexivity|].
    eapply run_cons; [unfold step, writing, set_rest; csimp; rewrite HC, ?UI, NI; csimp; rewrite HW, HX; cbn [orb]; rewrite T2, T3; reflexivity|].
    eapply run_cons; [unfold step, writing, end_write; csimp; rewrite HC, ?UI, NI; csimp; rewrite HW; csimp; rewrite ?UI, ?NI; csimp; rewrite ?UI; reflexivity|].
    eapply run_cons; [unfold step; csimp; rewrite HC, ?UI, NI; unfold sender_step; csimp; reflexivity|]. reflexivity.
  - unfold idle. csimp. rewrite ?UI. repeat split; try assumption. eexists. split; [reflexivity|]. csimp. repeat split. eauto.
Qed.

Transparent is_request.
Lemma may_request s q : may_send s q = true -> is_request (m_ty q) = true.
Proof. intros H. unfold is_request. apply orb_true_iff. destruct s; [right|left]; exact H. Qed.
Opaque is_request.
Lemma seen_by_peer s q q' id : may_send s q = true -> m_ty q' = m_ty q -> seen (role_of (other s)) (id, q') = [(id, Some q')].
Proof. intros H E. destruct s; cbn [seen role_of other snd fst may_send] in *; rewrite E, H; reflexivity. Qed.
Lemma fresh_ok c tr ro id q : inv ro c tr -> ~ In id (map (fun x => fst (snd x)) (sends tr)) -> utf8_valid id = true -> msg_ok q = true -> is_request (m_ty q) = true ->
  send_ok false id q c = true.
Proof.
  intros V HF HU HM HQ. unfold send_ok. rewrite HU, HM, HQ. cbn [negb orb andb].
  destruct (existsb _ (c_senders c)) eqn:E; [exfalso|reflexivity]. apply existsb_exists in E. destruct E as (sd & E1 & E2). apply String.eqb_eq in E2.
  apply In_nth_error in E1. destruct E1 as [i E1]. pose proof (in_sends _ _ _ _ (v_i _ _ _ V) E1) as IS. apply HF. apply in_map_iff. exists (i, (sd_id sd, sd_q sd)). split; [cbn; congruence|exact IS].
Qed.
(** In a quiet, unbroken state what was sent is what was reported written. *)
Lemma sent_is_written n tr s : nreach n tr -> c_lock (conn_of s n) = None -> c_wbroken (conn_of s n) = false -> map snd (sent_by s tr) = writes (view s tr).
Proof.
  intros HR HL HW. destruct (wrote_sent _ _ HR s) as (l & E & HI & _). rewrite (HI HW) in E. unfold inflight in E. rewrite HL, app_nil_r in E. exact E.
Qed.
Lemma sent_new n tr es n' o s : nreach n tr -> nrun es n = Some (n', o) -> c_lock (conn_of s n) = None -> c_wbroken (conn_of s n) = false ->
  c_lock (conn_of s n') = None -> c_wbroken (conn_of s n') = false -> map snd (sent_by s o) = writes (view s o).
Proof.
  intros HR HE L1 W1 L2 W2. pose proof (sent_is_written _ _ _ HR L1 W1) as A. pose proof (sent_is_written _ _ _ (nreach_run _ _ _ _ _ HR HE) L2 W2) as B.
  rewrite sent_app, map_app, view_app in B. unfold writes in *. rewrite pick_app, A in B. exact (app_inv_head _ _ _ B).
Qed.
Lemma view_happened s tr o : In o (view s tr) -> happened [NObs s o] tr.
Proof. intros H. apply happened_1. apply in_view. exact H. Qed.
Lemma happened_join xs : forall a ys b, happened xs a -> happened ys b -> happened (xs ++ ys) (a ++ b).
Proof.
  induction xs as [|x xs IH]; intros a ys b H1 H2; cbn [app happened] in *.
  - induction a as [|z a IHa]; [exact H2|]. cbn [app]. clear IHa. assert (G : forall l, happened ys b -> happened ys (l ++ b)).
    { intros l. destruct ys as [|y ys]; [exact (fun h => h)|]. cbn [happened]. intros (u & v & -> & H). exists (l ++ u), v. rewrite <- app_assoc. split; [reflexivity|exact H]. }
    exact (G (z :: a) H2).
  - destruct H1 as (u & v & -> & H1). exists u, (v ++ b). split; [rewrite <- app_assoc; reflexivity|apply IH; assumption].
Qed.
Lemma happened_view s os : forall tr, (exists a, view s tr = a ++ os) -> happened (map (NObs s) os) tr.
Proof.
  induction os as [|o os IH]; intros tr [a H]; [exact I|]. cbn [map happened].
  revert a H. induction tr as [|x tr IT]; intros a H; [destruct a; discriminate H|].
  destruct x as [s' o'|s' w t].
  - destruct (side_cases s s') as [->| ->].
    + change (NObs s o' :: tr) with (map (NObs s) [o'] ++ tr) in H. rewrite view_app, view_obs in H. destruct a as [|y a]; cbn [app] in H.
      * injection H as -> H. exists [], tr. split; [reflexivity|]. apply IH. exists []. exact H.
      * injection H as -> H. destruct (IT _ H) as (u & v & -> & K). exists (NObs s y :: u), v. split; [reflexivity|exact K].
    + change (NObs (other s) o' :: tr) with (map (NObs (other s)) [o'] ++ tr) in H. rewrite view_app in H. replace (view s (map (NObs (other s)) [o'])) with (@nil obs) in H by (destruct s; reflexivity).
      destruct (IT _ H) as (u & v & -> & K). exists (NObs (other s) o' :: u), v. split; [reflexivity|exact K].
  - assert (E : view s (NSent s' w t :: tr) = view s tr) by (destruct s; reflexivity). rewrite E in H. destruct (IT _ H) as (u & v & -> & K). exists (NSent s' w t :: u), v. split; [reflexivity|exact K].
Qed.

Theorem round n tr s id q t q' h t' : nreach n tr -> quiet_net n ->
  ~ In id (map (fun x => fst (snd x)) (sends (view s tr))) -> utf8_valid id = true -> msg_ok q = true -> may_send s q = true ->
  request_text id q = Ok t -> received_request t = Ok (id, inl q') ->
  h <> inl None -> hret_ok (role_of (other s)) h = true -> marshal_message (response_message id h) = Ok t' ->
  exists es n' o i x, nrun es n = Some (n', o) /\ quiet_net n' /\
    happened [NObs s (OCall i id q); NObs (other s) (OHandle (Some q') id); NObs (other s) (OReturn id h); NObs s (ORet i x)] o /\
    (forall s' m id0 q0, In (NObs s' (OCall m id0 q0)) o -> s' = s /\ id0 = id) /\ answered x = true /\ justifies t' id q x.
Proof.
  intros HR HQ HF HU HM HY HT HG HN HH HT'.
  pose proof (may_request _ _ HY) as IQ. pose proof (n_reach _ _ (nreach_inv _ _ HR)) as RR.
  destruct (request_kind _ _ _ HM IQ HU HT) as [(q'' & K1 & K2 & K3 & K4 & K5)|(e & K1 & _)]; [|rewrite HG in K1; discriminate K1].
  assert (q'' = q') by congruence. subst q''. clear K1.
  destruct (quiet_side _ s HQ) as [((r & I1) & L1 & W1 & X1 & D1) Q1]. destruct (quiet_side _ (other s) HQ) as [((r2 & I2) & L2 & W2 & X2 & D2) Q2].
  pose proof (fresh_ok _ _ _ _ _ (reach_inv _ _ _ (RR s)) HF HU HM IQ) as SO.
  (* the request is written *)
  destruct (send_run (role_of s) _ id q t r I1 L1 W1 X1 SO HT) as (c1 & R1 & J1 & J2 & J3 & J4 & J5 & sd & S1 & S2 & S3 & S4 & ch & S5). cbv zeta in R1. set (i := length (c_senders (conn_of s n))) in *.
  destruct (lift_run s _ n c1 _ [] R1) as (n1 & o1 & N1 & N2 & N3 & N4 & N5 & N6 & N7).
  { rewrite Q1. reflexivity. } { repeat constructor. exact HY. }
  assert (P1 : nreach n1 (tr ++ o1)) by exact (nreach_run _ _ _ _ _ HR N1).
  assert (M1 : map snd (sent_by s o1) = [t]).
  { rewrite (sent_new _ _ _ _ _ s HR N1 L1 W1); rewrite ?N2; try assumption. rewrite N5. reflexivity. }
  rewrite Q2, M1 in N7. cbn [app] in N7.
  (* it is served *)
  destruct (serve_run (role_of (other s)) (conn_of (other s) n) r2 t id q' (Some q') h t' I2 L2 W2 X2 K2 (seen_by_peer _ _ _ _ HY K3) HH D2 HT') as (c2 & R2 & T1 & T2).
  rewrite <- N3 in R2.
  destruct (lift_run (other s) _ n1 c2 _ [] R2) as (n2 & o2 & U1 & U2 & U3 & U4 & U5 & U6 & U7).
  { rewrite N7. reflexivity. } { repeat constructor. }
  rewrite other_other in U3, U6, U7. destruct T1 as (_ & _ & T3 & T4 & T5 & _ & T6 & T7 & _ & _).
  assert (M2 : map snd (sent_by (other s) o2) = [t']).
  { rewrite (sent_new _ _ _ _ _ (other s) P1 U1); rewrite ?N3, ?U2, ?T4, ?T5; try assumption. rewrite U5. reflexivity. }
  rewrite N4, M2 in U7. cbn [app] in U7.
  assert (P2 : nreach n2 ((tr ++ o1) ++ o2)) by exact (nreach_run _ _ _ _ _ P1 U1).
  (* the answer arrives *)
  pose proof (n_reach _ _ (nreach_inv _ _ P2) s) as RS. rewrite U3, N2 in RS.
  assert (RT : response_to t' id).
  { apply sanitize_id_iff in HU. pose proof (reply_text _ _ _ _ HH HU HT') as RX. destruct h as [[m|]|e]; [destruct RX as [[p RX] _]; left; eauto|contradiction HN; reflexivity|right; eauto]. }
  assert (NI : nth_error (c_senders c1) i = Some sd) by (rewrite S1; unfold i; rewrite nth_error_app2, Nat.sub_diag; [reflexivity|lia]).
  assert (IC : In (i, (id, q)) (sends (view s ((tr ++ o1) ++ o2)))).
  { apply in_sends_view. apply in_or_app. left. apply in_or_app. right. apply in_view. rewrite N5. left. reflexivity. }
  destruct (answer_run_more (role_of s) c1 _ r i id q sd t' RS J1 IC NI (ex_intro _ ch S5) K4 RT) as (es & c3 & o & x & R3 & -> & JX & AX & (_ & J6) & Y1 & Y2 & Y3 & Y4 & Y5 & Y6).
  pose proof R3 as R3'. rewrite <- N2, <- U3 in R3'.
  destruct (lift_run s _ n2 c3 _ [] R3') as (n3 & o3 & V1 & V2 & V3 & V4 & V5 & V6 & V7).
  { rewrite U7. reflexivity. } { eapply Forall_impl; [|exact Y5]. intros a Ha. destruct a; try exact I. destruct Ha. }
  assert (M3 : map snd (sent_by s o3) = []).
  { rewrite (sent_new _ _ _ _ _ s P2 V1); rewrite ?U3, ?N2, ?V2, ?Y1, ?Y2; try assumption. rewrite V5. reflexivity. }
  rewrite U4, M3 in V7. cbn [app] in V7.
  exists (map (pair s) [ESend false id q; EStep i; EStep i; EStep i; EChunk (WS i) (String.length t); EWritten (WS i); EStep i] ++
          (map (pair (other s)) [ERead r2 t; EReader r2; ETake r2; ELoop; EReturn h; ELoop; EChunk WL (String.length t'); EWritten WL; ELoop] ++ map (pair s) es)), n3, (o1 ++ o2 ++ o3), i, x.
  split; [exact (nrun_app _ _ _ _ _ _ _ N1 (nrun_app _ _ _ _ _ _ _ U1 V1))|]. split; [|split; [|split; [|split; [exact AX|exact JX]]]].
  - assert (G1 : settled (conn_of s n3)).
    { rewrite V2. split; [eauto|]. rewrite Y1, Y2, Y3. split; [exact J2|]. split; [exact J3|]. split; [exact J4|].
      intros j sj Hj Hi. destruct (Y6 _ _ Hj) as (sj0 & Z1 & Z2 & Z3 & Z4 & Z5). destruct (Nat.eq_dec j i) as [EQ|NE].
      - rewrite (Z5 EQ). reflexivity.
      - pose proof (Z4 NE) as Z6. subst sj0. rewrite S1 in Z1. destruct (nth_app_inv _ _ _ _ Z1) as [Z7|[Z7 _]]; [exact (D1 _ _ Z7 Hi)|contradiction]. }
    assert (G2 : settled (conn_of (other s) n3)).
    { rewrite V3, U2. split; [eauto|]. rewrite T4, T5, T6. split; [exact L2|]. split; [exact W2|]. split; [exact X2|]. rewrite T3. exact D2. }
    unfold quiet_net. destruct s; cbn [conn_of other queue_to] in *; auto.
  - change [NObs s (OCall i id q); NObs (other s) (OHandle (Some q') id); NObs (other s) (OReturn id h); NObs s (ORet i x)] with
      ([NObs s (OCall i id q)] ++ [NObs (other s) (OHandle (Some q') id); NObs (other s) (OReturn id h)] ++ [NObs s (ORet i x)]).
    apply happened_join; [apply view_happened; rewrite N5; left; reflexivity|]. apply happened_join; [|apply view_happened; rewrite V5; right; left; reflexivity].
    assert (HV : happened (map (NObs (other s)) [OHandle (Some q') id; OReturn id h; OBytes t'; OWrote WL t'; OReply id h (Written t')]) o2).
    { apply happened_view. rewrite U5. exists [ORead t; OTaken q' id]. reflexivity. }
    cbn [map happened] in HV. destruct HV as (u & v & E1 & (u1 & v1 & E2 & _)). cbn [happened]. exists u, v. split; [exact E1|]. exists u1, v1. split; [exact E2|exact I].
  - intros s' m id0 q0 HI.
    assert (Z : s' = s /\ In (OCall m id0 q0) (view s (o1 ++ o2 ++ o3)) \/ s' = other s /\ In (OCall m id0 q0) (view (other s) (o1 ++ o2 ++ o3))).
    { apply in_view in HI. destruct s, s'; auto. }
    rewrite !view_app, N5, N6, U5, U6, V5, V6 in Z. cbn [app In] in Z. destruct Z as [[-> Z]|[_ Z]].
    + split; [reflexivity|]. repeat (destruct Z as [Z|Z]; [try discriminate Z|]); [injection Z as _ -> _; reflexivity|destruct Z].
    + exfalso. repeat (destruct Z as [Z|Z]; [discriminate Z|]). destruct Z.
Qed.
