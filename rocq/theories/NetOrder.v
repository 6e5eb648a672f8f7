(** Two connected ends: each request at most once and in order; what was written
    is in the network; a call can complete. *)
From Coq Require Import Arith.
From Verif Require Import GoBase Utf8 Json JsonProofs JsonText Float64 Lang Types Codec Any Tables Registry Frame SpecCodec SpecFrame FrameRead FrameMore Leaves
  Conn SpecConn ConnBase ConnInv ConnSend ConnEvid ConnMore ConnFate ConnLast ConnTop ConnServe Net SpecNet NetProofs NetMore.
Open Scope string_scope.
Open Scope list_scope.
Lemma text_nonempty m t : marshal_message m = Ok t -> t <> "".
Proof.
  unfold marshal_message, rbind. destruct (rmap _ _) as [l|e|]; try discriminate. unfold compact. destruct (parse _) as [j|] eqn:E; [|discriminate].
  intros H. injection H as H. apply parse_compact in E. intros ->. rewrite H in E. vm_compute in E. discriminate E.
Qed.
Opaque marshal_message read_text unmarshal_request call_to_request result_to_response utf8_valid msg_ok is_request action_of.

(** ** At most once *)
Definition some2 (x : string * msg) : string * option msg := (fst x, Some (snd x)).
Lemma request_origin n tr s w t id q' : nreach n tr -> In (w, t) (sent_by s tr) -> inbound_of t = IRequest id q' ->
  exists i q, w = WS i /\ In (i, (id, q)) (sends (view s tr)) /\ request_text id q = Ok t /\ may_send s q = true /\ m_ty q' = m_ty q.
Proof.
  intros HR HI HQ. pose proof (n_origin _ _ (nreach_inv _ _ HR) s w t HI) as HO. apply (origin_kind _ _ _ _ _ HR) in HO. destruct w as [i|j|].
  - destruct HO as (id' & q & H1 & H2 & H3 & H4 & H5 & H6). destruct (request_kind _ _ _ H3 H4 H5 H2) as [(q2 & K1 & K2 & K3 & _)|(e & _ & K2 & _)]; rewrite HQ in K2; [|discriminate K2].
    injection K2 as <- <-. exists i, q. auto.
  - exfalso. destruct HO as (tx & id' & e & _ & _ & H). rewrite H in HQ. discriminate HQ.
  - exfalso. destruct HO as (id' & r & _ & H2 & H3 & H4). pose proof (reply_text _ _ _ _ H3 H4 H2) as X. destruct r as [[m|]|e].
    + destruct X as ([p X] & _). rewrite X in HQ. discriminate HQ.
    + rewrite X in HQ. discriminate HQ.
    + rewrite X in HQ. discriminate HQ.
Qed.
Lemma in_requests texts id q : In (id, q) (requests_in texts) <-> exists t, In t texts /\ inbound_of t = IRequest id q.
Proof.
  unfold requests_in. rewrite in_flat_map. split; intros (t & H1 & H2); exists t; (split; [exact H1|]).
  - destruct (inbound_of t); try exact (False_ind _ H2). destruct H2 as [H2|[]]. congruence.
  - rewrite H2. left. reflexivity.
Qed.
Lemma requests_once n tr s l : nreach n tr -> incl l (sent_by s tr) -> NoDup (flat_map (fun x => match fst x with WS i => [i] | _ => [] end) l) ->
  NoDup (map fst (requests_in (map snd l))).
Proof.
  intros HR. induction l as [|[w t] l IH]; intros HI HN; [constructor|]. cbn [map snd].
  assert (NT : NoDup (flat_map (fun x : who * string => match fst x with WS i => [i] | _ => [] end) l)).
  { cbn [flat_map fst] in HN. destruct w; cbn [app] in HN; try exact HN. inversion HN. assumption. }
  specialize (IH (fun x h => HI x (or_intror h)) NT). unfold requests_in. cbn [flat_map]. destruct (inbound_of t) as [id q'|id c|id p|id c d x| |] eqn:E; cbn [app map fst]; try exact IH.
  constructor; [|exact IH]. intros HX. apply in_map_iff in HX. destruct HX as ([id2 q2] & X1 & X2). cbn [fst] in X1. subst id2.
  apply in_requests in X2. destruct X2 as (t2 & T1 & T2). apply in_map_iff in T1. destruct T1 as ([w2 t2'] & T3 & T4). cbn [snd] in T3. subst t2'.
  destruct (request_origin _ _ _ _ _ _ _ HR (HI _ (or_introl eq_refl)) E) as (i & q & -> & O1 & _).
  destruct (request_origin _ _ _ _ _ _ _ HR (HI _ (or_intror T4)) T2) as (j & q3 & -> & O2 & _).
  destruct (sends_inj _ _ _ _ _ _ _ _ (n_reach _ _ (nreach_inv _ _ HR) s) O1 O2) as [<- _].
  cbn [flat_map fst app] in HN. inversion HN as [|? ? HNI _]. apply HNI. apply in_flat_map. exists (WS i, t2). split; [exact T4|left; reflexivity].
Qed.
Lemma handles_requests n tr s : nreach n tr -> exists rest, length rest <= 1 /\
  map some2 (requests_in (reads (view (other s) tr))) = handles (view (other s) tr) ++ rest.
Proof.
  intros HR. destruct (in_order _ _ _ (n_reach _ _ (nreach_inv _ _ HR) (other s))) as (rest & H1 & H2). exists rest. split; [exact H1|]. rewrite <- H2.
  clear H2.
  assert (K : forall x, In x (requests_in (reads (view (other s) tr))) -> seen (role_of (other s)) x = [some2 x]).
  { intros [id q'] HX. apply in_requests in HX. destruct HX as (t & T1 & T2). destruct (read_sent _ _ _ _ HR T1) as [w HS]. rewrite other_other in HS. apply in_sent in HS.
    destruct (request_origin _ _ _ _ _ _ _ HR HS T2) as (i & q & _ & _ & _ & M & TY). unfold seen, some2. cbn [fst snd]. destruct s; cbn [other role_of may_send] in *; rewrite TY, M; reflexivity. }
  induction (requests_in (reads (view (other s) tr))) as [|x l IH]; [reflexivity|]. cbn [map flat_map]. rewrite (K x (or_introl eq_refl)). cbn [app]. f_equal. apply IH. intros y HY. apply K. right. exact HY.
Qed.
Lemma reads_prefix n tr s : nreach n tr -> exists q, map snd (sent_by s tr) = reads (view (other s) tr) ++ q.
Proof. intros HR. eexists. exact (n_fifo _ _ (nreach_inv _ _ HR) s). Qed.
Lemma all_once n tr s : nreach n tr -> NoDup (map fst (requests_in (map snd (sent_by s tr)))).
Proof. intros HR. apply (requests_once n tr s); [exact HR|intros x H; exact H|exact (proj1 (n_once _ _ (nreach_inv _ _ HR) s))]. Qed.
Lemma NoDup_app_l {A} (a b : list A) : NoDup (a ++ b) -> NoDup a.
Proof. induction a as [|x a IH]; [constructor|]. cbn [app]. intros H. inversion H as [|? ? H1 H2]. constructor; [|apply IH; exact H2]. intros HI. apply H1. apply in_or_app. left. exact HI. Qed.
Lemma reads_once n tr s : nreach n tr -> NoDup (map fst (requests_in (reads (view (other s) tr)))).
Proof.
  intros HR. pose proof (all_once _ _ s HR) as H. destruct (reads_prefix _ _ s HR) as [q Hq]. rewrite Hq, requests_in_app, map_app in H. exact (NoDup_app_l _ _ H).
Qed.
Lemma map_some2 l : map fst (map some2 l) = map fst l.
Proof. rewrite map_map. reflexivity. Qed.
Theorem handled_once n tr s : nreach n tr -> NoDup (map fst (handles (view s tr))).
Proof.
  intros HR. rewrite <- (other_other s). destruct (handles_requests _ _ (other s) HR) as (rest & _ & H). pose proof (reads_once _ _ (other s) HR) as N.
  rewrite <- map_some2, H, map_app in N. exact (NoDup_app_l _ _ N).
Qed.
Theorem returned_once n tr s : nreach n tr -> NoDup (map fst (returns (view s tr))).
Proof.
  intros HR. pose proof (handled_once _ _ s HR) as H. destruct (v_h _ _ _ (reach_inv _ _ _ (n_reach _ _ (nreach_inv _ _ HR) s))) as (_ & H2 & _). rewrite H2 in H. exact (NoDup_app_l _ _ H).
Qed.
Lemma nodup_fst_fun {A B} (l : list (A * B)) a b b' : NoDup (map fst l) -> In (a, b) l -> In (a, b') l -> b = b'.
Proof.
  induction l as [|[x y] l IH]; intros HN H1 H2; [destruct H1|]. cbn [map fst] in HN. inversion HN as [|? ? N1 N2]. subst.
  destruct H1 as [H1|H1], H2 as [H2|H2]; try congruence; try (apply IH; assumption); exfalso; apply N1; apply in_map_iff; [injection H1 as -> ->|injection H2 as -> ->]; eexists; (split; [|eassumption]); reflexivity.
Qed.
Lemma return_fun n tr s id r r' : nreach n tr -> In (NObs s (OReturn id r)) tr -> In (NObs s (OReturn id r')) tr -> r = r'.
Proof. intros HR H1 H2. apply in_returns_view in H1. apply in_returns_view in H2. exact (nodup_fst_fun _ _ _ _ (returned_once _ _ s HR) H1 H2). Qed.
Lemma handle_fun n tr s id r r' : nreach n tr -> In (NObs s (OHandle r id)) tr -> In (NObs s (OHandle r' id)) tr -> r = r'.
Proof. intros HR H1 H2. apply in_handles_view in H1. apply in_handles_view in H2. exact (nodup_fst_fun _ _ _ _ (handled_once _ _ s HR) H1 H2). Qed.

(** ** In order *)
Lemma prefix_has {A} (p r u c : list A) x : p ++ r = u ++ x :: c -> In x p -> ~ In x u -> exists c', p = u ++ x :: c'.
Proof.
  revert u. induction p as [|y p IH]; intros u H HI HU; [destruct HI|]. destruct u as [|z u]; cbn [app] in H.
  - injection H as -> _. exists p. reflexivity.
  - injection H as -> H. destruct HI as [->|HI]; [exfalso; apply HU; left; reflexivity|]. destruct (IH _ H HI (fun h => HU (or_intror h))) as [c' ->]. exists c'. reflexivity.
Qed.
Lemma happened_sent s w1 t1 w2 t2 tr : happened [NSent s w1 t1; NSent s w2 t2] tr -> exists a b c, sent_by s tr = a ++ (w1, t1) :: b ++ (w2, t2) :: c.
Proof.
  intros (a & b & -> & (b1 & c & -> & _)). rewrite sent_app. exists (sent_by s a), (sent_by s b1), (sent_by s c). f_equal.
  change (NSent s w1 t1 :: b1 ++ NSent s w2 t2 :: c) with ([NSent s w1 t1] ++ b1 ++ [NSent s w2 t2] ++ c). rewrite !sent_app. destruct s; reflexivity.
Qed.
Lemma sent_prefix s tr0 rest : exists l, sent_by s (tr0 ++ rest) = sent_by s tr0 ++ l.
Proof. rewrite sent_app. eauto. Qed.
Theorem fifo n tr s i ti idi qi' j tj idj xj : nreach n tr -> happened [NSent s (WS i) ti; NSent s (WS j) tj] tr ->
  inbound_of ti = IRequest idi qi' -> In (j, (idj, xj)) (sends (view s tr)) ->
  forall x, In (NObs (other s) (OHandle x idj)) tr -> happened [NObs (other s) (OHandle (Some qi') idi); NObs (other s) (OHandle x idj)] tr.
Proof.
  intros HR HH HI HJ x HX. destruct (handle_moment _ _ _ _ _ HR HX) as (n0 & tr0 & rest & A1 & A2 & text & q' & T1 & T2 & T3).
  destruct (call_origin n0 tr0 s text A1 T1 ltac:(rewrite T2; reflexivity)) as (j' & idj' & qj & C1 & C2 & C3 & C4 & C5 & C6 & C7).
  destruct (request_kind _ _ _ C4 C5 C6 C3) as [(q2 & K1 & K2 & K3 & K4 & K5)|(e & _ & K2 & _)]; [|rewrite T2 in K2; discriminate K2].
  rewrite T2 in K2. injection K2 as <- <-.
  assert (IC : In (NObs s (OCall j' idj qj)) tr) by (rewrite A2; apply in_or_app; left; exact C1).
  destruct (same_call _ _ _ _ _ _ _ _ HR IC (proj1 (in_sends_view _ _ _ _ _) HJ)) as [-> ->]. clear IC.
  destruct (happened_sent _ _ _ _ _ _ HH) as (a & b & c & HS).
  assert (IT : text = tj).
  { assert (X : In (WS j, text) (sent_by s tr)) by (apply in_sent; rewrite A2; apply in_or_app; left; exact C2).
    pose proof (n_origin _ _ (nreach_inv _ _ HR) s (WS j) tj ltac:(rewrite HS; apply in_or_app; right; right; apply in_or_app; right; left; reflexivity)) as (id3 & q3 & O1 & O2).
    destruct (sends_fun _ _ _ _ _ _ _ _ (n_reach _ _ (nreach_inv _ _ HR) s) HJ O1) as [<- <-]. congruence. }
  subst text.
  set (U := a ++ (WS i, ti) :: b). assert (HS' : sent_by s tr = U ++ (WS j, tj) :: c) by (rewrite HS; unfold U; rewrite <- app_assoc; reflexivity).
  assert (HU : ~ In tj (map snd U)).
  { intros HU. apply in_map_iff in HU. destruct HU as ([w t] & U1 & U2). cbn [snd] in U1. subst t.
    destruct (request_origin n tr s w tj idj q' HR ltac:(rewrite HS'; apply in_or_app; left; exact U2) T2) as (j2 & qj2 & -> & O1 & _).
    destruct (sends_inj _ _ _ _ _ _ _ _ (n_reach _ _ (nreach_inv _ _ HR) s) HJ O1) as [<- _].
    pose proof (proj1 (n_once _ _ (nreach_inv _ _ HR) s)) as ND. unfold transmitted in ND. rewrite HS', flat_map_app in ND. cbn [flat_map fst app] in ND.
    apply NoDup_remove_2 in ND. apply ND. apply in_or_app. left. apply in_flat_map. exists (WS j, tj). split; [exact U2|left; reflexivity]. }
  destruct (reads_prefix n0 tr0 s A1) as [q0 Q0]. destruct (sent_prefix s tr0 (NObs (other s) (OHandle x idj) :: rest)) as [l L]. rewrite <- A2 in L.
  assert (EQ : reads (view (other s) tr0) ++ q0 ++ map snd l = map snd U ++ tj :: map snd c).
  { rewrite app_assoc, <- Q0, <- map_app, <- L, HS', map_app. reflexivity. }
  destruct (prefix_has _ _ _ _ _ EQ T1 HU) as [c' HP].
  (* the order of the requests that were read *)
  assert (HR1 : In (idi, qi') (requests_in (map snd U))).
  { apply in_requests. exists ti. split; [|exact HI]. unfold U. rewrite map_app. apply in_or_app. right. left. reflexivity. }
  assert (RQ : requests_in (reads (view (other s) tr0)) = requests_in (map snd U) ++ (idj, q') :: requests_in c').
  { rewrite HP, requests_in_app. f_equal. change (tj :: c') with ([tj] ++ c'). rewrite requests_in_app. unfold requests_in at 1. cbn [flat_map]. rewrite T2. reflexivity. }
  (* what had been handled once idj was *)
  assert (HN1 : exists tr1 n1, nreach n1 tr1 /\ view (other s) tr1 = view (other s) tr0 ++ [OHandle x idj]).
  { clear - HR HX A1 A2. destruct (moment_obs _ _ _ _ HR HX) as (m0 & ur0 & e & c' & oc & urest & B1 & B2 & B3 & B4).
    assert (E : oc = [OHandle x idj] /\ e = ELoop).
    { clear - B2 B3. revert B3. step_inv B2 e; cbn [In]; intros HI; repeat (destruct HI as [HI|HI]; try discriminate HI); try (destruct HI; fail); (split; [congruence|reflexivity]). }
    destruct E as [-> ->]. cbn [map finished app] in B4.
    assert (ND := handled_once _ _ (other s) HR).
    (* both moments are the same *)
    assert (ur0 = tr0) as ->.
    { assert (G : forall (p p' q q' : list nobs) y, p ++ y :: q = p' ++ y :: q' -> ~ In y p -> ~ In y p' -> p = p').
      { clear. induction p as [|z p IH]; intros [|z' p'] q q' y H H1 H2; [reflexivity| | |].
        - injection H as -> _. exfalso. apply H2. left. reflexivity.
        - injection H as -> _. exfalso. apply H1. left. reflexivity.
        - injection H as -> H. f_equal. apply (IH _ _ _ _ H); [intros h; apply H1; right; exact h|intros h; apply H2; right; exact h]. }
      assert (F : forall p q, tr = p ++ NObs (other s) (OHandle x idj) :: q -> ~ In (NObs (other s) (OHandle x idj)) p).
      { intros p q -> HI. apply in_handles_view in HI. rewrite view_app in ND. unfold handles in ND. rewrite pick_app, map_app in ND.
        change (NObs (other s) (OHandle x idj) :: q) with ([NObs (other s) (OHandle x idj)] ++ q) in ND. rewrite view_app, pick_app, map_app in ND.
        replace (view (other s) [NObs (other s) (OHandle x idj)]) with [OHandle x idj] in ND by (destruct s; reflexivity). cbn [pick flat_map app map fst] in ND.
        apply NoDup_remove_2 in ND. apply ND. apply in_or_app. left. apply in_map_iff. exists (idj, x). split; [reflexivity|exact HI]. }
      eapply G; [rewrite <- A2; symmetry; exact B4|eapply F; exact B4|eapply F; exact A2]. }
    assert (NS : nstep (other s) ELoop m0 = Some (set_queue (other (other s)) (queue_to (other (other s)) m0 ++ []) (set_queue (other s) (queue_to (other s) m0) (set_conn (other s) c' m0)), map (NObs (other s)) [OHandle x idj] ++ [])).
    { unfold nstep. cbn [allowed]. rewrite B2. reflexivity. }
    eexists _, _. split; [exact (nreach_S _ _ _ _ _ _ B1 NS)|]. rewrite view_app. f_equal. rewrite app_nil_r. apply view_obs. }
  destruct HN1 as (tr1 & n1 & N1 & N2).
  destruct (handles_requests n1 tr1 s N1) as (rs & _ & HQ). rewrite N2 in HQ. unfold reads, handles in HQ. rewrite !pick_app in HQ. cbn [pick flat_map app] in HQ. rewrite app_nil_r in HQ.
  fold reads handles in HQ. rewrite RQ, map_app in HQ. cbn [map some2 fst snd] in HQ.
  assert (XI : In (idi, Some qi') (handles (view (other s) tr0))).
  { pose proof (reads_once n1 tr1 s N1) as ND. rewrite N2 in ND. unfold reads in ND. rewrite pick_app in ND. cbn [pick flat_map app] in ND. rewrite app_nil_r in ND. fold reads in ND. rewrite RQ in ND.
    rewrite <- map_some2, map_app in ND. cbn [map some2 fst snd] in ND.
    assert (HIN : In (idi, Some qi') (map some2 (requests_in (map snd U)))) by (apply in_map_iff; exists (idi, qi'); split; [reflexivity|exact HR1]).
    assert (NJ : ~ In (idj, x) (map some2 (requests_in (map snd U)))).
    { intros HJ'. rewrite map_app in ND. cbn [map fst] in ND. apply NoDup_remove_2 in ND. apply ND. apply in_or_app. left. apply in_map_iff. exists (idj, x). split; [reflexivity|exact HJ']. }
    assert (HE : (handles (view (other s) tr0) ++ [(idj, x)]) ++ rs = map some2 (requests_in (map snd U)) ++ (idj, Some q') :: map some2 (requests_in c')) by (symmetry; exact HQ).
    assert (x = Some q') as ->. { pose proof (directed s xj q' x idj C7 K3 T3) as D. exact D. }
    assert (HIJ : In (idj, Some q') (handles (view (other s) tr0) ++ [(idj, Some q')])) by (apply in_or_app; right; left; reflexivity).
    destruct (prefix_has _ _ _ _ _ HE HIJ NJ) as [d HD].
    assert (HIN2 : In (idi, Some qi') (handles (view (other s) tr0) ++ [(idj, Some q')])) by (rewrite HD; apply in_or_app; left; exact HIN).
    apply in_app_or in HIN2. destruct HIN2 as [HIN2|[HIN2|[]]]; [exact HIN2|]. exfalso. apply NJ. rewrite HIN2. exact HIN. }
  apply in_handles_view in XI. rewrite A2. apply (happened_snoc [NObs (other s) (OHandle (Some qi') idi)]). apply happened_1. exact XI.
Qed.
