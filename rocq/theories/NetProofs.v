(** Two connected ends: invariants over all schedules of both. *)
From Coq Require Import Arith.
From Verif Require Import GoBase Utf8 Json JsonProofs Float64 Lang Types Codec Any Tables Registry Frame SpecFrame FrameRead FrameMore Leaves
  Conn SpecConn ConnBase ConnInv ConnSend ConnEvid ConnMore ConnFate ConnLast ConnTop Net SpecNet.
Open Scope string_scope.
Open Scope list_scope.
Opaque marshal_message read_text unmarshal_request call_to_request result_to_response utf8_valid msg_ok is_request action_of.

(** ** Projections *)
Lemma view_app s a b : view s (a ++ b) = view s a ++ view s b.
Proof. apply flat_map_app. Qed.
Lemma sent_app s a b : sent_by s (a ++ b) = sent_by s a ++ sent_by s b.
Proof. apply flat_map_app. Qed.
Lemma view_obs s o : view s (map (NObs s) o) = o.
Proof. induction o as [|x o IH]; [reflexivity|]. destruct s; cbn; f_equal; exact IH. Qed.
Lemma view_obs_other s o : view (other s) (map (NObs s) o) = [].
Proof. induction o as [|x o IH]; [reflexivity|]. destruct s; cbn; exact IH. Qed.
Lemma view_sent s s' l : view s' (map (fun wt : who * string => NSent s (fst wt) (snd wt)) l) = [].
Proof. induction l as [|x o IH]; [reflexivity|]. destruct s, s'; cbn; exact IH. Qed.
Lemma sent_obs s s' o : sent_by s' (map (NObs s) o) = [].
Proof. induction o as [|x o IH]; [reflexivity|]. destruct s, s'; cbn; exact IH. Qed.
Lemma sent_sent s l : sent_by s (map (fun wt : who * string => NSent s (fst wt) (snd wt)) l) = l.
Proof. induction l as [|[w t] o IH]; [reflexivity|]. destruct s; cbn; f_equal; exact IH. Qed.
Lemma sent_sent_other s l : sent_by (other s) (map (fun wt : who * string => NSent s (fst wt) (snd wt)) l) = [].
Proof. induction l as [|[w t] o IH]; [reflexivity|]. destruct s; cbn; exact IH. Qed.
Lemma in_view s tr o : In o (view s tr) <-> In (NObs s o) tr.
Proof.
  unfold view. rewrite in_flat_map. split.
  - intros (x & H1 & H2). destruct s, x as [[|] p|[|] w t]; cbn in H2; try tauto; destruct H2 as [<-|[]]; exact H1.
  - intros H. exists (NObs s o). split; [exact H|]. destruct s; left; reflexivity.
Qed.
Lemma in_sent s tr w t : In (w, t) (sent_by s tr) <-> In (NSent s w t) tr.
Proof.
  unfold sent_by. rewrite in_flat_map. split.
  - intros (x & H1 & H2). destruct s, x as [[|] p|[|] w' t']; cbn in H2; try tauto; (destruct H2 as [H2|[]]; injection H2 as <- <-; exact H1).
  - intros H. exists (NSent s w t). split; [exact H|]. destruct s; left; reflexivity.
Qed.
Lemma other_other s : other (other s) = s.
Proof. destruct s; reflexivity. Qed.

(** ** One step *)
Lemma nstep_inv s e n n' o : nstep s e n = Some (n', o) -> exists c' oc q,
  step (role_of s) e (conn_of s n) = Some (c', oc) /\ allowed s e n = Some q /\
  conn_of s n' = c' /\ conn_of (other s) n' = conn_of (other s) n /\ queue_to s n' = q /\
  queue_to (other s) n' = queue_to (other s) n ++ map snd (finished e (conn_of s n)) /\
  o = map (NObs s) oc ++ map (fun wt => NSent s (fst wt) (snd wt)) (finished e (conn_of s n)).
Proof.
  unfold nstep. destruct (allowed s e n) as [q|]; [|discriminate]. destruct (step (role_of s) e (conn_of s n)) as [[c' oc]|]; [|discriminate].
  intros H. injection H as <- <-. exists c', oc, q. destruct s; repeat split.
Qed.
Lemma reads_step ro e c c' o : step ro e c = Some (c', o) -> reads o = match e with ERead _ t => [t] | _ => [] end.
Proof. intros H. step_inv H e; reflexivity. Qed.
Lemma chunk_step ro w k c c' o t x rest : step ro (EChunk w k) c = Some (c', o) -> writing w c = Some (t, String x rest) -> sdrop k (String x rest) = "" ->
  writing w c' = Some (t, "").
Proof.
  intros H HW HD. unfold step in H. destruct (c_crash c); [discriminate H|]. rewrite HW in H. destruct (c_wbroken c || c_closed c); [discriminate H|]. rewrite HD in H.
  injection H as <- <-. destruct w as [i|j|]; cbn [writing set_rest] in *.
  - destruct (nth_error (c_senders c) i) as [sd|] eqn:E; [|discriminate HW]. destruct (sd_pc sd) eqn:EP; try discriminate HW. injection HW as -> ->.
    csimp. rewrite nth_upd, Nat.eqb_refl, E. reflexivity.
  - destruct (nth_error (c_readers c) j) as [p|] eqn:E; [|discriminate HW]. destruct p; try discriminate HW. injection HW as -> ->.
    csimp. rewrite nth_upd, Nat.eqb_refl, E. reflexivity.
  - destruct (c_loop c); try discriminate HW. injection HW as -> ->. reflexivity.
Qed.
Lemma finished_in e c w t : In (w, t) (finished e c) -> exists k x rest, e = EChunk w k /\ writing w c = Some (t, String x rest) /\ sdrop k (String x rest) = "".
Proof.
  destruct e; cbn [finished]; try (intros []). destruct (writing w0 c) as [[t' [|x rest]]|] eqn:E; try (intros []). destruct (sdrop n (String x rest)) eqn:ED; [|intros []].
  intros [H|[]]. injection H as -> ->. eauto 8.
Qed.
Lemma finished_1 e c : length (finished e c) <= 1.
Proof.
  destruct e; cbn; try lia. destruct (writing w c) as [[t' [|x rest]]|]; cbn [length]; try lia. destruct (sdrop n (String x rest)); cbn; lia.
Qed.

(** ** Invariants *)
(** The call's request will not enter the network any more. *)
Definition through (p : spc) : bool :=
  match p with SReg1 | SReg2 | SLock => false | SWrite _ r => match r with EmptyString => true | _ => false end | _ => true end.
Lemma through_step ro e c c' o i sd : step ro e c = Some (c', o) -> nth_error (c_senders c) i = Some sd -> through (sd_pc sd) = true ->
  exists sd', nth_error (c_senders c') i = Some sd' /\ through (sd_pc sd') = true.
Proof.
  intros H HN HI. step_inv H e; csimp; rewrite ?nth_upd, ?nth_app1; try (exists sd; split; [exact HN|exact HI]).
  all: match goal with |- context [Nat.eqb ?a ?b] => destruct (Nat.eqb_spec a b) as [EQ|EQ]; [subst|exists sd; split; [exact HN|exact HI]] end.
  all: try (rewrite nth_len in HN; discriminate HN).
  all: rewrite HN; eexists; (split; [reflexivity|]); csimp; try reflexivity.
  all: match goal with HX : nth_error _ _ = Some ?s |- _ => rewrite HN in HX; injection HX as -> end.
  all: match goal with HX : sd_pc _ = _ |- _ => rewrite HX in HI; cbn [through] in HI end; try discriminate HI.
  all: destruct n as [|n]; match goal with HX : context [match ?r with EmptyString => _ | String _ _ => _ end] |- _ => destruct r; [|discriminate HX] end; reflexivity.
Qed.
(** Where a message that entered the network comes from. *)
Definition origin (tr : list obs) (w : who) (t : string) : Prop :=
  match w with
  | WS i => exists id q, In (i, (id, q)) (sends tr) /\ request_text id q = Ok t
  | WL => exists id r, In (id, r) (returns tr) /\ marshal_message (response_message id r) = Ok t
  | WR _ => exists text id e, In text (reads tr) /\ inbound_of text = IRefused id e /\ marshal_message (new_call_error id e reject_desc) = Ok t
  end.
Lemma origin_app tr o w t : origin tr w t -> origin (tr ++ o) w t.
Proof.
  assert (SUB : forall {A} (f : obs -> option A) x, In x (pick f tr) -> In x (pick f (tr ++ o))).
  { intros A f x HX. rewrite pick_app. apply in_or_app. left. exact HX. }
  destruct w; cbn [origin].
  - intros (id & q & H1 & H2). exists id, q. split; [apply SUB; exact H1|exact H2].
  - intros (tx & id & e & H1 & H2). exists tx, id, e. split; [apply SUB; exact H1|exact H2].
  - intros (id & r & H1 & H2). exists id, r. split; [apply SUB; exact H1|exact H2].
Qed.
Lemma writing_origin ro c tr w t rest : inv ro c tr -> writing w c = Some (t, rest) -> origin tr w t.
Proof.
  intros V H. destruct (v_t _ _ _ V) as (T1 & T2 & T3 & _). destruct w as [i|j|]; cbn [writing origin] in *.
  - destruct (nth_error (c_senders c) i) as [sd|] eqn:E; [|discriminate H]. destruct (sd_pc sd) eqn:EP; try discriminate H. injection H as -> ->.
    exists (sd_id sd), (sd_q sd). split; [exact (in_sends _ _ _ _ (v_i _ _ _ V) E)|]. destruct (v_c _ _ _ V _ _ E) as (_ & _ & _ & C). rewrite EP in C.
    unfold request_text. rewrite C. exact (T1 _ _ _ _ E EP).
  - destruct (nth_error (c_readers c) j) as [p|] eqn:E; [|discriminate H]. destruct p; try discriminate H. injection H as -> ->.
    destruct (in_refused (reads tr) id c0) as (text & X1 & X2).
    { rewrite (v_r _ _ _ V). apply in_or_app. right. eapply flat_nth; [exact E|]. left. reflexivity. }
    exists text, id, c0. split; [exact X1|]. split; [exact X2|exact (T2 _ _ _ _ _ E)].
  - destruct (c_loop c) eqn:E; try discriminate H. injection H as -> ->. exists id, r. split; [|exact (T3 _ _ _ _ eq_refl)].
    destruct (v_h _ _ _ V) as (_ & _ & VH & _). rewrite VH, E. apply in_or_app. right. left. reflexivity.
Qed.

Record ninv (n : net) (tr : list nobs) : Prop := MkNinv {
  n_reach : forall s, reach (role_of s) (conn_of s n) (view s tr);
  n_fifo : forall s, map snd (sent_by s tr) = reads (view (other s) tr) ++ queue_to (other s) n;
  n_origin : forall s w t, In (w, t) (sent_by s tr) -> origin (view s tr) w t;
  n_once : forall s, NoDup (transmitted s tr) /\ (forall i, In i (transmitted s tr) -> exists sd, nth_error (c_senders (conn_of s n)) i = Some sd /\ through (sd_pc sd) = true);
  n_may : forall s i id q, In (i, (id, q)) (sends (view s tr)) -> may_send s q = true }.

Lemma transmitted_app s a b : transmitted s (a ++ b) = transmitted s a ++ transmitted s b.
Proof. unfold transmitted. rewrite sent_app. apply flat_map_app. Qed.
Lemma in_transmitted s tr i : In i (transmitted s tr) <-> exists t, In (WS i, t) (sent_by s tr).
Proof.
  unfold transmitted. rewrite in_flat_map. split.
  - intros ([w t] & H1 & H2). destruct w; cbn in H2; try tauto. destruct H2 as [->|[]]. eauto.
  - intros (t & H). exists (WS i, t). split; [exact H|left; reflexivity].
Qed.
Lemma side_cases s s' : s' = s \/ s' = other s.
Proof. destruct s, s'; auto. Qed.
Lemma sends_step ro e c c' o : step ro e c = Some (c', o) -> sends o = match e with ESend _ id q => [(length (c_senders c), (id, q))] | _ => [] end.
Proof. intros H. step_inv H e; reflexivity. Qed.

Lemma ninv_step s e n n' o tr : ninv n tr -> nstep s e n = Some (n', o) -> ninv n' (tr ++ o).
Proof.
  intros [NR NF NO NN NM] H. destruct (nstep_inv _ _ _ _ _ H) as (c' & oc & q & S1 & S2 & S3 & S4 & S5 & S6 & ->). clear H.
  set (out := finished e (conn_of s n)) in *.
  assert (V1 : view s (tr ++ map (NObs s) oc ++ map (fun wt => NSent s (fst wt) (snd wt)) out) = view s tr ++ oc).
  { rewrite !view_app, view_obs, view_sent, app_nil_r. reflexivity. }
  assert (V2 : view (other s) (tr ++ map (NObs s) oc ++ map (fun wt => NSent s (fst wt) (snd wt)) out) = view (other s) tr).
  { rewrite !view_app, view_obs_other, view_sent, !app_nil_r. reflexivity. }
  assert (W1 : sent_by s (tr ++ map (NObs s) oc ++ map (fun wt => NSent s (fst wt) (snd wt)) out) = sent_by s tr ++ out).
  { rewrite !sent_app, sent_obs, sent_sent. reflexivity. }
  assert (W2 : sent_by (other s) (tr ++ map (NObs s) oc ++ map (fun wt => NSent s (fst wt) (snd wt)) out) = sent_by (other s) tr).
  { rewrite !sent_app, sent_obs, sent_sent_other, !app_nil_r. reflexivity. }
  set (tr' := tr ++ map (NObs s) oc ++ map (fun wt => NSent s (fst wt) (snd wt)) out) in *. clearbody tr'.
  pose proof (NR s) as NRs. pose proof (reach_inv _ _ _ NRs) as V.
  constructor.
  - intros s'. destruct (side_cases s s') as [-> | ->].
    + rewrite S3, V1. exact (reach_S _ _ _ _ _ _ NRs S1).
    + rewrite S4, V2. apply NR.
  - intros s'. destruct (side_cases s s') as [-> | ->].
    + rewrite W1, V2, S6, map_app, NF, app_assoc. reflexivity.
    + rewrite W2, other_other, V1, S5, NF, other_other. unfold reads. rewrite pick_app, <- app_assoc. f_equal.
      fold reads. rewrite (reads_step _ _ _ _ _ S1). destruct e; cbn [allowed] in S2; try (injection S2 as <-; reflexivity).
      * destruct (may_send s q0); [|discriminate S2]. injection S2 as <-. reflexivity.
      * destruct (queue_to s n) as [|t l]; [discriminate S2|]. destruct (String.eqb_spec t text) as [<-|]; [|discriminate S2]. injection S2 as <-. reflexivity.
  - intros s' w t. destruct (side_cases s s') as [-> | ->].
    + rewrite W1, V1. intros HI. apply origin_app. apply in_app_or in HI. destruct HI as [HI|HI]; [exact (NO _ _ _ HI)|].
      apply finished_in in HI. destruct HI as (k & x & rest & _ & HW & _). exact (writing_origin _ _ _ _ _ _ V HW).
    + rewrite W2, V2. apply NO.
  - intros s'. unfold transmitted. destruct (side_cases s s') as [-> | ->]; [|rewrite W2, S4; apply NN].
    rewrite W1, S3, flat_map_app. destruct (NN s) as [N1 N2].
    assert (K : forall i, In i (transmitted s tr) -> exists sd, nth_error (c_senders c') i = Some sd /\ through (sd_pc sd) = true).
    { intros i HI. destruct (N2 _ HI) as (sd & D1 & D2). exact (through_step _ _ _ _ _ _ _ S1 D1 D2). }
    fold (transmitted s tr).
    destruct out as [|[w t] [|]] eqn:EO; [cbn [flat_map]; rewrite app_nil_r; split; [exact N1|exact K]| |exfalso; pose proof (finished_1 e (conn_of s n)) as HF; fold out in HF; rewrite EO in HF; cbn in HF; lia].
    assert (HI : In (w, t) (finished e (conn_of s n))) by (fold out; rewrite EO; left; reflexivity).
    apply finished_in in HI. destruct HI as (k & x & rest & -> & HW & HD). pose proof (chunk_step _ _ _ _ _ _ _ _ _ S1 HW HD) as HW'.
    cbn [flat_map fst app]. destruct w as [i|j|]; cbn [app]; rewrite ?app_nil_r; try (split; [exact N1|exact K]).
    cbn [writing] in HW, HW'. destruct (nth_error (c_senders (conn_of s n)) i) as [sd|] eqn:E; [|discriminate HW]. destruct (sd_pc sd) eqn:EP; try discriminate HW. injection HW as -> ->.
    destruct (nth_error (c_senders c') i) as [sd'|] eqn:E'; [|discriminate HW']. destruct (sd_pc sd') eqn:EP'; try discriminate HW'. injection HW' as -> ->.
    split.
    + apply NoDup_snoc; [exact N1|]. intros HI. destruct (N2 _ HI) as (sd2 & D1 & D2). rewrite E in D1. injection D1 as <-. rewrite EP in D2. discriminate D2.
    + intros i0 HI. apply in_app_or in HI. destruct HI as [HI|[<-|[]]]; [exact (K _ HI)|]. exists sd'. split; [exact E'|]. rewrite EP'. reflexivity.
  - intros s' i id q0. destruct (side_cases s s') as [-> | ->]; [|rewrite V2; apply NM].
    rewrite V1. unfold sends. rewrite pick_app. intros HI. apply in_app_or in HI. destruct HI as [HI|HI]; [exact (NM _ _ _ _ HI)|].
    fold sends in HI. rewrite (sends_step _ _ _ _ _ S1) in HI. destruct e; try (destruct HI; fail). destruct HI as [HI|[]]. injection HI as <- <- <-.
    cbn [allowed] in S2. destruct (may_send s q1); [reflexivity|discriminate S2].
Qed.
Theorem nreach_inv n tr : nreach n tr -> ninv n tr.
Proof.
  induction 1 as [|n tr s e n' o HR IH HS]; [|eapply ninv_step; eassumption].
  constructor; try (intros []; cbn; constructor); try (intros [] w t []); try (intros [] i id q []).
  all: try (constructor || reflexivity). all: try (intros ? []).
Qed.
Lemma nreach_run es : forall n tr n' o, nreach n tr -> nrun es n = Some (n', o) -> nreach n' (tr ++ o).
Proof.
  induction es as [|[s e] es IH]; intros n tr n' o HR H; cbn [nrun] in H; [injection H as <- <-; rewrite app_nil_r; exact HR|].
  destruct (nstep s e n) as [[n1 o1]|] eqn:E; [|discriminate H]. destruct (nrun es n1) as [[n2 o2]|] eqn:E2; [|discriminate H].
  injection H as <- <-. rewrite app_assoc. eapply IH; [|exact E2]. econstructor; eassumption.
Qed.
Lemma nreach_of_run es n o : nrun es net0 = Some (n, o) -> nreach n o.
Proof. intros H. change o with ([] ++ o). eapply nreach_run; [constructor|exact H]. Qed.

(** ** The moment at which something was seen *)
Lemma moment n tr x : nreach n tr -> In x tr -> exists n0 tr0 s e n1 o rest,
  nreach n0 tr0 /\ nstep s e n0 = Some (n1, o) /\ In x o /\ tr = tr0 ++ o ++ rest.
Proof.
  induction 1 as [|n tr s e n' o HR IH HS]; intros HI; [destruct HI|]. apply in_app_or in HI. destruct HI as [HI|HI].
  - destruct (IH HI) as (n0 & tr0 & s0 & e0 & n1 & o1 & rest & A1 & A2 & A3 & A4). exists n0, tr0, s0, e0, n1, o1, (rest ++ o).
    repeat (split; [assumption|]). rewrite A4, <- !app_assoc. reflexivity.
  - exists n, tr, s, e, n', o, []. rewrite app_nil_r. repeat (split; [assumption|]). reflexivity.
Qed.
Lemma moment_obs n tr s y : nreach n tr -> In (NObs s y) tr -> exists n0 tr0 e c' oc rest,
  nreach n0 tr0 /\ step (role_of s) e (conn_of s n0) = Some (c', oc) /\ In y oc /\
  tr = tr0 ++ (map (NObs s) oc ++ map (fun wt => NSent s (fst wt) (snd wt)) (finished e (conn_of s n0))) ++ rest.
Proof.
  intros HR HI. destruct (moment _ _ _ HR HI) as (n0 & tr0 & s0 & e & n1 & o & rest & A1 & A2 & A3 & A4).
  destruct (nstep_inv _ _ _ _ _ A2) as (c' & oc & q & S1 & _ & _ & _ & _ & _ & S6). rewrite S6 in A3, A4. apply in_app_or in A3. destruct A3 as [A3|A3].
  - apply in_map_iff in A3. destruct A3 as (z & Z1 & Z2). injection Z1 as <- <-. eauto 12.
  - apply in_map_iff in A3. destruct A3 as (z & Z1 & Z2). discriminate Z1.
Qed.
Lemma moment_sent n tr s w t : nreach n tr -> In (NSent s w t) tr -> exists n0 tr0 k c' oc rest r x,
  nreach n0 tr0 /\ step (role_of s) (EChunk w k) (conn_of s n0) = Some (c', oc) /\ writing w (conn_of s n0) = Some (t, String x r) /\
  tr = tr0 ++ map (NObs s) oc ++ NSent s w t :: rest.
Proof.
  intros HR HI. destruct (moment _ _ _ HR HI) as (n0 & tr0 & s0 & e & n1 & o & rest & A1 & A2 & A3 & A4).
  destruct (nstep_inv _ _ _ _ _ A2) as (c' & oc & q & S1 & _ & _ & _ & _ & _ & S6). rewrite S6 in A3, A4. apply in_app_or in A3. destruct A3 as [A3|A3].
  - apply in_map_iff in A3. destruct A3 as (z & Z1 & Z2). discriminate Z1.
  - apply in_map_iff in A3. destruct A3 as ([w' t'] & Z1 & Z2). cbn [fst snd] in Z1. injection Z1 as -> -> ->.
    pose proof Z2 as Z3. apply finished_in in Z3. destruct Z3 as (k & x & r & -> & HW & HD). exists n0, tr0, k, c', oc, rest, r, x.
    repeat (split; [assumption|]). rewrite A4. cbn [finished]. rewrite HW, HD. cbn [map fst snd]. rewrite <- app_assoc. reflexivity.
Qed.
Lemma happened_snoc xs : forall a x b, happened xs a -> happened (xs ++ [x]) (a ++ x :: b).
Proof.
  induction xs as [|y xs IH]; intros a x b H; cbn [happened app] in *; [exists a, b; split; [reflexivity|exact I]|].
  destruct H as (u & v & -> & H). exists u, (v ++ x :: b). split; [rewrite <- app_assoc; reflexivity|]. apply IH. exact H.
Qed.
Lemma happened_app xs : forall a b, happened xs a -> happened xs (a ++ b).
Proof.
  induction xs as [|y xs IH]; intros a b H; cbn [happened] in *; [exact I|].
  destruct H as (u & v & -> & H). exists u, (v ++ b). split; [rewrite <- app_assoc; reflexivity|apply IH; exact H].
Qed.
Lemma happened_1 x tr : In x tr -> happened [x] tr.
Proof. intros H. apply in_split in H. destruct H as (a & b & ->). exists a, b. split; [reflexivity|exact I]. Qed.
Lemma happened_In xs : forall tr x, happened xs tr -> In x xs -> In x tr.
Proof.
  induction xs as [|y xs IH]; intros tr x H HI; [destruct HI|]. cbn [happened] in H. destruct H as (a & b & -> & H). apply in_or_app. right.
  destruct HI as [->|HI]; [left; reflexivity|right; exact (IH _ _ H HI)].
Qed.
