(** Property theorems C37 - C42, C45, C59 - C61: the central system, any number of
    charge points and connections, all schedules. *)
From Coq Require Import Arith Permutation.
From Verif Require Import GoBase Utf8 Json Float64 Lang Types Codec Any Tables Registry Frame Conn SpecConn ConnBase ConnFate ConnLast ConnTop
  CentralSystem SpecCS CSInv CSMore PropsConn.
Open Scope string_scope.
Open Scope list_scope.

(** Concrete runs: connection k of a charge point connects; is closed by the peer; is cleaned up. *)
Definition cstate_of vs := match crun vs csys0 with Some (s, _) => s | None => csys0 end.
Definition ctrace_of vs := match crun vs csys0 with Some (_, o) => o | None => [] end.
Definition cruns vs := match crun vs csys0 with Some _ => true | None => false end.
Lemma creached vs : cruns vs = true -> creach (cstate_of vs) (ctrace_of vs).
Proof.
  unfold cruns, cstate_of, ctrace_of. destruct (crun vs csys0) as [[s o]|] eqn:E; [|discriminate]. intros _. exact (creach_of_run _ _ _ E).
Qed.
Definition connects (k : nat) (path : string) := [VHttp true "GET" path; VStep k; VShake k true; VStep k; VStep k; VStep k; VConn k ELoop].
Definition closes (k : nat) := [VConn k (EReadErr 0 true); VConn k (EReader 0); VConn k (EReader 0)].
Definition cleanup (k : nat) := [VConn k ESeeClose; VConn k ELoop; VConn k ELoop; VStep k; VStep k; VStep k; VStep k].
(** "/a" connects twice, the newer connection goes first. *)
Definition twice := connects 0 "/a" ++ connects 1 "/a" ++ closes 1 ++ cleanup 1.
Example cruns_ok : cruns (connects 0 "/a" ++ [VService "a" "V16" ""; VWaitConnect "a"; VWaitDisconnect "a"; VHttp false "GET" "/"]) = true /\
  cruns (twice ++ [VService "a" "V16" ""]) = true /\ cruns (twice ++ closes 0 ++ cleanup 0 ++ [VService "a" "V16" ""; VWaitConnect "a"]) = true.
Proof. conjs; vm_compute; reflexivity. Qed.

(** *** C37: registered exactly while a connection was accepted and not cleaned up *)
Theorem C37_registered : forall s tr b id url r, creach s tr -> at_point b (OService id "V16" url r) tr ->
  ((exists k, r = inl (SvcJSON k)) <-> online id b).
Proof.
  intros s tr b id url r HR HT. destruct (service_at _ _ _ _ _ _ HR HT) as [(O & k & _ & ->)|(O & ->)]; split; intros H; eauto; try contradiction. destruct H as [k H]. discriminate H.
Qed.
(** Cleaned-up connections were accepted before, so being online is one more accepted than cleaned up. *)
Theorem C37_cleaned_were_registered : forall s tr id, creach s tr -> incl (cleans id tr) (regs id tr).
Proof.
  intros s tr id HR k H. apply regs_life. apply cleans_life in H. destruct (life_shape _ _ k HR) as [L|(i & f & g & rest & [L|L])]; [rewrite L in H; destruct H| |].
  - destruct (life k tr) as [|a [|b [|c [|d [|e l]]]]]; cbn [app] in L; try (destruct H as [H|H]; [subst; discriminate L|]);
      repeat (destruct H as [H|H]; [subst; discriminate L|]); try destruct H.
    + injection L as -> -> -> -> -> _. subst. injection H as ->. cbn. tauto.
    + injection L as -> -> -> -> -> X. destruct l; [destruct H|discriminate X].
  - exfalso. assert (X : In (OCleaned k id) (life k tr ++ rest)) by (apply in_or_app; left; exact H). rewrite L in X. cbn in X. intuition discriminate.
Qed.
Example C37_ex : at_point (ctrace_of (connects 0 "/a")) (OService "a" "V16" "" (inl (SvcJSON 0))) (ctrace_of (connects 0 "/a" ++ [VService "a" "V16" ""])) /\
  regs "a" (ctrace_of (connects 0 "/a")) = [0] /\ cleans "a" (ctrace_of twice) = [1] /\ regs "a" (ctrace_of twice) = [0; 1].
Proof. split; [exists []; vm_compute; reflexivity|]. conjs; vm_compute; reflexivity. Qed.

(** *** C38: WaitConnect *)
Theorem C38_wait_connect : forall s b id ch a, creach s (b ++ OWaitC id ch :: a) ->
  (In ch (s_closed s) <-> online id b \/ regs id a <> []).
Proof. intros s b id ch a HR. destruct (i_wait _ _ (creach_inv _ _ HR) _ _ _ _ eq_refl) as (_ & H & _). exact H. Qed.
Theorem C38_never_twice : forall s tr, creach s tr -> ~ In OPanic tr.
Proof. intros s tr HR. destruct (i_chans _ _ (creach_inv _ _ HR)) as (_ & _ & _ & _ & _ & H). exact H. Qed.
(** Waiters for different charge points never share a channel that is still open. *)
Theorem C38_own_channel : forall s tr b id ch a b' id' ch' a', creach s tr -> tr = b ++ OWaitC id ch :: a -> tr = b' ++ OWaitC id' ch' :: a' ->
  ~ In ch (s_closed s) -> ch = ch' -> id = id'.
Proof.
  intros s tr b id ch a b' id' ch' a' HR H1 H2 HC <-. pose proof (creach_inv _ _ HR) as V. destruct (i_wait _ _ V _ _ _ _ H1) as (_ & _ & X). destruct (i_wait _ _ V _ _ _ _ H2) as (_ & _ & Y).
  destruct (i_chans _ _ V) as (_ & _ & C & _). exact (C _ _ _ (X HC) (Y HC)).
Qed.
Example C38_ex : let early := [VWaitConnect "a"; VWaitConnect "b"] in let tr := ctrace_of (early ++ connects 0 "/a") in
  cruns (early ++ connects 0 "/a") = true /\ s_closed (cstate_of (early ++ connects 0 "/a")) = [0] /\
  tr = [] ++ OWaitC "a" 0 :: OWaitC "b" 1 :: tl (tl tr) /\ regs "a" (tl tr) = [0] /\ regs "b" (tl (tl tr)) = [].
Proof. cbv zeta. conjs; vm_compute; reflexivity. Qed.

(** *** C39: GetServiceOf *)
Theorem C39_v16 : forall s tr b id url r, creach s tr -> at_point b (OService id "V16" url r) tr ->
  (online id b /\ exists k, newest id b = Some k /\ r = inl (SvcJSON k)) \/ (~ online id b /\ r = inr "no connection to this charge point").
Proof. exact service_at. Qed.
Theorem C39_v15 : forall s tr b id url r, creach s tr -> at_point b (OService id "V15" url r) tr -> r = inl (SvcSOAP url id).
Proof. intros s tr b id url r HR HT. destruct (service_any _ _ _ _ _ _ _ HR HT) as (s0 & _ & ->). reflexivity. Qed.
Theorem C39_other : forall s tr b id v url r, creach s tr -> at_point b (OService id v url r) tr -> v <> "V15" -> v <> "V16" ->
  r = inr "charge point has no configured OCPP version(1.5/1.6)".
Proof.
  intros s tr b id v url r HR HT N1 N2. destruct (service_any _ _ _ _ _ _ _ HR HT) as (s0 & _ & ->). unfold get_service, V15, V16.
  destruct (String.eqb_spec v "V15"); [contradiction|]. destruct (String.eqb_spec v "V16"); [contradiction|reflexivity].
Qed.
(** A connection of the charge point is open, yet the service is on another, closed
    and cleaned up, connection. *)
Theorem C39_dead_service_refuted : exists s tr b k j, creach s tr /\ at_point b (OService "a" "V16" "" (inl (SvcJSON k))) tr /\
  closed_on k b /\ In k (cleans "a" b) /\ In j (regs "a" b) /\ ~ In j (cleans "a" b) /\ ~ closed_on j b.
Proof.
  exists (cstate_of (twice ++ [VService "a" "V16" ""])), (ctrace_of (twice ++ [VService "a" "V16" ""])), (ctrace_of twice), 1, 0.
  split; [apply creached; vm_compute; reflexivity|]. split; [exists []; vm_compute; reflexivity|]. unfold closed_on. vm_compute. intuition discriminate.
Qed.
Example C39_ex : newest "a" (ctrace_of (connects 0 "/a" ++ connects 1 "/a")) = Some 1.
Proof. conjs; vm_compute; reflexivity. Qed.

(** *** C40: charge points do not interfere *)
(** Whatever else happened, reports about [id] depend only on what happened to [id]. *)
Theorem C40_service : forall s1 t1 b1 s2 t2 b2 id url r1 r2, creach s1 t1 -> creach s2 t2 ->
  at_point b1 (OService id "V16" url r1) t1 -> at_point b2 (OService id "V16" url r2) t2 -> history id b1 = history id b2 -> r1 = r2.
Proof.
  intros s1 t1 b1 s2 t2 b2 id url r1 r2 H1 H2 A1 A2 HH. destruct (history_online _ _ _ HH) as (O & N & _).
  destruct (service_at _ _ _ _ _ _ H1 A1) as [(O1 & k1 & N1 & ->)|(O1 & ->)]; destruct (service_at _ _ _ _ _ _ H2 A2) as [(O2 & k2 & N2 & ->)|(O2 & ->)]; try tauto. congruence.
Qed.
Theorem C40_wait_disconnect : forall s1 t1 b1 s2 t2 b2 id r1 r2, creach s1 t1 -> creach s2 t2 ->
  at_point b1 (OWaitD id r1) t1 -> at_point b2 (OWaitD id r2) t2 -> history id b1 = history id b2 -> r1 = r2.
Proof.
  intros s1 t1 b1 s2 t2 b2 id r1 r2 H1 H2 A1 A2 HH. destruct (history_online _ _ _ HH) as (O & N & _).
  destruct (waitd_at _ _ _ _ _ H1 A1) as [(O1 & k1 & N1 & ->)|(O1 & ->)]; destruct (waitd_at _ _ _ _ _ H2 A2) as [(O2 & k2 & N2 & ->)|(O2 & ->)]; try tauto. congruence.
Qed.
Theorem C40_wait_connect : forall s1 s2 b1 a1 b2 a2 id ch1 ch2, creach s1 (b1 ++ OWaitC id ch1 :: a1) -> creach s2 (b2 ++ OWaitC id ch2 :: a2) ->
  history id b1 = history id b2 -> history id a1 = history id a2 -> (In ch1 (s_closed s1) <-> In ch2 (s_closed s2)).
Proof.
  intros s1 s2 b1 a1 b2 a2 id ch1 ch2 H1 H2 HB HA. rewrite (C38_wait_connect _ _ _ _ _ H1), (C38_wait_connect _ _ _ _ _ H2).
  destruct (history_online _ _ _ HB) as (O & _). destruct (history_online _ _ _ HA) as (_ & _ & R). rewrite O, R. reflexivity.
Qed.
Example C40_ex : let t1 := ctrace_of (connects 0 "/a") in let t2 := ctrace_of (connects 0 "/a" ++ connects 1 "/b" ++ closes 1 ++ cleanup 1) in
  history "a" t1 = history "a" t2 /\ history "a" t1 = [ORegistered 0 "a"] /\ history "b" t2 = [ORegistered 1 "b"; OCleaned 1 "b"].
Proof. cbv zeta. conjs; vm_compute; reflexivity. Qed.

(** *** C41: listeners *)
(** Each connection, in this order: accepted or refused; connection listener started;
    disconnection listener started; cleaned up; each at most once, with the id it came with. *)
Theorem C41_life : forall s tr k, creach s tr -> life k tr = [] \/ exists id f g rest,
  life k tr ++ rest = [OArrived k id; ORegistered k id; OStartOn f k id; OStartOff g k id; OCleaned k id] \/
  life k tr ++ rest = [OArrived k id; OShakeFailed k].
Proof. exact life_shape. Qed.
Theorem C41_not_before_close : forall s tr b f k id, creach s tr -> at_point b (OStartOff f k id) tr -> closed_on k b.
Proof. intros s tr b f k id HR [a HT]. exact (late_show _ _ _ _ _ _ _ HR HT (or_intror (ex_intro _ f eq_refl))). Qed.
Theorem C41_not_outnumbered : forall s tr id, creach s tr -> length (offs id tr) <= length (ons id tr) /\ incl (offs id tr) (ons id tr) /\ NoDup (offs id tr).
Proof. intros s tr id HR. destruct (offs_le _ _ id HR) as (H1 & H2 & H3). auto. Qed.
(** Each goroutine started calls the function it was started with, once. *)
Theorem C41_calls : forall s tr, creach s tr -> exists rest, Permutation (started tr) (called tr ++ rest).
Proof. intros s tr HR. exists (s_goes s). exact (i_goes _ _ (creach_inv _ _ HR)). Qed.
(** It is the function set last. *)
Theorem C41_function : forall s k s' o, cstep (VStep k) s = Some (s', o) ->
  (forall f id, In (OStartOn f k id) o -> f = s_on s) /\ (forall f id, In (OStartOff f k id) o -> f = s_off s).
Proof.
  intros s k s' o H. unfold cstep in H. destruct (s_crash s); [discriminate H|]. destruct (nth_error (s_ks s) k) as [x|]; [|discriminate H]. unfold kstep, do_register, do_clean in H.
  destruct (k_pc x); try discriminate H; cbv zeta in H; repeat (sinv1 H); try (injection H as <- <-); split; intros f' id' HI; cbn in HI; repeat destruct HI as [HI|HI]; try discriminate HI; try contradiction; congruence.
Qed.
(** It is the function given in the last call of SetConnectListener or SetDisconnectListener. *)
Definition set_last (on : bool) (vs : list cevent) : list nat :=
  flat_map (fun v => match v with VSetOn f => if on then [f] else [] | VSetOff f => if on then [] else [f] | _ => [] end) vs.
Theorem C41_function_set : forall vs s tr k s' o, crun vs csys0 = Some (s, tr) -> cstep (VStep k) s = Some (s', o) ->
  (forall f id, In (OStartOn f k id) o -> f = last (set_last true vs) 0) /\ (forall f id, In (OStartOff f k id) o -> f = last (set_last false vs) 0).
Proof.
  assert (ST : forall v s s' o, cstep v s = Some (s', o) -> s_on s' = match v with VSetOn f => f | _ => s_on s end /\ s_off s' = match v with VSetOff f => f | _ => s_off s end).
  { intros v s s' o H. cstep_inv H v; split; reflexivity. }
  assert (LC : forall (l : list nat) f d, last (f :: l) d = last l f).
  { induction l as [|x l IH]; intros f d; [reflexivity|]. change (last (x :: l) d = last (x :: l) f). rewrite (IH x d), (IH x f). reflexivity. }
  assert (G : forall vs s s' o, crun vs s = Some (s', o) -> s_on s' = last (set_last true vs) (s_on s) /\ s_off s' = last (set_last false vs) (s_off s)).
  { induction vs as [|v vs IH]; intros s s' o H; cbn [crun] in H; [injection H as <- _; split; reflexivity|].
    destruct (cstep v s) as [[s1 o1]|] eqn:E; [|discriminate H]. destruct (crun vs s1) as [[s2 o2]|] eqn:E2; [|discriminate H]. injection H as <- _.
    destruct (IH _ _ _ E2) as [-> ->]. destruct (ST _ _ _ _ E) as [-> ->]. unfold set_last. cbn [flat_map]. destruct v; cbn [app]; try (split; reflexivity); split; rewrite ?LC; reflexivity. }
  intros vs s tr k s' o HR H. destruct (G _ _ _ _ HR) as [G1 G2]. destruct (C41_function _ _ _ _ H) as [F1 F2]. split; intros f id HI.
  - rewrite (F1 _ _ HI), G1. reflexivity.
  - rewrite (F2 _ _ HI), G2. reflexivity.
Qed.
Example C41_function_ex : let vs := [VSetOn 3; VSetOff 4; VSetOn 5] ++ connects 0 "/a" in cruns vs = true /\ In (OStartOn 5 0 "a") (ctrace_of vs) /\ last (set_last true vs) 0 = 5.
Proof. cbv zeta. split; [vm_compute; reflexivity|]. split; [vm_compute; tauto|reflexivity]. Qed.
(** But the disconnection listener can run before the connection listener. *)
Theorem C41_order_refuted : exists s tr k, creach s tr /\ called tr = [(false, 0, "a"); (true, 0, "a")] /\ regs "a" tr = [k].
Proof.
  set (vs := connects 0 "/a" ++ closes 0 ++ cleanup 0 ++ [VCall 1; VCall 0]). exists (cstate_of vs), (ctrace_of vs), 0.
  split; [apply creached; vm_compute; reflexivity|]. split; vm_compute; reflexivity.
Qed.
Theorem C41_failed_handshake : forall s tr k s' o, creach s tr -> cstep (VShake k false) s = Some (s', o) ->
  o = [OShakeFailed k] /\ s_conns s' = s_conns s /\ s_chans s' = s_chans s /\ s_closed s' = s_closed s /\ s_goes s' = s_goes s /\ s_count s' = s_count s /\ s_connected s' = s_connected s /\
  forall vs s'' o', crun vs s' = Some (s'', o') -> life k o' = [].
Proof.
  intros s tr k s' o HR H. assert (HR' := creach_S _ _ _ _ _ HR H). assert (LF := H). unfold cstep in H. destruct (s_crash s) eqn:EC; [discriminate H|]. destruct (nth_error (s_ks s) k) as [x|] eqn:EN; [|discriminate H].
  destruct (k_pc x) eqn:EP; try discriminate H. injection H as <- <-. repeat (split; [reflexivity|]). intros vs s'' o' HRun.
  pose proof (creach_run _ _ _ _ _ HR' HRun) as HR2. pose proof (proj1 (i_life _ _ (creach_inv _ _ HR)) _ _ EN) as X. unfold script in X. rewrite EP in X.
  destruct (life_shape _ _ k HR2) as [L|(i & f & g & rest & [L|L])]; rewrite !life_app, X in L; unfold life at 1 in L; cbn in L; rewrite ?Nat.eqb_refl in L; cbn in L; try discriminate L.
  injection L as _ L. apply app_eq_nil in L. exact (proj1 L).
Qed.
Example C41_ex : life 1 (ctrace_of twice) = [OArrived 1 "a"; ORegistered 1 "a"; OStartOn 0 1 "a"; OStartOff 0 1 "a"; OCleaned 1 "a"] /\
  cruns [VHttp true "GET" "/a"; VStep 0; VShake 0 false] = true.
Proof. conjs; vm_compute; reflexivity. Qed.

(** *** C42: WaitDisconnect *)
Theorem C42_wait_disconnect : forall s tr b id r, creach s tr -> at_point b (OWaitD id r) tr ->
  (online id b /\ exists k, newest id b = Some k /\ r = Some k) \/ (~ online id b /\ r = None).
Proof. exact waitd_at. Qed.
(** The close channel of a connection fires when it shows [ODone]; that has
    happened when it is cleaned up, and the state agrees with the trace. *)
Theorem C42_fires : forall s tr k x, creach s tr -> nth_error (s_ks s) k = Some x -> (c_done (k_conn x) = true <-> closed_on k tr).
Proof. intros s tr k x HR HN. destruct (proj1 (i_proj _ _ (creach_inv _ _ HR)) _ _ HN) as (P & _). exact (done_seen _ _ _ P). Qed.
Theorem C42_closed_before_cleanup : forall s tr b k id, creach s tr -> at_point b (OCleaned k id) tr -> closed_on k b.
Proof. intros s tr b k id HR [a HT]. exact (late_show _ _ _ _ _ _ _ HR HT (or_introl eq_refl)). Qed.
(** Connections stay what C19 - C36 say of one connection. *)
Theorem C42_connections : forall s tr k x, creach s tr -> nth_error (s_ks s) k = Some x -> reach CS (k_conn x) (conn_trace k tr).
Proof. intros s tr k x HR HN. exact (proj1 (proj1 (i_proj _ _ (creach_inv _ _ HR)) _ _ HN)). Qed.
Example C42_ex : at_point (ctrace_of twice) (OWaitD "a" (Some 1)) (ctrace_of (twice ++ [VWaitDisconnect "a"])) /\ at_point [] (OWaitD "a" None) (ctrace_of [VWaitDisconnect "a"]).
Proof. split; exists []; vm_compute; reflexivity. Qed.

(** *** C45: HTTP dispatch *)
Theorem C45_dispatch : forall s tr upgrade meth path s' o, creach s tr -> cstep (VHttp upgrade meth path) s = Some (s', o) ->
  (upgrade = true /\ exists k, o = [OArrived k (trim_slash path)] /\ life k tr = []) \/
  (upgrade = false /\ meth = "GET" /\ s' = s /\ exists n, o = [OPage n]) \/
  (upgrade = false /\ meth <> "GET" /\ s' = s /\ o = [OSoap]).
Proof.
  intros s tr upgrade meth path s' o HR H. unfold cstep in H. destruct (s_crash s); [discriminate H|]. unfold dispatch in H. destruct upgrade; [left|right].
  - injection H as <- <-. split; [reflexivity|]. exists (length (s_ks s)). split; [reflexivity|]. apply (proj2 (i_life _ _ (creach_inv _ _ HR))). apply nth_error_None. lia.
  - destruct (String.eqb_spec meth "GET"); injection H as <- <-; [left|right]; eauto.
Qed.
Theorem C45_always_accepted : forall s upgrade meth path, s_crash s = false -> exists s' o, cstep (VHttp upgrade meth path) s = Some (s', o).
Proof. intros s upgrade meth path H. unfold cstep. rewrite H. destruct (dispatch upgrade meth); eauto. Qed.
Theorem C45_page : forall s tr b n, creach s tr -> at_point b (OPage n) tr -> exists l, NoDup l /\ length l = n /\ forall id, In id l <-> online id b.
Proof. exact page_at. Qed.
Theorem C45_identity : forall s, trim_slash ("/" ++ s) = s.
Proof. reflexivity. Qed.
Example C45_ex : at_point (ctrace_of (connects 0 "/a" ++ connects 1 "/b")) (OPage 2) (ctrace_of (connects 0 "/a" ++ connects 1 "/b" ++ [VHttp false "GET" "/"])).
Proof. exists []. vm_compute. reflexivity. Qed.

(** *** C59: unsynchronised accesses to the map of connections *)
(** Writers of the map exclude each other. *)
Theorem C59_writers_exclusive : forall s tr j k, creach s tr -> writes_conns s j -> writes_conns s k -> j = k.
Proof.
  intros s tr j k HR (x & X1 & X2) (y & Y1 & Y2). pose proof (i_mux _ _ (creach_inv _ _ HR)) as M.
  assert (A : s_mux s = Some j) by (apply M; exists x; split; [exact X1|destruct X2 as [-> | ->]; reflexivity]).
  assert (B : s_mux s = Some k) by (apply M; exists y; split; [exact Y1|destruct Y2 as [-> | ->]; reflexivity]). congruence.
Qed.
(** The calls of the API that use the map wait for them; when nobody writes and
    the process has not crashed they return at once. *)
Theorem C59_api_waits : forall s tr j id url, creach s tr -> writes_conns s j ->
  cstep (VService id V16 url) s = None /\ cstep (VWaitConnect id) s = None /\ cstep (VWaitDisconnect id) s = None.
Proof.
  intros s tr j id url HR (x & X1 & X2). pose proof (i_mux _ _ (creach_inv _ _ HR)) as M.
  assert (A : s_mux s = Some j) by (apply M; exists x; split; [exact X1|destruct X2 as [-> | ->]; reflexivity]).
  unfold cstep. rewrite A. destruct (s_crash s); repeat split; reflexivity.
Qed.
Theorem C59_api_otherwise : forall s tr id url, creach s tr -> s_crash s = false -> (forall j, ~ writes_conns s j) ->
  cstep (VService id V16 url) s <> None /\ cstep (VWaitConnect id) s <> None /\ cstep (VWaitDisconnect id) s <> None.
Proof.
  intros s tr id url HR HC HN. pose proof (i_mux _ _ (creach_inv _ _ HR)) as M.
  assert (A : s_mux s = None).
  { destruct (s_mux s) as [j|] eqn:E; [exfalso|reflexivity]. destruct (proj1 (M j) E) as (x & X1 & X2). apply (HN j). exists x. split; [exact X1|]. destruct (k_pc x); try discriminate X2; auto. }
  unfold cstep. rewrite A, HC. repeat split; try (cbn; discriminate). destruct (lookup id (s_chans s)); discriminate.
Qed.
(** The log line at the start of a connection (if a debug logger is set), and the information page, read it meanwhile. *)
Theorem C59_map_race : exists s tr j k, creach s tr /\ writes_conns s j /\ reads_conns s k /\ j <> k.
Proof.
  set (vs := [VHttp true "GET" "/a"; VHttp true "GET" "/b"; VStep 0; VShake 0 true; VStep 0]). exists (cstate_of vs), (ctrace_of vs), 0, 1.
  split; [apply creached; vm_compute; reflexivity|]. split; [|split; [|discriminate]]; eexists; (split; [vm_compute; reflexivity|]); [left|]; reflexivity.
Qed.
Theorem C59_page_race : exists s tr j s' n, creach s tr /\ writes_conns s j /\ cstep (VHttp false "GET" "/") s = Some (s', [OPage n]).
Proof.
  set (vs := [VHttp true "GET" "/a"; VStep 0; VShake 0 true; VStep 0]). exists (cstate_of vs), (ctrace_of vs), 0, (cstate_of vs), 0.
  split; [apply creached; vm_compute; reflexivity|]. split; [|vm_compute; reflexivity]. eexists. split; [vm_compute; reflexivity|left; reflexivity].
Qed.

(** *** C60: a late response freezes a connection for good *)
(** Connection k reads a response to a call that gave up, before anything closed
    it.  Then, whatever happens, it serves no further request, is never seen to
    close, its disconnection listener never starts and it stays registered. *)
Theorem C60_frozen : forall s tr k i uid q o text r s1 o1, creach s tr ->
  In (i, (uid, q)) (sends (conn_trace k tr)) -> In (i, o) (rets (conn_trace k tr)) -> gave_up o = true -> response_to text uid ->
  ~ closed_on k tr -> cstep (VConn k (ERead r text)) s = Some (s1, o1) ->
  forall vs s2 o2, crun vs s1 = Some (s2, o2) ->
    reads (conn_trace k o2) = [] /\ handles (conn_trace k o2) = [] /\ ~ closed_on k o2 /\
    forall id f, ~ In (OCleaned k id) o2 /\ ~ In (OStartOff f k id) o2.
Proof.
  intros s tr k i uid q o text r s1 o1 HR HS HI HG HT HD H vs s2 o2 HRun. destruct (late_stuck _ _ _ _ _ _ _ _ _ _ _ HR HS HI HG HT HD H) as [K _].
  destruct (kstuck_run _ _ _ _ _ _ _ _ _ _ (creach_S _ _ _ _ _ HR H) (proj1 (response_to_is _ _) HT) K HRun) as (_ & L & (S1 & _ & S3 & _)).
  split; [exact S1|]. split; [exact S3|].
  assert (NL : forall x, In x o2 -> leaves k x = false).
  { intros x HX. destruct (leaves k x) eqn:E; [|reflexivity]. assert (Y : existsb (leaves k) o2 = true) by (apply existsb_exists; eauto). congruence. }
  split; [|intros id f; split; intros HX; specialize (NL _ HX); cbn in NL; rewrite Nat.eqb_refl in NL; discriminate NL].
  intros HX. unfold closed_on, conn_trace in HX. apply cpick_in in HX. destruct HX as (x & X1 & X2). destruct x; try discriminate X2. destruct (Nat.eqb k k0) eqn:E; [|discriminate X2]. injection X2 as ->.
  specialize (NL _ X1). cbn in NL. congruence.
Qed.
(** So GetServiceOf goes on returning it until a newer connection is accepted. *)
Theorem C60_still_served : forall s tr k i uid q o text r s1 o1 id, creach s tr ->
  In (i, (uid, q)) (sends (conn_trace k tr)) -> In (i, o) (rets (conn_trace k tr)) -> gave_up o = true -> response_to text uid ->
  ~ closed_on k tr -> newest id tr = Some k -> cstep (VConn k (ERead r text)) s = Some (s1, o1) ->
  forall vs s2 o2, crun vs s1 = Some (s2, o2) -> regs id o2 = [] -> get_service id "V16" "" s2 = inl (SvcJSON k).
Proof.
  intros s tr k i uid q o text r s1 o1 id HR HS HI HG HT HD HNW H vs s2 o2 HRun HRG. pose proof (creach_S _ _ _ _ _ HR H) as HR1. pose proof (creach_run _ _ _ _ _ HR1 HRun) as HR2.
  destruct (C60_frozen _ _ _ _ _ _ _ _ _ _ _ HR HS HI HG HT HD H _ _ _ HRun) as (_ & _ & _ & F). destruct (late_stuck _ _ _ _ _ _ _ _ _ _ _ HR HS HI HG HT HD H) as [_ ->].
  assert (NW : newest id ((tr ++ [OConn k (ORead text)]) ++ o2) = Some k) by (rewrite !newest_app by (try exact HRG; reflexivity); exact HNW).
  assert (ON : online id ((tr ++ [OConn k (ORead text)]) ++ o2)).
  { exists k. split; [unfold newest in NW; exact (last_of_in _ _ NW)|]. rewrite !cleans_app. intros HX. apply in_app_or in HX. destruct HX as [HX|HX].
    - apply in_app_or in HX. destruct HX as [HX|HX]; [|destruct HX]. apply HD. apply cleans_life, life_in in HX. apply in_split in HX. destruct HX as (b & a & ->).
      assert (CB : closed_on k b) by (eapply (C42_closed_before_cleanup s _ b k id HR); exists a; reflexivity). unfold closed_on in *. rewrite conn_trace_app. apply in_or_app. left. exact CB.
    - apply cleans_life, life_in in HX. exact (proj1 (F id 0) HX). }
  unfold get_service. cbn. destruct (conns_online _ _ id HR2) as [(_ & E & _)|(X & _)]; [|contradiction]. rewrite E, NW. reflexivity.
Qed.
Definition asked := connects 0 "/a" ++ [VConn 0 (ESend false "7" (MkMsg "csreq.ClearCache" (VStruct []))); VConn 0 (EStep 0); VConn 0 (EStep 0); VConn 0 (EStep 0); VConn 0 (EChunk (WS 0) 60); VConn 0 (EWritten (WS 0)); VConn 0 (EStep 0); VConn 0 (ETimeout 0)].
Example C60_ex : cruns (asked ++ [VConn 0 (ERead 0 "[3,""7"",{""status"":""Accepted""}]")]) = true /\ rets (conn_trace 0 (ctrace_of asked)) = [(0, RTimeout)] /\
  map fst (sends (conn_trace 0 (ctrace_of asked))) = [0] /\ newest "a" (ctrace_of asked) = Some 0 /\ existsb (fun o => match o with ODone => true | _ => false end) (conn_trace 0 (ctrace_of asked)) = false /\
  inbound_of "[3,""7"",{""status"":""Accepted""}]" = IResult "7" (AObj [("status", AStr "Accepted")]).
Proof. conjs; vm_compute; reflexivity. Qed.

(** *** C61: cleanup completes *)
(** No deadlock: from every reachable state a closed connection whose loop is
    back in its select, or past it, is cleaned up in at most 8 further steps. *)
Theorem C61_cleanup : forall s tr k x, creach s tr -> s_crash s = false -> nth_error (s_ks s) k = Some x ->
  (k_pc x = KServe /\ (exists r, c_loop (k_conn x) = LSel r) /\ closed_on k tr) \/ (late (k_pc x) = true /\ k_pc x <> KEnd) ->
  exists vs s1 o, length vs <= 8 /\ crun vs s = Some (s1, o) /\ In (OCleaned k (k_id x)) o.
Proof.
  intros s tr k x HR HC HN [(HP & [r HL] & HD)|[HP HE]].
  - apply (C42_fires _ _ _ _ HR HN) in HD. destruct (close_run _ _ _ _ _ HR HC HN HP HL HD) as (vs & s1 & o & L & _ & X). eauto 6.
  - destruct (proj1 (i_proj _ _ (creach_inv _ _ HR)) _ _ HN) as (_ & _ & P). destruct (cleanup_run _ _ _ _ HR HC HN (or_intror HP) (P HP) HE) as (vs & s1 & o & L & _ & X). exists vs, s1, o. split; [lia|exact X].
Qed.
(** The lock is never held for ever. *)
Theorem C61_lock_free : forall s tr, creach s tr -> s_crash s = false -> exists vs s1 o, length vs <= 1 /\ crun vs s = Some (s1, o) /\ s_mux s1 = None.
Proof. intros s tr HR HC. destruct (free_mux _ _ HR HC) as (vs & s1 & o & H1 & _ & H2 & H3 & _). eauto 6. Qed.
Example C61_ex : let vs := connects 0 "/a" ++ closes 0 in cruns vs = true /\ s_crash (cstate_of vs) = false /\
  map (fun x => (k_pc x, c_loop (k_conn x), c_done (k_conn x))) (s_ks (cstate_of vs)) = [(KServe, LSel 0, true)].
Proof. cbv zeta. conjs; vm_compute; reflexivity. Qed.

Definition cs_theorems := (C37_registered, C37_cleaned_were_registered, C38_wait_connect, C38_never_twice, C38_own_channel, C39_v16, C39_v15, C39_other, C39_dead_service_refuted,
  C40_service, C40_wait_disconnect, C40_wait_connect, C41_life, C41_not_before_close, C41_not_outnumbered, C41_calls, C41_function, C41_function_set, C41_order_refuted, C41_failed_handshake,
  C42_wait_disconnect, C42_fires, C42_closed_before_cleanup, C42_connections, C45_dispatch, C45_always_accepted, C45_page, C45_identity,
  C59_writers_exclusive, C59_api_waits, C59_api_otherwise, C59_map_race, C59_page_race, C60_frozen, C60_still_served, C61_cleanup, C61_lock_free).
Print Assumptions cs_theorems.
