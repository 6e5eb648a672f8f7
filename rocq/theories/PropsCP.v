(** Property theorems C43, C46 - C49, C62: the charge point, all dial outcomes, all
    schedules; URLs and sub-protocols. *)
From Coq Require Import Arith.
From Verif Require Import GoBase Utf8 Json Float64 Lang Types Codec Any Tables Registry Frame Conn SpecConn ConnBase ConnInv ConnFate ConnTop
  ChargePoint SpecCP CSInv CPInv CPMore PropsConn.
Open Scope string_scope.
Open Scope list_scope.

(** Concrete runs *)
Definition xstate_of xs := match xrun xs cpoint0 with Some (p, _) => p | None => cpoint0 end.
Definition xtrace_of xs := match xrun xs cpoint0 with Some (_, o) => o | None => [] end.
Definition xruns xs := match xrun xs cpoint0 with Some _ => true | None => false end.
Lemma xreached xs : xruns xs = true -> xreach (xstate_of xs) (xtrace_of xs).
Proof.
  unfold xruns, xstate_of, xtrace_of. destruct (xrun xs cpoint0) as [[s o]|] eqn:E; [|discriminate]. intros _. exact (xreach_of_run _ _ _ E).
Qed.
Definition starts (k : nat) := [XDial true; XStep; XStep; XStep; XConn k ELoop].
(** The peer goes away; the loop notices. *)
Definition drops (k : nat) := [XConn k (EReadErr 0 true); XConn k (EReader 0); XConn k (EReader 0); XConn k ESeeClose; XStep].
Example xruns_ok : xruns (XWaitC :: []) = false /\ xruns (starts 0 ++ [XSend false "u1" hb; XWaitC; XWaitD] ++ drops 0 ++ [XWaitC; XDial false; XStep] ++ starts 1) = true /\
  xruns (starts 0 ++ [XCancel; XConn 0 EStop; XConn 0 ELoop; XConn 0 ELoop]) = true /\ xruns [XDial false] = true.
Proof. conjs; vm_compute; reflexivity. Qed.

(** *** C46: reconnecting *)
(** A dial is only made when every earlier connection has closed. *)
Theorem C46_one_connection : forall p tr b ok a, xreach p tr -> tr = b ++ QDialed ok :: a -> forall k, k < connected b -> link_closed k b.
Proof. exact dial_after. Qed.
(** Connections are put in place and lost in dialling order, alternately; each is put in place once. *)
Theorem C46_in_turn : forall p tr, xreach p tr -> exists n m, ups tr = seq 0 n /\ losts tr = seq 0 m /\ (n = m /\ up_now tr = false \/ n = S m /\ up_now tr = true).
Proof.
  intros p tr HR. pose proof (xreach_inv _ _ HR) as V. exists (length (ups tr)), (length (losts tr)). split; [exact (j_ups _ _ V)|]. split; [exact (j_losts _ _ V)|].
  destruct (j_num _ _ V) as [_ N]. rewrite (j_up _ _ V). destruct (down (p_pc p)); cbn; [left|right]; split; lia.
Qed.
Theorem C46_dialled_first : forall p tr, xreach p tr -> length (ups tr) <= connected tr <= S (length (ups tr)).
Proof.
  intros p tr HR. pose proof (xreach_inv _ _ HR) as V. rewrite (connected_conns _ _ HR). destruct (j_num _ _ V) as [N _]. destruct (fresh (p_pc p)); lia.
Qed.
Theorem C46_lost_only_when_closed : forall p tr b k a, xreach p tr -> tr = b ++ QLost k :: a -> link_closed k b.
Proof. exact lost_closed. Qed.
(** The channel given by WaitConnect is closed exactly when a connection is in place
    at that moment or one has been put in place since. *)
Theorem C46_wait_connect : forall p b ch a, xreach p (b ++ QWaitC ch :: a) -> (In ch (p_closed p) <-> up_now b = true \/ ups a <> []).
Proof. intros p b ch a HR. exact (proj1 (proj2 (j_wait _ _ (xreach_inv _ _ HR) _ _ _ eq_refl))). Qed.
Theorem C46_never_twice : forall p tr, xreach p tr -> ~ In QPanic tr.
Proof. intros p tr HR. exact (j_panic _ _ (xreach_inv _ _ HR)). Qed.
(** Off line and whatever happened before, any number of further dials may fail and
    the next one that succeeds puts the next connection in place. *)
Theorem C46_keeps_dialling : forall p tr n, xreach p tr -> p_crash p = false -> In (QNew true) tr -> up_now tr = false ->
  (exists xs p', xrun xs p = Some (p', [QUp (length (ups tr))])) \/
  (exists xs p', xrun xs p = Some (p', failures n ++ [QDialed true; QUp (length (ups tr))]) /\ length xs <= 2 * n + 5).
Proof.
  intros p tr n HR C N U. assert (N' : p_new p = false).
  { clear C U. revert N. induction HR as [|p tr x p' o HR IH HS]; [intros []|]. rewrite in_app_iff. intros HI. apply xstep_kind in HS. destruct HS as [_ HS].
    assert (K : p_new p = false -> p_new p' = false).
    { intros HF. destruct HS as [P E O|P N E O|P N E O|P E O|P E O|P E O|P I E O|P I E O|P E O|E O|E N O|E N O|k e c c' oo pre HN HK HS E HP O]; subst p'; psimp; try assumption; try reflexivity. cbv zeta. destruct (c_crash c'); assumption. }
    destruct HI as [HI|HI]; [apply K; apply IH; exact HI|].
    destruct HS as [P E O|P N E O|P N E O|P E O|P E O|P E O|P I E O|P I E O|P E O|E O|E N O|E N O|k e c c' oo pre HN HK HS E HP O]; subst o; cbn [In] in HI; try (exfalso; intuition discriminate).
    - subst p'. reflexivity.
    - apply K. unfold pconn_ok in HK. apply andb_true_iff in HK. destruct HK as [HK _]. apply andb_true_iff in HK. destruct HK as [HK _]. apply negb_true_iff. exact HK. }
  destruct (fresh (p_pc p)) eqn:F.
  - left. destruct (put_up p tr HR C N' F) as (xs & p' & _ & H). eauto.
  - right. exact (redial p tr n HR C N' U F).
Qed.
(** Send and WaitDisconnect use the newest connection, or, while a new one is being
    put in place, that one. *)
Theorem C46_send_newest : forall p tr b k a, xreach p tr -> tr = b ++ QSend k :: a -> S k = length (ups b) \/ k = length (ups b).
Proof. exact send_to. Qed.
Theorem C46_wait_disconnect_newest : forall p tr b k a, xreach p tr -> tr = b ++ QWaitD k :: a -> S k = length (ups b) \/ k = length (ups b).
Proof. exact waitd_to. Qed.
(** Everything proved of a connection holds of each connection of a charge point. *)
Theorem C46_each_connection : forall p tr k, xreach p tr -> link k tr = [] \/ exists c, reach CP c (link k tr).
Proof. intros p tr k HR. pose proof (j_link _ _ (xreach_inv _ _ HR) k) as H. destruct (nth_error (p_conns p) k) as [c|]; [right; exists c; exact H|left; exact H]. Qed.
(** A call is made on a connection that has closed: Send uses the old connection until a new one is there. *)
Theorem C46_send_on_closed_refuted : exists p tr b k a, xreach p tr /\ tr = b ++ QSend k :: a /\ link_closed k b /\ In k (losts b).
Proof.
  pose (xs := starts 0 ++ drops 0 ++ [XDial false; XSend false "u1" hb]).
  exists (xstate_of xs), (xtrace_of xs), (xtrace_of (starts 0 ++ drops 0 ++ [XDial false])), 0, [QConn 0 (OCall 0 "u1" hb)].
  split; [apply xreached; vm_compute; reflexivity|]. split; [vm_compute; reflexivity|]. unfold link_closed. vm_compute. auto.
Qed.
Example C46_ex : let tr := xtrace_of (starts 0 ++ [XWaitC] ++ drops 0 ++ [XWaitC; XDial false; XStep] ++ starts 1) in
  ups tr = [0; 1] /\ losts tr = [0] /\ connected tr = 2 /\ up_now tr = true /\ link 0 tr = [OReadErr true; OClosed; ODone] /\
  p_closed (xstate_of (starts 0 ++ [XWaitC] ++ drops 0 ++ [XWaitC; XDial false; XStep] ++ starts 1)) = [1; 0] /\
  p_closed (xstate_of (starts 0 ++ [XWaitC] ++ drops 0 ++ [XWaitC; XDial false; XStep])) = [0].
Proof. cbv zeta. conjs; vm_compute; reflexivity. Qed.

(** *** C47: cancellation *)
(** Connected and waiting in the select: the charge point can stop, closing the connection. *)
Theorem C47_can_stop : forall p tr k c r, xreach p tr -> p_crash p = false -> p_pc p = PServe -> In QCancelled tr -> k = p_cur p ->
  nth_error (p_conns p) k = Some c -> c_loop c = LSel r -> c_crash c = false ->
  exists p', xrun [XConn k EStop; XConn k ELoop; XConn k ELoop] p = Some (p', [QConn k OStop; QConn k OClosed; QConn k ODone; QStopped]).
Proof.
  intros p tr k c r HR C P HC K HN HL CC. pose proof (xreach_inv _ _ HR) as V. apply (j_cancel _ _ V) in HC.
  assert (N : p_new p = false) by (destruct (p_new p) eqn:N; [destruct (j_new _ _ V N) as (_ & _ & D); rewrite P in D; discriminate D|reflexivity]).
  assert (D : forall q d e d' o, p_crash q = false -> p_new q = false -> p_cur q = k -> nth_error (p_conns q) k = Some d ->
     (match e with ELoop => match p_pc q with PServe | PStop => true | _ => false end | EStop => p_cancel q | _ => true end) = true -> step CP e d = Some (d', o) -> c_crash d' = false ->
     xstep (XConn k e) q = Some (pset_pc (ppc_after e d' (p_pc q)) (pset_conns (upd k d' (p_conns q)) q), map (QConn k) o ++ match ppc_after e d' (p_pc q), p_pc q with PEnd, PStop => [QStopped] | _, _ => [] end)).
  { intros q d e d' o Q1 Q2 Q3 Q4 Q5 Q6 Q7. unfold xstep, pconn, pconn_ok. rewrite Q1, Q2, Q3, Q4, Nat.leb_refl, Nat.eqb_refl. cbn [negb andb].
    replace (match e with ELoop => match p_pc q with PServe | PStop => true | _ => false end | EStop => p_cancel q | _ => true end) with true. rewrite Q6, Q7. reflexivity. }
  assert (UP : forall d, nth_error (upd k d (p_conns p)) k = Some d) by (intros d; rewrite nth_upd, Nat.eqb_refl, HN; reflexivity).
  assert (UP2 : forall d e, nth_error (upd k d (upd k e (p_conns p))) k = Some d) by (intros d e; rewrite nth_upd, Nat.eqb_refl, UP; reflexivity).
  pose (c1 := set_loop LClose c). pose (c2 := set_loop LCancel (set_closed c1)). pose (c3 := set_loop LGone (set_done c2)).
  assert (S1 : step CP EStop c = Some (c1, [OStop])) by (unfold step; rewrite CC, HL; reflexivity).
  assert (S2 : step CP ELoop c1 = Some (c2, [OClosed])) by (unfold step; cbn [c_crash c1 set_loop]; rewrite CC; reflexivity).
  assert (S3 : step CP ELoop c2 = Some (c3, [ODone])) by (unfold step; cbn [c_crash c1 c2 set_loop set_closed]; rewrite CC; reflexivity).
  assert (K1 : c_crash c1 = false) by exact CC. assert (K2 : c_crash c2 = false) by exact CC. assert (K3 : c_crash c3 = false) by exact CC.
  eexists. eapply xrun_cons with (o1 := [QConn k OStop]) (o2 := [QConn k OClosed; QConn k ODone; QStopped]); [exact (D p c EStop c1 [OStop] C N (eq_sym K) HN HC S1 K1)|].
  eapply xrun_cons with (o1 := [QConn k OClosed]) (o2 := [QConn k ODone; QStopped]); [exact (D (pset_pc PStop (pset_conns (upd k c1 (p_conns p)) p)) c1 ELoop c2 [OClosed] C N (eq_sym K) (UP c1) eq_refl S2 K2)|].
  eapply xrun_cons with (o1 := [QConn k ODone; QStopped]) (o2 := []); [exact (D (pset_pc PStop (pset_conns (upd k c2 (upd k c1 (p_conns p))) p)) c2 ELoop c3 [ODone] C N (eq_sym K) (UP2 c2 c1) eq_refl S3 K3)|]. reflexivity.
Qed.
(** It stops only when cancelled, and with every connection it ever had closed. *)
Theorem C47_stop_only_cancelled : forall p tr b a, xreach p tr -> tr = b ++ QStopped :: a -> In QCancelled b /\ forall k, k < connected b -> link_closed k b.
Proof. exact stop_why. Qed.
(** Once stopped: no more dials, connections or calls of the handler. *)
Theorem C47_stopped_for_good : forall p tr b a, xreach p tr -> tr = b ++ QStopped :: a -> dials a = [] /\ ups a = [] /\ forall k, handles (link k a) = [].
Proof. intros p tr b a HR HT. exact (after_stop _ _ HR _ _ HT). Qed.
(** Cancelled while off line: it does not stop before the next connection is in place. *)
Theorem C47_redialling_does_not_stop : forall p tr b a, xreach p tr -> tr = b ++ QCancelled :: a -> up_now b = false -> ups a = [] -> ~ In QStopped tr.
Proof.
  intros p tr b a HR HT U UA HS. pose proof (xreach_inv _ _ HR) as V. apply (j_stop _ _ V) in HS. pose proof (j_up _ _ V) as E. rewrite HS in E. cbn in E.
  rewrite HT, up_now_app in E. cbn [fold_left] in E. rewrite U in E. clear -E UA. induction a as [|o a IH]; [discriminate E|]. destruct o; cbn in *; try (apply IH; assumption). discriminate UA.
Qed.
(** Any number of dials can fail after the cancellation, with the charge point still
    dialling; and it may well connect again after it. *)
Theorem C47_cancel_stops_refuted : forall n, exists p tr b a, xreach p tr /\ tr = b ++ QCancelled :: a /\ In (QNew true) b /\ dials a = repeat false n ++ [true] /\ ups a = [1] /\ ~ In QStopped tr.
Proof.
  intros n. pose (p0 := xstate_of (starts 0 ++ drops 0 ++ [XCancel])). pose (t0 := xtrace_of (starts 0 ++ drops 0 ++ [XCancel])).
  assert (HR : xreach p0 t0) by (apply xreached; vm_compute; reflexivity).
  destruct (redial p0 t0 n HR) as (xs & p' & R & _); [vm_compute; reflexivity..|].
  assert (E : t0 = xtrace_of (starts 0 ++ drops 0) ++ [QCancelled]) by (vm_compute; reflexivity).
  assert (L : length (ups t0) = 1) by (vm_compute; reflexivity). rewrite L in R. pose proof (xreach_run _ _ _ _ _ HR R) as HR'. rewrite E, <- app_assoc in HR'. cbn [app] in HR'.
  assert (DF : dials (failures n) = repeat false n) by (clear; induction n as [|n IH]; [reflexivity|cbn; f_equal; exact IH]).
  assert (UF : ups (failures n) = []) by (clear; induction n as [|n IH]; [reflexivity|exact IH]).
  assert (SF : ~ In QStopped (failures n)) by (clear; induction n as [|n IH]; cbn; [auto|intros [H|H]; [discriminate H|exact (IH H)]]).
  eexists _, _, _, _. split; [exact HR'|]. split; [reflexivity|]. split; [vm_compute; auto|]. split; [unfold dials in *; rewrite qpick_app, DF; reflexivity|]. split; [rewrite ups_app, UF; reflexivity|].
  rewrite !in_app_iff. cbn [In]. rewrite in_app_iff. cbn [In]. intros [H|[H|[H|H]]]; [vm_compute in H; intuition discriminate|discriminate H|exact (SF H)|intuition discriminate].
Qed.
Example C47_ex : let xs := starts 0 ++ [XCancel] in p_pc (xstate_of xs) = PServe /\ p_cur (xstate_of xs) = 0 /\ In QCancelled (xtrace_of xs) /\
  match nth_error (p_conns (xstate_of xs)) 0 with Some c => c_loop c = LSel 0 /\ c_crash c = false | None => False end.
Proof. cbv zeta. conjs; vm_compute; auto. Qed.

(** *** C48: construction *)
Theorem C48_json : forall id url port dial, (exists e, cp_new "json" id url port dial = NewError e) <-> dial = false.
Proof. intros id url port [|]; cbn; split; intros H; try discriminate H; eauto. destruct H as [e H]. discriminate H. Qed.
Theorem C48_soap : forall id url port dial, (exists e, cp_new "soap" id url port dial = NewError e) <-> port = None.
Proof. intros id url [port|] dial; cbn; split; intros H; try discriminate H; eauto. destruct H as [e H]. discriminate H. Qed.
(** A successful New over a known transport leaves a service on which Send works. *)
Theorem C48_usable : forall t id url port dial svc srv, (t = "json" \/ t = "soap") -> cp_new t id url port dial = NewOk svc srv -> cp_send_panics svc = false.
Proof. intros t id url port dial svc srv [-> | ->]; cbn; [destruct dial|destruct port]; cbn; intros H; try discriminate H; injection H as <- _; reflexivity. Qed.
Theorem C48_unknown_transport_refuted : forall t id url port dial, t <> "json" -> t <> "soap" ->
  exists svc, cp_new t id url port dial = NewOk svc false /\ cp_send_panics svc = true.
Proof.
  intros t id url port dial N1 N2. unfold cp_new. destruct (String.eqb_spec t "json"); [contradiction|]. destruct (String.eqb_spec t "soap"); [contradiction|].
  exists NoService. auto.
Qed.
(** The two dialling outcomes of the machine are New's two outcomes. *)
Theorem C48_new_outcome : forall p tr ok, xreach p tr -> (In (QNew ok) tr -> exists rest, dials tr = ok :: rest) /\ (dials tr = [false] -> In (QNew false) tr).
Proof.
  intros p tr ok HR.
  assert (I : (p_new p = true -> (tr = [] \/ True) /\ ~ In (QNew true) tr /\ (In (QNew false) tr <-> p_pc p = PFailed) /\
      dials tr = (match p_pc p with PDial => [] | PFailed => [false] | _ => [true] end) /\ (p_pc p = PDial \/ p_pc p = PFailed \/ fresh (p_pc p) = true)) /\
    (p_new p = false -> ~ In (QNew false) tr /\ exists rest, dials tr = true :: rest)).
  { clear ok. induction HR as [|p tr x p' o HR IH HS].
    - cbn. split; [intros _|intros H; discriminate H]. repeat split; auto; try (intros []; fail); intros H; discriminate H.
    - destruct IH as [IH1 IH2]. apply xstep_kind in HS. destruct HS as [_ HS].
      destruct HS as [P E O|P N E O|P N E O|P E O|P E O|P E O|P I E O|P I E O|P E O|E O|E N O|E N O|k e c c' oo pre HN HK HS E HP O]; subst p' o; psimp; unfold dials in *; rewrite ?qpick_app, ?app_nil_r; cbn [qpick flat_map app]; rewrite ?app_nil_r.
      + split; intros H; [destruct (IH1 H) as (_ & A & B & D & F)|destruct (IH2 H) as (A & rest & D)].
        * rewrite P in *. rewrite D. split; [auto|]. split; [rewrite in_app_iff; cbn; intuition discriminate|]. split; [rewrite in_app_iff, B; cbn; intuition discriminate|]. split; [reflexivity|auto].
        * split; [rewrite in_app_iff; cbn; intuition discriminate|]. rewrite D. exists (rest ++ [true]). reflexivity.
      + split; intros H; [|congruence]. destruct (IH1 H) as (_ & A & B & D & F). rewrite P in *. rewrite D. split; [auto|]. split; [rewrite in_app_iff; cbn; intuition discriminate|]. split; [rewrite in_app_iff; cbn; tauto|]. split; [reflexivity|auto].
      + split; intros H; [congruence|]. destruct (IH2 H) as (A & rest & D). split; [rewrite in_app_iff; cbn; intuition discriminate|]. rewrite D. exists (rest ++ [false]). reflexivity.
      + split; intros H; [destruct (IH1 H) as (_ & _ & _ & _ & F); rewrite P in F; exfalso; intuition discriminate|exact (IH2 H)].
      + split; intros H; [|exact (IH2 H)]. destruct (IH1 H) as (_ & A & B & D & F). rewrite P in *. split; [auto|]. split; [exact A|]. split; [rewrite B; split; discriminate|]. split; [exact D|auto].
      + split; intros H; [|exact (IH2 H)]. destruct (IH1 H) as (_ & A & B & D & F). rewrite P in *. split; [auto|]. split; [exact A|]. split; [rewrite B; split; discriminate|]. split; [exact D|auto].
      + exfalso. pose proof (j_panic _ _ (xreach_inv _ _ (xreach_S _ _ XStep (pset_crash p) [QPanic] HR ltac:(unfold xstep; destruct (p_crash p) eqn:CR; [|unfold pstep; rewrite P; replace (existsb (Nat.eqb (p_chan p)) (p_closed p)) with true by (symmetry; apply existsb_exists; exists (p_chan p); split; [exact I|apply Nat.eqb_refl]); reflexivity]; exfalso; pose proof (proj1 (proj2 (proj2 (j_chan _ _ (xreach_inv _ _ HR)))) I) as X; rewrite P in X; discriminate X)))) as X. apply X. apply in_or_app. right. left. reflexivity.
      + split; intros H; [discriminate H|]. destruct (p_new p) eqn:N.
        * destruct (IH1 eq_refl) as (_ & A & B & D & F). rewrite P in *. split; [rewrite in_app_iff, B; cbn; intuition discriminate|]. exists []. rewrite D. reflexivity.
        * destruct (IH2 eq_refl) as (A & rest & D). split; [rewrite in_app_iff; cbn; intuition discriminate|]. exists rest. rewrite D, app_nil_r. reflexivity.
      + split; intros H; [destruct (IH1 H) as (_ & _ & _ & _ & F); rewrite P in F; exfalso; intuition discriminate|]. destruct (IH2 H) as (A & rest & D). split; [rewrite in_app_iff; cbn; intuition discriminate|eauto].
      + split; intros H; [destruct (IH1 H) as (_ & A & B & D & F)|destruct (IH2 H) as (A & rest & D)].
        * split; [auto|]. split; [rewrite in_app_iff; cbn; intuition discriminate|]. split; [rewrite in_app_iff, <- B; cbn; intuition discriminate|]. auto.
        * split; [rewrite in_app_iff; cbn; intuition discriminate|eauto].
      + split; intros H; [congruence|]. destruct (IH2 H) as (A & rest & D). split; [rewrite in_app_iff; cbn; intuition discriminate|eauto].
      + split; intros H; [congruence|]. destruct (IH2 H) as (A & rest & D). split; [rewrite in_app_iff; cbn; intuition discriminate|eauto].
      + assert (N : p_new p = false) by (unfold pconn_ok in HK; apply andb_true_iff in HK; destruct HK as [HK _]; apply andb_true_iff in HK; destruct HK as [HK _]; apply negb_true_iff; exact HK).
        cbv zeta. split; intros H; [destruct (c_crash c'); psimp_in H; congruence|]. destruct (IH2 N) as (A & rest & D). split.
        * rewrite in_app_iff. intros [X|X]; [exact (A X)|]. apply in_app_or in X. destruct X as [X|X]; [destruct HP as [-> | [-> _]]; [destruct X|destruct X as [X|[]]; discriminate X]|].
          apply in_app_or in X. destruct X as [X|X]; [apply in_map_iff in X; destruct X as (? & X & _); discriminate X|]. apply stop_only in X. discriminate X.
        * rewrite D. eexists. cbn [app]. reflexivity. }
  destruct I as [I1 I2]. destruct (p_new p) eqn:N.
  - destruct (I1 eq_refl) as (_ & A & B & D & F). split.
    + intros H. destruct ok; [contradiction|]. apply B in H. rewrite H in D. exists []. exact D.
    + intros H. apply B. rewrite D in H. destruct (p_pc p); try discriminate H. reflexivity.
  - destruct (I2 eq_refl) as (A & rest & D). split; [intros H; destruct ok; [eauto|contradiction]|]. intros H. rewrite D in H. discriminate H.
Qed.
Example C48_ex : cp_new "json" "id" "ws://h" None true = NewOk OverWebsocket false /\ cp_new "soap" "id" "http://h" (Some "80") false = NewOk (OverSoap "http://h" "id") true /\
  cp_new "jsn" "id" "ws://h" None true = NewOk NoService false /\ xtrace_of [XDial false] = [QDialed false; QNew false].
Proof. conjs; vm_compute; reflexivity. Qed.

(** *** C49: sub-protocols *)
Theorem C49_offers_own : forall v p, In p (offered v) <-> (v = "V15" /\ p = "ocpp1.5") \/ (v = "V16" /\ p = "ocpp1.6") \/ (v <> "V15" /\ v <> "V16" /\ p = "").
Proof.
  intros v p. unfold offered, protocol_of. cbn [In]. destruct (String.eqb_spec v "V15") as [->|N1]; [intuition congruence|]. destruct (String.eqb_spec v "V16") as [->|N2]; intuition congruence.
Qed.
(** The answer is ocpp1.6 also to clients that did not offer it. *)
Theorem C49_not_negotiated_refuted : forall offers, cs_protocol offers = "ocpp1.6".
Proof. reflexivity. Qed.
Theorem C49_mismatch : forall v, In (cs_protocol (offered v)) (offered v) <-> v = "V16".
Proof.
  intros v. rewrite C49_offers_own, C49_not_negotiated_refuted. split; [|intros ->; auto]. intros [[_ H]|[[H _]|(_ & _ & H)]]; [discriminate H|exact H|discriminate H].
Qed.
(** A 1.5 charge point and this central system do not agree. *)
Theorem C49_v15_disagrees : ~ In (cs_protocol (offered "V15")) (offered "V15").
Proof. cbn. intros [H|[]]. discriminate H. Qed.
Example C49_ex : In (cs_protocol (offered "V16")) (offered "V16").
Proof. left. reflexivity. Qed.

(** *** C43: identities *)
Open Scope string_scope.
Lemma upto_none c s : all_chars (fun x => negb (Ascii.eqb x c)) s = true -> upto c s = s.
Proof. induction s as [|x s IH]; cbn; [reflexivity|]. intros H. apply andb_true_iff in H. destruct H as [H1 H2]. apply negb_true_iff in H1. rewrite H1, IH by exact H2. reflexivity. Qed.
Lemma all_app f a b : all_chars f (a ++ b) = all_chars f a && all_chars f b.
Proof. induction a as [|x a IH]; cbn; [reflexivity|]. rewrite IH, andb_assoc. reflexivity. Qed.
Lemma all_imp f g s : (forall c, f c = true -> g c = true) -> all_chars f s = true -> all_chars g s = true.
Proof. intros H. induction s as [|x s IH]; cbn; [reflexivity|]. intros E. apply andb_true_iff in E. destruct E as [E1 E2]. rewrite (H _ E1), IH by exact E2. reflexivity. Qed.
Lemma from_none c a b : all_chars (fun x => negb (Ascii.eqb x c)) a = true -> from c (a ++ String c b) = String c b.
Proof. induction a as [|x a IH]; cbn; [rewrite Ascii.eqb_refl; reflexivity|]. intros H. apply andb_true_iff in H. destruct H as [H1 H2]. apply negb_true_iff in H1. rewrite H1. exact (IH H2). Qed.
Lemma unescape_none s : all_chars (fun x => negb (Ascii.eqb x "%"%char)) s = true -> unescape s = Some s.
Proof. induction s as [|x s IH]; cbn; [reflexivity|]. intros H. apply andb_true_iff in H. destruct H as [H1 H2]. apply negb_true_iff in H1. rewrite H1, IH by exact H2. reflexivity. Qed.
Lemma segments_none s : all_chars (fun x => negb (Ascii.eqb x "/"%char)) s = true -> segments s = [s].
Proof. induction s as [|x s IH]; cbn; [reflexivity|]. intros H. apply andb_true_iff in H. destruct H as [H1 H2]. apply negb_true_iff in H1. rewrite H1, IH by exact H2. reflexivity. Qed.
Lemma segments_app a b : all_chars (fun x => negb (Ascii.eqb x "/"%char)) a = true -> segments (a ++ String "/" b) = a :: segments b.
Proof.
  induction a as [|x a IH]; [reflexivity|]. cbn [all_chars]. intros H. apply andb_true_iff in H. destruct H as [H1 H2]. apply negb_true_iff in H1. cbn [append segments]. rewrite H1, IH by exact H2. reflexivity.
Qed.
Lemma no_control_all s : no_control s = all_chars (fun x => let n := nat_of_ascii x in (32 <=? n)%nat && negb (n =? 127)%nat) s.
Proof. induction s as [|x s IH]; cbn; [reflexivity|]. rewrite IH. reflexivity. Qed.
Lemma unreserved_other c x : unreserved x = true -> unreserved c = false -> negb (Ascii.eqb x c) = true.
Proof. intros H1 H2. destruct (Ascii.eqb_spec x c) as [->|N]; [congruence|reflexivity]. Qed.
Lemma host_other c x : unreserved x || Ascii.eqb x ":"%char = true -> unreserved c = false -> Ascii.eqb c ":"%char = false -> negb (Ascii.eqb x c) = true.
Proof. intros H1 H2 H3. destruct (Ascii.eqb_spec x c) as [->|N]; [rewrite H2, H3 in H1; discriminate H1|reflexivity]. Qed.
Lemma unreserved_plain x : unreserved x = true -> ((32 <=? nat_of_ascii x) && negb (nat_of_ascii x =? 127))%nat = true.
Proof. destruct x as [[] [] [] [] [] [] [] []]; cbn; intros H; first [reflexivity|discriminate H]. Qed.
Lemma host_plain x : unreserved x || Ascii.eqb x ":"%char = true -> ((32 <=? nat_of_ascii x) && negb (nat_of_ascii x =? 127))%nat = true.
Proof. destruct x as [[] [] [] [] [] [] [] []]; cbn; intros H; first [reflexivity|discriminate H]. Qed.

Lemma path_seen host path : plain_host host = true -> all_chars (fun c => unreserved c || Ascii.eqb c "/"%char) path = true -> clean_path (String "/" path) = true ->
  identity_seen ("ws://" ++ host) path = Some path.
Proof.
  intros HH HP HC. unfold identity_seen, url_path.
  assert (PC : forall c, Ascii.eqb c "/"%char = false -> unreserved c = false -> all_chars (fun x => negb (Ascii.eqb x c)) path = true).
  { intros c C1 C2. revert HP. apply all_imp. intros x X. apply orb_true_iff in X. destruct X as [X|X]; [apply unreserved_other; assumption|]. apply Ascii.eqb_eq in X. subst x. rewrite Ascii.eqb_sym, C1. reflexivity. }
  assert (N : no_control (("ws://" ++ host) ++ "/" ++ path) = true).
  { rewrite no_control_all, !all_app. assert (N1 : all_chars (fun x => let n := nat_of_ascii x in (32 <=? n)%nat && negb (n =? 127)%nat) host = true) by (revert HH; apply all_imp; exact host_plain).
    assert (N2 : all_chars (fun x => let n := nat_of_ascii x in (32 <=? n)%nat && negb (n =? 127)%nat) path = true).
    { revert HP. apply all_imp. intros x X. apply orb_true_iff in X. destruct X as [X|X]; [apply unreserved_plain; exact X|]. apply Ascii.eqb_eq in X. subst x. reflexivity. }
    rewrite N1, N2. reflexivity. }
  rewrite N. cbn [negb append].
  assert (U : forall c, Ascii.eqb c "/"%char = false -> Ascii.eqb c ":"%char = false -> unreserved c = false -> all_chars (fun x => negb (Ascii.eqb x c)) (host ++ String "/" path) = true).
  { intros c C1 C2 C3. rewrite all_app. cbn [all_chars]. rewrite (PC c C1 C3). rewrite Ascii.eqb_sym, C1. replace (all_chars (fun x => negb (Ascii.eqb x c)) host) with true; [reflexivity|]. symmetry. revert HH. apply all_imp. intros x X. exact (host_other c x X C3 C2). }
  rewrite (upto_none "#"%char) by (apply U; reflexivity). rewrite (upto_none "?"%char) by (apply U; reflexivity).
  rewrite from_none by (revert HH; apply all_imp; intros x X; apply (host_other "/"%char x X); reflexivity).
  rewrite unescape_none by (cbn [all_chars]; rewrite (PC "%"%char) by reflexivity; reflexivity).
  rewrite HC. reflexivity.
Qed.
(** An identity of letters, digits, '-', '_', '~' and '.', other than "." and "..", is seen as it is. *)
Theorem C43_identity : forall host id, plain_host host = true -> all_chars unreserved id = true -> id <> "." -> id <> ".." ->
  identity_seen ("ws://" ++ host) id = Some id.
Proof.
  intros host id HH HI N1 N2. apply path_seen; [exact HH|revert HI; apply all_imp; intros x ->; reflexivity|].
  unfold clean_path. change (String "/" id) with (append "" (String "/" id)). rewrite segments_app by reflexivity.
  rewrite segments_none by (revert HI; apply all_imp; intros x X; apply unreserved_other; [exact X|reflexivity]). cbn [clean_segments].
  destruct (String.eqb_spec id "."); [contradiction|]. destruct (String.eqb_spec id ".."); [contradiction|]. reflexivity.
Qed.
(** A path in the URL becomes part of the identity. *)
Theorem C43_path_prefix : forall host pre id, plain_host host = true -> all_chars unreserved pre = true -> all_chars unreserved id = true ->
  pre <> "" -> dots pre = false -> dots id = false -> identity_seen ("ws://" ++ host ++ "/" ++ pre) id = Some (pre ++ "/" ++ id).
Proof.
  intros host pre id HH HP HI N0 N1 N2.
  assert (E : identity_seen ("ws://" ++ host ++ "/" ++ pre) id = identity_seen ("ws://" ++ host) (pre ++ "/" ++ id)).
  { unfold identity_seen. assert (SA : forall a b c : string, (a ++ b) ++ c = a ++ b ++ c) by (intros a b c; induction a as [|x a IH]; cbn [append]; [reflexivity|f_equal; exact IH]). rewrite !SA. reflexivity. }
  rewrite E. apply path_seen; [exact HH|rewrite all_app; cbn [all_chars append]|].
  - replace (all_chars _ pre) with true by (symmetry; revert HP; apply all_imp; intros x ->; reflexivity). replace (all_chars _ id) with true by (symmetry; revert HI; apply all_imp; intros x ->; reflexivity). reflexivity.
  - unfold clean_path. change (String "/" (pre ++ "/" ++ id)) with (append "" (String "/" (pre ++ "/" ++ id))). rewrite segments_app by reflexivity. cbn [append].
    rewrite segments_app by (revert HP; apply all_imp; intros x X; apply unreserved_other; [exact X|reflexivity]).
    rewrite segments_none by (revert HI; apply all_imp; intros x X; apply unreserved_other; [exact X|reflexivity]). cbn [clean_segments].
    unfold dots in *. apply orb_false_iff in N1, N2. destruct N1 as [-> ->], N2 as [-> ->]. destruct (String.eqb_spec pre ""); [contradiction|]. reflexivity.
Qed.
(** Different identities of that kind are told apart... *)
Theorem C43_told_apart : forall host i j, plain_host host = true -> all_chars unreserved i = true -> all_chars unreserved j = true -> dots i = false -> dots j = false ->
  identity_seen ("ws://" ++ host) i = identity_seen ("ws://" ++ host) j -> i = j.
Proof.
  intros host i j HH HI HJ NI NJ. unfold dots in *. apply orb_false_iff in NI, NJ. destruct NI as [A B], NJ as [C D]. apply String.eqb_neq in A, B, C, D.
  rewrite !C43_identity by assumption. intros H. injection H as H. exact H.
Qed.
(** ... but not those with '?', '#' or '%', and some identities cannot connect at all. *)
Theorem C43_any_identity_refuted : forall host, plain_host host = true ->
  identity_seen ("ws://" ++ host) "a?x" = Some "a" /\ identity_seen ("ws://" ++ host) "a#x" = Some "a" /\ identity_seen ("ws://" ++ host) "%41" = Some "A" /\
  identity_seen ("ws://" ++ host) ".." = None /\ identity_seen ("ws://" ++ host) "100%" = None.
Proof.
  intros host HH. unfold identity_seen, url_path.
  assert (N : forall s, no_control s = true -> no_control (("ws://" ++ host) ++ "/" ++ s) = true).
  { intros s HS. rewrite no_control_all in *. rewrite !all_app. replace (all_chars (fun x => let n := nat_of_ascii x in (32 <=? n)%nat && negb (n =? 127)%nat) host) with true by (symmetry; revert HH; apply all_imp; exact host_plain). rewrite HS. reflexivity. }
  assert (U : forall c s, unreserved c = false -> Ascii.eqb c ":"%char = false -> upto c (host ++ s) = (host ++ upto c s)).
  { intros c s C1 C2. clear N. revert HH. unfold plain_host. induction host as [|x h IH]; [reflexivity|]. cbn [all_chars append upto]. intros H. apply andb_true_iff in H. destruct H as [H1 H2].
    pose proof (host_other c x H1 C1 C2) as X. apply negb_true_iff in X. rewrite X, IH by exact H2. reflexivity. }
  assert (F : forall s, from "/"%char (host ++ String "/" s) = String "/" s) by (intros s; apply from_none; revert HH; apply all_imp; intros x X; apply (host_other "/"%char x X); reflexivity).
  rewrite !N by reflexivity. cbn [negb append]. rewrite !U by reflexivity. cbn [upto]. 
  rewrite ?U by reflexivity. cbn. rewrite !F. cbn. auto.
Qed.
Example C43_ex : plain_host "cs.example.org:8080" = true /\ all_chars unreserved "CP-0001_a.b~c" = true /\
  identity_seen "ws://cs.example.org:8080" "CP-0001_a.b~c" = Some "CP-0001_a.b~c" /\ identity_seen "ws://h/ocpp" "CP1" = Some "ocpp/CP1".
Proof. conjs; vm_compute; reflexivity. Qed.
Close Scope string_scope.
Open Scope list_scope.

(** *** C62: the SOAP server of a charge point *)
(** Requests reach the handler for as long as the listener lives, cancelled or not. *)
Lemma serving_run ts : forall v v' n, srv_run ts v = Some (v', n) -> ~ In TEnds ts -> v_serving v' = v_serving v.
Proof.
  induction ts as [|t ts IH]; intros v v' n H N; cbn [srv_run] in H; [injection H as <- _; reflexivity|].
  destruct (srv_step t v) as [[v1 h]|] eqn:E; [|discriminate H]. destruct (srv_run ts v1) as [[v2 m]|] eqn:E2; [|discriminate H]. injection H as <- _.
  rewrite (IH _ _ _ E2) by (intros X; apply N; right; exact X).
  destruct t; cbn in E; try (exfalso; apply N; left; reflexivity).
  - destruct (v_serving v) eqn:S; [|discriminate E]. injection E as <- _. exact S.
  - injection E as <- _. reflexivity.
  - destruct (v_cancel v); [|discriminate E]. destruct (v_wait v); [|discriminate E]. injection E as <- _. reflexivity.
  - destruct (v_ended v); [|discriminate E]. destruct (v_wait v); [|discriminate E]. injection E as <- _. reflexivity.
Qed.
Theorem C62_cancel_does_not_stop_serving : forall ts v n, srv_run ts soapsrv0 = Some (v, n) -> ~ In TEnds ts -> srv_run [TRequest] v = Some (v, 1).
Proof. intros ts v n H N. apply serving_run in H; [|exact N]. cbn. rewrite H. reflexivity. Qed.
Theorem C62_cancelled_and_serving : forall k, exists v, srv_run ([TCancel; TSeeCancel] ++ repeat TRequest k) soapsrv0 = Some (v, k) /\ v_wait v = SReturned false.
Proof.
  intros k. exists (MkSrv true false true (SReturned false)). split; [|reflexivity]. cbn [app srv_run srv_step soapsrv0 v_cancel v_wait v_serving v_ended].
  assert (R : srv_run (repeat TRequest k) (MkSrv true false true (SReturned false)) = Some (MkSrv true false true (SReturned false), k)) by (induction k as [|k IH]; [reflexivity|cbn [repeat srv_run srv_step v_serving]; rewrite IH; reflexivity]).
  rewrite R. reflexivity.
Qed.
(** If the cancellation was seen and the listener ends, before or after, the server's
    goroutine never gets rid of its error: it is left behind for ever. *)
Lemma returned_sees ts : forall v v' n b, srv_run ts v = Some (v', n) -> v_wait v = SReturned b -> ~ In TSeeCancel ts.
Proof.
  induction ts as [|t ts IH]; intros v v' n b H W HI; cbn [srv_run] in H; [destruct HI|].
  destruct (srv_step t v) as [[v1 h]|] eqn:E; [|discriminate H]. destruct (srv_run ts v1) as [[v2 m]|] eqn:E2; [|discriminate H].
  assert (t <> TSeeCancel /\ v_wait v1 = SReturned b) as [T W1].
  { destruct t; cbn in E; rewrite ?W in E.
    - destruct (v_serving v); [|discriminate E]. injection E as <- _. split; [intros X; discriminate X|exact W].
    - destruct (v_serving v); [|discriminate E]. injection E as <- _. split; [intros X; discriminate X|reflexivity].
    - injection E as <- _. split; [intros X; discriminate X|reflexivity].
    - destruct (v_cancel v); discriminate E.
    - destruct (v_ended v); discriminate E. }
  destruct HI as [HI|HI]; [congruence|]. exact (IH _ _ _ _ E2 W1 HI).
Qed.
Theorem C62_leak : forall ts v n, srv_run ts soapsrv0 = Some (v, n) -> In TSeeCancel ts -> In TEnds ts -> v_ended v = true.
Proof.
  assert (G : forall ts v v' n, srv_run ts v = Some (v', n) -> v_wait v = SReturned false \/ In TSeeCancel ts -> v_ended v = true \/ In TEnds ts -> v_ended v' = true).
  { induction ts as [|t ts IH]; intros v v' n H HC HE; cbn [srv_run] in H; [injection H as <- _; destruct HE as [HE|[]]; exact HE|].
    destruct (srv_step t v) as [[v1 h]|] eqn:E; [|discriminate H]. destruct (srv_run ts v1) as [[v2 m]|] eqn:E2; [|discriminate H]. injection H as <- _.
    apply (IH _ _ _ E2); destruct t; cbn in E, HC, HE.
    - destruct (v_serving v); [|discriminate E]. injection E as <- _. destruct HC as [HC|[HC|HC]]; [auto|discriminate HC|auto].
    - destruct (v_serving v); [|discriminate E]. injection E as <- _. cbn. destruct HC as [HC|[HC|HC]]; [auto|discriminate HC|auto].
    - injection E as <- _. cbn. destruct HC as [HC|[HC|HC]]; [auto|discriminate HC|auto].
    - destruct (v_cancel v); [|discriminate E]. destruct (v_wait v); [|discriminate E]. injection E as <- _. cbn. auto.
    - destruct (v_ended v); [|discriminate E]. destruct (v_wait v) eqn:W; [|discriminate E]. injection E as <- _. destruct HC as [HC|[HC|HC]]; [discriminate HC|discriminate HC|].
      exfalso. exact (returned_sees ts _ _ _ true E2 eq_refl HC).
    - destruct (v_serving v); [|discriminate E]. injection E as <- _. destruct HE as [HE|[HE|HE]]; [auto|discriminate HE|auto].
    - destruct (v_serving v); [|discriminate E]. injection E as <- _. cbn. auto.
    - injection E as <- _. cbn. destruct HE as [HE|[HE|HE]]; [auto|discriminate HE|auto].
    - destruct (v_cancel v); [|discriminate E]. destruct (v_wait v); [|discriminate E]. injection E as <- _. cbn. destruct HE as [HE|[HE|HE]]; [auto|discriminate HE|auto].
    - destruct (v_ended v); [|discriminate E]. destruct (v_wait v) eqn:W; [|discriminate E]. injection E as <- _. destruct HC as [HC|[HC|HC]]; [discriminate HC|discriminate HC|].
      exfalso. exact (returned_sees ts _ _ _ true E2 eq_refl HC). }
  intros ts v n H HC HE. exact (G ts soapsrv0 v n H (or_intror HC) (or_intror HE)).
Qed.
(** handleSoap returns an error only if the listener ended. *)
Theorem C62_error_only_if_ended : forall ts v n, srv_run ts soapsrv0 = Some (v, n) -> v_wait v = SReturned true -> In TEnds ts.
Proof.
  assert (G : forall ts v v' n, srv_run ts v = Some (v', n) -> v_wait v' = SReturned true -> v_wait v = SReturned true \/ v_ended v = true \/ In TEnds ts).
  { induction ts as [|t ts IH]; intros v v' n H W; cbn [srv_run] in H; [injection H as <- _; auto|].
    destruct (srv_step t v) as [[v1 h]|] eqn:E; [|discriminate H]. destruct (srv_run ts v1) as [[v2 m]|] eqn:E2; [|discriminate H]. injection H as <- _.
    destruct (IH _ _ _ E2 W) as [A|[A|A]]; [| |right; right; right; exact A]; destruct t; cbn in E.
    1,6: destruct (v_serving v); [|discriminate E]; injection E as <- _; auto.
    1,5: right; right; left; reflexivity.
    1,4: injection E as <- _; auto.
    1,3: destruct (v_cancel v); [|discriminate E]; destruct (v_wait v); [|discriminate E]; injection E as <- _; cbn in A; first [discriminate A|auto].
    all: destruct (v_ended v); [auto|discriminate E]. }
  intros ts v n H W. destruct (G _ _ _ _ H W) as [A|[A|A]]; [discriminate A|discriminate A|exact A].
Qed.
(** Once the listener has ended, no request reaches the handler any more. *)
Theorem C62_ended_for_good : forall ts v n ts' v' n', srv_run ts soapsrv0 = Some (v, n) -> In TEnds ts -> srv_run ts' v = Some (v', n') -> n' = 0 /\ ~ In TRequest ts'.
Proof.
  assert (G : forall ts v v' n, srv_run ts v = Some (v', n) -> v_serving v = false -> v_serving v' = false /\ n = 0 /\ ~ In TRequest ts).
  { induction ts as [|t ts IH]; intros v v' n H S; cbn [srv_run] in H; [injection H as <- <-; split; [exact S|split; [reflexivity|intros []]]|].
    destruct (srv_step t v) as [[v1 h]|] eqn:E; [|discriminate H]. destruct (srv_run ts v1) as [[v2 m]|] eqn:E2; [|discriminate H]. injection H as <- <-.
    assert (K : v_serving v1 = false /\ h = false /\ t <> TRequest).
    { destruct t; cbn in E; rewrite ?S in E; try discriminate E.
      - injection E as <- <-. split; [reflexivity|]. split; [reflexivity|discriminate].
      - destruct (v_cancel v); [|discriminate E]. destruct (v_wait v); [|discriminate E]. injection E as <- <-. split; [reflexivity|]. split; [reflexivity|discriminate].
      - destruct (v_ended v); [|discriminate E]. destruct (v_wait v); [|discriminate E]. injection E as <- <-. split; [reflexivity|]. split; [reflexivity|discriminate]. }
    destruct K as (K1 & -> & K3). destruct (IH _ _ _ E2 K1) as (A & B & C). split; [exact A|]. split; [exact B|]. intros [X|X]; [congruence|exact (C X)]. }
  assert (F : forall ts v v' n, srv_run ts v = Some (v', n) -> In TEnds ts -> v_serving v' = false).
  { induction ts as [|t ts IH]; intros v v' n H HI; cbn [srv_run] in H; [destruct HI|].
    destruct (srv_step t v) as [[v1 h]|] eqn:E; [|discriminate H]. destruct (srv_run ts v1) as [[v2 m]|] eqn:E2; [|discriminate H]. injection H as <- <-.
    destruct HI as [->|HI]; [|exact (IH _ _ _ E2 HI)]. cbn in E. destruct (v_serving v); [|discriminate E]. injection E as <- _. exact (proj1 (G _ _ _ _ E2 eq_refl)). }
  intros ts v n ts' v' n' H HE H'. exact (proj2 (G _ _ _ _ H' (F _ _ _ _ H HE))).
Qed.
Example C62_ex : srv_run [TRequest; TCancel; TSeeCancel; TRequest; TEnds] soapsrv0 = Some (MkSrv false true true (SReturned false), 2) /\
  srv_run [TEnds; TSeeEnd] soapsrv0 = Some (MkSrv false false false (SReturned true), 0).
Proof. conjs; reflexivity. Qed.

Definition props_cp := (C46_one_connection, C46_in_turn, C46_dialled_first, C46_lost_only_when_closed, C46_wait_connect, C46_never_twice, C46_keeps_dialling, C46_send_newest,
  C46_wait_disconnect_newest, C46_each_connection, C46_send_on_closed_refuted, C47_can_stop, C47_stop_only_cancelled, C47_stopped_for_good, C47_redialling_does_not_stop,
  C47_cancel_stops_refuted, C48_json, C48_soap, C48_usable, C48_unknown_transport_refuted, C48_new_outcome, C49_offers_own, C49_not_negotiated_refuted, C49_mismatch, C49_v15_disagrees,
  C43_identity, C43_path_prefix, C43_told_apart, C43_any_identity_refuted, C62_cancel_does_not_stop_serving, C62_cancelled_and_serving, C62_leak, C62_error_only_if_ended, C62_ended_for_good).
Print Assumptions props_cp.
