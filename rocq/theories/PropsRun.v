(** Property theorems C91, C92: broken sockets; central systems and SOAP charge points in one process. *)
From Coq Require Import Arith.
From Verif Require Import GoBase Utf8 Json Float64 Codec Any Tables Registry Frame Conn SpecConn ConnBase ConnInv ConnFate ConnTop ConnRetry Process PropsConn.
Open Scope string_scope.
Open Scope list_scope.
Opaque marshal_message read_text unmarshal_request call_to_request result_to_response utf8_valid msg_ok.

(** *** C91: reading from a broken socket *)
(** Between two failed reads the connection is signalled closed. *)
Theorem C91_signalled_between : forall ro c tr a b m b' z, reach ro c tr -> tr = a ++ OReadErr b :: m ++ OReadErr b' :: z -> In ODone m.
Proof. intros ro c tr a b m b' z HR E. exact (proj1 (retry_inv ro c tr HR) a b m b' z E). Qed.
(** So whenever the loop waits for another read after a failure, it can leave instead. *)
Theorem C91_can_leave : forall ro c tr b r, reach ro c tr -> In (OReadErr b) tr -> c_crash c = false -> c_loop c = LSel r -> nth_error (c_readers c) r = Some RRead ->
  exists c', step ro ESeeClose c = Some (c', []) /\ loop_left c' = true.
Proof.
  intros ro c tr b r HR HI HC HL HN. pose proof (reads_again ro c tr b r HR HI HN) as D. unfold step. rewrite HC, HL, D. eexists. split; [reflexivity|]. destruct ro; reflexivity.
Qed.
(** But nothing obliges it to: a select that always prefers the read repeats it any number of times. *)
Theorem C91_bounded_refuted : forall ro n, exists c tr, reach ro c tr /\ c_crash c = false /\ length (filter is_err tr) = n.
Proof.
  intros ro n. destruct (turns_run ro n conn0 0 eq_refl eq_refl eq_refl) as (c & o & E & H1 & H2). exists c, o. split; [|split; [exact H1|exact H2]]. exact (reach_of_run _ _ _ _ E).
Qed.
Example C91_ex : trace_of CP [ELoop; EReadErr 0 false; EReader 0; EReader 0; EResult; ELoop; EReadErr 1 true] = [OReadErr false; OClosed; ODone; OReadErr true] /\
  (let c := state_of CS [ELoop; EReadErr 0 false; EReader 0; EReader 0; EResult; ELoop] in c_loop c = LSel 1 /\ nth_error (c_readers c) 1 = Some RRead /\ c_crash c = false).
Proof. cbv zeta. conjs; vm_compute; reflexivity. Qed.

(** *** C92: several servers in one process *)
Definition was_run (tr : list gobs) : Prop := exists i, In (ORun i) tr.
(** The system whose Run was called first. *)
Fixpoint first_run (tr : list gobs) : option nat := match tr with [] => None | ORun i :: _ => Some i | _ :: r => first_run r end.
Lemma first_app a b : first_run (a ++ b) = match first_run a with Some i => Some i | None => first_run b end.
Proof. induction a as [|o a IH]; [reflexivity|]. cbn [app first_run]. destruct o; try exact IH. reflexivity. Qed.
Lemma first_none tr : first_run tr = None <-> ~ was_run tr.
Proof.
  split.
  - intros H (i & K). induction tr as [|o tr IH]; [exact K|]. destruct K as [->|K]; [discriminate H|]. apply IH; [|exact K]. destruct o; try exact H. discriminate H.
  - intros H. destruct (first_run tr) as [i|] eqn:E; [exfalso|reflexivity]. apply H. exists i. clear H. induction tr as [|o tr IH]; [discriminate E|]. destruct o; try (right; exact (IH E)). injection E as <-. left. reflexivity.
Qed.
Lemma first_some tr i : first_run tr = Some i -> was_run tr.
Proof.
  intros E. enough (In (ORun i) tr) by (exists i; assumption). induction tr as [|o tr IH]; [discriminate E|].
  destruct o; try (right; exact (IH E)). injection E as <-. left. reflexivity.
Qed.
Lemma at_close port port' l : at_port port (close_port port' l) = if String.eqb port port' then None else at_port port l.
Proof.
  induction l as [|[q x] l IH]; [destruct (String.eqb port port'); reflexivity|]. cbn [close_port filter fst at_port]. fold (close_port port' l).
  destruct (String.eqb_spec port' q) as [E|E]; cbn [negb]; [|cbn [at_port]]; rewrite IH; destruct (String.eqb_spec port port') as [F|F]; destruct (String.eqb_spec port q) as [G|G]; try reflexivity; exfalso; congruence.
Qed.
Lemma to_listen_other j k l : j <> k -> to_listen k (filter (fun kq => negb (Nat.eqb j (fst kq))) l) = to_listen k l.
Proof.
  intros N. induction l as [|[i q] l IH]; [reflexivity|]. cbn [filter fst]. destruct (Nat.eqb_spec j i) as [->|E]; cbn [negb]; [cbn [to_listen]; destruct (Nat.eqb_spec k i); [congruence|exact IH]|]. cbn [to_listen]. rewrite IH. reflexivity.
Qed.
Lemma to_listen_gone j l : to_listen j (filter (fun kq => negb (Nat.eqb j (fst kq))) l) = None.
Proof. induction l as [|[i q] l IH]; [reflexivity|]. cbn [filter fst]. destruct (Nat.eqb_spec j i) as [->|E]; cbn [negb]; [exact IH|]. cbn [to_listen]. destruct (Nat.eqb_spec j i); [contradiction|exact IH]. Qed.
(** What each observation says about the state. *)
Lemma mux_step e p p' o : gstep e p = Some (p', o) -> p_mux p' = match p_mux p with Some i => Some i | None => first_run o end.
Proof.
  intros H. destruct e as [i port free|j [q|]|j free|port|port]; unfold gstep in H.
  - destruct (p_mux p) as [k|] eqn:EM; [injection H as <- <-; exact EM|]. destruct (can_listen port free p); injection H as <- <-; reflexivity.
  - destruct (to_listen j (p_new p)); [discriminate H|]. injection H as <- <-. cbn. destruct (p_mux p); reflexivity.
  - injection H as <- <-. cbn. destruct (p_mux p); reflexivity.
  - destruct (to_listen j (p_new p)); [|discriminate H]. injection H as <- <-. cbn. destruct (p_mux p); reflexivity.
  - destruct (at_port port (p_open p)) as [[k|j]|]; [| |discriminate H].
    + destruct (p_mux p) as [i|] eqn:E; [|discriminate H]. injection H as <- <-. exact E.
    + injection H as <- <-. cbn. destruct (p_mux p); reflexivity.
  - destruct (at_port port (p_open p)) as [[k|j]|]; [| |discriminate H]; injection H as <- <-; cbn; destruct (p_mux p); reflexivity.
Qed.
Lemma mux_first p tr : greach p tr -> p_mux p = first_run tr.
Proof. induction 1 as [|p tr e p' o HR IH HS]; [reflexivity|]. rewrite (mux_step _ _ _ _ HS), IH, first_app. reflexivity. Qed.
Lemma serving_step e p p' o i q : gstep e p = Some (p', o) -> In (OServing i q) o -> p_mux p = None /\ p_mux p' = Some i /\ o = [ORun i; OServing i q].
Proof.
  intros H HI. destruct e as [k port free|j [q'|]|j free|port|port]; unfold gstep in H.
  - destruct (p_mux p) as [m|] eqn:EM. { injection H as <- <-. destruct HI as [K|[K|[]]]; discriminate K. } destruct (can_listen port free p); injection H as <- <-; destruct HI as [K|[K|[]]]; try discriminate K. injection K as <- <-. repeat split.
  - destruct (to_listen j (p_new p)); [discriminate H|]. injection H as <- <-. destruct HI as [K|[]]; discriminate K.
  - injection H as <- <-. destruct HI as [K|[]]; discriminate K.
  - destruct (to_listen j (p_new p)); [|discriminate H]. injection H as <- <-. destruct HI.
  - destruct (at_port port (p_open p)) as [[k|j]|]; [| |discriminate H].
    + destruct (p_mux p) as [m|] eqn:E; [|discriminate H]. injection H as <- <-. destruct HI as [K|[]]; discriminate K.
    + injection H as <- <-. destruct HI as [K|[]]; discriminate K.
  - destruct (at_port port (p_open p)) as [[k|j]|]; [| |discriminate H]; injection H as <- <-; [destruct HI as [K|[]]; discriminate K|destruct HI].
Qed.
Lemma handled_step e p p' o x : gstep e p = Some (p', o) -> In x o ->
  match x with
  | OAtCentral port i => p_mux p = Some i /\ exists k, at_port port (p_open p) = Some (SDefault k)
  | OAtPoint port j => at_port port (p_open p) = Some (SPoint j)
  | _ => True
  end.
Proof.
  intros H HI. destruct e as [k port free|j [q'|]|j free|port|port]; unfold gstep in H.
  - destruct (p_mux p) as [m|] eqn:EM. { injection H as <- <-. destruct HI as [<-|[<-|[]]]; exact I. } destruct (can_listen port free p); injection H as <- <-; destruct HI as [<-|[<-|[]]]; exact I.
  - destruct (to_listen j (p_new p)); [discriminate H|]. injection H as <- <-. destruct HI as [<-|[]]; exact I.
  - injection H as <- <-. destruct HI as [<-|[]]; exact I.
  - destruct (to_listen j (p_new p)); [|discriminate H]. injection H as <- <-. destruct HI.
  - destruct (at_port port (p_open p)) as [[k|j]|] eqn:EP; [| |discriminate H].
    + destruct (p_mux p) as [m|] eqn:E; [|discriminate H]. injection H as <- <-. destruct HI as [<-|[]]. split; [reflexivity|]. exists k. exact EP.
    + injection H as <- <-. destruct HI as [<-|[]]. exact EP.
  - destruct (at_port port (p_open p)) as [[k|j]|]; [| |discriminate H]; injection H as <- <-; [destruct HI as [<-|[]]; exact I|destruct HI].
Qed.
(** Listeners come from Run and New. *)
Lemma open_step e p p' o port s : gstep e p = Some (p', o) -> at_port port (p_open p') = Some s ->
  at_port port (p_open p) = Some s \/ match s with SDefault i => In (OServing i port) o | SPoint j => to_listen j (p_new p) = Some port end.
Proof.
  intros H HA. destruct e as [k q free|j [q|]|j free|q|q]; unfold gstep in H.
  - destruct (p_mux p) as [m|] eqn:EM. { injection H as <- <-. left. exact HA. } destruct (can_listen q free p); injection H as <- <-; [|left; exact HA]. cbn [p_open at_port] in HA.
    destruct (String.eqb_spec port q) as [->|]; [|left; exact HA]. injection HA as <-. right. right. left. reflexivity.
  - destruct (to_listen j (p_new p)); [discriminate H|]. injection H as <- <-. left. exact HA.
  - injection H as <- <-. left. exact HA.
  - destruct (to_listen j (p_new p)) as [q|] eqn:EL; [|discriminate H]. injection H as <- <-. cbn [p_open] in HA. destruct (can_listen q free p); [|left; exact HA]. cbn [at_port] in HA.
    destruct (String.eqb_spec port q) as [->|]; [|left; exact HA]. injection HA as <-. right. exact EL.
  - left. destruct (at_port q (p_open p)) as [[k|j]|] eqn:EP; [| |discriminate H].
    + destruct (p_mux p) as [m|] eqn:E; [|discriminate H]. injection H as <- <-. exact HA.
    + injection H as <- <-. exact HA.
  - left. destruct (at_port q (p_open p)) as [x|]; [|discriminate H]. injection H as <- <-. cbn [p_open] in HA. rewrite at_close in HA. destruct (String.eqb port q); [discriminate HA|exact HA].
Qed.
Lemma new_step e p p' o j q : gstep e p = Some (p', o) -> to_listen j (p_new p') = Some q -> to_listen j (p_new p) = Some q \/ e = GNew j (Some q) /\ In (ONew j true) o.
Proof.
  intros H HA. destruct e as [k q' free|i [q'|]|i free|q'|q']; unfold gstep in H.
  - left. destruct (p_mux p) as [m|]. { injection H as <- <-. exact HA. } destruct (can_listen q' free p); injection H as <- <-; exact HA.
  - destruct (to_listen i (p_new p)); [discriminate H|]. injection H as <- <-. cbn [p_new to_listen] in HA. destruct (Nat.eqb_spec j i) as [->|]; [|left; exact HA]. injection HA as <-. right. split; [reflexivity|left; reflexivity].
  - left. injection H as <- <-. exact HA.
  - left. destruct (to_listen i (p_new p)) as [r|] eqn:EL; [|discriminate H]. injection H as <- <-. cbn [p_new] in HA. destruct (Nat.eq_dec i j) as [->|N]; [rewrite to_listen_gone in HA; discriminate HA|]. rewrite (to_listen_other i j _ N) in HA. exact HA.
  - left. destruct (at_port q' (p_open p)) as [[k|j']|] eqn:EP; [| |discriminate H].
    + destruct (p_mux p) as [m|] eqn:E; [|discriminate H]. injection H as <- <-. exact HA.
    + injection H as <- <-. exact HA.
  - left. destruct (at_port q' (p_open p)) as [x|]; [|discriminate H]. injection H as <- <-. exact HA.
Qed.
Lemma old {A} (x : A) a b : In x a -> In x (a ++ b).
Proof. intros H. apply in_or_app. left. exact H. Qed.
Lemma serving_first p tr i q : greach p tr -> In (OServing i q) tr -> first_run tr = Some i.
Proof.
  intros HR. induction HR as [|p tr e p' o HR IH HS]; [intros []|]. intros HI. rewrite first_app. apply in_app_iff in HI as [HI|HI]; [rewrite (IH HI); reflexivity|].
  destruct (serving_step _ _ _ _ _ _ HS HI) as (E & _ & ->). rewrite <- (mux_first _ _ HR), E. reflexivity.
Qed.
Lemma open_from p tr port s : greach p tr -> at_port port (p_open p) = Some s -> match s with SDefault i => In (OServing i port) tr | SPoint j => In (ONew j true) tr end.
Proof.
  intros HR. assert (N : forall p tr, greach p tr -> forall j q, to_listen j (p_new p) = Some q -> In (ONew j true) tr).
  { clear. intros p tr HR. induction HR as [|p tr e p' o HR IH HS]; intros j q H; [discriminate H|]. destruct (new_step _ _ _ _ _ _ HS H) as [K|[_ K]]; [apply old; exact (IH _ _ K)|apply in_or_app; right; exact K]. }
  revert port s. induction HR as [|p tr e p' o HR IH HS]; intros port s H; [discriminate H|]. destruct (open_step _ _ _ _ _ _ HS H) as [K|K].
  - specialize (IH _ _ K). destruct s; apply old; exact IH.
  - destruct s as [i|j]; [apply in_or_app; right; exact K|]. apply old. exact (N _ _ HR _ _ K).
Qed.

(** Run panics exactly if Run was called before in this process - of whichever system, on whichever port, successful or not. *)
Theorem C92_run_panics : forall p tr i port free p' o, greach p tr -> gstep (GRun i port free) p = Some (p', o) -> (In (ORunPanic i) o <-> was_run tr).
Proof.
  intros p tr i port free p' o HR H. pose proof (mux_first _ _ HR) as M. unfold gstep in H. destruct (p_mux p) as [k|].
  - injection H as <- <-. split; [intros _|intros _; right; left; reflexivity]. symmetry in M. exact (first_some _ _ M).
  - symmetry in M. apply first_none in M. split; [|intros K; contradiction]. destruct (can_listen port free p); injection H as <- <-; intros [K|[K|[]]]; discriminate K.
Qed.
(** So it cannot be repeated after a failure. *)
Theorem C92_retry_refuted : exists es p tr, grun es proc0 = Some (p, tr) /\ In (ORunErr 0) tr /\ at_port ":81" (p_open p) = None /\ forall free, exists p', gstep (GRun 0 ":81" free) p = Some (p', [ORun 0; ORunPanic 0]).
Proof.
  exists [GRun 0 ":80" false]. eexists. eexists. split; [vm_compute; reflexivity|]. split; [right; left; reflexivity|]. split; [reflexivity|]. intros free. eexists. reflexivity.
Qed.
(** A first call serves if its port is free; all requests to that port reach that central system, and no other system ever serves. *)
Theorem C92_first_serves : forall p tr i port, greach p tr -> ~ was_run tr -> at_port port (p_open p) = None ->
  exists p', gstep (GRun i port true) p = Some (p', [ORun i; OServing i port]) /\ gstep (GRequest port) p' = Some (p', [OAtCentral port i]).
Proof.
  intros p tr i port HR HN HP. apply first_none in HN. rewrite <- (mux_first _ _ HR) in HN. unfold gstep, can_listen. rewrite HN, HP. eexists. split; [reflexivity|]. cbn [p_open p_mux at_port]. rewrite String.eqb_refl. reflexivity.
Qed.
Theorem C92_who_serves : forall p tr port i, greach p tr -> In (OAtCentral port i) tr -> In (OServing i port) tr /\ first_run tr = Some i.
Proof.
  intros p tr port i HR. induction HR as [|p tr e p' o HR IH HS]; [intros []|]. intros HI. apply in_app_iff in HI as [HI|HI].
  - destruct (IH HI) as [A B]. split; [apply old; exact A|rewrite first_app, B; reflexivity].
  - destruct (handled_step _ _ _ _ _ HS HI) as [M (k & K)]. pose proof (open_from _ _ _ _ HR K) as S. pose proof (serving_first _ _ _ _ HR S) as F. rewrite (mux_first _ _ HR), F in M. injection M as <-. split; [apply old; exact S|rewrite first_app, F; reflexivity].
Qed.
Theorem C92_one_serves : forall p tr i j q r, greach p tr -> In (OServing i q) tr -> In (OServing j r) tr -> i = j /\ q = r.
Proof.
  intros p tr i j q r HR. induction HR as [|p tr e p' o HR IH HS]; [intros []|]. intros H1 H2. apply in_app_iff in H1 as [H1|H1]; apply in_app_iff in H2 as [H2|H2]; [exact (IH H1 H2)| | |].
  - exfalso. destruct (serving_step _ _ _ _ _ _ HS H2) as (E & _). rewrite (mux_first _ _ HR), (serving_first _ _ _ _ HR H1) in E. discriminate E.
  - exfalso. destruct (serving_step _ _ _ _ _ _ HS H1) as (E & _). rewrite (mux_first _ _ HR), (serving_first _ _ _ _ HR H2) in E. discriminate E.
  - destruct (serving_step _ _ _ _ _ _ HS H1) as (_ & _ & ->). destruct H2 as [K|[K|[]]]; [discriminate K|]. injection K as <- <-. split; reflexivity.
Qed.
(** SOAP charge points have servers of their own: any number, with or without a central system. *)
Theorem C92_points : forall p tr j q, greach p tr -> to_listen j (p_new p) = Some q -> at_port q (p_open p) = None ->
  exists p', gstep (GListen j true) p = Some (p', []) /\ gstep (GRequest q) p' = Some (p', [OAtPoint q j]).
Proof. intros p tr j q HR HL HP. unfold gstep, can_listen. rewrite HL, HP. eexists. split; [reflexivity|]. cbn [p_open at_port]. rewrite String.eqb_refl. reflexivity. Qed.
Theorem C92_point_served : forall p tr q j, greach p tr -> In (OAtPoint q j) tr -> In (ONew j true) tr.
Proof.
  intros p tr q j HR. induction HR as [|p tr e p' o HR IH HS]; [intros []|]. intros HI. apply in_app_iff in HI as [HI|HI]; [apply old; exact (IH HI)|].
  apply old. exact (open_from _ _ _ _ HR (handled_step _ _ _ _ _ HS HI)).
Qed.
(** New does not wait for its server: it succeeds though the port is taken, nobody is told, and no request ever reaches the charge point. *)
Theorem C92_silent_refuted : exists es p tr, grun es proc0 = Some (p, tr) /\ In (ONew 7 true) tr /\ ~ In (ONew 7 false) tr /\
  forall es' p' o, (forall q, In (GNew 7 (Some q)) es' -> False) -> grun es' p = Some (p', o) -> forall q, ~ In (OAtPoint q 7) o.
Proof.
  exists [GRun 0 ":80" true; GNew 7 (Some ":80"); GListen 7 true]. eexists. eexists. split; [vm_compute; reflexivity|]. split; [cbn; tauto|]. split; [cbn; intuition discriminate|].
  intros es' p' o HN. match goal with |- grun es' ?x = _ -> _ => assert (G : (forall q, at_port q (p_open x) <> Some (SPoint 7)) /\ to_listen 7 (p_new x) = None) end.
  { split; [|reflexivity]. intros q. cbn [p_open at_port]. destruct (String.eqb q ":80"); discriminate. }
  revert G. match goal with |- _ -> grun es' ?x = _ -> _ => generalize x end. intros p G E. revert p p' o G E. induction es' as [|e es' IH]; intros p p' o [G1 G2] E q HI.
  - injection E as <- <-. exact HI.
  - cbn [grun] in E. destruct (gstep e p) as [[p1 o1]|] eqn:ES; [|discriminate E]. destruct (grun es' p1) as [[p2 o2]|] eqn:ER; [|discriminate E]. injection E as <- <-. apply in_app_iff in HI as [HI|HI].
    + exact (G1 q (handled_step _ _ _ _ _ ES HI)).
    + refine (IH (fun r K => HN r (or_intror K)) p1 p2 o2 _ ER q HI). split.
      * intros r K. destruct (open_step _ _ _ _ _ _ ES K) as [K'|K']; [exact (G1 r K')|]. rewrite G2 in K'. discriminate K'.
      * destruct (to_listen 7 (p_new p1)) as [r|] eqn:EL; [exfalso|reflexivity]. destruct (new_step _ _ _ _ _ _ ES EL) as [K|[-> _]]; [rewrite G2 in K; discriminate K|]. exact (HN r (or_introl eq_refl)).
Qed.
Example C92_ex : exists p tr, grun [GNew 3 (Some ":90"); GListen 3 true; GRun 0 ":80" true; GRequest ":80"; GRequest ":90"; GRun 1 ":81" true; GFail ":80"] proc0 = Some (p, tr) /\
  tr = [ONew 3 true; ORun 0; OServing 0 ":80"; OAtCentral ":80" 0; OAtPoint ":90" 3; ORun 1; ORunPanic 1; ORunErr 0].
Proof. eexists. eexists. split; vm_compute; reflexivity. Qed.
Definition run_theorems := (C91_signalled_between, C91_can_leave, C91_bounded_refuted, C92_run_panics, C92_retry_refuted, C92_first_serves, C92_who_serves, C92_one_serves, C92_points, C92_point_served, C92_silent_refuted).
Print Assumptions run_theorems.
