(** Property theorem C105: connection and disconnection listeners while they run. *)
From Coq Require Import Arith Permutation.
From Verif Require Import GoBase Utf8 Json Float64 Lang Types Codec Any Tables Registry Frame Conn SpecConn ConnBase ConnFate ConnLast ConnTop
  CentralSystem SpecCS CSInv CSMore PropsConn PropsCS Listen.
Open Scope string_scope.
Open Scope list_scope.

(** What the central system shows; what becomes of the listeners. *)
Definition seen (tr : list lobs) : list cobs := flat_map (fun o => match o with LSeen x => [x] | _ => [] end) tr.
Definition returned (tr : list lobs) : list (bool * nat * string) := flat_map (fun o => match o with LReturned on f id => [(on, f, id)] | _ => [] end) tr.
Definition panicked (tr : list lobs) : list (bool * nat * string) := flat_map (fun o => match o with LPanicked on f id => [(on, f, id)] | _ => [] end) tr.

Lemma seen_app a b : seen (a ++ b) = seen a ++ seen b. Proof. apply flat_map_app. Qed.
Lemma returned_app a b : returned (a ++ b) = returned a ++ returned b. Proof. apply flat_map_app. Qed.
Lemma panicked_app a b : panicked (a ++ b) = panicked a ++ panicked b. Proof. apply flat_map_app. Qed.
Lemma seen_map o : seen (map LSeen o) = o. Proof. induction o as [|x o IH]; [reflexivity|]. cbn. f_equal. exact IH. Qed.
Lemma returned_map o : returned (map LSeen o) = []. Proof. induction o as [|x o IH]; [reflexivity|]. exact IH. Qed.
Lemma panicked_map o : panicked (map LSeen o) = []. Proof. induction o as [|x o IH]; [reflexivity|]. exact IH. Qed.
Lemma called_step v s s' o : cstep v s = Some (s', o) -> called o = begun v s.
Proof.
  intros H. unfold begun. cstep_inv H v; ssimp; rewrite ?called_conn; try reflexivity.
  all: try match goal with HN : nth_error (s_goes _) _ = Some _ |- _ => rewrite HN end; try reflexivity.
Qed.

(** Whatever listeners do: what the central system shows is a history of the central system, so everything that C37 - C42, C45, C59 - C61, C76, C77
    and C80 say of all histories holds. *)
Theorem C105_history : forall s tr, lreach s tr -> creach (l_cs s) (seen tr).
Proof.
  intros s tr HR. induction HR as [|s tr e s' o HR IH H]; [constructor|]. unfold lstep in H. destruct (l_dead s); [discriminate H|]. destruct e as [v|i v|i|i].
  - destruct (cstep v (l_cs s)) as [[c oc]|] eqn:E; [|discriminate H]. injection H as <- <-. rewrite seen_app, seen_map. exact (creach_S _ _ _ _ _ IH E).
  - destruct (nth_error (l_running s) i); [|discriminate H]. destruct (of_api v); [|discriminate H]. destruct (cstep v (l_cs s)) as [[c oc]|] eqn:E; [|discriminate H].
    injection H as <- <-. rewrite seen_app, seen_map. exact (creach_S _ _ _ _ _ IH E).
  - destruct (nth_error (l_running s) i) as [[[on f] id]|]; [|discriminate H]. injection H as <- <-. rewrite seen_app. cbn. rewrite app_nil_r. exact IH.
  - destruct (nth_error (l_running s) i) as [[[on f] id]|]; [|discriminate H]. injection H as <- <-. rewrite seen_app. cbn. rewrite app_nil_r. exact IH.
Qed.

(** Each call of a listener runs, has returned or has panicked. *)
Theorem C105_calls : forall s tr, lreach s tr -> Permutation (called (seen tr)) (l_running s ++ returned tr ++ panicked tr).
Proof.
  intros s tr HR. induction HR as [|s tr e s' o HR IH H]; [constructor|]. unfold lstep in H. destruct (l_dead s); [discriminate H|]. rewrite seen_app, returned_app, panicked_app, called_app. destruct e as [v|i v|i|i].
  - destruct (cstep v (l_cs s)) as [[c oc]|] eqn:E; [|discriminate H]. injection H as <- <-. rewrite seen_map, returned_map, panicked_map, !app_nil_r, (called_step _ _ _ _ E). cbn [l_running].
    rewrite <- app_assoc, (Permutation_app_comm (begun v (l_cs s))), app_assoc. apply Permutation_app_tail. exact IH.
  - destruct (nth_error (l_running s) i); [|discriminate H]. destruct (of_api v) eqn:EA; [|discriminate H]. destruct (cstep v (l_cs s)) as [[c oc]|] eqn:E; [|discriminate H].
    injection H as <- <-. rewrite seen_map, returned_map, panicked_map, !app_nil_r, (called_step _ _ _ _ E). cbn [l_running]. destruct v; try discriminate EA; rewrite app_nil_r; exact IH.
  - destruct (nth_error (l_running s) i) as [[[on f] id]|] eqn:EN; [|discriminate H]. injection H as <- <-. cbn [seen returned panicked flat_map called cpick l_running app]. rewrite !app_nil_r. rewrite IH.
    rewrite (drop_perm _ _ _ EN) at 1. cbn [app]. rewrite <- app_assoc. rewrite !app_assoc. rewrite <- (app_assoc (_ ++ _)). cbn [app]. rewrite <- Permutation_middle. reflexivity.
  - destruct (nth_error (l_running s) i) as [[[on f] id]|] eqn:EN; [|discriminate H]. injection H as <- <-. cbn [seen returned panicked flat_map called cpick l_running app]. rewrite !app_nil_r. rewrite IH.
    rewrite (drop_perm _ _ _ EN) at 1. cbn [app]. rewrite !app_assoc. rewrite <- Permutation_middle, app_nil_r. reflexivity.
Qed.

Lemma dead_panicked s tr : lreach s tr -> (l_dead s = true <-> panicked tr <> []).
Proof.
  intros HR. induction HR as [|s tr e s' o HR IH H]; [split; [discriminate|intros K; destruct (K eq_refl)]|]. unfold lstep in H. destruct (l_dead s) eqn:ED; [discriminate H|].
  assert (P : panicked tr = []) by (destruct (panicked tr); [reflexivity|destruct IH as [_ IH]; discriminate (IH ltac:(discriminate))]). rewrite panicked_app, P. cbn [app]. destruct e as [v|i v|i|i].
  - destruct (cstep v (l_cs s)) as [[c oc]|]; [|discriminate H]. injection H as <- <-. rewrite panicked_map. split; [discriminate|intros K; destruct (K eq_refl)].
  - destruct (nth_error (l_running s) i); [|discriminate H]. destruct (of_api v); [|discriminate H]. destruct (cstep v (l_cs s)) as [[c oc]|]; [|discriminate H]. injection H as <- <-.
    rewrite panicked_map. split; [discriminate|intros K; destruct (K eq_refl)].
  - destruct (nth_error (l_running s) i) as [[[on f] id]|]; [|discriminate H]. injection H as <- <-. split; [discriminate|intros K; destruct (K eq_refl)].
  - destruct (nth_error (l_running s) i) as [[[on f] id]|]; [|discriminate H]. injection H as <- <-. split; [discriminate|reflexivity].
Qed.
Lemma panicked_in tr on f id : In (LPanicked on f id) tr -> panicked tr <> [].
Proof. intros H K. apply in_split in H. destruct H as (b & a & ->). rewrite panicked_app in K. apply app_eq_nil in K. destruct K as [_ K]. discriminate K. Qed.
(** A panic of a listener is the last thing the process does. *)
Theorem C105_panic_ends : forall s tr, lreach s tr -> (l_dead s = true <-> panicked tr <> []) /\
  (forall b on f id a, tr = b ++ LPanicked on f id :: a -> a = [] /\ l_dead s = true) /\
  (l_dead s = true -> forall e, lstep e s = None).
Proof.
  intros s tr HR. split; [exact (dead_panicked s tr HR)|]. split; [|intros HD e; unfold lstep; rewrite HD; reflexivity].
  intros b on f id a E. assert (D : l_dead s = true) by (apply (dead_panicked s tr HR), (panicked_in _ on f id); rewrite E; apply in_elt). split; [|exact D].
  destruct HR as [|s0 tr e s' o HR H]; [destruct b; discriminate E|]. assert (ED : l_dead s0 = false) by (unfold lstep in H; destruct (l_dead s0); [discriminate H|reflexivity]).
  unfold lstep in H. rewrite ED in H. destruct e as [v|i v|i|i].
  - destruct (cstep v (l_cs s0)) as [[c oc]|]; [|discriminate H]. injection H as <- <-. discriminate D.
  - destruct (nth_error (l_running s0) i); [|discriminate H]. destruct (of_api v); [|discriminate H]. destruct (cstep v (l_cs s0)) as [[c oc]|]; [|discriminate H]. injection H as <- <-. discriminate D.
  - destruct (nth_error (l_running s0) i) as [[[on' f'] id']|]; [|discriminate H]. injection H as <- <-. discriminate D.
  - destruct (nth_error (l_running s0) i) as [[[on' f'] id']|]; [|discriminate H]. injection H as <- <-.
    destruct a as [|y a]; [reflexivity|exfalso]. destruct (@exists_last _ (y :: a) ltac:(discriminate)) as (a' & z & EZ). rewrite EZ in E.
    change (b ++ LPanicked on f id :: a' ++ [z]) with (b ++ (LPanicked on f id :: a') ++ [z]) in E. rewrite app_assoc in E. apply app_inj_tail in E. destruct E as [E _].
    assert (P : panicked tr <> []) by (apply (panicked_in _ on f id); rewrite E; apply in_elt). apply (dead_panicked _ _ HR) in P. rewrite P in ED. discriminate ED.
Qed.

(** A running listener holds nobody up: what the process or another listener could do without it, they can do with it. *)
Theorem C105_holds_nobody_up : forall s tr v, lreach s tr -> l_dead s = false -> cstep v (l_cs s) <> None ->
  lstep (LStep v) s <> None /\ (forall i, nth_error (l_running s) i <> None -> of_api v = true -> lstep (LApi i v) s <> None).
Proof.
  intros s tr v _ HD HC. unfold lstep. rewrite HD. destruct (cstep v (l_cs s)) as [[c o]|]; [|destruct (HC eq_refl)]. split; [discriminate|].
  intros i HN HA. destruct (nth_error (l_running s) i); [|destruct (HN eq_refl)]. rewrite HA. discriminate.
Qed.
(** It may call the API: at most one step of another goroutine, which releases the lock, and each of the calls returns. *)
Theorem C105_may_call : forall s tr i l, lreach s tr -> l_dead s = false -> s_crash (l_cs s) = false -> nth_error (l_running s) i = Some l ->
  exists vs s1 o1, length vs <= 1 /\ lrun (map LStep vs) s = Some (s1, o1) /\ nth_error (l_running s1) i = Some l /\
    forall v, of_api v = true -> exists s2 o2, lstep (LApi i v) s1 = Some (s2, o2) /\
      match v with
      | VService id ver url => exists r, In (LSeen (OService id ver url r)) o2
      | VWaitConnect id => exists ch, In (LSeen (OWaitC id ch)) o2
      | VWaitDisconnect id => exists r, In (LSeen (OWaitD id r)) o2
      | _ => True
      end.
Proof.
  intros s tr i l HR HD HC HN. destruct (free_mux _ _ (C105_history _ _ HR) HC) as (vs & c1 & o & HL & _ & HV & HM & HC1 & _).
  assert (R : exists s1, lrun (map LStep vs) s = Some (s1, map LSeen o) /\ l_cs s1 = c1 /\ l_dead s1 = false /\ nth_error (l_running s1) i = Some l).
  { destruct vs as [|v [|v' vs]]; [| |cbn in HL; lia].
    - cbn [crun] in HV. injection HV as <- <-. exists s. repeat split; assumption.
    - cbn [crun] in HV. destruct (cstep v (l_cs s)) as [[c' o']|] eqn:E; [|discriminate HV]. injection HV as <- <-. rewrite app_nil_r.
      exists (MkL c' (l_running s ++ begun v (l_cs s)) false). cbn [map lrun]. unfold lstep. rewrite HD, E, app_nil_r. split; [reflexivity|]. split; [reflexivity|]. split; [reflexivity|].
      cbn [l_running]. rewrite nth_error_app1; [exact HN|]. apply nth_error_Some. rewrite HN. discriminate. }
  destruct R as (s1 & R1 & R2 & R3 & R4). exists vs, s1, (map LSeen o). split; [exact HL|]. split; [exact R1|]. split; [exact R4|].
  intros v HA. unfold lstep. rewrite R3, R4, HA, R2. unfold cstep. rewrite HC1. destruct v as [up m p|k|k ok|k e|id ver url|id|id|f|f|j]; try discriminate HA.
  - rewrite HM. destruct (String.eqb ver V16); do 2 eexists; (split; [reflexivity|]); eexists; left; reflexivity.
  - rewrite HM. destruct (lookup id (s_chans c1)) as [ch|]; do 2 eexists; (split; [reflexivity|]); eexists; left; reflexivity.
  - rewrite HM. do 2 eexists. split; [reflexivity|]. eexists. left. reflexivity.
  - do 2 eexists. split; [reflexivity|exact I].
  - do 2 eexists. split; [reflexivity|exact I].
Qed.

(** Panics are not contained: the listener of one charge point ends the service of another, which is connected and being served. *)
Definition lstate_of es := match lrun es lsys0 with Some (s, _) => s | None => lsys0 end.
Definition ltrace_of es := match lrun es lsys0 with Some (_, o) => o | None => [] end.
Lemma lreach_run es : forall s tr s' o, lreach s tr -> lrun es s = Some (s', o) -> lreach s' (tr ++ o).
Proof.
  induction es as [|e es IH]; intros s tr s' o HR H; cbn [lrun] in H; [injection H as <- <-; rewrite app_nil_r; exact HR|].
  destruct (lstep e s) as [[s1 o1]|] eqn:E; [|discriminate H]. destruct (lrun es s1) as [[s2 o2]|] eqn:E2; [|discriminate H]. injection H as <- <-.
  rewrite app_assoc. exact (IH _ _ _ _ (lreach_S _ _ _ _ _ HR E) E2).
Qed.
Lemma lreached es : match lrun es lsys0 with Some _ => true | None => false end = true -> lreach (lstate_of es) (ltrace_of es).
Proof.
  unfold lstate_of, ltrace_of. destruct (lrun es lsys0) as [[s o]|] eqn:E; [|discriminate]. intros _. exact (lreach_run es _ [] _ _ lreach_0 E).
Qed.
Definition two_points := map LStep (connects 0 "/a" ++ connects 1 "/b" ++ [VCall 0]).
Theorem C105_contained_refuted : exists s tr s' o, lreach s tr /\ online "b" (seen tr) /\ l_running s = [(true, 0, "a")] /\ s_crash (l_cs s) = false /\
  lstep (LPanic 0) s = Some (s', o) /\ forall e, lstep e s' = None.
Proof.
  assert (P : forall s, l_dead s = false -> l_running s = [(true, 0, "a")] -> exists s' o, lstep (LPanic 0) s = Some (s', o) /\ forall e, lstep e s' = None).
  { intros s H1 H2. unfold lstep at 1. rewrite H1, H2. cbn [nth_error]. do 2 eexists. split; [reflexivity|]. intros e. reflexivity. }
  assert (D : l_dead (lstate_of two_points) = false) by (vm_compute; reflexivity). assert (N : l_running (lstate_of two_points) = [(true, 0, "a")]) by (vm_compute; reflexivity).
  destruct (P _ D N) as (s' & o & P1 & P2). exists (lstate_of two_points), (ltrace_of two_points), s', o. split; [apply lreached; vm_compute; reflexivity|].
  split; [exists 1; split; [vm_compute; left; reflexivity|vm_compute; intros []]|]. split; [exact N|]. split; [vm_compute; reflexivity|]. split; [exact P1|exact P2].
Qed.
Example C105_ex : lreach (lstate_of (two_points ++ [LApi 0 (VService "b" V16 ""); LReturn 0])) (ltrace_of (two_points ++ [LApi 0 (VService "b" V16 ""); LReturn 0])) /\
  returned (ltrace_of (two_points ++ [LApi 0 (VService "b" V16 ""); LReturn 0])) = [(true, 0, "a")] /\
  called (seen (ltrace_of (two_points ++ [LApi 0 (VService "b" V16 ""); LReturn 0]))) = [(true, 0, "a")].
Proof. split; [apply lreached; vm_compute; reflexivity|]. split; vm_compute; reflexivity. Qed.

Definition listen_theorems := (C105_history, C105_calls, C105_panic_ends, C105_holds_nobody_up, C105_may_call, C105_contained_refuted).
Print Assumptions listen_theorems.
