(** Invariants of the central system. *)
From Coq Require Import Arith Permutation.
From Verif Require Import GoBase Utf8 Json Float64 Codec Any Tables Registry Frame Conn SpecConn ConnBase ConnFate CentralSystem SpecCS.
Open Scope string_scope.
Open Scope list_scope.
Opaque marshal_message read_text unmarshal_request call_to_request result_to_response utf8_valid msg_ok is_request action_of.
Opaque step.

Lemma cpick_app {A} (f : cobs -> option A) a b : cpick f (a ++ b) = cpick f a ++ cpick f b.
Proof. apply flat_map_app. Qed.
Lemma cpick_in {A} (f : cobs -> option A) tr x : In x (cpick f tr) <-> exists o, In o tr /\ f o = Some x.
Proof.
  unfold cpick. rewrite in_flat_map. split; intros (o & H1 & H2); exists o; split; auto.
  - destruct (f o); [|destruct H2]. destruct H2 as [H2|[]]. congruence.
  - rewrite H2. left. reflexivity.
Qed.
Lemma cpick_conn {A} (f : cobs -> option A) k o : (forall x, f (OConn k x) = None) -> cpick f (map (OConn k) o) = [].
Proof. intros H. induction o as [|x o IH]; cbn; [reflexivity|]. rewrite H. exact IH. Qed.
Lemma conn_trace_conn k j o : conn_trace k (map (OConn j) o) = if Nat.eqb k j then o else [].
Proof.
  unfold conn_trace, cpick. induction o as [|x o IH]; cbn; [destruct (Nat.eqb k j); reflexivity|].
  destruct (Nat.eqb k j); cbn; rewrite IH; reflexivity.
Qed.
Lemma conn_trace_app k a b : conn_trace k (a ++ b) = conn_trace k a ++ conn_trace k b. Proof. apply cpick_app. Qed.
Lemma life_app k a b : life k (a ++ b) = life k a ++ life k b. Proof. apply cpick_app. Qed.
Lemma life_conn k j o : life k (map (OConn j) o) = []. Proof. apply cpick_conn. reflexivity. Qed.
Lemma regs_app k a b : regs k (a ++ b) = regs k a ++ regs k b. Proof. apply cpick_app. Qed.
Lemma regs_conn k j o : regs k (map (OConn j) o) = []. Proof. apply cpick_conn. reflexivity. Qed.
Lemma cleans_app k a b : cleans k (a ++ b) = cleans k a ++ cleans k b. Proof. apply cpick_app. Qed.
Lemma cleans_conn k j o : cleans k (map (OConn j) o) = []. Proof. apply cpick_conn. reflexivity. Qed.

(** ** Case analysis of a step *)
Ltac ssimp := cbn [s_conns s_chans s_connected s_count s_mux s_nchan s_closed s_on s_off s_ks s_goes s_crash k_id k_pc k_conn
  set_ks set_kpc set_mux set_goes set_dead].
Ltac ssimp_in H := cbn [s_conns s_chans s_connected s_count s_mux s_nchan s_closed s_on s_off s_ks s_goes s_crash k_id k_pc k_conn
  set_ks set_kpc set_mux set_goes set_dead] in H.
Ltac cstep_inv H v :=
  unfold cstep in H; match type of H with (if s_crash ?c then _ else _) = _ => destruct (s_crash c) eqn:?; [discriminate H|] end;
  destruct v; cbv beta iota in H; unfold kstep, do_register, do_clean in H; cbv beta zeta iota in H;
  repeat (sinv1 H); try (injection H as <- <-); try (match type of H with Some ?x = Some _ => injection H as <- <- end).

(** ** The life of a connection *)
Definition livepc (p : kpc) : bool := match p with KListen | KServe | KDisc | KLock2 | KClean => true | _ => false end.
Definition inside (p : kpc) : bool := match p with KReg | KClean => true | _ => false end.
Definition early (p : kpc) : bool := match p with KLog | KShake | KLock1 | KReg | KFailed => true | _ => false end.
Definition late (p : kpc) : bool := match p with KDisc | KLock2 | KClean | KEnd => true | _ => false end.
Definition script (k : nat) (x : csconn) (l : list cobs) : Prop :=
  let id := k_id x in
  match k_pc x with
  | KLog | KShake | KLock1 | KReg => l = [OArrived k id]
  | KFailed => l = [OArrived k id; OShakeFailed k]
  | KListen => l = [OArrived k id; ORegistered k id]
  | KServe | KDisc => exists f, l = [OArrived k id; ORegistered k id; OStartOn f k id]
  | KLock2 | KClean => exists f g, l = [OArrived k id; ORegistered k id; OStartOn f k id; OStartOff g k id]
  | KEnd => exists f g, l = [OArrived k id; ORegistered k id; OStartOn f k id; OStartOff g k id; OCleaned k id]
  end.
Definition inv_life (s : csys) (tr : list cobs) : Prop :=
  (forall k x, nth_error (s_ks s) k = Some x -> script k x (life k tr)) /\
  (forall k, nth_error (s_ks s) k = None -> life k tr = []).
Lemma nth_none_app {A} (l : list A) x j : nth_error (l ++ [x]) j = None -> nth_error l j = None /\ j <> length l.
Proof. intros H. apply nth_error_None in H. rewrite app_length in H. cbn in H. split; [apply nth_error_None; lia|lia]. Qed.
Lemma nth_none_upd {A} i (x : A) l j : nth_error (upd i x l) j = None -> nth_error l j = None.
Proof. intros H. apply nth_error_None in H. rewrite upd_length in H. apply nth_error_None. exact H. Qed.
Lemma neqb (a b : nat) : a <> b -> Nat.eqb a b = false. Proof. apply Nat.eqb_neq. Qed.

Ltac kill := cbn [cpick flat_map app]; repeat match goal with
  | H : ?a <> ?b |- context [Nat.eqb ?a ?b] => rewrite (neqb _ _ H)
  end; cbn [app]; rewrite ?Nat.eqb_refl, ?app_nil_r.

Lemma inv_life_step v s s' o tr : inv_life s tr -> cstep v s = Some (s', o) -> inv_life s' (tr ++ o).
Proof.
  intros [I1 I2] H. split.
  - intros j y HJ. rewrite life_app. cstep_inv H v; ssimp_in HJ; rewrite ?life_conn, ?app_nil_r; try (unfold life at 2); cbn [cpick flat_map app]; rewrite ?app_nil_r; try (exact (I1 _ _ HJ)).
    all: try (apply nth_upd_inv in HJ; destruct HJ as [[-> ->]|[NE HJ]]; [|kill; exact (I1 _ _ HJ)]).
    all: try (match goal with E : nth_error _ _ = Some ?x, E1 : k_pc ?x = _ |- _ => pose proof (I1 _ _ E) as X; unfold script in X; rewrite E1 in X; unfold script; cbn [k_pc k_id]; kill end).
    all: try (rewrite X; reflexivity).
    all: try exact X.
    all: try (match type of X with exists _, _ => idtac end; destruct X as [f X]; rewrite X; eexists; eexists; reflexivity).
    all: try (rewrite X; eexists; reflexivity).
    all: try (destruct X as (f & g & X); rewrite X; eexists; eexists; reflexivity).
    all: try (match goal with E : nth_error _ _ = Some ?x |- script _ (MkK _ (k_pc ?x) _) _ => exact (I1 _ _ E) end).
    apply nth_app_inv in HJ. destruct HJ as [HJ|[-> ->]].
    + assert (NE : j <> length (s_ks s)) by (apply nth_lt in HJ; lia). kill. exact (I1 _ _ HJ).
    + kill. rewrite (I2 (length (s_ks s))) by (apply nth_error_None; lia). reflexivity.
  - intros j HJ. rewrite life_app. cstep_inv H v; ssimp_in HJ; rewrite ?life_conn, ?app_nil_r; try (unfold life at 2); cbn [cpick flat_map app]; rewrite ?app_nil_r; try (exact (I2 _ HJ)).
    all: try (apply nth_none_upd in HJ).
    all: try (match goal with E : nth_error _ ?k = Some _ |- _ => assert (NE : j <> k) by congruence end; kill; exact (I2 _ HJ)).
    apply nth_none_app in HJ. destruct HJ as [HJ NE]. kill. exact (I2 _ HJ).
Qed.

(** ** The maps *)
Definition cnt (id : string) (ks : list csconn) : nat := length (filter (fun x => String.eqb id (k_id x) && livepc (k_pc x)) ks).
Lemma cnt_app id ks x : cnt id (ks ++ [x]) = cnt id ks + (if String.eqb id (k_id x) && livepc (k_pc x) then 1 else 0).
Proof. unfold cnt. rewrite filter_app, app_length. cbn. destruct (_ && _); reflexivity. Qed.
Lemma cnt_upd id ks k x y : nth_error ks k = Some x ->
  cnt id (upd k y ks) + (if String.eqb id (k_id x) && livepc (k_pc x) then 1 else 0) = cnt id ks + (if String.eqb id (k_id y) && livepc (k_pc y) then 1 else 0).
Proof.
  unfold cnt. revert k. induction ks as [|z ks IH]; intros [|k] H; cbn [nth_error] in H; try discriminate H.
  - injection H as ->. cbn [upd filter]. destruct (_ && livepc (k_pc x)); destruct (_ && livepc (k_pc y)); cbn [length]; lia.
  - cbn [upd filter]. specialize (IH _ H). destruct (_ && livepc (k_pc z)); cbn [length]; lia.
Qed.
Lemma cnt_pos id ks : 0 < cnt id ks <-> exists k x, nth_error ks k = Some x /\ k_id x = id /\ livepc (k_pc x) = true.
Proof.
  unfold cnt. split.
  - intros H. destruct (filter _ ks) as [|x r] eqn:E; [cbn in H; lia|]. assert (I : In x (filter (fun x => String.eqb id (k_id x) && livepc (k_pc x)) ks)) by (rewrite E; left; reflexivity).
    apply filter_In in I. destruct I as [I1 I2]. apply andb_prop in I2. destruct I2 as [I2 I3]. apply String.eqb_eq in I2. apply In_nth_error in I1. destruct I1 as [k HK]. eauto 6.
  - intros (k & x & H1 & H2 & H3). assert (I : In x (filter (fun x => String.eqb id (k_id x) && livepc (k_pc x)) ks)).
    { apply filter_In. split; [exact (nth_error_In _ _ H1)|]. rewrite H2, String.eqb_refl, H3. reflexivity. }
    destruct (filter _ ks); [destruct I|cbn; lia].
Qed.
Lemma last_of_app {A} (l : list A) x : last_of (l ++ [x]) = Some x.
Proof. induction l as [|y l IH]; [reflexivity|]. cbn [app last_of]. destruct (l ++ [x]) eqn:E; [destruct l; discriminate E|exact IH]. Qed.
Lemma last_of_in {A} (l : list A) x : last_of l = Some x -> In x l.
Proof. induction l as [|y l IH]; [discriminate|]. cbn [last_of]. destruct l; [intros E; injection E as ->; left; reflexivity|intros E; right; apply IH; exact E]. Qed.

Definition inv_maps (s : csys) (tr : list cobs) : Prop :=
  (forall id, get_count id s = Z.of_nat (cnt id (s_ks s))) /\
  (forall id, get_connected id s = (0 <? cnt id (s_ks s))%nat) /\
  (forall id, lookup id (s_conns s) = if (0 <? cnt id (s_ks s))%nat then newest id tr else None).
Definition inv_chans (s : csys) (tr : list cobs) : Prop :=
  (forall id ch, lookup id (s_chans s) = Some ch -> ch < s_nchan s) /\
  (forall ch, In ch (s_closed s) -> ch < s_nchan s) /\
  (forall id id' ch, lookup id (s_chans s) = Some ch -> lookup id' (s_chans s) = Some ch -> id = id') /\
  (forall id, 0 < cnt id (s_ks s) -> exists ch, lookup id (s_chans s) = Some ch /\ In ch (s_closed s)) /\
  (forall id ch, cnt id (s_ks s) = 0 -> lookup id (s_chans s) = Some ch -> ~ In ch (s_closed s)) /\
  ~ In OPanic tr.
Definition inv_wait (s : csys) (tr : list cobs) : Prop :=
  forall b a id ch, tr = b ++ OWaitC id ch :: a ->
    ch < s_nchan s /\ (In ch (s_closed s) <-> online id b \/ regs id a <> []) /\ (~ In ch (s_closed s) -> lookup id (s_chans s) = Some ch).
Definition inv_mux (s : csys) : Prop :=
  forall k, s_mux s = Some k <-> exists x, nth_error (s_ks s) k = Some x /\ inside (k_pc x) = true.

Lemma is_closed_in ch s : is_closed ch s = true <-> In ch (s_closed s).
Proof.
  unfold is_closed. rewrite existsb_exists. split.
  - intros (x & H1 & H2). apply Nat.eqb_eq in H2. subst x. exact H1.
  - intros H. exists ch. split; [exact H|apply Nat.eqb_refl].
Qed.
Lemma get_count_mput id id' n s l : s_count s = mput id' n l -> get_count id s = if String.eqb id id' then n else match lookup id l with Some n => n | None => 0%Z end.
Proof. intros H. unfold get_count. rewrite H, lookup_mput. destruct (String.eqb id id'); reflexivity. Qed.

Ltac cnt_use E id y := let X := fresh "C" in pose proof (cnt_upd id _ _ _ y E) as X; cbn [k_id k_pc livepc] in X.

(** steps that leave the maps and the set of live connections alone *)
Lemma cnt_same ks k x y id : nth_error ks k = Some x -> k_id y = k_id x -> livepc (k_pc y) = livepc (k_pc x) -> cnt id (upd k y ks) = cnt id ks.
Proof. intros H H1 H2. pose proof (cnt_upd id _ _ _ y H) as X. rewrite H1, H2 in X. lia. Qed.
Lemma cnt_add ks k x y id : nth_error ks k = Some x -> k_id y = k_id x -> livepc (k_pc y) = true -> livepc (k_pc x) = false ->
  cnt id (upd k y ks) = if String.eqb id (k_id x) then S (cnt id ks) else cnt id ks.
Proof. intros H H1 H2 H3. pose proof (cnt_upd id _ _ _ y H) as X. rewrite H1, H2, H3 in X. rewrite andb_false_r, andb_true_r in X. destruct (String.eqb id (k_id x)); lia. Qed.
Lemma cnt_sub ks k x y id : nth_error ks k = Some x -> k_id y = k_id x -> livepc (k_pc y) = false -> livepc (k_pc x) = true ->
  (if String.eqb id (k_id x) then S (cnt id (upd k y ks)) else cnt id (upd k y ks)) = cnt id ks.
Proof. intros H H1 H2 H3. pose proof (cnt_upd id _ _ _ y H) as X. rewrite H1, H2, H3 in X. rewrite andb_false_r, andb_true_r in X. destruct (String.eqb id (k_id x)); lia. Qed.

Lemma newest_app id tr o : regs id o = [] -> newest id (tr ++ o) = newest id tr.
Proof. intros H. unfold newest. rewrite regs_app, H, app_nil_r. reflexivity. Qed.
Lemma newest_reg i tr k id : newest i (tr ++ [ORegistered k id]) = if String.eqb i id then Some k else newest i tr.
Proof.
  unfold newest. rewrite regs_app. unfold regs at 2. cbn. destruct (String.eqb i id); cbn; [apply last_of_app|rewrite app_nil_r; reflexivity].
Qed.
(** What a step does to what the maps are about *)
Inductive kind (s s' : csys) (o : list cobs) : Prop :=
| kd_quiet : (forall id, cnt id (s_ks s') = cnt id (s_ks s)) -> s_conns s' = s_conns s -> s_connected s' = s_connected s -> s_count s' = s_count s ->
    s_closed s' = s_closed s -> s_chans s' = s_chans s -> s_nchan s' = s_nchan s ->
    (forall id, regs id o = []) -> (forall id, cleans id o = []) -> ~ In OPanic o -> (forall id ch, ~ In (OWaitC id ch) o) -> kind s s' o
| kd_wait id ch : s_ks s' = s_ks s -> s_conns s' = s_conns s -> s_connected s' = s_connected s -> s_count s' = s_count s ->
    s_closed s' = s_closed s ->
    (lookup id (s_chans s) = Some ch /\ s_chans s' = s_chans s /\ s_nchan s' = s_nchan s \/
     lookup id (s_chans s) = None /\ ch = s_nchan s /\ s_chans s' = mput id ch (s_chans s) /\ s_nchan s' = S (s_nchan s)) ->
    o = [OWaitC id ch] -> kind s s' o
| kd_reg k id ch : (forall i, cnt i (s_ks s') = if String.eqb i id then S (cnt i (s_ks s)) else cnt i (s_ks s)) ->
    s_conns s' = mput id k (s_conns s) -> s_connected s' = mput id true (s_connected s) -> s_count s' = mput id (get_count id s + 1)%Z (s_count s) ->
    (lookup id (s_chans s) = Some ch /\ s_chans s' = s_chans s /\ s_nchan s' = s_nchan s \/
     lookup id (s_chans s) = None /\ ch = s_nchan s /\ s_chans s' = mput id ch (s_chans s) /\ s_nchan s' = S (s_nchan s)) ->
    s_closed s' = (if get_connected id s then s_closed s else ch :: s_closed s) ->
    o = [ORegistered k id] -> kind s s' o
| kd_clean k id : (forall i, (if String.eqb i id then S (cnt i (s_ks s')) else cnt i (s_ks s')) = cnt i (s_ks s)) ->
    s_count s' = mput id (get_count id s - 1)%Z (s_count s) -> s_closed s' = s_closed s ->
    (get_count id s - 1 <> 0 /\ s_conns s' = s_conns s /\ s_connected s' = s_connected s /\ s_chans s' = s_chans s /\ s_nchan s' = s_nchan s \/
     get_count id s - 1 = 0 /\ s_conns s' = mdel id (s_conns s) /\ s_connected s' = mput id false (s_connected s) /\
       s_chans s' = mput id (s_nchan s) (s_chans s) /\ s_nchan s' = S (s_nchan s))%Z ->
    o = [OCleaned k id] -> kind s s' o
| kd_panic id ch : get_connected id s = false -> In ch (s_closed s) ->
    (lookup id (s_chans s) = Some ch \/ lookup id (s_chans s) = None /\ ch = s_nchan s) -> o = [OPanic] -> kind s s' o.
Lemma in_conn_panic k o : ~ In OPanic (map (OConn k) o).
Proof. intros H. apply in_map_iff in H. destruct H as (x & H & _). discriminate H. Qed.
Lemma in_conn_wait k o id ch : ~ In (OWaitC id ch) (map (OConn k) o).
Proof. intros H. apply in_map_iff in H. destruct H as (x & H & _). discriminate H. Qed.
Lemma step_kind v s s' o : cstep v s = Some (s', o) -> kind s s' o.
Proof.
  intros H. cstep_inv H v.
  all: try match goal with E : k_pc ?x = KReg, E1 : negb (get_connected (k_id ?x) _) && _ = true |- _ =>
    apply andb_prop in E1; destruct E1 as [B1 B2]; apply is_closed_in in B2; apply negb_true_iff in B1;
    eapply kd_panic; [exact B1|exact B2| |reflexivity]; tauto end.
  all: try match goal with E : k_pc ?x = KReg, E0 : nth_error _ ?k = Some ?x |- _ =>
    eapply (kd_reg _ _ _ k (k_id x)); ssimp; [intros i; eapply cnt_add; [exact E0|reflexivity|reflexivity|rewrite E; reflexivity]|reflexivity..|first [left; split; [eassumption|split; reflexivity]|right; split; [eassumption|repeat split; reflexivity]]|match goal with X : get_connected _ _ = _ |- _ => rewrite X end; reflexivity|reflexivity] end.
  all: try match goal with E : k_pc ?x = KClean, E0 : nth_error _ ?k = Some ?x |- _ =>
    eapply (kd_clean _ _ _ k (k_id x)); ssimp; [intros i; eapply cnt_sub; [exact E0|reflexivity|reflexivity|rewrite E; reflexivity]|reflexivity..| |reflexivity] end.
  all: try (left; repeat split; try reflexivity; apply Z.eqb_neq; assumption).
  all: try (right; repeat split; try reflexivity; apply Z.eqb_eq; assumption).
  all: try (eapply kd_wait; ssimp; [reflexivity..|first [left; split; [eassumption|split; reflexivity]|right; split; [eassumption|repeat split; reflexivity]]|reflexivity]).
  all: apply kd_quiet; ssimp; try reflexivity; try (intros; reflexivity).
  all: try (intros; first [apply regs_conn|apply cleans_conn|apply in_conn_panic|apply in_conn_wait]).
  all: try (cbn; intuition discriminate).
  all: try (intros i; first [eapply cnt_same; [eassumption|reflexivity|cbn [k_pc]; match goal with E : k_pc _ = _ |- _ => rewrite E end; reflexivity]|eapply cnt_same; [eassumption|reflexivity|reflexivity]]).
  all: try (intros i; rewrite cnt_app; cbn; rewrite andb_false_r; lia).
Qed.

Definition inv_on (s : csys) (tr : list cobs) : Prop := forall id, 0 < cnt id (s_ks s) <-> online id tr.
Lemma life_in k tr o : In o (life k tr) -> In o tr.
Proof. unfold life. intros H. apply cpick_in in H. destruct H as (o' & H1 & H2). destruct o'; try discriminate H2; destruct (Nat.eqb k _); try discriminate H2; injection H2 as <-; exact H1. Qed.
Lemma regs_life k id tr : In k (regs id tr) <-> In (ORegistered k id) (life k tr).
Proof.
  unfold regs, life. rewrite !cpick_in. split; intros (o & H1 & H2).
  - destruct o; try discriminate H2. destruct (String.eqb_spec id id0); [|discriminate H2]. injection H2 as ->. subst. exists (ORegistered k id0). rewrite Nat.eqb_refl. auto.
  - exists o. split; [exact H1|]. destruct o; try discriminate H2; destruct (Nat.eqb _ _); try discriminate H2. injection H2 as -> ->. rewrite String.eqb_refl. reflexivity.
Qed.
Lemma cleans_life k id tr : In k (cleans id tr) <-> In (OCleaned k id) (life k tr).
Proof.
  unfold cleans, life. rewrite !cpick_in. split; intros (o & H1 & H2).
  - destruct o; try discriminate H2. destruct (String.eqb_spec id id0); [|discriminate H2]. injection H2 as ->. subst. exists (OCleaned k id0). rewrite Nat.eqb_refl. auto.
  - exists o. split; [exact H1|]. destruct o; try discriminate H2; destruct (Nat.eqb _ _); try discriminate H2. injection H2 as -> ->. rewrite String.eqb_refl. reflexivity.
Qed.
Lemma life_on s tr : inv_life s tr -> inv_on s tr.
Proof.
  intros [L1 L2] id. rewrite cnt_pos. unfold online. split.
  - intros (k & x & H1 & <- & H3). exists k. rewrite regs_life, cleans_life. pose proof (L1 _ _ H1) as X. unfold script in X.
    destruct (k_pc x); try discriminate H3; repeat match type of X with exists _, _ => let f := fresh "f" in destruct X as [f X] end; rewrite X; cbn; intuition discriminate.
  - intros (k & H1 & H2). rewrite regs_life in H1. rewrite cleans_life in H2. destruct (nth_error (s_ks s) k) as [x|] eqn:E; [|rewrite (L2 _ E) in H1; destruct H1].
    exists k, x. split; [exact E|]. pose proof (L1 _ _ E) as X. unfold script in X.
    destruct (k_pc x); repeat match type of X with exists _, _ => let f := fresh "f" in destruct X as [f X] end; rewrite X in H1, H2; cbn in H1, H2; split; try reflexivity; try (exfalso; intuition discriminate).
    all: try (intuition congruence).
Qed.

Lemma no_panic s tr v s' o : inv_maps s tr -> inv_chans s tr -> cstep v s = Some (s', o) -> ~ In OPanic o.
Proof.
  intros (M1 & M2 & M3) (C1 & C2 & C3 & C4 & C5 & C6) H. apply step_kind in H.
  destruct H as [_ _ _ _ _ _ _ _ _ HP _|id ch _ _ _ _ _ _ ->|k id ch _ _ _ _ _ _ ->|k id _ _ _ _ ->|id ch HN HI HL ->]; try exact HP; try (cbn; intuition discriminate).
  exfalso. rewrite M2 in HN. destruct (cnt id (s_ks s)) eqn:E; [|discriminate HN]. destruct HL as [HL|[HL ->]].
  - exact (C5 _ _ E HL HI).
  - specialize (C2 _ HI). lia.
Qed.
Lemma inv_maps_step v s s' o tr : inv_maps s tr -> inv_chans s tr -> cstep v s = Some (s', o) -> inv_maps s' (tr ++ o).
Proof.
  intros HM HCH H. pose proof (no_panic _ _ _ _ _ HM HCH H) as NP. destruct HM as (M1 & M2 & M3). apply step_kind in H. destruct H as [HC Hc Hn Ho _ _ _ HR _ _ _|id ch HK Hc Hn Ho _ _ ->|k id ch HC Hc Hn Ho _ _ ->|k id HC Ho _ HX ->|id ch HN HI HL ->].
  - repeat split; intros id; rewrite HC.
    + rewrite <- M1. unfold get_count. rewrite Ho. reflexivity.
    + rewrite <- M2. unfold get_connected. rewrite Hn. reflexivity.
    + rewrite Hc, M3, newest_app by apply HR. reflexivity.
  - repeat split; intros i; rewrite HK.
    + rewrite <- M1. unfold get_count. rewrite Ho. reflexivity.
    + rewrite <- M2. unfold get_connected. rewrite Hn. reflexivity.
    + rewrite Hc, M3, newest_app by reflexivity. reflexivity.
  - repeat split; intros i; rewrite HC.
    + unfold get_count. rewrite Ho, lookup_mput. destruct (String.eqb_spec i id) as [EQ|NE]; [subst i|]; [rewrite M1; lia|]. apply M1.
    + unfold get_connected. rewrite Hn, lookup_mput. destruct (String.eqb_spec i id) as [EQ|NE]; [subst i|]; [reflexivity|]. apply M2.
    + rewrite Hc, lookup_mput, newest_reg. destruct (String.eqb_spec i id) as [EQ|NE]; [subst i|]; [reflexivity|apply M3].
  - assert (HE : forall i, get_count i s' = Z.of_nat (cnt i (s_ks s'))).
    { intros i. unfold get_count. rewrite Ho, lookup_mput. specialize (HC i). destruct (String.eqb_spec i id) as [EQ|NE]; [subst i|]; [rewrite M1; lia|]. rewrite HC. apply M1. }
    split; [exact HE|]. specialize (HE id). unfold get_count in HE at 1. rewrite Ho, lookup_mput, String.eqb_refl in HE.
    split; intros i; specialize (HC i); destruct (String.eqb_spec i id) as [EQ|NE]; try subst i.
    + destruct HX as [(X & X1 & X2 & X3)|(X & X1 & X2 & X3)]; unfold get_connected; rewrite X2.
      * fold (get_connected id s). rewrite M2, <- HC. rewrite HE in X. destruct (cnt id (s_ks s')); [lia|reflexivity].
      * rewrite lookup_mput, String.eqb_refl. rewrite HE in X. destruct (cnt id (s_ks s')); [reflexivity|lia].
    + rewrite HC, <- M2. unfold get_connected. destruct HX as [(X & X1 & X2 & X3)|(X & X1 & X2 & X3)]; rewrite X2; [reflexivity|].
      rewrite lookup_mput. destruct (String.eqb_spec i id); [contradiction|reflexivity].
    + rewrite newest_app by reflexivity. destruct HX as [(X & X1 & X2 & X3)|(X & X1 & X2 & X3)]; rewrite X1.
      * rewrite M3, <- HC. rewrite HE in X. destruct (cnt id (s_ks s')); [lia|reflexivity].
      * rewrite lookup_mdel, String.eqb_refl. rewrite HE in X. destruct (cnt id (s_ks s')); [reflexivity|lia].
    + rewrite newest_app by reflexivity. rewrite HC, <- M3. destruct HX as [(X & X1 & X2 & X3)|(X & X1 & X2 & X3)]; rewrite X1; [reflexivity|].
      rewrite lookup_mdel. destruct (String.eqb_spec i id); [contradiction|reflexivity].
  - exfalso. apply NP. left. reflexivity.
Qed.
Lemma inv_chans_step v s s' o tr : inv_maps s tr -> inv_chans s tr -> cstep v s = Some (s', o) -> inv_chans s' (tr ++ o).
Proof.
  intros HM HCH H. pose proof (no_panic _ _ _ _ _ HM HCH H) as NP. pose proof (inv_maps_step _ _ _ _ _ HM HCH H) as (M1' & M2' & _). destruct HM as (M1 & M2 & M3). destruct HCH as (C1 & C2 & C3 & C4 & C5 & C6).
  assert (C6' : ~ In OPanic (tr ++ o)) by (intros X; apply in_app_or in X; tauto).
  assert (NEW : forall i, lookup i (s_chans s) = Some (s_nchan s) -> False) by (intros i X; specialize (C1 _ _ X); lia).
  apply step_kind in H. destruct H as [HC Hc Hn Ho Hl Hh Hm _ _ _ _|id ch HK Hc Hn Ho Hl HX HO|k id ch HC Hc Hn Ho HX Hl HO|k id HC Ho Hl HX HO|id ch HN HI HL HO].
  - unfold inv_chans. rewrite Hl, Hh, Hm. refine (conj C1 (conj C2 (conj C3 (conj _ (conj _ C6'))))); [intros id|intros id ch]; rewrite HC; [apply C4|apply C5].
  - unfold inv_chans. rewrite HK, Hl. destruct HX as [(X1 & X2 & X3)|(X1 & -> & X2 & X3)]; rewrite X2, X3; [exact (conj C1 (conj C2 (conj C3 (conj C4 (conj C5 C6')))))|].
    split; [|split; [|split; [|split; [|split; [|exact C6']]]]].
    + intros i c. rewrite lookup_mput. destruct (String.eqb i id); [intros E; injection E as <-; lia|intros E; specialize (C1 _ _ E); lia].
    + intros c E. specialize (C2 _ E). lia.
    + intros i j c. rewrite !lookup_mput. destruct (String.eqb_spec i id) as [EQ|NE]; [subst i|]; destruct (String.eqb_spec j id) as [->|NE'].
      * reflexivity.
      * intros E1 E2. injection E1 as <-. destruct (NEW _ E2).
      * intros E1 E2. injection E2 as <-. destruct (NEW _ E1).
      * apply C3.
    + intros i E. destruct (C4 _ E) as (c & E1 & E2). exists c. rewrite lookup_mput. destruct (String.eqb_spec i id) as [EQ|NE]; [subst i|]; [congruence|auto].
    + intros i c E. rewrite lookup_mput. destruct (String.eqb_spec i id) as [EQ|NE]; [subst i|]; [|apply C5; exact E]. intros E1 E2. injection E1 as <-. specialize (C2 _ E2). lia.
  - assert (CH1 : ch < s_nchan s') by (destruct HX as [(X1 & X2 & X3)|(X1 & -> & X2 & X3)]; rewrite X3; [exact (C1 _ _ X1)|lia]).
    assert (CH2 : s_nchan s <= s_nchan s') by (destruct HX as [(X1 & X2 & X3)|(X1 & -> & X2 & X3)]; rewrite X3; lia).
    assert (CH3 : lookup id (s_chans s') = Some ch) by (destruct HX as [(X1 & X2 & X3)|(X1 & -> & X2 & X3)]; rewrite X2; [exact X1|rewrite lookup_mput, String.eqb_refl; reflexivity]).
    assert (CH4 : forall i, i <> id -> lookup i (s_chans s') = lookup i (s_chans s)).
    { intros i NE. destruct HX as [(X1 & X2 & X3)|(X1 & -> & X2 & X3)]; rewrite X2; [reflexivity|rewrite lookup_mput]. destruct (String.eqb_spec i id); [contradiction|reflexivity]. }
    assert (CL : forall c, In c (s_closed s') -> In c (s_closed s) \/ c = ch) by (intros c; rewrite Hl; destruct (get_connected id s); cbn; intuition).
    assert (CL' : forall c, In c (s_closed s) -> In c (s_closed s')) by (intros c; rewrite Hl; destruct (get_connected id s); cbn; intuition).
    assert (DIFF : forall i c, i <> id -> lookup i (s_chans s) = Some c -> c <> ch).
    { intros i c NE E ->. destruct HX as [(X1 & X2 & X3)|(X1 & -> & X2 & X3)]; [exact (NE (C3 _ _ _ E X1))|exact (NEW _ E)]. }
    split; [|split; [|split; [|split; [|split; [|exact C6']]]]].
    + intros i c E. destruct (String.eqb_spec i id) as [EQ|NE]; [subst i|]; [rewrite CH3 in E; injection E as <-; exact CH1|]. rewrite (CH4 _ NE) in E. specialize (C1 _ _ E). lia.
    + intros c E. destruct (CL _ E) as [E1| ->]; [|exact CH1]. specialize (C2 _ E1). lia.
    + intros i j c. destruct (String.eqb_spec i id) as [EQ|NE]; [subst i|]; destruct (String.eqb_spec j id) as [->|NE'].
      * reflexivity.
      * rewrite CH3, (CH4 _ NE'). intros E1 E2. injection E1 as <-. destruct (DIFF _ _ NE' E2 eq_refl).
      * rewrite CH3, (CH4 _ NE). intros E1 E2. injection E2 as <-. destruct (DIFF _ _ NE E1 eq_refl).
      * rewrite (CH4 _ NE), (CH4 _ NE'). apply C3.
    + intros i. rewrite HC. destruct (String.eqb_spec i id) as [EQ|NE]; try subst i.
      * intros _. exists ch. split; [exact CH3|]. rewrite Hl. destruct (get_connected id s) eqn:EC; [|left; reflexivity].
        rewrite M2 in EC. apply Nat.ltb_lt in EC. destruct (C4 _ EC) as (c & E1 & E2). destruct HX as [(X1 & X2 & X3)|(X1 & -> & X2 & X3)]; congruence.
      * intros E. destruct (C4 _ E) as (c & E1 & E2). exists c. rewrite (CH4 _ NE). auto.
    + intros i c. rewrite HC. destruct (String.eqb_spec i id) as [EQ|NE]; [subst i|]; [discriminate|]. intros E. rewrite (CH4 _ NE). intros E1 E2.
      destruct (CL _ E2) as [E3| ->]; [exact (C5 _ _ E E1 E3)|exact (DIFF _ _ NE E1 eq_refl)].
  - assert (HZ : forall i, (i = id -> get_count id s = Z.of_nat (S (cnt i (s_ks s')))) /\ (i <> id -> cnt i (s_ks s') = cnt i (s_ks s))).
    { intros i. specialize (HC i). destruct (String.eqb_spec i id) as [EQ|NE]; [subst i|]; [|tauto]. split; [intros _; rewrite M1; lia|congruence]. }
    unfold inv_chans. rewrite Hl. destruct HX as [(X1 & X2 & X3 & X4 & X5)|(X1 & X2 & X3 & X4 & X5)]; rewrite X4, X5.
    + split; [|split; [|split; [|split; [|split; [|exact C6']]]]]; try assumption.
      * intros i E. apply C4. specialize (HC i). destruct (String.eqb i id); lia.
      * intros i c E. apply C5. specialize (HC i). destruct (String.eqb_spec i id) as [EQ|NE]; [subst i|]; [|congruence]. rewrite (proj1 (HZ id) eq_refl), E in X1. lia.
    + split; [|split; [|split; [|split; [|split; [|exact C6']]]]].
      * intros i c. rewrite lookup_mput. destruct (String.eqb i id); [intros E; injection E as <-; lia|intros E; specialize (C1 _ _ E); lia].
      * intros c E. specialize (C2 _ E). lia.
      * intros i j c. rewrite !lookup_mput. destruct (String.eqb_spec i id) as [EQ|NE]; [subst i|]; destruct (String.eqb_spec j id) as [->|NE'].
        -- reflexivity.
        -- intros E1 E2. injection E1 as <-. destruct (NEW _ E2).
        -- intros E1 E2. injection E2 as <-. destruct (NEW _ E1).
        -- apply C3.
      * intros i E. destruct (String.eqb_spec i id) as [EQ|NE]; [subst i|]; [rewrite (proj1 (HZ id) eq_refl) in X1; lia|]. rewrite (proj2 (HZ i) NE) in E. destruct (C4 _ E) as (c & E1 & E2). exists c.
        rewrite lookup_mput. destruct (String.eqb_spec i id); [contradiction|auto].
      * intros i c E. rewrite lookup_mput. destruct (String.eqb_spec i id) as [EQ|NE]; [subst i|]; [intros E1 E2; injection E1 as <-; specialize (C2 _ E2); lia|].
        apply C5. rewrite <- (proj2 (HZ i) NE). exact E.
  - exfalso. apply NP. rewrite HO. left. reflexivity.
Qed.

(** ** Waiters *)
Lemma split_app {A} (tr o b : list A) x a : tr ++ o = b ++ x :: a ->
  (exists a1, tr = b ++ x :: a1 /\ a = a1 ++ o) \/ (exists b1, b = tr ++ b1 /\ o = b1 ++ x :: a).
Proof.
  revert b. induction tr as [|y tr IH]; intros b H; cbn in H.
  - right. exists b. split; [reflexivity|exact H].
  - destruct b as [|z b]; cbn in H; injection H as -> H.
    + left. exists tr. split; [reflexivity|auto].
    + destruct (IH _ H) as [(a1 & -> & ->)|(b1 & -> & ->)]; [left; exists a1; auto|right; exists b1; auto].
Qed.
Lemma single {A} (b a : list A) x y : [y] = b ++ x :: a -> b = [] /\ a = [] /\ x = y.
Proof. destruct b as [|z [|w b]]; cbn; intros H; try discriminate H. injection H as -> <-. auto. Qed.
Lemma inv_wait_step v s s' o tr : inv_maps s tr -> inv_chans s tr -> inv_on s tr -> inv_wait s tr -> cstep v s = Some (s', o) -> inv_wait s' (tr ++ o).
Proof.
  intros HM HCH HN W H. pose proof (no_panic _ _ _ _ _ HM HCH H) as NP. destruct HM as (M1 & M2 & M3). destruct HCH as (C1 & C2 & C3 & C4 & C5 & C6).
  intros b a id ch HT. destruct (split_app _ _ _ _ _ HT) as [(a1 & -> & ->)|(b1 & -> & HO)].
  - destruct (W _ _ _ _ eq_refl) as (W1 & W2 & W3). apply step_kind in H.
    destruct H as [HC Hc Hn Ho Hl Hh Hm HR _ _ _|i c HK Hc Hn Ho Hl HX HO|k i c HC Hc Hn Ho HX Hl HO|k i HC Ho Hl HX HO|i c ? HI HL HO].
    + rewrite Hl, Hh, Hm, regs_app, HR, app_nil_r. auto.
    + rewrite Hl, HO, regs_app. cbn. rewrite app_nil_r. destruct HX as [(X1 & X2 & X3)|(X1 & -> & X2 & X3)]; rewrite X2, X3; [auto|].
      split; [lia|]. split; [exact W2|]. intros E. specialize (W3 E). rewrite lookup_mput. destruct (String.eqb_spec id i) as [->|NE]; congruence.
    + assert (CH2 : s_nchan s <= s_nchan s') by (destruct HX as [(X1 & X2 & X3)|(X1 & -> & X2 & X3)]; rewrite X3; lia).
      rewrite regs_app, HO. unfold regs at 2. cbn. destruct (String.eqb_spec id i) as [->|NE].
      * cbn. assert (IC : In ch (s_closed s')).
        { rewrite Hl. destruct (in_dec Nat.eq_dec ch (s_closed s)) as [Y|Y]; [destruct (get_connected i s); [exact Y|right; exact Y]|].
          specialize (W3 Y). destruct HX as [(X1 & X2 & X3)|(X1 & -> & X2 & X3)]; [|congruence]. assert (c = ch) as -> by congruence.
          destruct (get_connected i s) eqn:EC; [|left; reflexivity]. rewrite M2 in EC. apply Nat.ltb_lt in EC. destruct (C4 _ EC) as (c & E1 & E2). assert (c = ch) as <- by congruence. contradiction. }
        split; [lia|]. split; [|tauto]. split; [|intros _; exact IC]. intros _. right. destruct (regs i a1); discriminate.
      * cbn. rewrite app_nil_r. split; [lia|]. split.
        -- rewrite <- W2, Hl. destruct (get_connected i s) eqn:EC; [tauto|]. cbn. split; [|tauto]. intros [->|E]; [|exact E].
           destruct (in_dec Nat.eq_dec ch (s_closed s)) as [Y|Y]; [exact Y|]. specialize (W3 Y). exfalso.
           destruct HX as [(X1 & X2 & X3)|(X1 & -> & X2 & X3)]; [exact (NE (C3 _ _ _ W3 X1))|]. specialize (C1 _ _ W3). lia.
        -- intros E. assert (Y : ~ In ch (s_closed s)) by (intros Y; apply E; rewrite Hl; destruct (get_connected i s); [exact Y|right; exact Y]).
           specialize (W3 Y). destruct HX as [(X1 & X2 & X3)|(X1 & -> & X2 & X3)]; rewrite X2; [exact W3|]. rewrite lookup_mput. destruct (String.eqb_spec id i); [contradiction|exact W3].
    + rewrite Hl, HO, regs_app. cbn. rewrite app_nil_r. destruct HX as [(X1 & X2 & X3 & X4 & X5)|(X1 & X2 & X3 & X4 & X5)]; rewrite X4, X5; [auto|].
      split; [lia|]. split; [exact W2|]. intros E. specialize (W3 E). rewrite lookup_mput. destruct (String.eqb_spec id i) as [->|NE]; [|exact W3].
      exfalso. assert (EC : 0 < cnt i (s_ks s)) by (rewrite M1 in X1; lia). destruct (C4 _ EC) as (c & E1 & E2). congruence.
    + exfalso. apply NP. rewrite HO. left. reflexivity.
  - apply step_kind in H.
    destruct H as [HC Hc Hn Ho Hl Hh Hm HR _ _ HQ|i c HK Hc Hn Ho Hl HX HO'|k i c HC Hc Hn Ho HX Hl HO'|k i HC Ho Hl HX HO'|i c ? HI HL HO']; rewrite HO in *.
    + exfalso. apply (HQ id ch). apply in_or_app. right. left. reflexivity.
    + symmetry in HO'. apply single in HO'. destruct HO' as (-> & -> & E). injection E as -> ->. rewrite app_nil_r, Hl. cbn.
      destruct HX as [(X1 & X2 & X3)|(X1 & -> & X2 & X3)]; rewrite X2, X3.
      * split; [exact (C1 _ _ X1)|]. split; [|auto]. rewrite <- (HN i). split.
        -- intros E. left. destruct (cnt i (s_ks s)) eqn:EC; [|lia]. destruct (C5 _ _ EC X1 E).
        -- intros [E|E]; [|contradiction]. destruct (C4 _ E) as (d & E1 & E2). congruence.
      * split; [lia|]. split; [|rewrite lookup_mput, String.eqb_refl; auto]. rewrite <- (HN i). split.
        -- intros E. specialize (C2 _ E). lia.
        -- intros [E|E]; [|contradiction]. destruct (C4 _ E) as (d & E1 & E2). congruence.
    + symmetry in HO'. apply single in HO'. destruct HO' as (_ & _ & E). discriminate E.
    + symmetry in HO'. apply single in HO'. destruct HO' as (_ & _ & E). discriminate E.
    + symmetry in HO'. apply single in HO'. destruct HO' as (_ & _ & E). discriminate E.
Qed.

(** ** The lock *)
Lemma mux_same s s' k x y : inv_mux s -> nth_error (s_ks s) k = Some x -> inside (k_pc y) = inside (k_pc x) ->
  s_mux s' = s_mux s -> s_ks s' = upd k y (s_ks s) -> inv_mux s'.
Proof.
  intros M HN HI HM HK j. rewrite HM, (M j), HK, nth_upd. destruct (Nat.eqb_spec k j) as [EQ|NE]; [subst j; rewrite HN|reflexivity].
  split; intros (z & Z1 & Z2); injection Z1 as <-; eexists; (split; [reflexivity|congruence]).
Qed.
Lemma mux_take s s' k x y : inv_mux s -> nth_error (s_ks s) k = Some x -> inside (k_pc y) = true -> s_mux s = None ->
  s_mux s' = Some k -> s_ks s' = upd k y (s_ks s) -> inv_mux s'.
Proof.
  intros M HN HI H0 HM HK j. rewrite HM, HK, nth_upd. destruct (Nat.eqb_spec k j) as [EQ|NE]; [subst j; rewrite HN|].
  - split; [eauto|reflexivity].
  - split; [congruence|]. intros X. apply (M j) in X. congruence.
Qed.
Lemma mux_free s s' k x y : inv_mux s -> nth_error (s_ks s) k = Some x -> inside (k_pc x) = true -> inside (k_pc y) = false ->
  s_mux s' = None -> s_ks s' = upd k y (s_ks s) -> inv_mux s'.
Proof.
  intros M HN HI H0 HM HK j. rewrite HM, HK, nth_upd. destruct (Nat.eqb_spec k j) as [EQ|NE]; [subst j; rewrite HN|].
  - split; [discriminate|]. intros (z & Z1 & Z2). injection Z1 as <-. congruence.
  - split; [discriminate|]. intros X. apply (M j) in X. assert (Y : s_mux s = Some k) by (apply M; eauto). congruence.
Qed.
Lemma inv_mux_step v s s' o tr : inv_maps s tr -> inv_chans s tr -> inv_mux s -> cstep v s = Some (s', o) -> inv_mux s'.
Proof.
  intros HM HC M H. pose proof (no_panic _ _ _ _ _ HM HC H) as NP. clear HM HC. cstep_inv H v; ssimp; try exact M.
  all: try (exfalso; apply NP; left; reflexivity).
  all: try match goal with P : k_pc ?x = KReg |- _ => eapply mux_free; [exact M|eassumption|rewrite P; reflexivity| |reflexivity|reflexivity]; reflexivity end.
  all: try match goal with P : k_pc ?x = KClean |- _ => eapply mux_free; [exact M|eassumption|rewrite P; reflexivity| |reflexivity|reflexivity]; reflexivity end.
  all: try match goal with P : k_pc ?x = KLock1 |- _ => eapply mux_take; [exact M|eassumption| |eassumption|reflexivity|reflexivity]; reflexivity end.
  all: try match goal with P : k_pc ?x = KLock2 |- _ => eapply mux_take; [exact M|eassumption| |eassumption|reflexivity|reflexivity]; reflexivity end.
  all: try match goal with P : k_pc ?x = _ |- _ => eapply mux_same; [exact M|eassumption| |reflexivity|reflexivity]; cbn [k_pc]; rewrite P; reflexivity end.
  all: try (eapply mux_same; [exact M|eassumption| |reflexivity|reflexivity]; reflexivity).
  - intros j. ssimp. rewrite (M j). split; intros (x & X1 & X2).
    + exists x. split; [|exact X2]. rewrite nth_error_app1 by exact (nth_lt _ _ _ X1). exact X1.
    + apply nth_app_inv in X1. destruct X1 as [X1|[_ ->]]; [eauto|discriminate X2].
  - intros j. ssimp. match goal with X : s_mux s = None |- _ => rewrite <- X end. exact (M j).
Qed.

(** ** Each connection is a run of the connection machine *)
Transparent step.
Lemma done_keeps ro e c c' o : step ro e c = Some (c', o) -> c_done c = true -> c_done c' = true.
Proof. intros H D. step_inv H e; csimp; first [exact D|reflexivity|idtac]; try assumption. Qed.
Lemma gone_keeps ro e c c' o : step ro e c = Some (c', o) -> c_loop c = LGone -> c_loop c' = LGone.
Proof. intros H D. step_inv H e; csimp; try exact D; try congruence. Qed.
Lemma gone_done c tr : reach CS c tr -> c_loop c = LGone -> c_done c = true.
Proof.
  induction 1 as [|c tr e c' o HR IH HS]; [discriminate|]. intros HG. 
  destruct (c_loop c) eqn:E; try (apply (done_keeps _ _ _ _ _ HS); apply IH; reflexivity).
  all: clear IH HR; step_inv HS e; csimp_in HG; try discriminate HG; try congruence; try reflexivity.
Qed.
Opaque step.
Definition inv_proj (s : csys) (tr : list cobs) : Prop :=
  (forall k x, nth_error (s_ks s) k = Some x -> reach CS (k_conn x) (conn_trace k tr) /\
     (early (k_pc x) = true -> k_conn x = conn0) /\ (late (k_pc x) = true -> c_loop (k_conn x) = LGone)) /\
  (forall k, nth_error (s_ks s) k = None -> conn_trace k tr = []).
Ltac ct := rewrite conn_trace_app, ?conn_trace_conn; try (unfold conn_trace at 2); cbn [cpick flat_map app]; rewrite ?app_nil_r.
Lemma inv_proj_step v s s' o tr : inv_proj s tr -> cstep v s = Some (s', o) -> inv_proj s' (tr ++ o).
Proof.
  intros [I1 I2] H. split.
  - intros j y HJ. cstep_inv H v; ssimp_in HJ; ct; try (exact (I1 _ _ HJ)).
    all: try (apply nth_upd_inv in HJ; destruct HJ as [[-> ->]|[NE HJ]]; [|try (rewrite (neqb _ _ NE); rewrite app_nil_r); exact (I1 _ _ HJ)]).
    all: cbn [k_pc k_conn k_id early late].
    all: try (match goal with E : nth_error _ _ = Some ?x, P : k_pc ?x = _ |- _ => destruct (I1 _ _ E) as (R1 & R2 & R3); rewrite P in R2, R3; cbn [early late] in R2, R3;
       split; [exact R1|split; intros; first [discriminate|auto; fail|assumption]] end).
    + apply nth_app_inv in HJ. destruct HJ as [HJ|[-> ->]]; [exact (I1 _ _ HJ)|]. rewrite (I2 (length (s_ks s))) by (apply nth_error_None; lia). cbn.
      split; [constructor|split; [reflexivity|discriminate]].
    + rewrite Nat.eqb_refl. destruct (I1 _ _ E) as (R1 & R2 & R3). split; [econstructor; eassumption|]. split.
      * intros Q. exfalso. destruct (k_pc c); discriminate.
      * intros Q. exact (gone_keeps _ _ _ _ _ E1 (R3 Q)).
    + rewrite Nat.eqb_refl. destruct (I1 _ _ E) as (R1 & R2 & R3). split; [econstructor; eassumption|]. split.
      * intros Q. exfalso. destruct (k_pc c); discriminate.
      * intros Q. exact (gone_keeps _ _ _ _ _ E1 (R3 Q)).
  - intros j HJ. cstep_inv H v; ssimp_in HJ; ct; try (exact (I2 _ HJ)).
    all: try (apply nth_none_upd in HJ); try (exact (I2 _ HJ)).
    all: try (match goal with E : nth_error _ ?k = Some _ |- _ => assert (NE : j <> k) by congruence end; rewrite (neqb _ _ NE), app_nil_r; exact (I2 _ HJ)).
    apply nth_none_app in HJ. exact (I2 _ (proj1 HJ)).
Qed.

(** ** Listener goroutines *)
Definition inv_goes (s : csys) (tr : list cobs) : Prop := Permutation (started tr) (called tr ++ s_goes s).
Lemma started_app a b : started (a ++ b) = started a ++ started b. Proof. apply cpick_app. Qed.
Lemma called_app a b : called (a ++ b) = called a ++ called b. Proof. apply cpick_app. Qed.
Lemma started_conn j o : started (map (OConn j) o) = []. Proof. apply cpick_conn. reflexivity. Qed.
Lemma called_conn j o : called (map (OConn j) o) = []. Proof. apply cpick_conn. reflexivity. Qed.
Lemma drop_perm {A} j (l : list A) x : nth_error l j = Some x -> Permutation l (x :: drop_nth j l).
Proof.
  revert j. induction l as [|y l IH]; intros [|j] H; try discriminate H; cbn in *; [injection H as ->; reflexivity|].
  rewrite perm_swap. constructor. apply IH. exact H.
Qed.
Lemma inv_goes_step v s s' o tr : inv_goes s tr -> cstep v s = Some (s', o) -> inv_goes s' (tr ++ o).
Proof.
  unfold inv_goes. intros I H. rewrite started_app, called_app. cstep_inv H v; ssimp; rewrite ?started_conn, ?called_conn; try (unfold started at 2); try (unfold called at 2);
    cbn [cpick flat_map app]; rewrite ?app_nil_r; try exact I.
  all: try (rewrite app_assoc; apply Permutation_app_tail; exact I).
  all: rewrite I, <- app_assoc; apply Permutation_app_head; cbn; apply drop_perm; assumption.
Qed.

(** ** The keys of the maps *)
Definition inv_keys (s : csys) : Prop := NoDup (map fst (s_conns s)).
Lemma mdel_keys {A} k (m : list (string * A)) x : In x (map fst (mdel k m)) <-> In x (map fst m) /\ x <> k.
Proof.
  unfold mdel. rewrite !in_map_iff. split.
  - intros ((a & b) & <- & H). apply filter_In in H. cbn in *. destruct H as [H1 H2]. destruct (String.eqb_spec k a); [discriminate H2|]. split; [exists (a, b); auto|congruence].
  - intros [((a & b) & <- & H) NE]. exists (a, b). cbn in *. split; [reflexivity|]. apply filter_In. split; [exact H|]. cbn. destruct (String.eqb_spec k a); [congruence|reflexivity].
Qed.
Lemma mdel_nodup {A} k (m : list (string * A)) : NoDup (map fst m) -> NoDup (map fst (mdel k m)).
Proof.
  induction m as [|[a b] m IH]; cbn; intros H; [constructor|]. inversion H as [|? ? H1 H2]; subst. destruct (String.eqb k a); cbn; [apply IH; exact H2|].
  constructor; [|apply IH; exact H2]. intros X. apply mdel_keys in X. tauto.
Qed.
Lemma inv_keys_step v s s' o : inv_keys s -> cstep v s = Some (s', o) -> inv_keys s'.
Proof.
  unfold inv_keys. intros I H. cstep_inv H v; ssimp; try exact I; try (apply mdel_nodup; exact I).
  all: cbn; constructor; [intros X; apply mdel_keys in X; tauto|apply mdel_nodup; exact I].
Qed.

(** ** All together *)
Record cinv (s : csys) (tr : list cobs) : Prop := MkCInv {
  i_life : inv_life s tr; i_maps : inv_maps s tr; i_chans : inv_chans s tr; i_on : inv_on s tr; i_wait : inv_wait s tr; i_mux : inv_mux s;
  i_proj : inv_proj s tr; i_goes : inv_goes s tr; i_keys : inv_keys s }.
Ltac nil := let H := fresh in intros ? ? H; destruct H; fail.
Lemma cinv_0 : cinv csys0 [].
Proof.
  assert (L : inv_life csys0 []) by (split; [intros [|k] x H; discriminate H|reflexivity]).
  constructor; try exact L.
  - repeat split.
  - repeat split; try (intros; discriminate); try (intros; cbn in *; lia); try (cbn; intros ? []); cbn; tauto.
  - exact (life_on _ _ L).
  - intros b a id ch H. destruct b; discriminate H.
  - intros k. split; [discriminate|]. intros (x & H & _). destruct k; discriminate H.
  - split; [intros [|k] x H; discriminate H|reflexivity].
  - constructor.
  - constructor.
Qed.
Lemma cinv_step v s s' o tr : cinv s tr -> cstep v s = Some (s', o) -> cinv s' (tr ++ o).
Proof.
  intros [] H. assert (L : inv_life s' (tr ++ o)) by (eapply inv_life_step; eassumption). constructor; try exact L.
  - eapply inv_maps_step; eassumption.
  - eapply inv_chans_step; eassumption.
  - exact (life_on _ _ L).
  - eapply inv_wait_step; eassumption.
  - eapply inv_mux_step; eassumption.
  - eapply inv_proj_step; eassumption.
  - eapply inv_goes_step; eassumption.
  - eapply inv_keys_step; eassumption.
Qed.
Theorem creach_inv s tr : creach s tr -> cinv s tr.
Proof. induction 1 as [|s tr v s' o HR IH HS]; [exact cinv_0|exact (cinv_step _ _ _ _ _ IH HS)]. Qed.
Lemma creach_run vs s s' o tr : creach s tr -> crun vs s = Some (s', o) -> creach s' (tr ++ o).
Proof.
  revert s tr o. induction vs as [|v vs IH]; intros s tr o HR H; cbn [crun] in H; [injection H as <- <-; rewrite app_nil_r; exact HR|].
  destruct (cstep v s) as [[s1 o1]|] eqn:E; [|discriminate H]. destruct (crun vs s1) as [[s2 o2]|] eqn:E2; [|discriminate H].
  injection H as <- <-. rewrite app_assoc. eapply IH; [|exact E2]. econstructor; eassumption.
Qed.
Lemma creach_of_run vs s o : crun vs csys0 = Some (s, o) -> creach s o.
Proof. intros H. change o with ([] ++ o). eapply creach_run; [constructor|exact H]. Qed.
(** Anything seen was shown by a step from a reachable state. *)
Lemma creach_split s tr b x a : creach s tr -> tr = b ++ x :: a ->
  exists s0 tr0 v s1 b1 a1 a2, creach s0 tr0 /\ cstep v s0 = Some (s1, b1 ++ x :: a1) /\ b = tr0 ++ b1 /\ a = a1 ++ a2 /\ creach s1 (tr0 ++ b1 ++ x :: a1).
Proof.
  intros HR. revert b x a. induction HR as [|s tr v s' o HR IH HS]; intros b x a HT; [destruct b; discriminate HT|].
  destruct (split_app _ _ _ _ _ HT) as [(a1 & -> & ->)|(b1 & -> & HO)].
  - destruct (IH _ _ _ eq_refl) as (s0 & tr0 & v0 & s1 & b1 & a2 & a3 & R & S & -> & -> & R1). exists s0, tr0, v0, s1, b1, a2, (a3 ++ o). rewrite app_assoc. auto.
  - subst o. exists s, tr, v, s', b1, a, []. rewrite app_nil_r. repeat split; auto. econstructor; eassumption.
Qed.
