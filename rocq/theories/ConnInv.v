(** Invariants of a connection, by induction over all runs. *)
From Coq Require Import Arith.
From Verif Require Import GoBase Utf8 Json Float64 Codec Any Tables Registry Frame Conn SpecConn ConnBase.
Open Scope string_scope.
Open Scope list_scope.

(** For the tactics only: never unfold the codecs here. *)
Opaque marshal_message read_text unmarshal_request call_to_request result_to_response utf8_valid msg_ok.

(** ** Readers and the loop *)
Definition active (p : rpc) : bool := match p with RRes _ | RDone => false | _ => true end.
Definition exiting (l : lpc) : bool := match l with LClose | LCancel | LGone => true | _ => false end.
Definition inv_a (c : conn) : Prop :=
  (forall r, c_loop c = LSel r -> S r = length (c_readers c)) /\
  (forall r p, nth_error (c_readers c) r = Some p -> active p = true ->
     S r = length (c_readers c) /\ (c_loop c = LSel r \/ exiting (c_loop c) = true)).

Ltac nths :=
  repeat match goal with
  | H : nth_error (upd _ _ _) _ = Some _ |- _ => apply nth_upd_inv in H; destruct H as [[? ?]|[? H]]; subst
  | H : nth_error (_ ++ [_]) _ = Some _ |- _ => apply nth_app_inv in H; destruct H as [H|[? ?]]; subst
  end.

Lemma inv_a_step ro e c c' o : inv_a c -> step ro e c = Some (c', o) -> inv_a c'.
Proof.
  intros [A1 A2] H. step_inv H e; unfold inv_a; csimp; try rewrite upd_length; try rewrite app_length; cbn [length];
    (split; [intros r' HL; try discriminate HL; try (apply A1; congruence); try (injection HL as <-; lia) | intros r' p' HN HA; nths; try discriminate HA;
     try (eapply A2; eassumption)]).
  all: try (destruct (A2 _ _ HN HA) as [B1 B2]; cbn [exiting] in *; rewrite ?E in *;
            destruct B2 as [B2|B2]; [try discriminate B2|try discriminate B2]; split; auto; fail).
  all: try (split; [lia|left; congruence]).
  all: try (destruct (A2 _ _ HN HA) as [B1 B2]; cbn [exiting] in *; destruct B2 as [B2|B2]; [try discriminate B2|try discriminate B2]; fail).
  - destruct (A2 _ _ HN HA) as [B1 B2]. destruct (A2 _ _ E0 eq_refl) as [B3 B4]. exfalso. lia.
  - exfalso. destruct (A2 _ _ HN HA) as [B1 [B2|B2]]; [congruence|discriminate B2].
  - exfalso. destruct (A2 _ _ HN HA) as [B1 [B2|B2]]; [congruence|discriminate B2].
  - exfalso. destruct (A2 _ _ HN HA) as [B1 [B2|B2]]; [congruence|discriminate B2].
Qed.

Lemma reach_inv_a ro c tr : reach ro c tr -> inv_a c.
Proof.
  induction 1 as [|c tr e c' o HR IH HS]; [|eapply inv_a_step; eassumption].
  split; cbn; [discriminate|]. intros r p H. destruct r; discriminate H.
Qed.

(** Only one reader is active. *)
Definition only (r : nat) (l : list rpc) : Prop := forall j x, nth_error l j = Some x -> j <> r -> active x = false.
Lemma inv_a_only c r p : inv_a c -> nth_error (c_readers c) r = Some p -> active p = true -> only r (c_readers c).
Proof.
  intros [_ A2] HN HA j x HJ HD. destruct (active x) eqn:E; [|reflexivity]. exfalso.
  destruct (A2 _ _ HN HA) as [B1 _]. destruct (A2 _ _ HJ E) as [B2 _]. lia.
Qed.
Lemma inv_a_none c : inv_a c -> (forall r, c_loop c <> LSel r) -> exiting (c_loop c) = false ->
  forall j x, nth_error (c_readers c) j = Some x -> active x = false.
Proof.
  intros [_ A2] H1 H2 j x HJ. destruct (active x) eqn:E; [|reflexivity]. exfalso.
  destruct (A2 _ _ HJ E) as [_ [B|B]]; [exact (H1 _ B)|congruence].
Qed.
Lemma only_upd r p l : only r l -> only r (upd r p l).
Proof. intros H j x HJ HD. apply nth_upd_inv in HJ. destruct HJ as [[? ?]|[_ HJ]]; [contradiction|eauto]. Qed.
Lemma flat_none {A} (f : rpc -> list A) l : (forall x, active x = false -> f x = []) ->
  (forall j x, nth_error l j = Some x -> active x = false) -> flat_map f l = [].
Proof.
  intros HF. induction l as [|y l IH]; intros H; cbn; [reflexivity|].
  rewrite (HF y (H 0 y eq_refl)). cbn. apply IH. intros j x HJ. exact (H (S j) x HJ).
Qed.
Lemma flat_only {A} (f : rpc -> list A) r p l : (forall x, active x = false -> f x = []) ->
  only r l -> nth_error l r = Some p -> flat_map f l = f p.
Proof.
  intros HF. revert r. induction l as [|y l IH]; intros [|r] HO HN; cbn in HN |- *; try discriminate HN.
  - injection HN as <-. rewrite flat_none, app_nil_r; auto. intros j x HJ. apply (HO (S j) x HJ). lia.
  - rewrite (HF y (HO 0 y eq_refl ltac:(lia))). cbn. apply (IH r); auto. intros j x HJ HD. apply (HO (S j) x HJ). lia.
Qed.
Lemma flat_app1 {A} (f : rpc -> list A) l p : f p = [] -> flat_map f (l ++ [p]) = flat_map f l.
Proof. intros H. rewrite flat_map_app. cbn. rewrite H. cbn. apply app_nil_r. Qed.
Lemma nth_upd_same {A} r (p p0 : A) l : nth_error l r = Some p0 -> nth_error (upd r p l) r = Some p.
Proof. intros H. rewrite nth_upd, Nat.eqb_refl, H. reflexivity. Qed.
Lemma flat_upd {A} (f : rpc -> list A) r p p0 l : (forall x, active x = false -> f x = []) ->
  only r l -> nth_error l r = Some p0 -> flat_map f (upd r p l) = f p.
Proof.
  intros HF HO HN. apply (flat_only f r); auto; [apply only_upd; exact HO|]. exact (nth_upd_same r p p0 l HN).
Qed.
(** A change that [f] does not see. *)
Lemma flat_upd_same {A} (f : rpc -> list A) r p p0 l : nth_error l r = Some p0 -> f p = f p0 -> flat_map f (upd r p l) = flat_map f l.
Proof.
  revert r. induction l as [|y l IH]; intros [|r] HN HF; cbn in *; try discriminate HN.
  - injection HN as <-. rewrite HF. reflexivity.
  - rewrite (IH r HN HF). reflexivity.
Qed.

(** ** Requests in order *)
Definition pend_req (p : rpc) : list (string * msg) :=
  match p with RDecode t => requests_in [t] | RReq q id => [(id, q)] | _ => [] end.
Definition inv_q (c : conn) (tr : list obs) : Prop := requests_in (reads tr) = takens tr ++ flat_map pend_req (c_readers c).

Lemma requests_in_app a b : requests_in (a ++ b) = requests_in a ++ requests_in b.
Proof. apply flat_map_app. Qed.
Lemma refused_in_app a b : refused_in (a ++ b) = refused_in a ++ refused_in b.
Proof. apply flat_map_app. Qed.

Lemma pend_req_inactive x : active x = false -> pend_req x = [].
Proof. destruct x; cbn [active]; intros H; try discriminate H; reflexivity. Qed.
Lemma inv_q_step ro e c c' o tr : inv_a c -> inv_q c tr -> step ro e c = Some (c', o) -> inv_q c' (tr ++ o).
Proof.
  intros HA HQ H. unfold inv_q in *. unfold reads, takens in *. rewrite !pick_app.
  step_inv H e; csimp; cbn [pick flat_map app]; rewrite ?app_nil_r; try exact HQ;
  try (erewrite flat_upd_same; [exact HQ|eassumption|]); try reflexivity;
  try (cbn [pend_req]; unfold requests_in, inbound_of; cbn [flat_map]; repeat match goal with HE : _ = _ |- _ => rewrite HE end;
       try match goal with p : payload |- _ => destruct p end; reflexivity).
  - (* ERead *) rewrite requests_in_app, HQ, <- app_assoc. f_equal.
    rewrite (flat_only _ r RRead), (flat_upd _ r _ RRead); auto using pend_req_inactive; eapply inv_a_only; eauto.
  - rewrite flat_app1; [exact HQ|reflexivity].
  - rewrite HQ, <- app_assoc. f_equal.
    rewrite (flat_only _ r (RReq q id)), (flat_upd _ r _ (RReq q id)); auto using pend_req_inactive; eapply inv_a_only; eauto.
Qed.

(** ** Refused calls in order *)
Definition pend_rej (p : rpc) : list (string * string) :=
  match p with RDecode t => refused_in [t] | RLock id c => [(id, c)] | RWrite id c _ _ => [(id, c)] | _ => [] end.
Definition inv_r (c : conn) (tr : list obs) : Prop := refused_in (reads tr) = map fst (rejects tr) ++ flat_map pend_rej (c_readers c).
Lemma pend_rej_inactive x : active x = false -> pend_rej x = [].
Proof. destruct x; cbn [active]; intros H; try discriminate H; reflexivity. Qed.
Lemma inv_r_step ro e c c' o tr : inv_a c -> inv_r c tr -> step ro e c = Some (c', o) -> inv_r c' (tr ++ o).
Proof.
  intros HA HQ H. unfold inv_r in *. unfold reads, rejects in *. rewrite !pick_app, map_app.
  step_inv H e; csimp; cbn [pick flat_map app map fst]; rewrite ?app_nil_r; try exact HQ;
  try (erewrite flat_upd_same; [exact HQ|eassumption|]); try reflexivity;
  try (cbn [pend_rej]; unfold refused_in, inbound_of; cbn [flat_map]; repeat match goal with HE : _ = _ |- _ => rewrite HE end;
       try match goal with p : payload |- _ => destruct p end; reflexivity).
  - rewrite HQ, <- app_assoc. f_equal. rewrite (flat_only _ r _ (c_readers c) pend_rej_inactive (inv_a_only _ _ _ HA E eq_refl) E), (flat_upd _ r _ _ _ pend_rej_inactive (inv_a_only _ _ _ HA E eq_refl) E). reflexivity.
  - rewrite HQ, <- app_assoc. f_equal. rewrite (flat_only _ r _ (c_readers c) pend_rej_inactive (inv_a_only _ _ _ HA E eq_refl) E), (flat_upd _ r _ _ _ pend_rej_inactive (inv_a_only _ _ _ HA E eq_refl) E). reflexivity.
  - rewrite refused_in_app, HQ, <- app_assoc. f_equal. rewrite (flat_only _ r _ (c_readers c) pend_rej_inactive (inv_a_only _ _ _ HA E eq_refl) E), (flat_upd _ r _ _ _ pend_rej_inactive (inv_a_only _ _ _ HA E eq_refl) E). reflexivity.
  - rewrite HQ, <- app_assoc. f_equal. rewrite (flat_only _ r _ (c_readers c) pend_rej_inactive (inv_a_only _ _ _ HA E eq_refl) E), (flat_upd _ r _ _ _ pend_rej_inactive (inv_a_only _ _ _ HA E eq_refl) E). reflexivity.
  - rewrite flat_app1; [exact HQ|reflexivity].
Qed.

(** ** The loop: requests taken, handler calls, returns, replies *)
Definition pend_disp (ro : role) (l : lpc) : list (string * option msg) := match l with LDispatch q id => seen ro (id, q) | _ => [] end.
Definition pend_run (l : lpc) : list string := match l with LRun id => [id] | _ => [] end.
Definition pend_rep (l : lpc) : list (string * hret) := match l with LLock id r => [(id, r)] | LWrite id r _ _ => [(id, r)] | _ => [] end.
Definition inv_h (ro : role) (c : conn) (tr : list obs) : Prop :=
  flat_map (seen ro) (takens tr) = handles tr ++ pend_disp ro (c_loop c) /\
  map fst (handles tr) = map fst (returns tr) ++ panics tr ++ pend_run (c_loop c) /\
  returns tr = map fst (replies tr) ++ pend_rep (c_loop c) /\
  (panics tr = [] \/ exiting (c_loop c) = true /\ length (panics tr) = 1).
Lemma inv_h_step ro e c c' o tr : inv_h ro c tr -> step ro e c = Some (c', o) -> inv_h ro c' (tr ++ o).
Proof.
  intros (H1 & H2 & H3 & H4) H. unfold inv_h in *. unfold takens, handles, returns, replies, panics in *. rewrite !pick_app, !map_app, !flat_map_app.
  step_inv H e; try rewrite EHR; csimp; repeat match goal with X : c_loop c = _ |- _ => rewrite X in * end; cbn [pick flat_map app map fst snd pend_disp pend_run pend_rep seen exiting] in *; rewrite ?app_nil_r in *; (split; [|split; [|split]]); auto;
   try (destruct H4 as [H4|[H4 _]]; [rewrite H4 in *|discriminate H4]); rewrite ?H1, ?H2, ?H3, <- ?app_assoc; cbn [app]; rewrite ?E0, ?E1, ?app_nil_r; auto.
Qed.

(** ** Texts being written *)
Definition sent_with (m : message) (x : sendres) : Prop :=
  match x with
  | Written t => marshal_message m = Ok t
  | NotEncoded => exists e, marshal_message m = Err e
  | WriteFailed => exists t, marshal_message m = Ok t
  end.
Definition inv_t (c : conn) (tr : list obs) : Prop :=
  (forall i sd t r, nth_error (c_senders c) i = Some sd -> sd_pc sd = SWrite t r -> marshal_message (sd_call sd) = Ok t) /\
  (forall r id e t rest, nth_error (c_readers c) r = Some (RWrite id e t rest) -> marshal_message (new_call_error id e reject_desc) = Ok t) /\
  (forall id r t rest, c_loop c = LWrite id r t rest -> marshal_message (response_message id r) = Ok t) /\
  Forall (fun y => sent_with (response_message (fst (fst y)) (snd (fst y))) (snd y)) (replies tr) /\
  Forall (fun y => sent_with (new_call_error (fst (fst y)) (snd (fst y)) reject_desc) (snd y)) (rejects tr) /\
  loop_writes tr = written (map snd (replies tr)) /\
  reader_writes tr = written (map snd (rejects tr)).
Lemma written_app a b : written (a ++ b) = written a ++ written b.
Proof. apply flat_map_app. Qed.
Lemma inv_t_step ro e c c' o tr : inv_t c tr -> step ro e c = Some (c', o) -> inv_t c' (tr ++ o).
Proof.
  intros (H1 & H2 & H3 & H4 & H5 & H6 & H7) H. unfold inv_t in *. unfold replies, rejects, loop_writes, reader_writes in *.
  rewrite !pick_app, !map_app, !written_app, H6, H7.
  step_inv H e; csimp; cbn [pick flat_map app map fst snd written] in *; rewrite ?app_nil_r in *;
    (split; [|split; [|split; [|split; [|split; [|split]]]]]); auto.
  all: try (intros i' sd' t' r' HN HP; nths; csimp_in HP;
     first [discriminate HP | congruence | solve [eapply H1; eassumption] | injection HP as <- <-; csimp; solve [eapply H1; eassumption]]).
  all: try (intros r' id' e' t' rest' HN; nths; first [ solve [eapply H2; eassumption]
     | match goal with HX : RWrite _ _ _ _ = _ |- _ => first [discriminate HX | injection HX as <- <- <- <-; first [assumption | eapply H2; eassumption]] end]).
  all: try (intros id' r' t' rest' HN; first [discriminate HN | solve [injection HN as <- <- <- <-; eauto]]).
  all: try (apply Forall_app; split; [assumption|]; constructor; [|constructor]; cbn [fst snd sent_with]; eauto).
  - intros i' sd' t' r' HN HP; nths; csimp_in HP; [injection HP as <- <-; exact E2|eapply H1; eassumption].
  - intros r' id' e' t' rest' HN. apply nth_upd_inv in HN. destruct HN as [[? HX]|[? HN]]; [|eapply H2; eassumption].
    assert (id' = id /\ e' = c0 /\ t' = text) as (-> & -> & ->) by (injection HX; auto). eapply H2; eassumption.
  - intros id' r' t' rest' HN. rewrite E in HN. discriminate HN.
Qed.

(** ** The send lock, and bytes on the wire *)
Definition is_writing (w : who) (c : conn) : bool := match writing w c with Some _ => true | None => false end.
Definition inv_l (c : conn) : Prop := forall w, c_lock c = Some w <-> is_writing w c = true.
Lemma nth_app1 {A} (l : list A) x j : nth_error (l ++ [x]) j = if Nat.eqb j (length l) then Some x else nth_error l j.
Proof.
  destruct (Nat.eqb_spec j (length l)) as [->|H]; [rewrite nth_error_app2, Nat.sub_diag; [reflexivity|lia]|].
  destruct (Nat.lt_ge_cases j (length l)) as [L|L]; [apply nth_error_app1; exact L|].
  rewrite (proj2 (nth_error_None l j) L). apply nth_error_None. rewrite app_length. cbn [length]. lia.
Qed.
Lemma nth_len {A} (l : list A) : nth_error l (length l) = None.
Proof. apply nth_error_None. lia. Qed.
Ltac wsolve := repeat match goal with HX : _ = _ |- _ => rewrite HX end; reflexivity.
Lemma inv_l_step ro e c c' o : inv_l c -> step ro e c = Some (c', o) -> inv_l c'.
Proof.
  intros HL H. unfold inv_l in *.
  step_inv H e;
   try (match goal with HX : nth_error (c_senders c) ?i = Some _ |- _ => pose proof (proj2 (HL (WS i)) ltac:(unfold is_writing, writing; wsolve)) as HK end);
   try (match goal with HX : nth_error (c_readers c) ?i = Some _ |- _ => pose proof (proj2 (HL (WR i)) ltac:(unfold is_writing, writing; wsolve)) as HK end);
   try (pose proof (proj2 (HL WL) ltac:(unfold is_writing, writing; wsolve)) as HK);
   intros w'; specialize (HL w'); destruct w' as [i'|r'|]; unfold is_writing, writing in *; csimp; try exact HL;
   rewrite ?nth_upd, ?nth_app1.
  all: try match goal with |- context [Nat.eqb ?a ?b] => destruct (Nat.eqb_spec a b) as [EQ|EQ]; [try subst a; try subst b|] end;
    rewrite ?nth_len in *;
    repeat match goal with HX : nth_error _ _ = Some _ |- _ => rewrite HX in * end; csimp;
    repeat match goal with HX : sd_pc _ = _ |- _ => rewrite HX in * end;
    repeat match goal with HX : c_loop _ = _ |- _ => rewrite HX in * end;
    repeat match goal with HX : c_lock _ = _ |- _ => rewrite HX in * end;
    try exact HL; try (split; [intros HX; congruence | intros HX; apply HL in HX; congruence]); try (split; [intros HX; congruence|intros HX; discriminate HX]);
    try (split; [intros HX; apply HL in HX; congruence|intros HX; discriminate HX]);
    try (split; [intros _; reflexivity | intros _; first [reflexivity|assumption|congruence]]).
Qed.

Lemma concat_app a b : concat_all (a ++ b) = concat_all a +++ concat_all b.
Proof. induction a as [|x a IH]; cbn; [reflexivity|]. unfold concat_all in IH. now rewrite IH, sapp_assoc. Qed.
Lemma take_drop n s : stake n s +++ sdrop n s = s.
Proof. revert s. induction n as [|n IH]; intros [|x s]; cbn; try reflexivity. now rewrite IH. Qed.

Definition inv_b (c : conn) (tr : list obs) : Prop :=
  exists p, bytes tr = concat_all (writes tr) +++ p /\
    (c_wbroken c = false -> match c_lock c with None => p = "" | Some w => exists t rest, writing w c = Some (t, rest) /\ t = p +++ rest end) /\
    (c_wbroken c = true -> exists m t rest, marshal_message m = Ok t /\ t = p +++ rest).
Lemma bytes_app a b : bytes (a ++ b) = bytes a +++ bytes b.
Proof. unfold bytes. rewrite pick_app. apply concat_app. Qed.
Lemma writing_text c tr w t r : inv_t c tr -> writing w c = Some (t, r) -> exists m, marshal_message m = Ok t.
Proof.
  intros (H1 & H2 & H3 & _) H. destruct w as [i|j|]; cbn [writing] in H.
  - destruct (nth_error (c_senders c) i) as [sd|] eqn:E; [|discriminate H]. destruct (sd_pc sd) eqn:E1; try discriminate H.
    assert (text = t) as -> by congruence. exists (sd_call sd). exact (H1 _ _ _ _ E E1).
  - destruct (nth_error (c_readers c) j) as [[]|] eqn:E; try discriminate H.
    assert (text = t) as -> by congruence. eexists. exact (H2 _ _ _ _ _ E).
  - destruct (c_loop c) eqn:E; try discriminate H. assert (text = t) as -> by congruence. eexists. exact (H3 _ _ _ _ eq_refl).
Qed.
Definition is_write_event (e : event) : bool := match e with EChunk _ _ | EWritten _ | EWFail _ => true | _ => false end.
Lemma quiet ro e c c' o : step ro e c = Some (c', o) -> is_write_event e = false ->
  bytes o = "" /\ writes o = [] /\ c_wbroken c' = c_wbroken c /\
  ((c_lock c' = c_lock c /\ forall w, writing w c' = writing w c) \/
   (c_lock c = None /\ exists w t, c_lock c' = Some w /\ writing w c' = Some (t, t))).
Proof.
  intros H HW. step_inv H e; try discriminate HW; clear HW; (split; [reflexivity|split; [reflexivity|split; [reflexivity|]]]).
  all: try (right; split; [first [assumption|reflexivity]|]; match goal with |- exists w t, c_lock ?x = Some w /\ _ => let y := eval cbn [c_lock set_lock set_spc set_rpc set_loop set_senders set_readers] in (c_lock x) in match y with Some ?w => exists w end end; eexists; split; [reflexivity|]; unfold writing; csimp; rewrite ?nth_upd, ?Nat.eqb_refl;
     repeat match goal with HX : nth_error _ _ = Some _ |- _ => rewrite HX end; reflexivity).
  all: left; (split; [csimp; congruence|]); intros [i'|r'|]; unfold writing; csimp; try reflexivity; rewrite ?nth_upd, ?nth_app1.
  all: try match goal with |- context [Nat.eqb ?a ?b] => destruct (Nat.eqb_spec a b) as [EQ|EQ]; [try subst a; try subst b|] end;
    rewrite ?nth_len in *; try reflexivity;
    repeat match goal with HX : nth_error _ _ = Some _ |- _ => rewrite HX in * end; csimp;
    repeat match goal with HX : sd_pc _ = _ |- _ => rewrite HX in * end;
    repeat match goal with HX : c_loop _ = _ |- _ => rewrite HX in * end; reflexivity.
Qed.

Lemma inv_b_step ro e c c' o tr : inv_l c -> inv_t c tr -> inv_b c tr -> step ro e c = Some (c', o) -> inv_b c' (tr ++ o).
Proof.
  intros HL HT (p & HB & H1 & H2) H. unfold inv_b. rewrite bytes_app. unfold writes in *. rewrite pick_app, concat_app, HB. fold writes.
  destruct (is_write_event e) eqn:EW.
  - destruct e; try discriminate EW; clear EW; unfold step in H; destruct (c_crash c); try discriminate H;
     destruct (writing w c) as [[t rest]|] eqn:Ew; try discriminate H;
     assert (HK : c_lock c = Some w) by (apply HL; unfold is_writing; rewrite Ew; reflexivity); rewrite HK in H1.
    + destruct (c_wbroken c) eqn:EB; [discriminate H|]. destruct (c_closed c) eqn:EC; [discriminate H|]. cbn [orb] in H.
      injection H as <- <-. destruct (H1 eq_refl) as (t' & r' & HX & HY). rewrite Ew in HX. injection HX as <- <-.
      exists (p +++ stake n rest). unfold bytes, writes. cbn [pick flat_map app concat_all fold_right]. rewrite !sapp_nil_r, sapp_assoc. split; [reflexivity|].
      assert (HS : writing w (set_rest w (sdrop n rest) c) = Some (t, sdrop n rest) /\ c_wbroken (set_rest w (sdrop n rest) c) = false /\ c_lock (set_rest w (sdrop n rest) c) = Some w).
      { clear - Ew EB HK. destruct w as [i|j|]; unfold writing, set_rest in *.
        - destruct (nth_error (c_senders c) i) as [sd|] eqn:E; [|discriminate Ew]. destruct (sd_pc sd) eqn:E1; try discriminate Ew. injection Ew as <- <-.
          csimp. rewrite (nth_upd_same _ _ _ _ E). auto.
        - destruct (nth_error (c_readers c) j) as [[]|] eqn:E; try discriminate Ew. injection Ew as <- <-. csimp. rewrite (nth_upd_same _ _ _ _ E). auto.
        - destruct (c_loop c) eqn:E; try discriminate Ew. injection Ew as <- <-. csimp. auto. }
      destruct HS as (S1 & S2 & S3). rewrite S2, S3. split; [intros _|discriminate]. exists t, (sdrop n rest). split; [exact S1|].
      rewrite sapp_assoc, take_drop. exact HY.
    + destruct rest; [|discriminate H]. destruct (c_wbroken c) eqn:EB; [discriminate H|]. destruct (H1 eq_refl) as (t' & r' & HX & HY). rewrite Ew in HX.
      injection HX as <- <-. rewrite sapp_nil_r in HY. subst p.
      destruct (end_write w true (set_lock None c)) as [c1 o1] eqn:EE. injection H as <- <-. exists "".
      assert (HS : c_lock c1 = None /\ c_wbroken c1 = false /\ bytes o1 = "" /\ writes o1 = []).
      { clear - EE EB. destruct w as [i|j|]; unfold end_write in EE; csimp_in EE.
        - destruct (nth_error (c_senders c) i); injection EE as <- <-; auto.
        - destruct (nth_error (c_readers c) j) as [[]|]; injection EE as <- <-; auto.
        - destruct (c_loop c); injection EE as <- <-; auto. }
      destruct HS as (S1 & S2 & S3 & S4). rewrite S1, S2. split; [|split; [auto|discriminate]].
      unfold bytes, writes in *. cbn [pick flat_map app concat_all fold_right]. fold (pick (fun o : obs => match o with OBytes s => Some s | _ => None end) o1).
      fold (pick (fun o : obs => match o with OWrote _ t0 => Some t0 | _ => None end) o1). fold (concat_all (pick (fun o : obs => match o with OBytes s => Some s | _ => None end) o1)).
      rewrite S3, S4. cbn [concat_all fold_right]. rewrite !sapp_nil_r. reflexivity.
    + exists p. destruct (end_write w false (set_wbroken (set_lock None c))) as [c1 o1] eqn:EE. injection H as <- <-.
      assert (HS : c_lock c1 = None /\ c_wbroken c1 = true /\ bytes o1 = "" /\ writes o1 = []).
      { clear - EE. destruct w as [i|j|]; unfold end_write in EE; csimp_in EE.
        - destruct (nth_error (c_senders c) i); injection EE as <- <-; auto.
        - destruct (nth_error (c_readers c) j) as [[]|]; injection EE as <- <-; auto.
        - destruct (c_loop c); injection EE as <- <-; auto. }
      destruct HS as (S1 & S2 & S3 & S4). rewrite S2, S3, S4. cbn [concat_all fold_right]. rewrite !sapp_nil_r. split; [reflexivity|]. split; [discriminate|]. intros _.
      destruct (c_wbroken c) eqn:EB; [apply H2; reflexivity|]. destruct (H1 eq_refl) as (t' & r' & HX & HY). rewrite Ew in HX. injection HX as <- <-.
      destruct (writing_text c tr w t rest HT Ew) as [m Hm]. exists m, t, rest. auto.
  - destruct (quiet _ _ _ _ _ H EW) as (Q1 & Q2 & Q3 & Q4). exists p. rewrite Q1, Q2, Q3. cbn [concat_all fold_right].
    rewrite !sapp_nil_r. split; [reflexivity|]. split; [|exact H2]. intros EB. specialize (H1 EB). destruct Q4 as [[Q4 Q5]|[Q4 (w & t & Q5 & Q6)]].
    + rewrite Q4. destruct (c_lock c) as [w|]; [|exact H1]. destruct H1 as (t & rest & X & Y). exists t, rest. rewrite Q5. auto.
    + rewrite Q4 in H1. subst p. rewrite Q5. exists t, t. auto.
Qed.
