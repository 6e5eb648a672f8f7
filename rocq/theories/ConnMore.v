(** Further invariants: calls by the handler, closing, crashes, leftover readers,
    what callers write. *)
From Coq Require Import Arith.
From Verif Require Import GoBase Utf8 Json Float64 Codec Any Tables Registry Frame Conn SpecConn ConnBase ConnInv ConnSend ConnEvid.
Open Scope string_scope.
Open Scope list_scope.
Opaque marshal_message read_text unmarshal_request call_to_request result_to_response utf8_valid msg_ok is_request action_of.

(** ** Calls made by the handler *)
Definition unanswered (p : spc) : bool := match p with SDel1 _ | SDel2 _ => false | SDone o => negb (answered o) | _ => true end.
Definition sover (p : spc) : bool := match p with SDone _ | SDead => true | _ => false end.
Lemma sdone_over p : sdone p = true -> sover p = true.
Proof. destruct p; intros H; try discriminate H; reflexivity. Qed.
Definition inv_x (c : conn) : Prop := forall i sd, nth_error (c_senders c) i = Some sd -> sd_inh sd = true ->
  unanswered (sd_pc sd) = true /\ (sover (sd_pc sd) = false -> exists id, c_loop c = LRun id).
Lemma existsb_nth {A} (f : A -> bool) l i x : existsb f l = false -> nth_error l i = Some x -> f x = false.
Proof.
  intros H HN. destruct (f x) eqn:E; [|reflexivity]. apply nth_error_In in HN. assert (existsb f l = true) by (apply existsb_exists; eauto). congruence.
Qed.
Lemma return_ok_inv ro r c : negb (return_ok ro r c) = false -> hret_ok ro r = true /\
  forall i sd, nth_error (c_senders c) i = Some sd -> sd_inh sd = true -> sdone (sd_pc sd) = true.
Proof.
  intros H. apply negb_false_iff in H. unfold return_ok in H. apply andb_true_iff in H. destruct H as [H1 H2]. split; [exact H1|].
  apply negb_true_iff in H2. intros i sd HN HI. pose proof (existsb_nth _ _ _ _ H2 HN) as X. cbn beta in X. rewrite HI in X. cbn [andb] in X. now apply negb_false_iff in X.
Qed.
Lemma calls_over_inv c : negb (calls_over c) = false -> forall i sd, nth_error (c_senders c) i = Some sd -> sd_inh sd = true -> sdone (sd_pc sd) = true.
Proof.
  intros H. apply negb_false_iff in H. unfold calls_over in H. apply negb_true_iff in H. intros i sd HN HI. pose proof (existsb_nth _ _ _ _ H HN) as X. cbn beta in X. rewrite HI in X. cbn [andb] in X. now apply negb_false_iff in X.
Qed.
Lemma inv_x_step ro e c c' o : inv_a c -> inv_x c -> step ro e c = Some (c', o) -> inv_x c'.
Proof.
  intros HA HX H i' sd' HN HI. revert HN HI. step_inv H e; csimp; intros HN HI; try exact (HX _ _ HN HI).
  all: try (apply nth_upd_inv in HN; destruct HN as [[-> ->]|[_ HN]]; [|exact (HX _ _ HN HI)]; csimp; csimp_in HI; destruct (HX _ _ E HI) as [X1 X2];
            repeat match goal with HP : sd_pc _ = _ |- _ => rewrite HP in *; clear HP end; cbn [unanswered sover answered outcome_of negb] in *; (split; [first [exact X1|reflexivity]|first [exact X2|intros Q; discriminate Q]])).
  all: try (destruct (HX _ _ HN HI) as [X1 X2]; split; [exact X1|]; intros Q; specialize (X2 Q); destruct X2 as [idx X2]; congruence).
  all: try (apply nth_app_inv in HN; destruct HN as [HN|[-> ->]]; [exact (HX _ _ HN HI)|]; csimp; cbn [unanswered sover answered negb]; csimp_in HI; apply send_ok_inv in E; destruct E as (_ & _ & _ & _ & E);
            split; [reflexivity|]; first [intros Q; discriminate Q|intros _; exact (proj1 (E HI))]).
  - apply nth_app_inv in HN. destruct HN as [HN|[-> ->]]; [|split; [reflexivity|intros Q; discriminate Q]].
    destruct (HX _ _ HN HI) as [X1 X2]. split; [exact X1|]. intros Q. exfalso. apply send_ok_inv in E. destruct E as (_ & _ & _ & _ & E). destruct (E eq_refl) as [_ E9]. rewrite (sdone_over _ (E9 _ _ HN HI)) in Q. discriminate Q.
  - apply nth_upd_inv in HN. destruct HN as [[-> ->]|[HD HN]]; [|exact (HX _ _ HN HI)]. exfalso. csimp_in HI.
    destruct (HX _ _ E HI) as [X1 _]. rewrite E0 in X1. discriminate X1.
  - apply nth_upd_inv in HN. destruct HN as [[-> ->]|[HD HN]]; [|exact (HX _ _ HN HI)]. exfalso. csimp_in HI.
    destruct (HX _ _ E HI) as [_ X2]. rewrite E3 in X2. destruct (X2 eq_refl) as [id X3]. destruct HA as [_ A2].
    destruct (A2 _ _ E0 eq_refl) as [_ [X4|X4]]; rewrite X3 in X4; discriminate X4.
  - destruct (HX _ _ HN HI) as [X1 X2]. split; [exact X1|]. intros Q. exfalso. apply return_ok_inv in E0. rewrite (sdone_over _ (proj2 E0 _ _ HN HI)) in Q. discriminate Q.
  - destruct (HX _ _ HN HI) as [X1 X2]. split; [exact X1|]. intros Q. exfalso. rewrite (sdone_over _ (calls_over_inv _ E0 _ _ HN HI)) in Q. discriminate Q.
  - destruct (HX _ _ HN HI) as [X1 X2]. split; [exact X1|]. intros Q. exfalso. rewrite (sdone_over _ (calls_over_inv _ E0 _ _ HN HI)) in Q. discriminate Q.
Qed.

(** ** Closing *)
Definition is_odone (o : obs) := match o with ODone => true | _ => false end.
Definition is_oclosed (o : obs) := match o with OClosed => true | _ => false end.
Definition is_ouser (o : obs) := match o with OUserClose => true | _ => false end.
Definition is_oerr (o : obs) := match o with OReadErr _ => true | _ => false end.
Definition is_ostop (o : obs) := match o with OStop => true | _ => false end.
Definition is_opanic (o : obs) := match o with OHPanic _ => true | _ => false end.
Definition reason (tr : list obs) : bool := existsb is_ouser tr || existsb is_oerr tr || existsb is_ostop tr || existsb is_opanic tr.
Definition closing_reader (p : rpc) : bool := match p with RClose _ | RCancel _ => true | _ => false end.
Definition inv_d (c : conn) (tr : list obs) : Prop :=
  c_done c = existsb is_odone tr /\
  c_closed c = existsb is_oclosed tr /\
  c_rbroken c = existsb is_oerr tr /\
  (c_done c = true -> c_closed c = true) /\
  (c_closed c = true -> reason tr = true) /\
  (c_closers c <> 0 -> existsb is_ouser tr = true /\ c_closed c = true) /\
  (forall r p, nth_error (c_readers c) r = Some p -> (closing_reader p = true \/ p = RRes (Some true)) -> c_rbroken c = true) /\
  (forall r b, nth_error (c_readers c) r = Some (RCancel b) -> c_closed c = true) /\
  (c_loop c = LClose \/ c_loop c = LCancel -> reason tr = true) /\
  (c_loop c = LCancel -> c_closed c = true) /\
  (c_rbroken c = true -> c_done c = true \/ exists r p, nth_error (c_readers c) r = Some p /\ closing_reader p = true).
Lemma reason_app a b : reason (a ++ b) = reason a || reason b.
Proof. unfold reason. rewrite !existsb_app. destruct (existsb is_ouser a), (existsb is_ouser b), (existsb is_oerr a), (existsb is_oerr b), (existsb is_ostop a), (existsb is_ostop b), (existsb is_opanic a); reflexivity. Qed.
Lemma closing_keep r p0 p l : nth_error l r = Some p0 -> closing_reader p0 = false ->
  (exists r p, nth_error l r = Some p /\ closing_reader p = true) -> exists r' p', nth_error (upd r p l) r' = Some p' /\ closing_reader p' = true.
Proof.
  intros HN HC (k & q & H1 & H2). exists k, q. split; [|exact H2]. rewrite nth_upd. destruct (Nat.eqb_spec r k) as [->|D]; [|exact H1]. congruence.
Qed.
Lemma closing_now r p0 p l : nth_error l r = Some p0 -> closing_reader p = true -> exists r' p', nth_error (upd r p l) r' = Some p' /\ closing_reader p' = true.
Proof. intros HN HC. exists r, p. rewrite (nth_upd_same _ _ _ _ HN). auto. Qed.
Lemma closing_app p l : (exists r p, nth_error l r = Some p /\ closing_reader p = true) -> exists r' p', nth_error (l ++ [p]) r' = Some p' /\ closing_reader p' = true.
Proof. intros (k & q & H1 & H2). exists k, q. rewrite nth_error_app1; [auto|exact (nth_lt _ _ _ H1)]. Qed.
Lemma inv_d_step ro e c c' o tr : inv_d c tr -> step ro e c = Some (c', o) -> inv_d c' (tr ++ o).
Proof.
  intros (D1 & D2 & D3 & D4 & D5 & D6 & D7 & D8 & D9 & D10 & D11) H. unfold inv_d. rewrite !existsb_app, reason_app, <- ?D1, <- ?D2, <- ?D3 in *.
  assert (DR : c_rbroken c = true -> reason tr = true) by (intros X; unfold reason; rewrite <- D3, X, orb_true_r; reflexivity).
  assert (DU : existsb is_ouser tr = true -> reason tr = true) by (intros X; unfold reason; rewrite X; reflexivity).
  step_inv H e; csimp; cbn [existsb is_odone is_oclosed is_ouser is_oerr is_ostop is_opanic orb]; unfold reason at 1 2; cbn [existsb is_odone is_oclosed is_ouser is_oerr is_ostop is_opanic orb];
    fold (reason tr); rewrite ?orb_false_r, ?orb_true_r.
  all: repeat match goal with |- _ /\ _ => split end; try assumption; try reflexivity.
  all: try (intros r' p' HN HP; nths; first [eapply D7; eassumption | reflexivity | destruct HP as [HP|HP]; discriminate HP]).
  all: try (intros r' b' HN; nths; first [eapply D8; eassumption | reflexivity | match goal with HX : _ = RCancel _ |- _ => discriminate HX | HX : RCancel _ = _ |- _ => discriminate HX end]).
  all: try (intros [HX|HX]; discriminate HX).
  all: try (intros HX; discriminate HX).
  all: try (intros HB; right; eapply closing_now; [eassumption|reflexivity]).
  all: try (intros HB; destruct (D11 HB) as [X|X]; [left; exact X|right; first [eapply closing_keep; [eassumption|reflexivity|exact X] | apply closing_app; exact X]]).
  all: try (intros _; left; reflexivity).
  all: try (intros X; destruct (D6 X); split; [assumption|reflexivity]).
  all: try (intros _; split; reflexivity).
  all: try (intros r' p' HN HP; apply nth_upd_inv in HN; destruct HN as [[-> ->]|[_ HN]]; [exact (D7 _ _ E (or_introl eq_refl))|exact (D7 _ _ HN HP)]).
  all: try (intros _; exact (D8 _ _ E)).
  all: try (intros X; rewrite E in X; first [discriminate X | destruct X as [X|X]; discriminate X]).
  - intros r' p' HN HP. rewrite E1. nths; [destruct HP as [HP|HP]; discriminate HP|exact (D7 _ _ HN HP)].
  - intros X. rewrite E1 in X. discriminate X.
  - intros _. exact (DR (D7 _ _ E (or_introl eq_refl))).
  - intros _. apply D9. left. first [exact E|reflexivity].
  - intros _. apply D9. left. first [exact E|reflexivity].
  - intros _. apply D10. first [exact E|reflexivity].
  - intros _. apply DR. exact (D7 _ _ E0 (or_intror eq_refl)).
  - intros X. apply D4. congruence.
  - intros _. apply D5, D4. first [reflexivity|assumption].
  - intros _. left. assumption.
  - intros X. apply D4. congruence.
  - intros _. left. assumption.
  - intros _. apply D6. discriminate.
  - intros _. apply D6. discriminate.
Qed.

(** ** Goroutines *)
Definition live (p : rpc) : bool := match p with RDone => false | _ => true end.
Definition nlive (l : list rpc) : nat := length (filter live l).
Definition inv_n (c : conn) (tr : list obs) : Prop :=
  match c_loop c with
  | LSel _ => nlive (c_readers c) = S (length (takens tr))
  | LClose | LCancel | LGone => length (takens tr) <= nlive (c_readers c) <= S (length (takens tr))
  | _ => nlive (c_readers c) = length (takens tr)
  end.
Lemma nlive_upd r p p0 l : nth_error l r = Some p0 -> live p = live p0 -> nlive (upd r p l) = nlive l.
Proof.
  unfold nlive. revert r. induction l as [|y l IH]; intros [|r] HN HL; cbn in HN; try discriminate HN; cbn [upd filter].
  - injection HN as ->. rewrite HL. destruct (live p0); reflexivity.
  - destruct (live y); cbn [length]; rewrite (IH r HN HL); reflexivity.
Qed.
Lemma nlive_done r p0 l : nth_error l r = Some p0 -> live p0 = true -> nlive l = S (nlive (upd r RDone l)).
Proof.
  unfold nlive. revert r. induction l as [|y l IH]; intros [|r] HN HL; cbn in HN; try discriminate HN; cbn [upd filter].
  - injection HN as ->. rewrite HL. reflexivity.
  - destruct (live y); cbn [length]; rewrite (IH r HN HL); reflexivity.
Qed.
Lemma nlive_app l : nlive (l ++ [RRead]) = S (nlive l).
Proof. unfold nlive. rewrite filter_app, app_length. cbn [filter live length]. lia. Qed.
Lemma inv_n_step ro e c c' o tr : inv_n c tr -> step ro e c = Some (c', o) -> inv_n c' (tr ++ o).
Proof.
  intros HI H. unfold inv_n, takens in *. rewrite pick_app, app_length.
  step_inv H e; csimp; cbn [pick flat_map app length] in *; rewrite ?Nat.add_0_r; try exact HI;
   repeat match goal with HX : c_loop _ = _ |- _ => rewrite HX in * end; try exact HI;
   try (erewrite nlive_upd; [|eassumption|reflexivity]); try exact HI; rewrite ?nlive_app; try lia;
   try (match goal with HX : nth_error _ _ = Some (RRes _) |- _ => pose proof (nlive_done _ _ _ HX eq_refl) end; lia).
Qed.
(** A reader nobody listens to stays for ever. *)
Definition stuck (r : nat) (c : conn) : Prop :=
  (exists x, nth_error (c_readers c) r = Some (RRes x)) /\ c_loop c <> LSel r.
Lemma stuck_step ro e c c' o r : stuck r c -> step ro e c = Some (c', o) -> stuck r c'.
Proof.
  intros [[x S1] S2] H. unfold stuck. step_inv H e; csimp; (split; [exists x; rewrite ?nth_upd, ?nth_app1; try exact S1;
     match goal with |- context [Nat.eqb ?a ?b] => destruct (Nat.eqb_spec a b) as [EQ|EQ]; [subst|exact S1] end|]).
  all: try exact S2; try (intros HX; congruence).
  all: try (rewrite nth_len in S1; discriminate S1).
  all: try (intros HX; injection HX as HX; subst; rewrite nth_len in S1; discriminate S1).
  all: try congruence.
Qed.
Lemma stuck_run ro es c c' o r : stuck r c -> run ro es c = Some (c', o) -> stuck r c'.
Proof.
  revert c c' o. induction es as [|e es IH]; intros c c' o HS H; cbn [run] in H; [injection H as <- <-; exact HS|].
  destruct (step ro e c) as [[c1 o1]|] eqn:E; [|discriminate H]. destruct (run ro es c1) as [[c2 o2]|] eqn:E2; [|discriminate H].
  injection H as <- <-. eapply IH; [|exact E2]. eapply stuck_step; eassumption.
Qed.

(** ** What callers write *)
Definition wrote_pc (p : spc) : bool :=
  match p with SSel | SWait _ | SDel1 _ | SDel2 _ => true | SDone o => match o with RTimeout => true | _ => answered o end | _ => false end.
Definition inv_w (c : conn) (tr : list obs) : Prop :=
  (forall i t, In (i, t) (sender_writes tr) <-> exists sd, nth_error (c_senders c) i = Some sd /\ wrote_pc (sd_pc sd) = true /\ marshal_message (sd_call sd) = Ok t) /\
  NoDup (map fst (sender_writes tr)).
Lemma NoDup_snoc {A} (l : list A) x : NoDup l -> ~ In x l -> NoDup (l ++ [x]).
Proof.
  intros H HI. apply NoDup_rev in H. rewrite <- (rev_involutive (_ ++ [_])). apply NoDup_rev. rewrite rev_app_distr. cbn [rev app]. constructor; [|exact H]. now rewrite <- in_rev.
Qed.
Lemma inv_w_step ro e c c' o tr : inv_t c tr -> inv_w c tr -> step ro e c = Some (c', o) -> inv_w c' (tr ++ o).
Proof.
  intros HT [W1 W2] H. unfold inv_w, sender_writes in *. rewrite pick_app, map_app.
  assert (Q : forall i sd p, nth_error (c_senders c) i = Some sd -> wrote_pc (sd_pc sd) = wrote_pc p ->
     (forall k t, In (k, t) (pick (fun o => match o with OWrote (WS i) t => Some (i, t) | _ => None end) tr) <->
        exists s, nth_error (upd i (MkSender (sd_id sd) (sd_q sd) (sd_inh sd) (sd_call sd) p) (c_senders c)) k = Some s /\ wrote_pc (sd_pc s) = true /\ marshal_message (sd_call s) = Ok t)).
  { intros i sd p HN HP k t. rewrite W1, nth_upd. destruct (Nat.eqb_spec i k) as [<-|D]; [|reflexivity]. rewrite HN. split; intros (s & X & Y & Z).
    - injection X as <-. eexists. split; [reflexivity|]. csimp. rewrite <- HP. auto.
    - injection X as <-. csimp_in Y. csimp_in Z. exists sd. rewrite HP. auto. }
  assert (Q2 : forall sd, wrote_pc (sd_pc sd) = false ->
     (forall k t, In (k, t) (pick (fun o => match o with OWrote (WS i) t => Some (i, t) | _ => None end) tr) <->
        exists s, nth_error (c_senders c ++ [sd]) k = Some s /\ wrote_pc (sd_pc s) = true /\ marshal_message (sd_call s) = Ok t)).
  { intros sd HP k t. rewrite W1. split; intros (s & X & Y).
    - exists s. split; [|exact Y]. rewrite nth_error_app1; [exact X|exact (nth_lt _ _ _ X)].
    - apply nth_app_inv in X. destruct X as [X|[-> ->]]; [eauto|]. destruct Y as [Y _]. congruence. }
  step_inv H e; csimp; cbn [pick flat_map app map fst]; rewrite ?app_nil_r; auto.
  all: try (split; [|exact W2]; apply Q2; reflexivity).
  all: try (split; [|exact W2]; apply Q; [exact E|rewrite ?E0, ?E3; cbn [wrote_pc]; try match goal with r : cresp |- _ => destruct r end; reflexivity]).
  destruct HT as (H1 & _). pose proof (H1 _ _ _ _ E E0) as HM.
  assert (HF : ~ In i (map fst (pick (fun o => match o with OWrote (WS i) t => Some (i, t) | _ => None end) tr))).
  { intros HI. apply in_map_iff in HI. destruct HI as ([k t] & HK & HI). cbn [fst] in HK. subst k. apply W1 in HI. destruct HI as (s' & X & Y & _). rewrite E in X. injection X as <-.
    rewrite E0 in Y. discriminate Y. }
  split.
  - intros k t. rewrite in_app_iff, W1, nth_upd. cbn [In]. destruct (Nat.eqb_spec i k) as [<-|D].
    + rewrite E. split.
      * intros [(s' & X & Y & _)|[X|[]]]; [injection X as <-; rewrite E0 in Y; discriminate Y|]. injection X as <-. eexists. split; [reflexivity|]. csimp. auto.
      * intros (s' & X & Y & Z). injection X as <-. csimp_in Z. right. left. congruence.
    + split; [intros [X|[X|[]]]; [exact X|congruence]|intros X; left; exact X].
  - apply NoDup_snoc; assumption.
Qed.
