(** Every schedule of the central system's own steps ends, and it ends in rest. *)
From Coq Require Import Arith Wellfounded Permutation.
From Verif Require Import GoBase Utf8 Json Float64 Lang Types Codec Any Tables Registry Frame Conn SpecConn ConnBase ConnInv ConnSend ConnEvid ConnMore ConnFate ConnLast ConnTop ConnServe CentralSystem SpecCS CSInv CSMore SpecLive SpecSettle ConnLive ConnSettle LiveProofs.
Open Scope string_scope.
Open Scope list_scope.
Opaque marshal_message read_text unmarshal_request call_to_request result_to_response utf8_valid msg_ok is_request action_of.
Opaque step.

Definition krank (p : kpc) : nat :=
  match p with KLog => 18 | KShake => 16 | KLock1 => 14 | KReg => 12 | KListen => 10 | KServe => 8 | KDisc => 6 | KLock2 => 4 | KClean => 2 | KEnd | KFailed => 0 end.
Definition crank (s : csys) : nat := sumf (fun x => krank (k_pc x) + rank (k_conn x)) (s_ks s) + length (s_goes s) + (if s_crash s then 0 else 1).
Definition cleft (s : csys) : nat := sumf (fun x => left_to_write (k_conn x)) (s_ks s).
Definition cbelow (s' s : csys) : Prop := crank s' < crank s \/ crank s' = crank s /\ cleft s' < cleft s.
Lemma drop_len {A} j (l : list A) x : nth_error l j = Some x -> length l = S (length (drop_nth j l)).
Proof. intros H. apply drop_perm in H. apply Permutation_length in H. exact H. Qed.
Lemma cs_own_below v s s' o : cs_own v = true -> cstep v s = Some (s', o) -> (forall k, o <> [OConn k (OBytes "")]) -> cbelow s' s.
Proof.
  intros HO H HB. unfold cbelow, crank, cleft.
  cstep_inv H v; try discriminate HO; ssimp; rewrite ?app_length; sums;
    repeat match goal with HX : s_crash _ = _ |- _ => rewrite HX; clear HX end;
    repeat match goal with HX : k_pc _ = _ |- _ => rewrite HX in *; clear HX end; cbn [krank k_pc k_conn length] in *; try (left; lia).
  - (* a step of a connection *)
    assert (B : below c0 (k_conn c)) by (eapply own_below; [exact HO|eassumption|intros ->; exact (HB k eq_refl)]). destruct B as [B|[B1 B2]]; [left; lia|]. left. lia.
  - assert (B : below c0 (k_conn c)) by (eapply own_below; [exact HO|eassumption|intros ->; exact (HB k eq_refl)]). destruct B as [B|[B1 B2]]; [left; lia|]. right. lia.
  - match goal with HX : nth_error (s_goes s) _ = Some _ |- _ => apply drop_len in HX end. left. lia.
  - match goal with HX : nth_error (s_goes s) _ = Some _ |- _ => apply drop_len in HX end. left. lia.
Qed.
Lemma cbelow_wf : well_founded cbelow.
Proof.
  intros c. remember (crank c) as n eqn:EN. revert c EN. induction n as [n IH] using lt_wf_ind. intros c EN.
  remember (cleft c) as m eqn:EM. revert c EN EM. induction m as [m IH2] using lt_wf_ind. intros c EN EM.
  constructor. intros c' [H|[H1 H2]]; [eapply IH; [|reflexivity]; lia|eapply IH2; [|congruence|reflexivity]; lia].
Qed.
(** No own step can be taken. *)
Definition cs_rest (s : csys) : Prop :=
  s_goes s = [] /\ s_mux s = None /\
  forall k x, nth_error (s_ks s) k = Some x ->
    match k_pc x with
    | KShake | KFailed => True
    | KServe => rest (k_conn x) /\ c_loop (k_conn x) <> LGone
    | KEnd => rest (k_conn x)
    | _ => False
    end.
Lemma find_not {A} (f : A -> bool) l : (exists k x, nth_error l k = Some x /\ f x = false) \/ forall k x, nth_error l k = Some x -> f x = true.
Proof.
  destruct (forallb f l) eqn:E.
  - right. intros k x H. apply nth_error_In in H. rewrite forallb_forall in E. exact (E _ H).
  - left. induction l as [|a l IH]; [discriminate E|]. cbn in E. destruct (f a) eqn:FA; [destruct (IH E) as (k & x & H); exists (S k), x; exact H|exists 0, a; auto].
Qed.
Transparent step.
Lemma loop_gone ro c : c_loop c = LGone -> step ro ELoop c = None.
Proof. intros H. unfold step, loop_step. rewrite H. destruct (c_crash c); reflexivity. Qed.
Opaque step.
Definition stays_put (p : kpc) : bool := match p with KShake | KFailed | KServe | KEnd => true | _ => false end.
Lemma cs_own_or_rest s tr : creach s tr -> s_crash s = false -> (exists s' o, cs_own_step s s' o) \/ cs_rest s.
Proof.
  intros HR HC. pose proof (creach_inv _ _ HR) as V.
  assert (GO : forall k x s' o, nth_error (s_ks s) k = Some x -> kstep k x s = Some (s', o) -> (forall j, o <> [OConn j (OBytes "")]) -> (exists s' o, cs_own_step s s' o) \/ cs_rest s).
  { intros k x s' o HN HS HO. left. exists s', o, (VStep k). split; [reflexivity|]. split; [|exact HO]. unfold cstep. rewrite HC, HN. exact HS. }
  destruct (s_goes s) as [|[[on f] id] gs] eqn:EG.
  2:{ left. eexists _, _, (VCall 0). split; [reflexivity|]. split; [unfold cstep; rewrite HC, EG; reflexivity|]. intros j. destruct on; discriminate. }
  destruct (s_mux s) as [k|] eqn:EM.
  { pose proof EM as EM'. apply (i_mux _ _ V) in EM. destruct EM as (x & HN & HI). unfold kstep in GO. specialize (GO k x). destruct (k_pc x) eqn:P; try discriminate HI.
    - destruct (do_register k x s) as [s' o] eqn:ER. apply (GO s' o HN eq_refl). unfold do_register in ER. cbv zeta in ER.
      destruct (match lookup (k_id x) (s_chans s) with Some _ => _ | None => _ end) as [[a b] c]. destruct (_ && _); injection ER as <- <-; discriminate.
    - destruct (do_clean k x s) as [s' o] eqn:ER. apply (GO s' o HN eq_refl). unfold do_clean in ER. cbv zeta in ER. destruct (_ =? _)%Z; injection ER as <- <-; discriminate. }
  destruct (find_not (fun x => stays_put (k_pc x)) (s_ks s)) as [(k & x & HN & HX)|ST].
  { specialize (GO k x). unfold kstep in GO. destruct (k_pc x) eqn:P; try discriminate HX.
    - eapply GO; [exact HN|reflexivity|discriminate].
    - rewrite EM in GO. eapply GO; [exact HN|reflexivity|discriminate].
    - exfalso. assert (X : s_mux s = Some k) by (apply (i_mux _ _ V); exists x; rewrite P; auto). congruence.
    - eapply GO; [exact HN|reflexivity|discriminate].
    - eapply GO; [exact HN|reflexivity|discriminate].
    - rewrite EM in GO. eapply GO; [exact HN|reflexivity|discriminate].
    - exfalso. assert (X : s_mux s = Some k) by (apply (i_mux _ _ V); exists x; rewrite P; auto). congruence. }
  assert (RR : (exists s' o, cs_own_step s s' o) \/ forall k x, nth_error (s_ks s) k = Some x -> match k_pc x with KShake | KFailed => True | _ => rest (k_conn x) end).
  { assert (D : forall k x, nth_error (s_ks s) k = Some x -> (exists s' o, cs_own_step s s' o) \/ match k_pc x with KShake | KFailed => True | _ => rest (k_conn x) end).
    { intros k x HN. destruct (i_proj _ _ V) as [J _]. destruct (J _ _ HN) as (R1 & _ & R3). pose proof (no_crash_conn _ _ HR HC _ _ HN) as CC. pose proof (ST _ _ HN) as HP. cbv beta in HP.
      destruct (own_or_rest0 _ _ _ R1 CC) as [(e & c' & o & O1 & O2 & O3)|R]; [|right; destruct (k_pc x); auto].
      assert (OK : conn_event_ok (k_pc x) e = true \/ k_pc x = KShake \/ k_pc x = KFailed).
      { unfold own2 in O1. apply andb_true_iff in O1. destruct O1 as [O0 O1]. destruct (k_pc x) eqn:P; try discriminate HP; auto; left; destruct e; try reflexivity; try discriminate O1; try discriminate O0.
        exfalso. rewrite (loop_gone _ _ (R3 eq_refl)) in O2. discriminate O2. }
      destruct OK as [OK|[OK|OK]]; [left|right; rewrite OK; exact I..].
      eexists _, _, (VConn k e). split; [unfold own2 in O1; apply andb_true_iff in O1; exact (proj1 O1)|]. split; [unfold cstep; rewrite HC, HN, OK, O2; reflexivity|].
      intros j HX. destruct o as [|o1 [|o2 o]]; try discriminate HX. injection HX as -> ->. exact (O3 _ eq_refl). }
    clear - D. remember (s_ks s) as l eqn:EL. clear EL. induction l as [|x l IH]; [right; intros [|k] x H; discriminate H|].
    destruct IH as [IH|IH]; [intros k y HN; exact (D (S k) y HN)|left; exact IH|]. destruct (D 0 x eq_refl) as [D0|D0]; [left; exact D0|right]. intros [|k] y H; [injection H as <-; exact D0|exact (IH _ _ H)]. }
  destruct RR as [RR|RR]; [left; exact RR|].
  destruct (find_not (fun x => match k_pc x, c_loop (k_conn x) with KServe, LGone => false | _, _ => true end) (s_ks s)) as [(k & x & HN & HX)|GG].
  { specialize (GO k x). unfold kstep in GO. destruct (k_pc x) eqn:P; try discriminate HX. destruct (c_loop (k_conn x)) eqn:L; try discriminate HX. eapply GO; [exact HN|reflexivity|discriminate]. }
  right. split; [exact EG|]. split; [exact EM|]. intros k x HN. specialize (ST _ _ HN). specialize (RR _ _ HN). specialize (GG _ _ HN). cbv beta in *. destruct (k_pc x); try discriminate ST; auto.
  split; [exact RR|]. intros L. rewrite L in GG. discriminate GG.
Qed.
Lemma cs_settles (P : csys -> list cobs -> Prop) :
  (forall s tr, creach s tr -> s_crash s = true -> P s tr) -> (forall s tr, creach s tr -> s_crash s = false -> cs_rest s -> P s tr) -> forall s tr, creach s tr -> inevitably cs_own_step P s tr.
Proof.
  intros P1 P2 s. induction s as [s IH] using (well_founded_induction cbelow_wf). intros tr HR. destruct (s_crash s) eqn:HC; [apply iv_now; exact (P1 _ _ HR HC)|].
  destruct (cs_own_or_rest _ _ HR HC) as [GO|RS]; [|apply iv_now; exact (P2 _ _ HR HC RS)].
  apply iv_later; [exact GO|]. intros s' o (v & O1 & O2 & O3). apply IH; [exact (cs_own_below _ _ _ _ O1 O2 O3)|exact (creach_S _ _ _ _ _ HR O2)].
Qed.
