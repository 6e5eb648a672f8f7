(** Progress of one connection: locks are released, calls return, the loop comes
    back to its select. *)
From Coq Require Import Arith.
From Verif Require Import GoBase Utf8 Json JsonProofs JsonText Float64 Lang Types Codec Any AnyProofs Tables Registry Frame FrameProofs SpecFrame FrameMore FrameRead SpecEnc Leaves Conn SpecConn ConnBase ConnInv ConnSend ConnEvid ConnMore ConnFate ConnLast ConnTop ConnServe SpecLive.
Open Scope string_scope.
Open Scope list_scope.
Opaque marshal_message read_text unmarshal_request call_to_request result_to_response utf8_valid msg_ok is_request action_of.

Definition goes (ro : role) (n : nat) (c : conn) (P : conn -> list obs -> Prop) : Prop :=
  exists es c' o, length es <= n /\ forallb unaided es = true /\ run ro es c = Some (c', o) /\ P c' o.
Lemma goes_0 ro c (P : conn -> list obs -> Prop) : P c [] -> goes ro 0 c P.
Proof. intros H. exists [], c, []. repeat split; auto. Qed.
Lemma goes_step ro n e c c1 o1 (P : conn -> list obs -> Prop) : unaided e = true -> step ro e c = Some (c1, o1) -> goes ro n c1 (fun c' o => P c' (o1 ++ o)) -> goes ro (S n) c P.
Proof.
  intros HU HS (es & c' & o & L & U & R & HP). exists (e :: es), c', (o1 ++ o). split; [cbn; lia|]. split; [cbn; rewrite HU; exact U|]. split; [|exact HP]. cbn [run]. rewrite HS, R. reflexivity.
Qed.
Lemma run_app ro es1 : forall es2 c c1 o1, run ro es1 c = Some (c1, o1) -> run ro (es1 ++ es2) c = match run ro es2 c1 with Some (c2, o2) => Some (c2, o1 ++ o2) | None => None end.
Proof.
  induction es1 as [|e es1 IH]; intros es2 c c1 o1 H; cbn [run app] in *; [injection H as <- <-; destruct (run ro es2 c) as [[? ?]|]; reflexivity|].
  destruct (step ro e c) as [[ca oa]|]; [|discriminate H]. destruct (run ro es1 ca) as [[cb ob]|] eqn:E; [|discriminate H]. injection H as <- <-.
  rewrite (IH _ _ _ _ E). destruct (run ro es2 cb) as [[? ?]|]; [rewrite app_assoc|]; reflexivity.
Qed.
Lemma goes_seq ro n m c (P Q : conn -> list obs -> Prop) tr : reach ro c tr -> goes ro n c P ->
  (forall c1 o1, reach ro c1 (tr ++ o1) -> P c1 o1 -> goes ro m c1 (fun c' o => Q c' (o1 ++ o))) -> goes ro (n + m) c Q.
Proof.
  intros HR (es & c1 & o1 & L & U & R & HP) H. destruct (H _ _ (reach_run _ _ _ _ _ _ HR R) HP) as (es2 & c2 & o2 & L2 & U2 & R2 & HQ).
  exists (es ++ es2), c2, (o1 ++ o2). split; [rewrite app_length; lia|]. split; [rewrite forallb_app, U, U2; reflexivity|]. split; [|exact HQ]. rewrite (run_app _ _ _ _ _ _ R), R2. reflexivity.
Qed.
Lemma goes_weaken ro n m c (P Q : conn -> list obs -> Prop) : n <= m -> (forall c' o, P c' o -> Q c' o) -> goes ro n c P -> goes ro m c Q.
Proof. intros H HQ (es & c' & o & L & U & R & HP). exists es, c', o. split; [lia|]. auto. Qed.

Lemma no_worse_refl c : no_worse c c. Proof. repeat split; auto. Qed.
Lemma no_worse_trans a b c : no_worse a b -> no_worse b c -> no_worse a c.
Proof. intros (A1 & A2 & A3 & A4) (B1 & B2 & B3 & B4). unfold no_worse. rewrite B1, B2, B3. repeat split; try assumption. intros H. rewrite B4, A4; congruence. Qed.

Transparent step.
(** What the end of a write leaves of the callers and of the loop *)
Definition after_write (c c' : conn) (o : list obs) : Prop :=
  (forall i sd, nth_error (c_senders c) i = Some sd ->
     match sd_pc sd with
     | SWrite _ _ => exists p, nth_error (c_senders c') i = Some (MkSender (sd_id sd) (sd_q sd) (sd_inh sd) (sd_call sd) p) /\ (p = SSel \/ exists x, p = SDone x /\ In (ORet i x) o)
     | _ => nth_error (c_senders c') i = Some sd
     end) /\
  length (c_senders c') = length (c_senders c) /\
  c_loop c' = match c_loop c with LWrite _ _ _ _ => LTop | l => l end.
Lemma free_lock ro c tr : reach ro c tr -> c_crash c = false -> goes ro 2 c (fun c' o => c_lock c' = None /\ no_worse c c' /\ after_write c c' o).
Proof.
  intros HR HC. pose proof (v_l _ _ _ (reach_inv _ _ _ HR)) as HL. destruct (c_lock c) as [w|] eqn:EK.
  2:{ eapply goes_weaken with (n := 0); [lia|intros ? ? H; exact H|]. apply goes_0. split; [exact EK|]. split; [apply no_worse_refl|]. split; [|split; [reflexivity|]].
      - intros i sd HN. destruct (sd_pc sd) eqn:P; try exact HN. exfalso. assert (X : c_lock c = Some (WS i)) by (apply HL; unfold is_writing, writing; rewrite HN, P; reflexivity). congruence.
      - destruct (c_loop c) eqn:P; try reflexivity. exfalso. assert (X : c_lock c = Some WL) by (apply HL; unfold is_writing, writing; rewrite P; reflexivity). congruence. }
  assert (HW : is_writing w c = true) by (apply HL; exact EK).
  assert (ONLY : forall w', is_writing w' c = true -> w' = w) by (intros w' H; apply HL in H; congruence).
  unfold is_writing in HW. destruct (writing w c) as [[t rest]|] eqn:EW; [|discriminate HW]. clear HW.
  destruct (c_wbroken c || c_closed c) eqn:EB.
  - (* the write fails *)
    eapply goes_weaken with (n := 1); [lia|intros ? ? H; exact H|]. eapply goes_step with (e := EWFail w); [reflexivity|unfold step; rewrite HC, EW; rewrite <- surjective_pairing; reflexivity|].
    apply goes_0. rewrite app_nil_r. unfold writing in EW. unfold end_write. destruct w as [i|j|]; csimp.
    + destruct (nth_error (c_senders c) i) as [sd|] eqn:EN; [|discriminate EW]. destruct (sd_pc sd) eqn:P; try discriminate EW. cbn [fst snd]. split; [reflexivity|]. split; [|split; [|split]].
      * repeat split; csimp; auto. intros H. rewrite H, orb_false_r in EB. congruence.
      * intros k sk HK. csimp. rewrite nth_upd. destruct (Nat.eqb_spec i k) as [<-|NE].
        -- rewrite HK in EN. injection EN as ->. rewrite HK, P. eexists. split; [reflexivity|]. right. eexists. split; [reflexivity|left; reflexivity].
        -- destruct (sd_pc sk) eqn:PK; try exact HK. exfalso. assert (X : WS k = WS i) by (apply ONLY; unfold is_writing, writing; rewrite HK, PK; reflexivity). congruence.
      * csimp. apply upd_length.
      * csimp. destruct (c_loop c) eqn:PL; try reflexivity. exfalso. assert (X : WL = WS i) by (apply ONLY; unfold is_writing, writing; rewrite PL; reflexivity). discriminate X.
    + destruct (nth_error (c_readers c) j) as [[]|] eqn:EN; try discriminate EW. cbn [fst snd]. split; [reflexivity|]. split; [|split; [|split]].
      * repeat split; csimp; auto. intros H. rewrite H, orb_false_r in EB. congruence.
      * intros k sk HK. csimp. destruct (sd_pc sk) eqn:PK; try exact HK. exfalso. assert (X : WS k = WR j) by (apply ONLY; unfold is_writing, writing; rewrite HK, PK; reflexivity). discriminate X.
      * reflexivity.
      * csimp. destruct (c_loop c) eqn:PL; try reflexivity. exfalso. assert (X : WL = WR j) by (apply ONLY; unfold is_writing, writing; rewrite PL; reflexivity). discriminate X.
    + destruct (c_loop c) eqn:EN; try discriminate EW. cbn [fst snd]. split; [reflexivity|]. split; [|split; [|split]].
      * repeat split; csimp; auto. intros H. rewrite H, orb_false_r in EB. congruence.
      * intros k sk HK. csimp. destruct (sd_pc sk) eqn:PK; try exact HK. exfalso. assert (X : WS k = WL) by (apply ONLY; unfold is_writing, writing; rewrite HK, PK; reflexivity). discriminate X.
      * reflexivity.
      * csimp. rewrite EN. reflexivity.
  - (* the write is completed *)
    assert (EB1 : c_wbroken c = false) by (destruct (c_wbroken c); [discriminate EB|reflexivity]).
    destruct (take_all rest) as [T1 _].
    eapply goes_step with (e := EChunk w (String.length rest)); [reflexivity|unfold step; rewrite HC, EW, EB; reflexivity|]. rewrite T1.
    unfold writing in EW. destruct w as [i|j|].
    + destruct (nth_error (c_senders c) i) as [sd|] eqn:EN; [|discriminate EW]. destruct (sd_pc sd) eqn:P; try discriminate EW.
      eapply goes_step with (e := EWritten (WS i)); [reflexivity|unfold step, set_rest, writing, end_write; rewrite EN, P; csimp; rewrite HC, (nth_upd_same _ _ _ _ EN); csimp; rewrite EB1; reflexivity|].
      apply goes_0. split; [reflexivity|]. split; [|split; [|split]].
      * repeat split; csimp; auto.
      * intros k sk HK. csimp. rewrite !nth_upd. destruct (Nat.eqb_spec i k) as [<-|NE].
        -- rewrite HK in EN. injection EN as ->. rewrite HK, P. eexists. split; [reflexivity|]. left. reflexivity.
        -- destruct (sd_pc sk) eqn:PK; try exact HK. exfalso. assert (X : WS k = WS i) by (apply ONLY; unfold is_writing, writing; rewrite HK, PK; reflexivity). congruence.
      * csimp. rewrite !upd_length. reflexivity.
      * csimp. destruct (c_loop c) eqn:PL; try reflexivity. exfalso. assert (X : WL = WS i) by (apply ONLY; unfold is_writing, writing; rewrite PL; reflexivity). discriminate X.
    + destruct (nth_error (c_readers c) j) as [[]|] eqn:EN; try discriminate EW.
      eapply goes_step with (e := EWritten (WR j)); [reflexivity|unfold step, set_rest, writing, end_write; rewrite EN; csimp; rewrite HC, (nth_upd_same _ _ _ _ EN); csimp; rewrite EB1; reflexivity|].
      apply goes_0. split; [reflexivity|]. split; [|split; [|split]].
      * repeat split; csimp; auto.
      * intros k sk HK. csimp. destruct (sd_pc sk) eqn:PK; try exact HK. exfalso. assert (X : WS k = WR j) by (apply ONLY; unfold is_writing, writing; rewrite HK, PK; reflexivity). discriminate X.
      * reflexivity.
      * csimp. destruct (c_loop c) eqn:PL; try reflexivity. exfalso. assert (X : WL = WR j) by (apply ONLY; unfold is_writing, writing; rewrite PL; reflexivity). discriminate X.
    + destruct (c_loop c) eqn:EN; try discriminate EW.
      eapply goes_step with (e := EWritten WL); [reflexivity|unfold step, set_rest, writing, end_write; rewrite EN; csimp; rewrite HC; csimp; rewrite EB1; reflexivity|].
      apply goes_0. split; [reflexivity|]. split; [|split; [|split]].
      * repeat split; csimp; auto.
      * intros k sk HK. csimp. destruct (sd_pc sk) eqn:PK; try exact HK. exfalso. assert (X : WS k = WL) by (apply ONLY; unfold is_writing, writing; rewrite HK, PK; reflexivity). discriminate X.
      * reflexivity.
      * csimp. rewrite EN. reflexivity.
Qed.

(** ** A call returns *)
Definition returned (i : nat) (c c' : conn) (o : list obs) : Prop :=
  (exists x, In (ORet i x) o) /\ no_worse c c' /\ length (c_senders c') = length (c_senders c) /\
  (forall id, c_loop c = LRun id -> c_loop c' = LRun id) /\
  (forall j sj, nth_error (c_senders c) j = Some sj -> sdone (sd_pc sj) = true -> nth_error (c_senders c') j = Some sj) /\
  (exists x, match nth_error (c_senders c) i, nth_error (c_senders c') i with Some a, Some b => sd_pc b = SDone x /\ sd_inh b = sd_inh a | _, _ => False end).
(** Caller i has moved on and nothing else has changed for the worse. *)
Definition moved (i : nat) (p : spc) (c c' : conn) : Prop :=
  no_worse c c' /\ length (c_senders c') = length (c_senders c) /\ (forall id, c_loop c = LRun id -> c_loop c' = LRun id) /\
  (forall j sj, nth_error (c_senders c) j = Some sj -> sdone (sd_pc sj) = true -> nth_error (c_senders c') j = Some sj) /\
  match nth_error (c_senders c) i with Some a => nth_error (c_senders c') i = Some (MkSender (sd_id a) (sd_q a) (sd_inh a) (sd_call a) p) | None => False end.
Lemma moved_returned i p c c1 c' o1 o : moved i p c c1 -> returned i c1 c' o -> returned i c c' (o1 ++ o).
Proof.
  intros (M1 & M2 & M3 & M4 & M5) ((x & R1) & R2 & R3 & R4 & R5 & (y & R6)). split; [exists x; apply in_or_app; right; exact R1|]. split; [eapply no_worse_trans; eassumption|]. split; [congruence|].
  split; [auto|]. split; [auto|]. exists y. destruct (nth_error (c_senders c) i) as [a|]; [|destruct M5]. rewrite M5 in R6. destruct (nth_error (c_senders c') i); [|destruct R6]. exact R6.
Qed.
Lemma set_spc_moved i sd p c c2 : nth_error (c_senders c) i = Some sd -> sdone (sd_pc sd) = false -> no_worse c c2 -> c_senders c2 = c_senders c -> c_loop c2 = c_loop c -> moved i p c (set_spc i sd p c2).
Proof.
  intros HN HD HW HS HL. unfold moved. csimp. rewrite HS, HL, upd_length, !nth_upd, Nat.eqb_refl, HN. split; [exact HW|]. split; [reflexivity|]. split; [auto|]. split; [|reflexivity].
  intros j sj HJ HX. rewrite nth_upd. destruct (Nat.eqb_spec i j) as [->|NE]; [|exact HJ]. rewrite HJ in HN. injection HN as ->. congruence.
Qed.
Lemma moved_done i x c c' o : moved i (SDone x) c c' -> In (ORet i x) o -> returned i c c' o.
Proof.
  intros (M1 & M2 & M3 & M4 & M5) HI. split; [eauto|]. split; [exact M1|]. split; [exact M2|]. split; [exact M3|]. split; [exact M4|]. exists x. destruct (nth_error (c_senders c) i) as [a|]; [|destruct M5]. rewrite M5. auto.
Qed.
(** From the select on. *)
Lemma wait_returns ro c i sd ch : c_crash c = false -> nth_error (c_senders c) i = Some sd -> sd_pc sd = SWait ch -> goes ro 1 c (returned i c).
Proof.
  intros HC HN HP. eapply goes_step with (e := ETimeout i); [reflexivity|unfold step; rewrite HC, HN, HP; reflexivity|]. apply goes_0. rewrite app_nil_r. eapply moved_done; [|left; reflexivity].
  apply set_spc_moved; auto; [rewrite HP; reflexivity|apply no_worse_refl].
Qed.
Lemma moved_to i p c c' sd : moved i p c c' -> nth_error (c_senders c) i = Some sd -> nth_error (c_senders c') i = Some (MkSender (sd_id sd) (sd_q sd) (sd_inh sd) (sd_call sd) p).
Proof. intros (_ & _ & _ & _ & M5) HN. rewrite HN in M5. exact M5. Qed.
Lemma sel_returns ro c i sd : c_crash c = false -> nth_error (c_senders c) i = Some sd -> sd_pc sd = SSel -> goes ro 2 c (returned i c).
Proof.
  intros HC HN HP. assert (M : moved i (SWait (lookup (sd_id sd) (c_resp c))) c (set_spc i sd (SWait (lookup (sd_id sd) (c_resp c))) c)) by (apply set_spc_moved; auto; [rewrite HP; reflexivity|apply no_worse_refl]).
  eapply goes_step with (e := EStep i); [reflexivity|unfold step, sender_step; rewrite HC, HN, HP; reflexivity|].
  eapply goes_weaken; [apply le_n|intros c' o H; exact (moved_returned _ _ _ _ _ _ _ M H)|]. eapply wait_returns; [exact HC|exact (moved_to _ _ _ _ _ M HN)|reflexivity].
Qed.
(** The end of somebody's write, as seen by caller i *)
Lemma after_moved i sd c c' o p : nth_error (c_senders c) i = Some sd -> no_worse c c' -> after_write c c' o ->
  sdone (sd_pc sd) = false -> nth_error (c_senders c') i = Some (MkSender (sd_id sd) (sd_q sd) (sd_inh sd) (sd_call sd) p) -> moved i p c c'.
Proof.
  intros HN HW (A1 & A2 & A3) HD HN'. split; [exact HW|]. split; [exact A2|]. split; [|split].
  - intros id H. rewrite A3, H. reflexivity.
  - intros j sj HJ HX. specialize (A1 _ _ HJ). destruct (sd_pc sj); try exact A1; discriminate HX.
  - rewrite HN. exact HN'.
Qed.
Lemma write_returns ro c tr i sd t r : reach ro c tr -> c_crash c = false -> nth_error (c_senders c) i = Some sd -> sd_pc sd = SWrite t r -> goes ro 4 c (returned i c).
Proof.
  intros HR HC HN HP. eapply (goes_seq ro 2 2); [exact HR|exact (free_lock _ _ _ HR HC)|]. cbv beta. intros c1 o1 HR1 (K1 & W1 & A1). pose proof A1 as (A2 & _). specialize (A2 _ _ HN). rewrite HP in A2.
  destruct A2 as (p & P1 & P2). assert (M : moved i p c c1) by (eapply after_moved; try eassumption; rewrite HP; reflexivity).
  destruct P2 as [->|(x & -> & P2)].
  - eapply goes_weaken; [apply le_n|intros c' o H; exact (moved_returned _ _ _ _ _ _ _ M H)|]. eapply sel_returns; [|exact P1|reflexivity]. destruct W1 as (W1 & _). congruence.
  - eapply goes_weaken with (n := 0); [lia|intros c' o H; exact H|]. apply goes_0. rewrite app_nil_r. exact (moved_done _ _ _ _ _ M P2).
Qed.
Lemma sd_eta sd p : sd_pc sd = p -> MkSender (sd_id sd) (sd_q sd) (sd_inh sd) (sd_call sd) p = sd.
Proof. intros <-. destruct sd. reflexivity. Qed.
Lemma call_encodes ro c tr i sd : reach ro c tr -> nth_error (c_senders c) i = Some sd -> sover (sd_pc sd) = false -> marshal_message (sd_call sd) <> Panic.
Proof.
  intros HR HN HP. destruct (v_c _ _ _ (reach_inv _ _ _ HR) _ _ HN) as (X1 & X2 & X3 & X4). assert (Y : unmarshal_request (sd_id sd) (sd_q sd) = Ok (sd_call sd)) by (destruct (sd_pc sd); try exact X4; discriminate HP).
  destruct (request_crash (sd_id sd) _ X2 X3) as [_ Z]. destruct (Z _ Y) as [s Z1]. rewrite Z1. discriminate.
Qed.
Lemma lock_returns ro c tr i sd : reach ro c tr -> c_crash c = false -> nth_error (c_senders c) i = Some sd -> sd_pc sd = SLock -> goes ro 7 c (returned i c).
Proof.
  intros HR HC HN HP. eapply (goes_seq ro 2 5); [exact HR|exact (free_lock _ _ _ HR HC)|]. cbv beta. intros c1 o1 HR1 (K1 & W1 & A1). pose proof A1 as (A2 & _). specialize (A2 _ _ HN). rewrite HP in A2.
  assert (M : moved i SLock c c1) by (eapply after_moved; try eassumption; [rewrite HP; reflexivity|rewrite (sd_eta _ _ HP); exact A2]).
  eapply goes_weaken; [apply le_n|intros c' o H; exact (moved_returned _ _ _ _ _ _ _ M H)|].
  assert (HC1 : c_crash c1 = false) by (destruct W1 as (W1 & _); congruence).
  destruct (marshal_message (sd_call sd)) as [text|e|] eqn:EM.
  - assert (M1 : moved i (SWrite text text) c1 (set_spc i sd (SWrite text text) (set_lock (Some (WS i)) c1))) by (apply set_spc_moved; auto; [rewrite HP; reflexivity|repeat split; auto]).
    assert (ST : step ro (EStep i) c1 = Some (set_spc i sd (SWrite text text) (set_lock (Some (WS i)) c1), [])) by (unfold step, sender_step; rewrite HC1, A2, HP, K1, EM; reflexivity).
    eapply goes_step with (e := EStep i); [reflexivity|exact ST|].
    eapply goes_weaken; [apply le_n|intros c' o H; exact (moved_returned _ _ _ _ _ _ _ M1 H)|].
    eapply write_returns; [exact (reach_S _ _ _ _ _ _ HR1 ST)|exact HC1|exact (moved_to _ _ _ _ _ M1 A2)|reflexivity].
  - eapply goes_weaken with (n := 1); [lia|intros c' o H; exact H|]. eapply goes_step with (e := EStep i); [reflexivity|unfold step, sender_step; rewrite HC1, A2, HP, K1, EM; reflexivity|].
    apply goes_0. rewrite app_nil_r. eapply moved_done; [|left; reflexivity]. apply set_spc_moved; auto; [rewrite HP; reflexivity|apply no_worse_refl].
  - exfalso. refine (call_encodes _ _ _ _ _ HR HN _ EM). rewrite HP. reflexivity.
Qed.
Lemma call_returns ro c tr i sd : reach ro c tr -> c_crash c = false -> nth_error (c_senders c) i = Some sd -> sover (sd_pc sd) = false -> goes ro 9 c (returned i c).
Proof.
  intros HR HC HN HP. 
  assert (ST : forall c2 p o n, step ro (EStep i) c = Some (set_spc i sd p c2, o) -> sdone (sd_pc sd) = false -> no_worse c c2 -> c_senders c2 = c_senders c -> c_loop c2 = c_loop c ->
     (forall c1 sd1, reach ro c1 (tr ++ o) -> c_crash c1 = false -> nth_error (c_senders c1) i = Some sd1 -> sd_pc sd1 = p -> goes ro n c1 (returned i c1)) -> goes ro (S n) c (returned i c)).
  { intros c2 p o n S1 SD SW SS SL H. pose proof (set_spc_moved i sd p c c2 HN SD SW SS SL) as M. eapply goes_step with (e := EStep i); [reflexivity|exact S1|].
    eapply goes_weaken; [apply le_n|intros c' oo Q; exact (moved_returned _ _ _ _ _ o _ M Q)|]. eapply H; [exact (reach_S _ _ _ _ _ _ HR S1)| |exact (moved_to _ _ _ _ _ M HN)|reflexivity].
    destruct SW as (SW & _). csimp. congruence. }
  destruct (sd_pc sd) eqn:P; try discriminate HP.
  - eapply (ST _ SReg2 [] 8); [unfold step, sender_step; rewrite HC, HN, P; reflexivity|reflexivity|repeat split; auto|reflexivity|reflexivity|].
    intros c1 sd1 HR1 HC1 HN1 P1. rewrite app_nil_r in HR1.
    assert (M : moved i SLock c1 (set_spc i sd1 SLock (set_resp (mput (sd_id sd1) i (c_resp c1)) c1))) by (apply set_spc_moved; auto; [rewrite P1; reflexivity|repeat split; auto]).
    assert (S1 : step ro (EStep i) c1 = Some (set_spc i sd1 SLock (set_resp (mput (sd_id sd1) i (c_resp c1)) c1), [])) by (unfold step, sender_step; rewrite HC1, HN1, P1; reflexivity).
    eapply goes_step with (e := EStep i); [reflexivity|exact S1|]. eapply goes_weaken; [apply le_n|intros c' o H; exact (moved_returned _ _ _ _ _ _ _ M H)|].
    eapply lock_returns; [exact (reach_S _ _ _ _ _ _ HR1 S1)|exact HC1|exact (moved_to _ _ _ _ _ M HN1)|reflexivity].
  - eapply goes_weaken with (n := 8); [lia|intros c' o H; exact H|]. eapply (ST _ SLock [] 7); [unfold step, sender_step; rewrite HC, HN, P; reflexivity|reflexivity|repeat split; auto|reflexivity|reflexivity|].
    intros c1 sd1 HR1 HC1 HN1 P1. rewrite app_nil_r in HR1. eapply lock_returns; eassumption.
  - eapply goes_weaken with (n := 7); [lia|intros c' o H; exact H|]. eapply lock_returns; eassumption.
  - eapply goes_weaken with (n := 4); [lia|intros c' o H; exact H|]. eapply write_returns; eassumption.
  - eapply goes_weaken with (n := 2); [lia|intros c' o H; exact H|]. eapply sel_returns; eassumption.
  - eapply goes_weaken with (n := 1); [lia|intros c' o H; exact H|]. eapply wait_returns; eassumption.
  - eapply goes_weaken with (n := 2); [lia|intros c' o H; exact H|]. eapply (ST _ (SDel2 r) [] 1); [unfold step, sender_step; rewrite HC, HN, P; reflexivity|reflexivity|repeat split; auto|reflexivity|reflexivity|].
    intros c1 sd1 HR1 HC1 HN1 P1. eapply goes_step with (e := EStep i); [reflexivity|unfold step, sender_step; rewrite HC1, HN1, P1; reflexivity|]. apply goes_0. rewrite app_nil_r.
    eapply moved_done; [|left; reflexivity]. apply set_spc_moved; auto; [rewrite P1; reflexivity|repeat split; auto].
  - eapply goes_weaken with (n := 1); [lia|intros c' o H; exact H|]. eapply goes_step with (e := EStep i); [reflexivity|unfold step, sender_step; rewrite HC, HN, P; reflexivity|]. apply goes_0. rewrite app_nil_r.
    eapply moved_done; [|left; reflexivity]. apply set_spc_moved; auto; [rewrite P; reflexivity|repeat split; auto].
Qed.

(** ** The loop comes back *)
Lemma inh_same ro e c c' o j : step ro e c = Some (c', o) -> j < length (c_senders c) -> option_map sd_inh (nth_error (c_senders c') j) = option_map sd_inh (nth_error (c_senders c) j).
Proof.
  intros H HJ. apply step_smove in H. destruct H as [HS|k sd p HK HS|sd HS HF]; rewrite HS.
  - reflexivity.
  - rewrite nth_upd. destruct (Nat.eqb_spec k j) as [->|NE]; [rewrite HK; reflexivity|reflexivity].
  - rewrite nth_error_app1 by exact HJ. reflexivity.
Qed.
Lemma len_grows ro e c c' o : step ro e c = Some (c', o) -> length (c_senders c) <= length (c_senders c').
Proof. intros H. apply step_smove in H. destruct H as [HS|k sd p HK HS|sd HS HF]; rewrite HS, ?upd_length, ?app_length; lia. Qed.
Lemma inh_same_run ro es : forall c c' o j, run ro es c = Some (c', o) -> j < length (c_senders c) -> option_map sd_inh (nth_error (c_senders c') j) = option_map sd_inh (nth_error (c_senders c) j).
Proof.
  induction es as [|e es IH]; intros c c' o j H HJ; cbn [run] in H; [injection H as <- <-; reflexivity|].
  destruct (step ro e c) as [[c1 o1]|] eqn:E; [|discriminate H]. destruct (run ro es c1) as [[c2 o2]|] eqn:E2; [|discriminate H]. injection H as <- <-.
  rewrite (IH _ _ _ _ E2), (inh_same _ _ _ _ _ _ E HJ); [reflexivity|]. pose proof (len_grows _ _ _ _ _ E). lia.
Qed.
Lemma goes_inh ro n c P : goes ro n c P -> goes ro n c (fun c' o => P c' o /\ forall j, j < length (c_senders c) -> option_map sd_inh (nth_error (c_senders c') j) = option_map sd_inh (nth_error (c_senders c) j)).
Proof. intros (es & c' & o & L & U & R & HP). exists es, c', o. split; [exact L|]. split; [exact U|]. split; [exact R|]. split; [exact HP|]. intros j. exact (inh_same_run _ _ _ _ _ _ R). Qed.
(** At most one call of the handler is under way; a caller that panicked takes the loop with it. *)
Definition inv_u (c : conn) : Prop :=
  (forall i j si sj, nth_error (c_senders c) i = Some si -> nth_error (c_senders c) j = Some sj -> sd_inh si = true -> sd_inh sj = true ->
     sdone (sd_pc si) = false -> sdone (sd_pc sj) = false -> i = j) /\
  (forall i si, nth_error (c_senders c) i = Some si -> sd_pc si = SDead -> c_crash c = true \/ exiting (c_loop c) = true).
Lemma inv_u_step ro e c c' o : inv_u c -> step ro e c = Some (c', o) -> inv_u c'.
Proof.
  intros [U1 U2] H. split.
  - intros i j si sj HI HJ. revert HI HJ. step_inv H e; csimp; intros HI HJ; try exact (U1 _ _ _ _ HI HJ).
    all: try (apply nth_upd_inv in HI; apply nth_upd_inv in HJ; destruct HI as [[-> ->]|[_ HI]], HJ as [[-> ->]|[_ HJ]]; csimp; intros I1 I2 D1 D2; try reflexivity; try (discriminate D1); try (discriminate D2)).
    all: try (eapply U1; try eassumption; repeat match goal with HX : sd_pc _ = _ |- _ => rewrite HX end; reflexivity).
    all: try (apply nth_app_inv in HI; apply nth_app_inv in HJ; destruct HI as [HI|[-> ->]], HJ as [HJ|[-> ->]]; csimp; intros I1 I2 D1 D2; try reflexivity; try (discriminate D1); try (discriminate D2)).
    all: try (eapply U1; eassumption).
    all: apply send_ok_inv in E; destruct E as (_ & _ & _ & _ & E); try (destruct (E I1) as [_ E9]; rewrite (E9 _ _ HJ I2) in D2; discriminate D2); try (destruct (E I2) as [_ E9]; rewrite (E9 _ _ HI I1) in D1; discriminate D1).
    all: destruct (E eq_refl) as [_ E9]; try (rewrite (E9 _ _ HJ I2) in D2; discriminate D2); try (rewrite (E9 _ _ HI I1) in D1; discriminate D1).
  - intros i si HI. revert HI. step_inv H e; csimp; intros HI HP; try (destruct (U2 _ _ HI HP) as [X|X]; [congruence|]); auto.
    all: try (right; exact X).
    all: try match goal with HX : c_loop _ = _ |- _ => rewrite HX in X; discriminate X end.
    all: try (apply nth_upd_inv in HI; destruct HI as [[-> ->]|[_ HI]]; [csimp_in HP; discriminate HP|destruct (U2 _ _ HI HP) as [X|X]; [congruence|right; exact X]]).
    all: try (apply nth_app_inv in HI; destruct HI as [HI|[-> ->]]; [destruct (U2 _ _ HI HP) as [X|X]; [congruence|right; exact X]|csimp_in HP; discriminate HP]).
Qed.
Lemma reach_inv_u ro c tr : reach ro c tr -> inv_u c.
Proof. induction 1 as [|c tr e c' o HR IH HS]; [split; [intros i j si sj HI|intros i si HI]; destruct i; discriminate HI|exact (inv_u_step _ _ _ _ _ IH HS)]. Qed.
Definition back (c c' : conn) : Prop := no_worse c c' /\ ((exists r, c_loop c' = LSel r) \/ exiting (c_loop c') = true).
Lemma back_trans a b c : no_worse a b -> back b c -> back a c.
Proof. intros H [H1 H2]. split; [eapply no_worse_trans; eassumption|exact H2]. Qed.
Lemma top_back ro c : c_crash c = false -> c_loop c = LTop -> goes ro 1 c (fun c' _ => back c c').
Proof.
  intros HC HL. eapply goes_step with (e := ELoop); [reflexivity|unfold step, loop_step; rewrite HC, HL; reflexivity|]. apply goes_0. split; [repeat split; auto|]. left. eexists. reflexivity.
Qed.
Lemma write_back ro c tr id r t rest : reach ro c tr -> c_crash c = false -> c_loop c = LWrite id r t rest -> goes ro 3 c (fun c' _ => back c c').
Proof.
  intros HR HC HL. eapply (goes_seq ro 2 1); [exact HR|exact (free_lock _ _ _ HR HC)|]. cbv beta. intros c1 o1 HR1 (K1 & W1 & (_ & _ & A3)). rewrite HL in A3.
  eapply goes_weaken; [apply le_n| |eapply (top_back ro c1); [destruct W1 as (W1 & _); congruence|exact A3]]. intros c' oo H. exact (back_trans _ _ _ W1 H).
Qed.
Lemma reply_encodes ro c tr id r : reach ro c tr -> c_loop c = LLock id r -> marshal_message (response_message id r) <> Panic.
Proof.
  intros HR HL EM. apply (response_no_crash id r); [|exact EM].
  assert (HK : hret_ok ro r = true).
  { clear EM. revert id r HL. induction HR as [|c tr e c' o HR IH HS]; intros id r HL; [discriminate HL|].
    step_inv HS e; csimp_in HL; try discriminate HL; try exact (IH _ _ HL); try congruence.
    all: first [discriminate HS | injection HL as -> ->; apply return_ok_inv in E0; apply E0 | rewrite E in HL; first [discriminate HL|exact (IH _ _ HL)]]. }
  destruct r as [[m|]|]; [|exact I..]. cbn [hret_ok] in HK. apply andb_true_iff in HK. destruct HK as [K1 K2]. split; [exact K1|]. destruct ro; auto.
Qed.
Lemma lock_back ro c tr id r : reach ro c tr -> c_crash c = false -> c_loop c = LLock id r -> goes ro 6 c (fun c' _ => back c c').
Proof.
  intros HR HC HL. eapply (goes_seq ro 2 4); [exact HR|exact (free_lock _ _ _ HR HC)|]. cbv beta. intros c1 o1 HR1 (K1 & W1 & (_ & _ & A3)). rewrite HL in A3.
  assert (HC1 : c_crash c1 = false) by (destruct W1 as (W1 & _); congruence).
  destruct (marshal_message (response_message id r)) as [text|e|] eqn:EM.
  - assert (ST : step ro ELoop c1 = Some (set_loop (LWrite id r text text) (set_lock (Some WL) c1), [])) by (unfold step, loop_step; rewrite HC1, A3, K1, EM; reflexivity).
    eapply goes_step with (e := ELoop); [reflexivity|exact ST|]. eapply goes_weaken; [apply le_n| |eapply write_back; [exact (reach_S _ _ _ _ _ _ HR1 ST)|exact HC1|reflexivity]].
    intros c' oo H. apply (back_trans _ _ _ W1). refine (back_trans _ _ _ _ H). repeat split; auto.
  - assert (ST : step ro ELoop c1 = Some (set_loop LTop c1, [OReply id r NotEncoded])) by (unfold step, loop_step; rewrite HC1, A3, K1, EM; reflexivity).
    eapply goes_weaken with (n := 2); [lia|intros c' o H; exact H|]. eapply goes_step with (e := ELoop); [reflexivity|exact ST|]. eapply goes_weaken; [apply le_n| |eapply (top_back ro); [exact HC1|reflexivity]].
    intros c' oo H. apply (back_trans _ _ _ W1). refine (back_trans _ _ _ _ H). repeat split; auto.
  - exfalso. exact (reply_encodes _ _ _ _ _ HR HL EM).
Qed.
Lemma over_back ro c tr id : reach ro c tr -> c_crash c = false -> c_loop c = LRun id -> calls_over c = true -> goes ro 7 c (fun c' _ => back c c').
Proof.
  intros HR HC HL HO. assert (ST : step ro (EReturn (inr "")) c = Some (set_loop (LLock id (inr "")) c, [OReturn id (inr "")])) by (unfold step, return_ok; rewrite HC, HL, HO; reflexivity).
  eapply goes_step with (e := EReturn (inr "")); [reflexivity|exact ST|]. eapply goes_weaken; [apply le_n| |eapply lock_back; [exact (reach_S _ _ _ _ _ _ HR ST)|exact HC|reflexivity]].
  intros c' oo H. refine (back_trans _ _ _ _ H). repeat split; auto.
Qed.
Lemma run_back ro c tr id : reach ro c tr -> c_crash c = false -> c_loop c = LRun id -> goes ro 16 c (fun c' _ => back c c').
Proof.
  intros HR HC HL. destruct (calls_over c) eqn:HO.
  - eapply goes_weaken with (n := 7); [lia|intros c' o H; exact H|]. eapply over_back; eassumption.
  - unfold calls_over in HO. apply negb_false_iff, existsb_exists in HO. destruct HO as (sd & HI & HX). apply andb_true_iff in HX. destruct HX as [X1 X2]. apply negb_true_iff in X2.
    apply In_nth_error in HI. destruct HI as [i HN]. destruct (reach_inv_u _ _ _ HR) as [U1 U2].
    assert (SO : sover (sd_pc sd) = false). { destruct (sd_pc sd) eqn:P; try reflexivity; [discriminate X2|]. destruct (U2 _ _ HN P) as [Y|Y]; [congruence|]. rewrite HL in Y. discriminate Y. }
    eapply (goes_seq ro 9 7); [exact HR|exact (goes_inh _ _ _ _ (call_returns _ _ _ _ _ HR HC HN SO))|]. cbv beta. intros c1 o1 HR1 [((x & R1) & R2 & R3 & R4 & R5 & (y & R6)) RI].
    eapply goes_weaken; [apply le_n| |eapply (over_back ro c1)]; [|exact HR1|destruct R2 as (R2 & _); congruence|exact (R4 _ HL)|].
    + intros c' oo H. exact (back_trans _ _ _ R2 H).
    + unfold calls_over. apply negb_true_iff. destruct (existsb _ (c_senders c1)) eqn:EX; [exfalso|reflexivity]. apply existsb_exists in EX. destruct EX as (sj & HI & HX). apply andb_true_iff in HX. destruct HX as [Y1 Y2]. apply negb_true_iff in Y2.
      apply In_nth_error in HI. destruct HI as [j HJ]. assert (LJ : j < length (c_senders c)) by (rewrite <- R3; apply nth_error_Some; congruence).
      specialize (RI _ LJ). rewrite HJ in RI. cbn [option_map] in RI. destruct (nth_error (c_senders c) j) as [s0|] eqn:E0; [|discriminate RI]. injection RI as RI.
      destruct (sdone (sd_pc s0)) eqn:D0; [rewrite (R5 _ _ E0 D0) in HJ; injection HJ as ->; congruence|].
      assert (i = j) as <- by (eapply U1; try eassumption; congruence). rewrite HN, HJ in R6. destruct R6 as [R6 _]. rewrite R6 in Y2. discriminate Y2.
Qed.
(** Whatever the loop is doing, it can be back in its select, or on its way out, within 17 steps of this process. *)
Lemma loop_back ro c tr : reach ro c tr -> c_crash c = false -> goes ro 17 c (fun c' _ => back c c').
Proof.
  intros HR HC. destruct (c_loop c) eqn:HL.
  - eapply goes_weaken with (n := 1); [lia|intros c' o H; exact H|]. apply top_back; assumption.
  - eapply goes_weaken with (n := 0); [lia|intros c' o H; exact H|]. apply goes_0. split; [apply no_worse_refl|]. left. eauto.
  - assert (ST : exists c1 o, step ro ELoop c = Some (c1, o) /\ no_worse c c1 /\ (c_loop c1 = LTop \/ c_loop c1 = LRun id)).
    { unfold step, loop_step. rewrite HC, HL. destruct ro; [destruct (is_cp_request (m_ty q))|]; eexists _, _; (split; [reflexivity|]); (split; [repeat split; auto|]); auto. }
    destruct ST as (c1 & o & S1 & S2 & S3). assert (HC1 : c_crash c1 = false) by (destruct S2 as (S2 & _); congruence). eapply goes_step with (e := ELoop); [reflexivity|exact S1|].
    eapply goes_weaken with (n := 16) (P := fun c' _ => back c1 c'); [lia|intros c' oo H; exact (back_trans _ _ _ S2 H)|]. destruct S3 as [S3|S3].
    + eapply goes_weaken with (n := 1); [lia|intros c' oo H; exact H|]. apply top_back; assumption.
    + eapply run_back; [exact (reach_S _ _ _ _ _ _ HR S1)|exact HC1|exact S3].
  - eapply goes_weaken with (n := 16); [lia|intros c' o H; exact H|]. eapply run_back; eassumption.
  - eapply goes_weaken with (n := 6); [lia|intros c' o H; exact H|]. eapply lock_back; eassumption.
  - eapply goes_weaken with (n := 3); [lia|intros c' o H; exact H|]. eapply write_back; eassumption.
  - eapply goes_weaken with (n := 0); [lia|intros c' o H; exact H|]. apply goes_0. split; [apply no_worse_refl|]. right. rewrite HL. reflexivity.
  - eapply goes_weaken with (n := 0); [lia|intros c' o H; exact H|]. apply goes_0. split; [apply no_worse_refl|]. right. rewrite HL. reflexivity.
  - eapply goes_weaken with (n := 0); [lia|intros c' o H; exact H|]. apply goes_0. split; [apply no_worse_refl|]. right. rewrite HL. reflexivity.
Qed.
Opaque step.
