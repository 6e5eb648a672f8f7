(** What can always happen next: a request is served, a waiting call is answered. *)
From Coq Require Import Arith.
From Verif Require Import GoBase Utf8 Json JsonProofs JsonText Float64 Lang Types Codec Any AnyProofs Tables Registry Frame FrameProofs SpecFrame FrameMore FrameRead SpecEnc Leaves
  Conn SpecConn ConnBase ConnInv ConnSend ConnEvid ConnMore ConnFate ConnLast ConnTop.
Open Scope string_scope.
Open Scope list_scope.
Opaque marshal_message read_text unmarshal_request call_to_request result_to_response utf8_valid msg_ok is_request action_of.

Lemma run_cons ro e es c c1 o1 c2 o2 : step ro e c = Some (c1, o1) -> run ro es c1 = Some (c2, o2) -> run ro (e :: es) c = Some (c2, o1 ++ o2).
Proof. intros H1 H2. cbn [run]. rewrite H1, H2. reflexivity. Qed.
Lemma take_all s : sdrop (String.length s) s = "" /\ stake (String.length s) s = s.
Proof. induction s as [|x s [IH1 IH2]]; cbn; [auto|]. rewrite IH1, IH2. auto. Qed.

Lemma serve_run ro c r text id q x h t : idle c r -> c_lock c = None -> c_wbroken c = false -> c_closed c = false ->
  inbound_of text = IRequest id q -> seen ro (id, q) = [(id, x)] -> hret_ok ro h = true ->
  (forall i sd, nth_error (c_senders c) i = Some sd -> sd_inh sd = true -> sdone (sd_pc sd) = true) ->
  marshal_message (response_message id h) = Ok t ->
  exists c', run ro [ERead r text; EReader r; ETake r; ELoop; EReturn h; ELoop; EChunk WL (String.length t); EWritten WL; ELoop] c =
    Some (c', [ORead text; OTaken q id; OHandle x id; OReturn id h; OBytes t; OWrote WL t; OReply id h (Written t)]) /\
    intact c c' /\ idle c' (length (c_readers c)).
Proof.
  intros (HL & HN & HC & HB) HK HW HX HI HS HH HD HT. apply inbound_request in HI. destruct HI as (a & p & R1 & R2). destruct (take_all t) as [T2 T3].
  assert (HE : existsb (fun sd => sd_inh sd && negb (sdone (sd_pc sd))) (c_senders c) = false).
  { destruct (existsb _ (c_senders c)) eqn:E; [exfalso|reflexivity]. apply existsb_exists in E. destruct E as (sd & E1 & E2). apply In_nth_error in E1. destruct E1 as [i E1].
    apply andb_true_iff in E2. destruct E2 as [E2 E3]. rewrite (HD _ _ E1 E2) in E3. discriminate E3. }
  eexists. split.
  - change [ORead text; OTaken q id; OHandle x id; OReturn id h; OBytes t; OWrote WL t; OReply id h (Written t)] with
      ([ORead text] ++ [] ++ [OTaken q id] ++ [OHandle x id] ++ [OReturn id h] ++ [] ++ [OBytes t] ++ [OWrote WL t; OReply id h (Written t)] ++ [] ++ []).
    eapply run_cons; [unfold step; rewrite HC, HN, HB; reflexivity|].
    eapply run_cons; [unfold step; csimp; rewrite HC, (nth_upd_same _ _ _ _ HN); cbn [reader_step]; rewrite R1, R2; reflexivity|].
    eapply run_cons; [unfold step; csimp; rewrite HC, HL, (nth_upd_same _ _ _ _ (nth_upd_same _ _ _ _ HN)); reflexivity|].
    eapply run_cons with (c1 := set_loop (LRun id) (set_loop (LDispatch q id) (set_rpc r (RRes None) (set_rpc r (RReq q id) (set_rpc r (RDecode text) c))))).
    { unfold step; csimp; rewrite HC; unfold loop_step; csimp. unfold seen in HS. cbn [fst snd] in HS. destruct ro.
      - destruct (is_cp_request (m_ty q)); [|discriminate HS]. injection HS as <-. reflexivity.
      - injection HS as <-. reflexivity. }
    eapply run_cons; [unfold step; csimp; rewrite HC; unfold return_ok, calls_over; csimp; rewrite HH, HE; reflexivity|].
    eapply run_cons; [unfold step; csimp; rewrite HC; unfold loop_step; csimp; rewrite HK, HT; reflexivity|].
    eapply run_cons; [unfold step, writing, set_rest; csimp; rewrite HC, HW, HX; cbn [orb]; rewrite T2, T3; reflexivity|].
    eapply run_cons; [unfold step, writing, end_write; csimp; rewrite HC, HW; reflexivity|].
    eapply run_cons; [unfold step; csimp; rewrite HC; unfold loop_step; csimp; reflexivity|]. reflexivity.
  - unfold intact, idle. csimp. rewrite !upd_length, ?HK, ?HC, ?HB. split; [repeat split|]. split; [reflexivity|]. split; [|auto]. rewrite nth_error_app2; rewrite !upd_length; [|lia]. rewrite Nat.sub_diag. reflexivity.
Qed.

Lemma answer_run_more ro c tr r i id q sd text : reach ro c tr -> idle c r -> In (i, (id, q)) (sends tr) ->
  nth_error (c_senders c) i = Some sd -> (exists ch, sd_pc sd = SWait ch) -> is_dt (m_ty q) = false -> response_to text id ->
  exists es c' o x, run ro es c = Some (c', o) /\ o = [ORead text; ORet i x] /\ justifies text id q x /\ answered x = true /\ (~ pending c' id /\ idle c' (length (c_readers c))) /\
    c_lock c' = c_lock c /\ c_wbroken c' = c_wbroken c /\ c_closed c' = c_closed c /\ c_done c' = c_done c /\ Forall (fun e => match e with ESend _ _ _ => False | _ => True end) es /\
    (forall j sj, nth_error (c_senders c') j = Some sj -> exists sj0, nth_error (c_senders c) j = Some sj0 /\ sd_id sj = sd_id sj0 /\ sd_inh sj = sd_inh sj0 /\ (j <> i -> sj = sj0) /\ (j = i -> sd_pc sj = SDone x)).
Proof.
  intros HR (HL & HN & HC & HB) HS HSD [ch HP] HD HT. pose proof (reach_inv _ _ _ HR) as V.
  destruct (sends_in _ _ _ _ _ (v_i _ _ _ V) HS) as (sd' & S4 & S2 & S3). rewrite HSD in S4. injection S4 as <-.
  destruct (v_m _ _ _ V) as (M1 & _ & M3 & _ & M5). pose proof (M5 _ _ _ HSD HP) as ->.
  assert (ER : regd (sd_pc sd) = true) by (rewrite HP; reflexivity). assert (EQ : regr (sd_pc sd) = true) by (rewrite HP; reflexivity).
  destruct (regd_call _ _ _ (v_c _ _ _ V) HSD ER) as (a & pp & A1 & A2).
  pose proof (M1 _ _ HSD) as L1. rewrite ER, A2, S2 in L1. cbn [call_action] in L1. pose proof (M3 _ _ HSD) as L2. rewrite EQ, S2 in L2. rewrite S3 in A1.
  (* what the reader makes of it *)
  assert (X : exists x, justifies text id q (outcome_of x) /\ answered (outcome_of x) = true /\
     exists es, run ro ([ERead r text; EReader r; EReader r] ++ es) c = Some (set_rpc r (RChan id x) (set_rpc r RRead c), [ORead text]) /\ Forall (fun e => match e with ESend _ _ _ => False | _ => True end) es).
  { assert (UU : forall (x y : rpc) l, upd r x (upd r y l) = upd r x l). { intros A0 B0 l. generalize r as k. induction l as [|y l IH]; intros [|k]; cbn [upd]; try reflexivity. rewrite IH. reflexivity. }
    destruct HT as [[p HT]|(e & d & det & HT)].
    - pose proof HT as HT'. apply inbound_result in HT'. pose proof (read_wf _ _ HT') as (_ & l & W1 & HW). injection W1 as ->. pose proof (result_fate _ _ _ A1 HW) as F. rewrite HD in F.
      assert (Y : exists y, result_to_response a (AObj l) = Ok y). { destruct F as (rr & _ & [(v & F & _)|F]); eauto. } destruct Y as [[y|y] Y]; [exists (COk y)|exists (CCode y)];
      (split; [cbn [outcome_of justifies]; eauto|]); (split; [reflexivity|]);
      exists [EReader r]; (split; [|repeat constructor]); cbn [app]; change [ORead text] with ([ORead text] ++ [] ++ [] ++ [] ++ []);
      (eapply run_cons; [unfold step; rewrite HC, HN, HB; reflexivity|]);
      (eapply run_cons; [unfold step; csimp; rewrite HC, (nth_upd_same _ _ _ _ HN); cbn [reader_step]; rewrite HT'; reflexivity|]);
      (eapply run_cons; [unfold step; csimp; rewrite HC, (nth_upd_same _ _ _ _ (nth_upd_same _ _ _ _ HN)); cbn [reader_step id_of]; csimp; rewrite L1; reflexivity|]);
      (eapply run_cons; [unfold step; csimp; rewrite HC, (nth_upd_same _ _ _ _ (nth_upd_same _ _ _ _ (nth_upd_same _ _ _ _ HN))); cbn [reader_step]; csimp; rewrite L1, Y; reflexivity|]);
      cbn [run]; unfold set_rpc; csimp; unfold set_readers; csimp; rewrite !UU; reflexivity.
    - pose proof HT as HT'. apply inbound_error in HT'. exists (CErr id e d det). split; [cbn [outcome_of justifies]; auto|]. split; [reflexivity|].
      exists []. split; [|constructor]. cbn [app]. change [ORead text] with ([ORead text] ++ [] ++ [] ++ []).
      eapply run_cons; [unfold step; rewrite HC, HN, HB; reflexivity|].
      eapply run_cons; [unfold step; csimp; rewrite HC, (nth_upd_same _ _ _ _ HN); cbn [reader_step]; rewrite HT'; reflexivity|].
      eapply run_cons; [unfold step; csimp; rewrite HC, (nth_upd_same _ _ _ _ (nth_upd_same _ _ _ _ HN)); cbn [reader_step id_of]; csimp; rewrite L1; reflexivity|].
      cbn [run]. unfold set_rpc; csimp; unfold set_readers; csimp; rewrite !UU; reflexivity. }
  destruct X as (x & J & JA & es & HE & HF).
  assert (RA : forall e1 e2 c0 c1 o1 c2 o2, run ro e1 c0 = Some (c1, o1) -> run ro e2 c1 = Some (c2, o2) -> run ro (e1 ++ e2) c0 = Some (c2, o1 ++ o2)).
  { induction e1 as [|e e1 IH]; intros e2 c0 c1 o1 c2 o2 H1 H2; cbn [run app] in *; [injection H1 as <- <-; exact H2|].
    destruct (step ro e c0) as [[c3 o3]|]; [|discriminate H1]. destruct (run ro e1 c3) as [[c4 o4]|] eqn:E4; [|discriminate H1]. injection H1 as <- <-. rewrite (IH _ _ _ _ _ _ E4 H2), app_assoc. reflexivity. }
  set (sd1 := MkSender (sd_id sd) (sd_q sd) (sd_inh sd) (sd_call sd) (SDel1 x)). set (sd2 := MkSender (sd_id sd) (sd_q sd) (sd_inh sd) (sd_call sd) (SDel2 x)).
  eexists (([ERead r text; EReader r; EReader r] ++ es) ++ [EReader r; EReceive i r; EStep i; EStep i; EResult; ELoop]), _, _, (outcome_of x).
  split; [|split; [reflexivity|]].
  - change [ORead text; ORet i (outcome_of x)] with ([ORead text] ++ [] ++ [] ++ [] ++ [ORet i (outcome_of x)] ++ [] ++ [] ++ []). eapply RA; [exact HE|].
    eapply run_cons; [unfold step; csimp; rewrite HC, (nth_upd_same _ _ _ _ (nth_upd_same _ _ _ _ HN)); cbn [reader_step]; csimp; rewrite L2; reflexivity|].
    eapply run_cons; [unfold step; csimp; rewrite HC, HSD, HP, (nth_upd_same _ _ _ _ (nth_upd_same _ _ _ _ (nth_upd_same _ _ _ _ HN))), Nat.eqb_refl; reflexivity|].
    eapply run_cons; [unfold step; csimp; rewrite HC, (nth_upd_same _ _ _ _ HSD); unfold sender_step; csimp; reflexivity|].
    eapply run_cons; [unfold step; csimp; rewrite HC, (nth_upd_same _ _ _ _ (nth_upd_same _ _ _ _ HSD)); unfold sender_step; csimp; reflexivity|].
    eapply run_cons; [unfold step; csimp; rewrite HC, HL, (nth_upd_same _ _ _ _ (nth_upd_same _ _ _ _ (nth_upd_same _ _ _ _ (nth_upd_same _ _ _ _ HN)))); reflexivity|].
    eapply run_cons; [unfold step; csimp; rewrite HC; unfold loop_step; csimp; replace (match ro with CS | _ => LTop end) with LTop by (destruct ro; reflexivity); reflexivity|]. reflexivity.
  - split; [exact J|]. split; [exact JA|]. split; [split|].
    + unfold pending. csimp. rewrite S2, lookup_mdel, String.eqb_refl. congruence.
    + unfold idle. csimp. rewrite !upd_length. split; [reflexivity|]. split; [|auto]. rewrite nth_error_app2; rewrite !upd_length; [|lia]. rewrite Nat.sub_diag. reflexivity.
    + csimp. repeat (split; [reflexivity|]). split.
      { apply Forall_app. split; [apply Forall_app; split; [repeat constructor|exact HF]|repeat constructor]. }
      intros j sj HJ. rewrite !nth_upd in HJ. destruct (Nat.eqb_spec i j) as [<-|D].
      * rewrite HSD in HJ. injection HJ as <-. exists sd. repeat (split; [first [reflexivity | exact HSD]|]). split; [intros H; exfalso; apply H; reflexivity|reflexivity].
      * exists sj. repeat (split; [first [reflexivity | exact HJ]|]). intros H. exfalso. apply D. symmetry. exact H.
Qed.
Lemma answer_run ro c tr r i id q sd text : reach ro c tr -> idle c r -> In (i, (id, q)) (sends tr) ->
  nth_error (c_senders c) i = Some sd -> (exists ch, sd_pc sd = SWait ch) -> is_dt (m_ty q) = false -> response_to text id ->
  exists es c' o x, run ro es c = Some (c', o) /\ o = [ORead text; ORet i x] /\ justifies text id q x /\ answered x = true /\ ~ pending c' id /\ idle c' (length (c_readers c)).
Proof.
  intros H1 H2 H3 H4 H5 H6 H7. destruct (answer_run_more _ _ _ _ _ _ _ _ _ H1 H2 H3 H4 H5 H6 H7) as (es & c' & o & x & X1 & X2 & X3 & X4 & (X5 & X6) & _).
  exists es, c', o, x. auto 8.
Qed.

(** A waiting call is answered by a response that arrives. *)
