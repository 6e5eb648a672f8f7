(** Property theorems C75: a handler that panics. *)
From Coq Require Import Arith.
From Verif Require Import GoBase Utf8 Json Float64 Codec Any Tables Registry Frame Conn SpecConn ConnBase ConnInv ConnFate ConnTop CentralSystem SpecCS CSInv CSMore ChargePoint SpecCP CPInv CPMore SpecLive
  PropsConn PropsCS PropsCP PanicProofs.
Open Scope string_scope.
Open Scope list_scope.
Opaque step.

(** *** C75: a handler that panics *)
(** At the central system the connection it was called for answers every request
    handed over before, not this one, and hands over and answers nothing more. *)
Theorem C75_connection : forall c tr b id a, reach CS c tr -> tr = b ++ OHPanic id :: a ->
  map fst (handles tr) = map (fun x => fst (fst x)) (replies tr) ++ [id] /\
  handles a = [] /\ replies a = [] /\ loop_writes a = [] /\ panics a = [].
Proof.
  intros c tr b id a HR HT. destruct (panic_after _ _ HR _ _ _ HT) as (_ & _ & H1 & _ & H2 & H3 & H4).
  split; [|auto]. apply (panic_counts _ _ _ _ HR). rewrite HT. apply in_or_app. right. left. reflexivity.
Qed.
(** It is closed and cleaned up: from every later state of the central system that is at most 7 steps of its own goroutines away. *)
Theorem C75_cleaned_up : forall s tr k id who, creach s tr -> s_crash s = false -> In (OHPanic id) (conn_trace k tr) -> In (ORegistered k who) tr ->
  In (OCleaned k who) tr \/ exists vs s1 o, length vs <= 7 /\ forallb cs_unaided vs = true /\ crun vs s = Some (s1, o) /\ In (OCleaned k who) o.
Proof. exact panicked_cleanup. Qed.
(** The panic itself ends nothing else: no crash, the registry and the other connections are as before. *)
Theorem C75_others : forall s k e s' o id, cstep (VConn k e) s = Some (s', o) -> In (OConn k (OHPanic id)) o ->
  s_crash s' = false /\ s_conns s' = s_conns s /\ s_chans s' = s_chans s /\ s_closed s' = s_closed s /\ s_count s' = s_count s /\ s_connected s' = s_connected s /\ s_mux s' = s_mux s /\
  forall j, j <> k -> nth_error (s_ks s') j = nth_error (s_ks s) j.
Proof. exact panic_local. Qed.
(** At a charge point it is the end of the process: the last thing that happens. *)
Theorem C75_charge_point : forall p tr k id, xreach p tr -> In (QConn k (OHPanic id)) tr ->
  (exists tr0, tr = tr0 ++ [QConn k (OHPanic id); QConn k OCrash]) /\ forall x, xstep x p = None.
Proof. intros p tr k id HR HI. destruct (point_panic _ _ _ _ HR HI) as [C T]. split; [exact T|]. intros x. exact (point_dead x p C). Qed.
(** So the central system survives a handler that always panics, and the charge point does not. *)
Definition panicking := connects 0 "/a" ++ connects 1 "/b" ++
  [VConn 0 (ERead 0 hb_call); VConn 0 (EReader 0); VConn 0 (ETake 0); VConn 0 ELoop; VConn 0 EHPanic].
Example C75_ex : cruns panicking = true /\ s_crash (cstate_of panicking) = false /\ panics (conn_trace 0 (ctrace_of panicking)) = ["x"] /\
  map fst (handles (conn_trace 0 (ctrace_of panicking))) = ["x"] /\ regs "a" (ctrace_of panicking) = [0] /\ cleans "a" (ctrace_of panicking) = [] /\
  cleans "a" (ctrace_of (panicking ++ [VConn 0 ELoop; VConn 0 ELoop; VStep 0; VStep 0; VStep 0; VStep 0])) = [0] /\
  cruns (panicking ++ [VConn 0 ELoop; VConn 0 ELoop; VStep 0; VStep 0; VStep 0; VStep 0; VConn 1 (ERead 0 hb_call); VConn 1 (EReader 0); VConn 1 (ETake 0); VConn 1 ELoop]) = true.
Proof. conjs; vm_compute; reflexivity. Qed.
Definition cp_call := "[2,""x"",""ClearCache"",{}]".
Example C75_charge_point_ex : let xs := starts 0 ++ [XConn 0 (ERead 0 cp_call); XConn 0 (EReader 0); XConn 0 (ETake 0); XConn 0 ELoop; XConn 0 EHPanic] in
  xruns xs = true /\ In (QConn 0 (OHPanic "x")) (xtrace_of xs).
Proof. cbv zeta. split; vm_compute; [reflexivity|tauto]. Qed.
Definition panic_theorems := (C75_connection, C75_cleaned_up, C75_others, C75_charge_point).
Print Assumptions panic_theorems.
