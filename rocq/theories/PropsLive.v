(** Property theorems C76 - C78: calls return, closed connections are cleaned up, a
    charge point stops or reconnects - from every reachable state, by steps of the
    process's own goroutines alone (SpecLive.v). *)
From Coq Require Import Arith.
From Verif Require Import GoBase Utf8 Json Float64 Lang Types Codec Any Tables Registry Frame FrameRead SpecEnc Conn SpecConn ConnBase ConnInv ConnSend ConnFate ConnMore ConnLast ConnTop CentralSystem SpecCS CSInv CSMore ChargePoint SpecCP CPInv CPMore
  PropsConn PropsCS PropsCP PanicProofs PropsPanic SpecLive ConnLive LiveProofs.
Open Scope string_scope.
Open Scope list_scope.
Opaque step.

(** *** C76: nothing on a connection waits for ever *)
(** Every call in progress returns after at most 9 unaided steps. *)
Theorem C76_call_returns : forall ro c tr i id q, reach ro c tr -> c_crash c = false ->
  In (i, (id, q)) (sends tr) -> ~ In i (map fst (rets tr)) -> expiry_present (TStruct (m_ty q)) (m_val q) = true ->
  exists es c' o x, length es <= 9 /\ forallb unaided es = true /\ run ro es c = Some (c', o) /\ In (i, x) (rets o) /\ no_worse c c'.
Proof.
  intros ro c tr i id q HR HC HS HN HE. pose proof (reach_inv _ _ _ HR) as V. destruct (sends_in _ _ _ _ _ (v_i _ _ _ V) HS) as (sd & H1 & <- & <-).
  assert (SO : sover (sd_pc sd) = false).
  { destruct (v_c _ _ _ V _ _ H1) as (A & B & C & D). destruct (sd_pc sd) eqn:P; try reflexivity; exfalso.
    - apply HN. apply in_map_iff. exists (i, o). split; [reflexivity|]. destruct (v_o _ _ _ V) as [O1 _]. apply O1. exists sd. auto.
    - destruct (request_crash (sd_id sd) _ B C) as [X _]. rewrite (X D) in HE. discriminate HE. }
  destruct (call_returns _ _ _ _ _ HR HC H1 SO) as (es & c' & o & L & U & R & (x & X) & W & _).
  exists es, c', o, x. split; [exact L|]. split; [exact U|]. split; [exact R|]. split; [|exact W]. unfold rets. rewrite pick_in. exists (ORet i x). split; [exact X|reflexivity].
Qed.
(** The lock on writing is free after at most 2. *)
Theorem C76_lock_free : forall ro c tr, reach ro c tr -> c_crash c = false ->
  exists es c' o, length es <= 2 /\ forallb unaided es = true /\ run ro es c = Some (c', o) /\ c_lock c' = None /\ no_worse c c'.
Proof. intros ro c tr HR HC. destruct (free_lock _ _ _ HR HC) as (es & c' & o & L & U & R & K & W & _). exists es, c', o. auto. Qed.
(** The loop waits for the next message, or has left or is leaving the connection, after at most 17: it
    never waits for ever in a handler, for a call made by a handler, for the lock or in a write. *)
Theorem C76_loop_returns : forall ro c tr, reach ro c tr -> c_crash c = false ->
  exists es c' o, length es <= 17 /\ forallb unaided es = true /\ run ro es c = Some (c', o) /\ ((exists r, awaited c' r) \/ loop_left c' = true) /\ no_worse c c'.
Proof.
  intros ro c tr HR HC. destruct (loop_back _ _ _ HR HC) as (es & c' & o & L & U & R & W & B). exists es, c', o. split; [exact L|]. split; [exact U|]. split; [exact R|]. split; [|exact W].
  destruct B as [B|B]; [left; exact B|right]. unfold loop_left. unfold exiting in B. destruct (c_loop c'); try discriminate B; reflexivity.
Qed.
(** A handler that has made a call of its own, the answer to which cannot be read: the
    call times out, the handler returns, its reply is written, the loop goes on. *)
Definition busy_handler := [ERead 0 hb_call; EReader 0; ETake 0; ELoop; ESend true "u1" (MkMsg "csreq.ClearCache" (VStruct [])); EStep 0; EStep 0; EStep 0; EChunk (WS 0) 3].
Example C76_ex : runs CS (ELoop :: busy_handler) = true /\ c_crash (state_of CS (ELoop :: busy_handler)) = false /\
  map fst (sends (trace_of CS (ELoop :: busy_handler))) = [0] /\ rets (trace_of CS (ELoop :: busy_handler)) = [] /\
  (forall q, In (0, ("u1", q)) (sends (trace_of CS (ELoop :: busy_handler))) -> expiry_present (TStruct (m_ty q)) (m_val q) = true) /\
  c_lock (state_of CS (ELoop :: busy_handler)) = Some (WS 0).
Proof. conjs; try (vm_compute; reflexivity). intros q H. vm_compute in H. destruct H as [H|[]]. injection H as <-. vm_compute. reflexivity. Qed.

(** *** C77: a closed connection is cleaned up, whatever the goroutines are doing *)
Theorem C77_cleaned_up : forall s tr k who, creach s tr -> s_crash s = false -> In (ORegistered k who) tr -> closed_on k tr ->
  In (OCleaned k who) tr \/
  exists vs s1 o, length vs <= 26 /\ forallb cs_unaided vs = true /\ crun vs s = Some (s1, o) /\ In (OCleaned k who) o.
Proof. exact closed_cleanup. Qed.
(** The reader fails, another connection is being registered at the same time and holds the lock. *)
Definition lost_busy := connects 0 "/a" ++ closes 0 ++ [VHttp true "GET" "/b"; VStep 1; VShake 1 true; VStep 1].
Example C77_ex : cruns lost_busy = true /\ s_crash (cstate_of lost_busy) = false /\ regs "a" (ctrace_of lost_busy) = [0] /\ closed_on 0 (ctrace_of lost_busy) /\ s_mux (cstate_of lost_busy) = Some 1 /\ cleans "a" (ctrace_of lost_busy) = [].
Proof. unfold closed_on. conjs; vm_compute; tauto. Qed.

(** *** C78: the charge point stops, or reconnects *)
(** Cancelled while connection k is in place and has not closed: it closes it and its goroutine ends. *)
Theorem C78_stops : forall p tr k, xreach p tr -> p_crash p = false -> In QCancelled tr -> up_now tr = true -> S k = length (ups tr) -> ~ link_closed k tr ->
  exists xs p' o, length xs <= 20 /\ forallb cp_unaided xs = true /\ xrun xs p = Some (p', o) /\ In QStopped o.
Proof. exact stop_run. Qed.
(** Not cancelled and connection k has closed: that is noticed within 19 unaided steps; then, after any
    number of failed dials, the first that succeeds puts connection k + 1 in place. *)
Theorem C78_reconnects : forall p tr k n, xreach p tr -> p_crash p = false -> up_now tr = true -> ~ In QStopped tr -> ~ In QCancelled tr -> S k = length (ups tr) -> link_closed k tr ->
  exists xs ys p' o, length xs <= 19 /\ forallb cp_unaided xs = true /\ length ys <= 2 * n + 5 /\
    xrun (xs ++ ys) p = Some (p', map (QConn k) o ++ QLost k :: failures n ++ [QDialed true; QUp (S k)]).
Proof. exact renew_run. Qed.
Definition busy_point := starts 0 ++ map (XConn 0) ([ERead 0 cp_call; EReader 0; ETake 0; ELoop; ESend true "u1" hb; EStep 0; EStep 0; EStep 0; EChunk (WS 0) 3]).
Example C78_ex : let tr := xtrace_of (busy_point ++ [XCancel]) in
  xruns (busy_point ++ [XCancel]) = true /\ p_crash (xstate_of (busy_point ++ [XCancel])) = false /\ In QCancelled tr /\ up_now tr = true /\ length (ups tr) = 1 /\ ~ link_closed 0 tr.
Proof. cbv zeta. unfold link_closed. conjs; try (vm_compute; tauto). vm_compute. intuition discriminate. Qed.
Example C78_ex2 : let xs := busy_point ++ [XConn 0 EUserClose; XConn 0 EUserCancel] in let tr := xtrace_of xs in
  xruns xs = true /\ p_crash (xstate_of xs) = false /\ up_now tr = true /\ length (ups tr) = 1 /\ link_closed 0 tr /\ ~ In QStopped tr /\ ~ In QCancelled tr.
Proof. cbv zeta. unfold link_closed. conjs; try (vm_compute; tauto); vm_compute; intuition discriminate. Qed.
Definition live_theorems := (C76_call_returns, C76_lock_free, C76_loop_returns, C77_cleaned_up, C78_stops, C78_reconnects).
Print Assumptions live_theorems.
