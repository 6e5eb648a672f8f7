(** Undisturbed histories of one central system and its charge points, and what must then happen. *)
From Verif Require Import GoBase Lang Types Registry Frame SpecFrame Conn SpecConn CentralSystem SpecCS ChargePoint Net SpecCalm System SpecSys SpecEnc.
Open Scope string_scope.
Open Scope list_scope.

(** Nothing goes wrong from outside: every connection is undisturbed (SpecCalm.calm), every handshake and every dial that
    ends succeeds, no charge point is cancelled, and no websocket is opened by anybody but the charge points. *)
Definition ycalm (v : yevent) : bool :=
  match v with
  | YCentral (VConn _ e) => calm e
  | YCentral (VShake _ ok) => ok
  | YCentral (VHttp up meth _) => match dispatch up meth with BWebsocket => false | _ => true end
  | YPoint _ (XDial _) | YPoint _ XCancel => false
  | YPoint _ (XConn _ e) => calm e
  | YPoint _ (XSend inh _ _) => negb inh
  | _ => true
  end.
Inductive ycalm_reach (cfg : list (string * string)) : sys -> list yobs -> Prop :=
| ycalm_0 : ycalm_reach cfg (sys0 cfg) []
| ycalm_S : forall y tr v y' o, ycalm_reach cfg y tr -> ycalm v = true -> ystep v y = Some (y', o) -> ycalm_reach cfg y' (tr ++ o).
(** What the users of the two APIs and the HTTP clients do: start calls, ask for services and channels, set listeners, ask for pages. *)
Definition from_outside (v : yevent) : bool :=
  match v with
  | YCentral (VHttp _ _ _) | YCentral (VService _ _ _) | YCentral (VWaitConnect _) | YCentral (VWaitDisconnect _) | YCentral (VSetOn _) | YCentral (VSetOff _) => true
  | YCentral (VConn _ e) | YPoint _ (XConn _ e) => starts_call e
  | YPoint _ (XSend _ _ _) | YPoint _ XWaitC | YPoint _ XWaitD => true
  | _ => false
  end.
(** A step that nobody has to ask for.  A write that moves no byte is not a step. *)
Definition moves_nothing (x : yobs) : Prop := match x with AtCentral (OConn _ (OBytes "")) | AtPoint _ (QConn _ (OBytes "")) => True | _ => False end.
Definition ycalm_step (y y' : sys) (o : list yobs) : Prop :=
  exists v, ycalm v = true /\ from_outside v = false /\ ystep v y = Some (y', o) /\ forall x, moves_nothing x -> o <> [x].
(** Charge point j, known to the central system as [id], has its connection: New has returned, and at the central system it is
    registered, online, and the listener has been called for it. *)
Definition in_place (tr : list yobs) (j : nat) (id : string) : Prop :=
  exists k i f, In (Connected k j i) tr /\ In (AtPoint j (QUp i)) tr /\ In (AtPoint j (QNew true)) tr /\
    In (AtCentral (ORegistered k id)) tr /\ In (AtCentral (OStartOn f k id)) tr /\ In (AtCentral (OCallOn f id)) tr /\ online id (central tr).
(** What has become of a call made at one end of connection k (connection i of charge point j), as SpecCalm.call_done. *)
Definition ycall_done (tr : list yobs) (k j i : nat) (s : side) (n : nat) (id : string) (q : msg) : Prop :=
  (exists o, In (seen k j i s (ORet n o)) tr /\ (answered o = true \/ forall t, request_text id q <> Ok t)) \/
  (exists r, In (seen k j i (other s) (OReturn id r)) tr /\ (r = inl None \/ In (seen k j i (other s) (OReply id r NotEncoded)) tr)).
(** Every call, wherever it was made, was made on a connection between the central system and a charge point, and is done. *)
Definition all_done (tr : list yobs) : Prop :=
  (forall k n id q, In (AtCentral (OConn k (OCall n id q))) tr -> exists j i, In (Connected k j i) tr /\ ycall_done tr k j i Central n id q) /\
  (forall j i n id q, In (AtPoint j (QConn i (OCall n id q))) tr -> exists k, In (Connected k j i) tr /\ ycall_done tr k j i Point n id q).
(** Nothing is on its way in the network. *)
Definition nothing_under_way (y : sys) : Prop := forall w, In w (y_wires y) -> w_in w = [] /\ w_out w = [].
(** Every request passed to Send has its expiry dates (a request without one brings the process down, C75). *)
Definition all_present (tr : list yobs) : Prop :=
  (forall k n id q, In (AtCentral (OConn k (OCall n id q))) tr -> expiry_present (TStruct (m_ty q)) (m_val q) = true) /\
  (forall j i n id q, In (AtPoint j (QConn i (OCall n id q))) tr -> expiry_present (TStruct (m_ty q)) (m_val q) = true).
