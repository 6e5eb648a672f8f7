(** Property theorems C06 - C09, C13, C14, C17, C18: payload encoding and
    decoding, registries. *)
From Verif Require Import GoBase Utf8 Json JsonProofs JsonText Float64 Float64Proofs GoTime Lang Types Codec EncProofs Any AnyProofs
  DecProofs SpecCodec RoundTrip Tables Registry Frame FrameProofs SpecFrame FrameMore Leaves SpecEnc EncTotal DecTyped Schemas SpecSchema SchemaProofs.
From Verif Require Import PropsFrame.
Open Scope string_scope.
Open Scope list_scope.

(** For witnesses. *)
Definition text_of (r : res string) : string := match r with Ok s => s | _ => "" end.

(** *** C06: integers up to 2^53 arrive exactly. *)
Theorem C06_request_ints : forall id q s, msg_ok q = true -> carried (m_val q) = true ->
  (exists a, req_from_action a = Some (m_ty q)) -> request_text id q = Ok s ->
  exists v, received_request s = Ok (sanitize id, inl (MkMsg (m_ty q) v)) /\ ints v = ints (m_val q).
Proof.
  intros id q s HT HC HA HS. exists (norm_at (TStruct (m_ty q)) (m_val q)).
  split; [exact (request_delivered id q s HT HC HA HS)|exact (ints_norm_at _ _ HT)].
Qed.
Print Assumptions C06_request_ints.
Theorem C06_response_ints : forall id a rq q s, msg_ok q = true -> carried (m_val q) = true ->
  req_from_action a = Some rq -> response_of rq = Some (m_ty q) -> response_text id q = Ok s ->
  exists v, received_response a s = Ok (sanitize id, inl (MkMsg (m_ty q) v)) /\ ints v = ints (m_val q).
Proof.
  intros id a rq q s HT HC HA HR HS. exists (norm_at (TStruct (m_ty q)) (m_val q)).
  split; [exact (response_delivered id a rq q s HT HC HA HR HS)|exact (ints_norm_at _ _ HT)].
Qed.
Print Assumptions C06_response_ints.
Example C06_ex : msg_ok ex_request = true /\ carried (m_val ex_request) = true /\
  (exists a, req_from_action a = Some (m_ty ex_request)) /\ is_ok (request_text "a" ex_request) = true /\ ints (m_val ex_request) = [3; -7; 0]%Z.
Proof. conjs; try (vm_compute; exact eq_refl). exists "StartTransaction". vm_compute. reflexivity. Qed.
Example C06_ex_response : exists a rq, msg_ok ex_response = true /\ carried (m_val ex_response) = true /\
  req_from_action a = Some rq /\ response_of rq = Some (m_ty ex_response) /\ is_ok (response_text "a" ex_response) = true.
Proof. exists "Heartbeat", "cpreq.Heartbeat". conjs; vm_compute; exact eq_refl. Qed.

(** Beyond: altered silently, or rejected. *)
Definition reserve (z : Z) : msg := MkMsg "csreq.CancelReservation" (VStruct [("ReservationId", VInt z)]).
Theorem C06_beyond_refuted :
  (msg_ok (reserve (2 ^ 53 + 1)) = true /\ exists s, request_text "x" (reserve (2 ^ 53 + 1)) = Ok s /\
     received_request s = Ok ("x", inl (reserve (2 ^ 53)))) /\
  (msg_ok (reserve (2 ^ 63 - 1)) = true /\ exists s, request_text "x" (reserve (2 ^ 63 - 1)) = Ok s /\
     received_request s = Ok ("x", inr FormationViolation)).
Proof.
  split; (split; [vm_compute; reflexivity|]).
  - exists "[2,""x"",""CancelReservation"",{""reservationId"":9007199254740992}]". split; vm_compute; reflexivity.
  - exists "[2,""x"",""CancelReservation"",{""reservationId"":9223372036854776000}]". split; vm_compute; reflexivity.
Qed.
Print Assumptions C06_beyond_refuted.

(** *** C07: finite floats arrive exactly, others make sending fail. *)
Theorem C07_request_floats : forall id q s, msg_ok q = true -> carried (m_val q) = true ->
  (exists a, req_from_action a = Some (m_ty q)) -> request_text id q = Ok s ->
  exists v, received_request s = Ok (sanitize id, inl (MkMsg (m_ty q) v)) /\ floats v = floats (m_val q).
Proof.
  intros id q s HT HC HA HS. exists (norm_at (TStruct (m_ty q)) (m_val q)).
  split; [exact (request_delivered id q s HT HC HA HS)|exact (floats_norm_at _ _ HT)].
Qed.
Print Assumptions C07_request_floats.
Theorem C07_response_floats : forall id a rq q s, msg_ok q = true -> carried (m_val q) = true ->
  req_from_action a = Some rq -> response_of rq = Some (m_ty q) -> response_text id q = Ok s ->
  exists v, received_response a s = Ok (sanitize id, inl (MkMsg (m_ty q) v)) /\ floats v = floats (m_val q).
Proof.
  intros id a rq q s HT HC HA HR HS. exists (norm_at (TStruct (m_ty q)) (m_val q)).
  split; [exact (response_delivered id a rq q s HT HC HA HR HS)|exact (floats_norm_at _ _ HT)].
Qed.
Print Assumptions C07_response_floats.
Theorem C07_nonfinite_fails : forall id q, msg_ok q = true -> finite_floats (m_val q) = false ->
  expiry_present (TStruct (m_ty q)) (m_val q) = true ->
  (exists e, request_text id q = Err e) /\ (exists e, response_text id q = Err e).
Proof. exact nonfinite_fails. Qed.
Print Assumptions C07_nonfinite_fails.
Definition ex_firmware (x : f64) : msg := MkMsg "csreq.UpdateFirmware"
  (VStruct [("Location", VStr "l"); ("Retries", VF64 x); ("RetrieveDate", VTime time_zero); ("RetryInterval", VF64 x)]).
Definition ex_float : f64 := match parse_float "0.1" with Some x => x | None => FNaN end.
Example C07_ex : msg_ok (ex_firmware ex_float) = true /\ carried (m_val (ex_firmware ex_float)) = true /\
  (exists a, req_from_action a = Some (m_ty (ex_firmware ex_float))) /\ is_ok (request_text "a" (ex_firmware ex_float)) = true /\
  floats (m_val (ex_firmware ex_float)) = [ex_float; ex_float].
Proof. conjs; try (vm_compute; exact eq_refl). exists "UpdateFirmware". vm_compute. reflexivity. Qed.
Example C07_ex_nan : msg_ok (ex_firmware FNaN) = true /\ finite_floats (m_val (ex_firmware FNaN)) = false /\
  expiry_present (TStruct (m_ty (ex_firmware FNaN))) (m_val (ex_firmware FNaN)) = true.
Proof. vm_compute. auto. Qed.

(** *** C08: timestamps arrive cut to whole seconds. *)
Theorem C08_request_times : forall id q s, msg_ok q = true -> carried (m_val q) = true ->
  (exists a, req_from_action a = Some (m_ty q)) -> lossy (m_ty q) = false -> request_text id q = Ok s ->
  exists v, received_request s = Ok (sanitize id, inl (MkMsg (m_ty q) v)) /\ times v = map trunc_sec (times (m_val q)).
Proof.
  intros id q s HT HC HA HL HS. exists (norm_at (TStruct (m_ty q)) (m_val q)).
  split; [exact (request_delivered id q s HT HC HA HS)|].
  rewrite (norm_at_norm _ (TStruct (m_ty q)) HT HL). apply times_norm.
Qed.
Print Assumptions C08_request_times.
Theorem C08_response_times : forall id a rq q s, msg_ok q = true -> carried (m_val q) = true ->
  req_from_action a = Some rq -> response_of rq = Some (m_ty q) -> lossy (m_ty q) = false -> response_text id q = Ok s ->
  exists v, received_response a s = Ok (sanitize id, inl (MkMsg (m_ty q) v)) /\ times v = map trunc_sec (times (m_val q)).
Proof.
  intros id a rq q s HT HC HA HR HL HS. exists (norm_at (TStruct (m_ty q)) (m_val q)).
  split; [exact (response_delivered id a rq q s HT HC HA HR HS)|].
  rewrite (norm_at_norm _ (TStruct (m_ty q)) HT HL). apply times_norm.
Qed.
Print Assumptions C08_response_times.
(** What cutting means, and that it does happen. *)
Theorem C08_trunc : forall t, t_nsec (trunc_sec t) = 0%Z /\
  trunc_sec t = MkTime (t_year t) (t_month t) (t_day t) (t_hour t) (t_min t) (t_sec t) 0 (t_off t).
Proof. intros []. split; reflexivity. Qed.
Print Assumptions C08_trunc.
Theorem C08_exact_refuted : exists s v, request_text "x" ex_request = Ok s /\
  received_request s = Ok ("x", inl (MkMsg "cpreq.StartTransaction" v)) /\
  times v <> times (m_val ex_request).
Proof.
  eexists. eexists. split; [vm_compute; reflexivity|]. split; [vm_compute; reflexivity|]. vm_compute. discriminate.
Qed.
Print Assumptions C08_exact_refuted.
Example C08_ex : lossy (m_ty ex_request) = false /\ lossy (m_ty ex_response) = false.
Proof. vm_compute. auto. Qed.

(** *** C09: payload round-trip for every message type. *)
Theorem C09_request : forall id q s, msg_ok q = true -> carried (m_val q) = true ->
  (exists a, req_from_action a = Some (m_ty q)) -> lossy (m_ty q) = false -> request_text id q = Ok s ->
  received_request s = Ok (sanitize id, inl (MkMsg (m_ty q) (norm (m_val q)))).
Proof.
  intros id q s HT HC HA HL HS. rewrite <- (norm_at_norm _ (TStruct (m_ty q)) HT HL).
  exact (request_delivered id q s HT HC HA HS).
Qed.
Print Assumptions C09_request.
Theorem C09_response : forall id a rq q s, msg_ok q = true -> carried (m_val q) = true ->
  req_from_action a = Some rq -> response_of rq = Some (m_ty q) -> lossy (m_ty q) = false -> response_text id q = Ok s ->
  received_response a s = Ok (sanitize id, inl (MkMsg (m_ty q) (norm (m_val q)))).
Proof.
  intros id a rq q s HT HC HA HR HL HS. rewrite <- (norm_at_norm _ (TStruct (m_ty q)) HT HL).
  exact (response_delivered id a rq q s HT HC HA HR HS).
Qed.
Print Assumptions C09_response.
(** [lossy] concerns one message type only. *)
Theorem C09_only_local_list : forall ty, is_request ty = true \/ is_response ty = true -> lossy ty = true -> ty = "csreq.SendLocalList".
Proof.
  intros ty H HL. unfold lossy in HL. apply strmem_In in HL. destruct HL as [<-|[<-|[<-|[]]]]; [reflexivity|exfalso..];
    destruct H as [H|H]; vm_compute in H; discriminate.
Qed.
Print Assumptions C09_only_local_list.
(** Values that already have the normal form arrive unchanged. *)
Theorem C09_norm_id : forall v, Forall (fun s => utf8_valid s = true) (strings v) ->
  Forall (fun t => t_nsec t = 0%Z) (times v) -> norm v = v.
Proof.
  induction v as [s|z|x|b|x| |v IH|l IH|fs IH] using gval_ind'; intros HS HT; try reflexivity.
  - cbn in HS. inversion HS; subst. cbn [norm]. f_equal. apply sanitize_id_iff. assumption.
  - cbn in HT. inversion HT; subst. cbn [norm]. f_equal. destruct x. cbn in *. subst. reflexivity.
  - cbn [norm]. f_equal. apply IH; assumption.
  - cbn [norm]. f_equal. rewrite <- (map_same l) at 2. apply map_ext_in. intros x Hx. rewrite Forall_forall in IH.
    unfold strings, times in *. cbn [leaves] in HS, HT. rewrite Forall_flat_map in HS, HT. rewrite Forall_forall in HS, HT. apply IH; auto.
  - cbn [norm]. f_equal. rewrite <- (map_same fs) at 2. apply map_ext_in. intros [k x] Hx. rewrite Forall_forall in IH.
    unfold strings, times in *. cbn [leaves] in HS, HT. rewrite Forall_flat_map in HS, HT. rewrite Forall_forall in HS, HT.
    cbn [fst snd]. f_equal. apply (IH (k, x) Hx); [apply (HS (k, x) Hx)|apply (HT (k, x) Hx)].
Qed.
Print Assumptions C09_norm_id.

(** *** C13: Go's map iteration order does not matter. *)
Theorem C13_any_order : forall o j, any_order o -> forall p t c, dec_o o p j t c = dec j t c.
Proof. exact dec_o_dec. Qed.
Print Assumptions C13_any_order.

(** *** C14: local authorization lists. *)
Theorem C14_request : forall id q s, msg_ok q = true -> carried (m_val q) = true ->
  (exists a, req_from_action a = Some (m_ty q)) -> request_text id q = Ok s ->
  received_request s = Ok (sanitize id, inl (MkMsg (m_ty q) (norm_at (TStruct (m_ty q)) (m_val q)))).
Proof. exact request_delivered. Qed.
Print Assumptions C14_request.
Definition ex_tag (expiry : gval) : gval :=
  VPtr (VStruct [("ExpiryDate", expiry); ("ParentIdTag", VStr "parent"); ("Status", VStr "Accepted")]).
Definition ex_list (expiry : gval) : msg := MkMsg "csreq.SendLocalList"
  (VStruct [("ListVersion", VInt 1); ("LocalAuthorizationList", VSlice [VPtr (VStruct [("IdTag", VStr "tag"); ("IdTagInfo", ex_tag expiry)])]);
            ("UpdateType", VStr "Full")]).
Theorem C14_lost : exists s, msg_ok (ex_list (VPtr (VTime (MkTime 2030 1 1 0 0 0 0 0)))) = true /\
  request_text "x" (ex_list (VPtr (VTime (MkTime 2030 1 1 0 0 0 0 0)))) = Ok s /\
  received_request s = Ok ("x", inl (MkMsg "csreq.SendLocalList"
    (VStruct [("ListVersion", VInt 1);
              ("LocalAuthorizationList", VSlice [VPtr (VStruct [("IdTag", VStr "tag");
                 ("IdTagInfo", VPtr (VStruct [("ExpiryDate", VNil); ("ParentIdTag", VStr ""); ("Status", VStr "Accepted")]))])]);
              ("UpdateType", VStr "Full")]))).
Proof.
  exists (text_of (request_text "x" (ex_list (VPtr (VTime (MkTime 2030 1 1 0 0 0 0 0)))))).
  conjs; vm_compute; exact eq_refl.
Qed.
Print Assumptions C14_lost.
Theorem C14_no_crash_refuted : msg_ok (ex_list VNil) = true /\ request_text "x" (ex_list VNil) = Panic.
Proof. vm_compute. auto. Qed.
Print Assumptions C14_no_crash_refuted.
(** Nothing else ever crashes the encoder. *)
Theorem C14_only_crash : forall n v, has_type v (TStruct n) = true -> marshal_msg n v = Panic -> expiry_present (TStruct n) v = false.
Proof. intros n v HT. exact (proj1 (proj2 (marshal_total n v HT))). Qed.
Print Assumptions C14_only_crash.


(** *** C17: action names. *)
Theorem C17_action_names : forall a ty, req_from_action a = Some ty -> action_of ty = Some a.
Proof. exact action_names. Qed.
Print Assumptions C17_action_names.
Theorem C17_action_found : forall ty a, action_of ty = Some a -> ty <> "cpreq.DataTransfer" -> ty <> "csreq.DataTransfer" ->
  req_from_action a = Some ty.
Proof. exact action_found. Qed.
Print Assumptions C17_action_found.
Theorem C17_action_unknown : forall a, ~ In a (map snd action_table) -> req_from_action a = None.
Proof. exact action_unknown. Qed.
Print Assumptions C17_action_unknown.
Theorem C17_datatransfer_refuted : action_of "cpreq.DataTransfer" = Some "DataTransfer" /\
  action_of "csreq.DataTransfer" = Some "DataTransfer" /\ req_from_action "DataTransfer" = None.
Proof. vm_compute. auto. Qed.
Print Assumptions C17_datatransfer_refuted.
Theorem C17_requests_have_actions : forall ty, is_request ty = true -> exists a r, action_of ty = Some a /\ response_of ty = Some r.
Proof. exact request_total. Qed.
Print Assumptions C17_requests_have_actions.

(** *** C18: response types. *)
Theorem C18_response_types : forall a, res_from_action a =
  match req_from_action a with Some ty => response_of ty | None => None end.
Proof. exact response_types. Qed.
Print Assumptions C18_response_types.
Theorem C18_directions : forall ty r, response_of ty = Some r ->
  is_cp_request ty = is_cp_response r /\ is_cs_request ty = is_cs_response r /\ is_cp_request ty = negb (is_cs_request ty).
Proof. exact directions. Qed.
Print Assumptions C18_directions.
Example C18_ex : response_of "cpreq.Authorize" = Some "cpresp.Authorize" /\ is_cp_response "cpresp.Authorize" = true.
Proof. vm_compute. auto. Qed.
