(** Property theorem C97: what a sent message says. *)
From Coq Require Import ZifyBool.
From Verif Require Import GoBase Utf8 Json Float64 GoTime Lang Types Codec Any AnyProofs SpecCodec
  Tables Registry Frame FrameProofs SpecFrame FrameRead EncProofs RoundTrip Leaves SpecEnc Schemas SpecSchema SpecTime SpecReads ReadsProofs SpecSays SaysProofs SpecJson JsonGrammar.
Open Scope string_scope.
Open Scope list_scope.
Local Open Scope Z_scope.

(** *** C97: every field of a sent message is the member of its name. *)

(** A request on the wire is a frame whose payload says the request. *)
Theorem C97_request : forall id q s, msg_ok q = true -> request_text id q = Ok s ->
  exists a jp m, action_of (m_ty q) = Some a /\
    document s (JArr [JNum "2"; JStr (sanitize id); JStr a; jp]) /\ to_any jp = Some (AObj m) /\
    says (TStruct (m_ty q)) (m_val q) (AObj m).
Proof.
  intros id q s Hq H. destruct (request_shape id q s Hq H) as (text & a & jp & p & HM & Ha & HP & Hp & HU).
  pose proof (marshal_says _ _ _ _ Hq HM HU) as HS. assert (exists m, p = AObj m) as [m ->] by (inversion HS; eexists; reflexivity).
  exists a, jp, m. split; [exact Ha|]. split; [apply parse_document; exact HP|]. split; [exact Hp|exact HS].
Qed.
Print Assumptions C97_request.

(** So is a response. *)
Theorem C97_response : forall id q s, msg_ok q = true -> response_text id q = Ok s ->
  exists jp m, document s (JArr [JNum "3"; JStr (sanitize id); jp]) /\ to_any jp = Some (AObj m) /\
    says (TStruct (m_ty q)) (m_val q) (AObj m).
Proof.
  intros id q s Hq H. destruct (result_shape id q s Hq H) as (text & jp & p & HM & HP & Hp & HU).
  pose proof (marshal_says _ _ _ _ Hq HM HU) as HS. assert (exists m, p = AObj m) as [m ->] by (inversion HS; eexists; reflexivity).
  exists jp, m. split; [apply parse_document; exact HP|]. split; [exact Hp|exact HS].
Qed.
Print Assumptions C97_response.

(** Field by field: present under its own name and saying the field's value, or
    left out because it is nil or a zero number. *)
Theorem C97_field : forall ty d fs m, find_decl ty = Some d -> says (TStruct ty) (VStruct fs) (AObj m) ->
  map fst fs = map f_name (d_fields d) /\ (forall k, In k (map fst m) -> In k (map f_json (d_fields d))) /\
  forall fd v, In fd (d_fields d) -> lookup (f_name fd) fs = Some v ->
    (exists a, lookup (f_json fd) m = Some a /\ says (f_ty fd) v a) \/
    (lookup (f_json fd) m = None /\ (v = VNil \/ v = VInt 0)).
Proof.
  intros ty d fs m Hd H. inversion H as [| | | | | | | | |n d' fs' m' Hd' HN HK HF]; subst. assert (d' = d) as -> by congruence.
  pose proof (names_distinct d (proj1 (find_decl_in _ _ Hd))) as HNd.
  split; [|split; [exact HK|]].
  { clear -HF. induction HF as [|fd kv ds fs [E _] _ IH]; [reflexivity|]. cbn [map]. rewrite E, IH. reflexivity. }
  intros fd v Hfd Hv. clear HK H Hd Hd' HN. revert Hfd Hv HNd. generalize (d_fields d) HF. clear HF. intros ds HF.
  induction HF as [|gd kv ds fs (E & H1 & H2) HF IH]; intros Hfd Hv HNd; [destruct Hfd|].
  cbn [map] in HNd. inversion HNd as [|? ? N1 N2]; subst. destruct kv as [f w]. cbn [fst snd lookup] in *. subst f.
  destruct Hfd as [->|Hfd].
  - rewrite String.eqb_refl in Hv. injection Hv as ->. destruct (lookup (f_json fd) m) as [a|]; [left; exists a; auto|right]. split; [reflexivity|].
    pose proof (proj1 H2 eq_refl) as L. unfold left_out in L. apply orb_true_iff in L.
    destruct L as [L|L]; apply andb_true_iff in L; destruct L as [_ L]; destruct v; try discriminate L; try (left; reflexivity).
    apply Z.eqb_eq in L. right. congruence.
  - destruct (String.eqb_spec (f_name fd) (f_name gd)) as [Eq|_]; [|apply IH; assumption].
    exfalso. apply N1. rewrite <- Eq. apply in_map. exact Hfd.
Qed.
Print Assumptions C97_field.

(** Nothing but nil is written as null, and no list, object or text is written for
    another kind of value. *)
Theorem C97_null : forall t v, says t v ANull -> v = VNil \/ exists w t', v = VPtr w /\ t = TPtr t' /\ says t' w ANull.
Proof. intros t v H. inversion H; subst; try (left; reflexivity). right. eexists _, _. split; [reflexivity|]. split; [reflexivity|assumption]. Qed.
Print Assumptions C97_null.

(** Cases: a request with a left out connector, a nested profile with one of two
    optional times, a list, a text that is not UTF-8. *)
Definition ex_profile97 : gval := VStruct [("ChargingProfileId", VInt 7); ("ChargingProfileKind", VStr "Absolute"); ("ChargingProfilePurpose", VStr "TxProfile");
  ("ChargingSchedule", VPtr (VStruct [("ChargingRateUnit", VStr "W"); ("ChargingSchedulePeriod", VSlice [VPtr (VStruct [("Limit", VF64 (FFin false 5902958103587021 (-49))); ("NumberPhases", VInt 0); ("StartPeriod", VInt 3)])]);
     ("Duration", VInt 0); ("MinChargingRate", VF64 (FFin false 0 (-1074))); ("StartSchedule", VNil)]));
  ("RecurrencyKind", VStr ""); ("StackLevel", VInt 0); ("TransactionId", VInt 0); ("ValidFrom", VPtr (VTime (MkTime 2020 2 29 12 0 1 500000000 7200))); ("ValidTo", VNil)].
Definition ex_start97 : msg := MkMsg "csreq.RemoteStartTransaction" (VStruct [("IdTag", VStr (String (chr 255) "x")); ("ChargingProfile", VPtr ex_profile97); ("ConnectorId", VInt 0)]).
Example C97_ex : msg_ok ex_start97 = true /\
  request_text "i" ex_start97 = Ok ("[2,""i"",""RemoteStartTransaction"",{""chargingProfile"":{""chargingProfileId"":7,""chargingProfileKind"":""Absolute"","
   +++ """chargingProfilePurpose"":""TxProfile"",""chargingSchedule"":{""chargingRateUnit"":""W"",""chargingSchedulePeriod"":[{""limit"":10.485759999999937,"
   +++ """numberPhases"":0,""startPeriod"":3}],""duration"":0,""minChargingRate"":0},""recurrencyKind"":"""",""stackLevel"":0,""transactionId"":0,"
   +++ """validFrom"":""2020-02-29T12:00:01+02:00""},""idTag"":""" +++ replacement +++ "x""}]").
Proof. split; vm_compute; reflexivity. Qed.
Example C97_ex_says : exists m, says (TStruct "csreq.RemoteStartTransaction") (m_val ex_start97) (AObj m) /\
  lookup "connectorId" m = None /\ lookup "idTag" m = Some (AStr (replacement +++ "x")).
Proof.
  destruct C97_ex as [E1 E2]. destruct (C97_request _ _ _ E1 E2) as (a & jp & m & _ & _ & _ & H). exists m. split; [exact H|].
  destruct (find_decl "csreq.RemoteStartTransaction") as [d|] eqn:Ed; [|vm_compute in Ed; discriminate Ed].
  destruct (C97_field _ d _ m Ed H) as (_ & _ & F).
  inversion H as [| | | | | | | | |n d' fs' m' Hd' HN HK HF]; subst. assert (d' = d) as -> by congruence. vm_compute in Ed.
  assert (d_fields d = [MkF "IdTag" TStr "idTag" false (MkX XElem "idTag" false);
     MkF "ChargingProfile" (TPtr (TStruct "csreq.ChargingProfile")) "chargingProfile" true (MkX XElem "chargingProfile" true);
     MkF "ConnectorId" (TInt 32) "connectorId" true (MkX XElem "connectorId" true)]) as ED by (injection Ed as <-; reflexivity).
  rewrite ED in HF. inversion HF as [|? ? ? ? (_ & A1 & A2) HF2]; subst. inversion HF2 as [|? ? ? ? _ HF3]; subst. inversion HF3 as [|? ? ? ? (_ & B1 & B2) _]; subst.
  cbn [f_json f_name f_ty fst snd] in *. split; [apply B2; reflexivity|].
  destruct (lookup "idTag" m) as [a0|]; [|discriminate (proj1 A2 eq_refl)]. specialize (A1 _ eq_refl). inversion A1; subst. vm_compute. reflexivity.
Qed.
