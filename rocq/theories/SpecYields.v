(** Specification: which received JSON objects are accepted as a message, and as
    what.  Nothing here mentions decoders. *)
From Verif Require Import GoBase Json Float64 GoTime Lang Codec Any SpecCodec SpecSchema SpecTime SpecShort SpecReads Registry.
Open Scope string_scope.
Open Scope list_scope.
Local Open Scope Z_scope.

(** Members that have to be there, whatever their values. *)
Definition obligatory_table : list (string * list string) :=
  [("cpreq.Authorize", ["idTag"]);
   ("cpreq.BootNotification", ["chargePointModel"; "chargePointVendor"]);
   ("cpreq.DataTransfer", ["vendorId"]);
   ("cpreq.DiagnosticsStatusNotification", ["status"]);
   ("cpreq.FirmwareStatusNotification", ["status"]);
   ("cpreq.MeterValueItems", ["sampledValue"; "timestamp"]);
   ("cpreq.MeterValues", ["connectorId"; "meterValue"]);
   ("cpreq.SampledValue", ["value"]);
   ("cpreq.StartTransaction", ["connectorId"; "idTag"; "meterStart"; "timestamp"]);
   ("cpreq.StatusNotification", ["connectorId"; "errorCode"; "status"]);
   ("cpreq.StopTransaction", ["meterStop"; "timestamp"; "transactionId"]);
   ("cpreq.TransactionDataItems", ["sampledValue"; "timestamp"]);
   ("cpresp.Authorize", ["idTagInfo"]);
   ("cpresp.BootNotification", ["currentTime"; "interval"; "status"]);
   ("cpresp.DataTransfer", ["status"]);
   ("cpresp.Heartbeat", ["currentTime"]);
   ("cpresp.IdTagInfo", ["status"]);
   ("cpresp.StartTransaction", ["idTagInfo"; "transactionId"]);
   ("csreq.CancelReservation", ["reservationId"]);
   ("csreq.ChangeAvailability", ["connectorId"; "type"]);
   ("csreq.ChangeConfiguration", ["key"; "value"]);
   ("csreq.ChargingProfile", ["chargingProfileId"; "chargingProfileKind"; "chargingProfilePurpose"; "chargingSchedule"; "stackLevel"]);
   ("csreq.ChargingSchedule", ["chargingRateUnit"; "chargingSchedulePeriod"]);
   ("csreq.ChargingSchedulePeriodItems", ["limit"; "startPeriod"]);
   ("csreq.DataTransfer", ["vendorId"]);
   ("csreq.GetCompositeSchedule", ["connectorId"; "duration"]);
   ("csreq.GetDiagnostics", ["location"]);
   ("csreq.IdTagInfo", ["status"]);
   ("csreq.LocalAuthorizationListItems", ["idTag"]);
   ("csreq.ReserveNow", ["connectorId"; "expiryDate"; "idTag"; "reservationId"]);
   ("csreq.Reset", ["type"]);
   ("csreq.SendLocalList", ["listVersion"; "updateType"]);
   ("csreq.TriggerMessage", ["requestedMessage"]);
   ("csreq.UnlockConnector", ["connectorId"]);
   ("csreq.UpdateFirmware", ["location"; "retrieveDate"]);
   ("csreq.CsChargingProfiles", ["chargingProfileId"; "chargingProfileKind"; "chargingProfilePurpose"; "chargingSchedule"; "stackLevel"]);
   ("csreq.SetChargingProfile", ["connectorId"; "csChargingProfiles"]);
   ("csresp.ChargingSchedule", ["chargingRateUnit"; "chargingSchedulePeriod"]);
   ("csresp.ChargingSchedulePeriodItems", ["limit"; "startPeriod"]);
   ("csresp.ConfigurationKeyItems", ["key"; "readonly"]);
   ("csresp.GetLocalListVersion", ["listVersion"]);
   ("csresp.CancelReservation", ["status"]);
   ("csresp.ChangeAvailability", ["status"]);
   ("csresp.ChangeConfiguration", ["status"]);
   ("csresp.ClearCache", ["status"]);
   ("csresp.ClearChargingProfile", ["status"]);
   ("csresp.DataTransfer", ["status"]);
   ("csresp.GetCompositeSchedule", ["status"]);
   ("csresp.RemoteStartTransaction", ["status"]);
   ("csresp.RemoteStopTransaction", ["status"]);
   ("csresp.ReserveNow", ["status"]);
   ("csresp.Reset", ["status"]);
   ("csresp.SendLocalList", ["status"]);
   ("csresp.TriggerMessage", ["status"]);
   ("csresp.UnlockConnector", ["status"]);
   ("csresp.SetChargingProfile", ["status"])].
Definition obligatory (n : string) : list string := match lookup n obligatory_table with Some l => l | None => [] end.

(** Whole messages take no members of other names, except the two types without a
    decoder of their own; the structs inside messages do. *)
Definition closed (n : string) : bool := (is_request n || is_response n) && negb (reflective n).

(** The digits of an integer. *)
Definition integer_text (s : string) (z : Z) : Prop :=
  exists sign ds, s = sign +++ ds /\ str_forall is_digit ds = true /\ ds <> "" /\
    ((sign = "" /\ z = digits_val 0 ds) \/ (sign = "-" /\ z = - digits_val 0 ds)).

(** A member called [k] is meant for the field [fd] of [d], and the field is not one
    of the two that no member reaches. *)
Definition goes_to (d : decl) (fd : field) (k : string) : Prop := named d fd k /\ lost (d_name d) (f_name fd) = false.

(** [yields t a v]: the JSON value [a] is accepted where a [t] is expected, as [v].
    A number is accepted as an integer if the text in which it is written (C100) is
    that of an integer. *)
Inductive yields : gty -> any -> gval -> Prop :=
| yl_null t : (forall n, t <> TStruct n) -> yields t ANull (zero t)
| yl_str s : yields TStr (AStr s) (VStr s)
| yl_bool b : yields TBool (ABool b) (VBool b)
| yl_int b x s z : json_number x s -> integer_text s z -> - 2 ^ (b - 1) <= z < 2 ^ (b - 1) -> yields (TInt b) (ANum x) (VInt z)
| yl_f64 x : yields TF64 (ANum x) (VF64 x)
| yl_time s t : go_time s t -> real_time t -> yields TTime (AStr s) (VTime t)
| yl_ptr t a v : a <> ANull -> yields t a v -> yields (TPtr t) a (VPtr v)
| yl_slice t l vs : Forall2 (yields t) l vs -> yields (TSlice t) (AArr l) (VSlice vs)
| yl_struct n d m fs : find_decl n = Some d ->
    (closed n = true -> forall k, In k (map fst m) -> exists fd, In fd (d_fields d) /\ f_json fd = k) ->
    incl (obligatory n) (map fst m) ->
    Forall2 (fun fd kv =>
      fst kv = f_name fd /\
      (forall k a, In (k, a) m -> goes_to d fd k -> yields (f_ty fd) a (snd kv)) /\
      ((forall k, In k (map fst m) -> ~ goes_to d fd k) -> snd kv = zero (f_ty fd)))
      (d_fields d) fs ->
    yields (TStruct n) (AObj m) (VStruct fs).

(** No two members of a message are meant for one field.  Members of an object have
    different names, so this says something about the two types without a decoder of
    their own only. *)
Definition unambiguous (n : string) (a : any) : Prop :=
  forall d m fd k k', reflective n = true -> find_decl n = Some d -> a = AObj m -> In fd (d_fields d) ->
    In k (map fst m) -> In k' (map fst m) -> named d fd k -> named d fd k' -> k = k'.
