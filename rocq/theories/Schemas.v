(** GENERATED by tools/gen_schemas.py: the JSON schemas bundled with the library
    (ws/json/*.json, not used by its code), as an independent description of the
    OCPP 1.6 payloads. *)
From Verif Require Import GoBase.
Open Scope string_scope.
Open Scope list_scope.

(** A JSON schema, as far as ws/json/*.json use them. *)
Inductive schema : Type :=
| SStr (maxlen : option nat) (enum : list string) (datetime : bool)
| SInt | SNum | SBool
| SArr (items : schema)
| SObj (props : list (string * schema)) (required : list string) (additional : bool).

(** ws/json/Authorize.json *)
Definition s_Authorize : schema :=
  SObj [
   ("idTag", SStr (Some 20%nat) [] false)]
   ["idTag"] false.

(** ws/json/AuthorizeResponse.json *)
Definition s_AuthorizeResponse : schema :=
  SObj [
   ("idTagInfo", SObj [
       ("status", SStr None ["Accepted"; "Blocked"; "Expired"; "Invalid"; "ConcurrentTx"] false);
       ("expiryDate", SStr None [] true);
       ("parentIdTag", SStr (Some 20%nat) [] false)]
       ["status"] true)]
   ["idTagInfo"] false.

(** ws/json/BootNotification.json *)
Definition s_BootNotification : schema :=
  SObj [
   ("chargePointVendor", SStr (Some 20%nat) [] false);
   ("chargePointModel", SStr (Some 20%nat) [] false);
   ("chargePointSerialNumber", SStr (Some 25%nat) [] false);
   ("chargeBoxSerialNumber", SStr (Some 25%nat) [] false);
   ("firmwareVersion", SStr (Some 50%nat) [] false);
   ("iccid", SStr (Some 20%nat) [] false);
   ("imsi", SStr (Some 20%nat) [] false);
   ("meterType", SStr (Some 25%nat) [] false);
   ("meterSerialNumber", SStr (Some 25%nat) [] false)]
   ["chargePointVendor"; "chargePointModel"] false.

(** ws/json/BootNotificationResponse.json *)
Definition s_BootNotificationResponse : schema :=
  SObj [
   ("status", SStr None ["Accepted"; "Pending"; "Rejected"] false);
   ("currentTime", SStr None [] true);
   ("interval", SNum)]
   ["status"; "currentTime"; "interval"] false.

(** ws/json/CancelReservation.json *)
Definition s_CancelReservation : schema :=
  SObj [
   ("reservationId", SInt)]
   ["reservationId"] false.

(** ws/json/CancelReservationResponse.json *)
Definition s_CancelReservationResponse : schema :=
  SObj [
   ("status", SStr None ["Accepted"; "Rejected"] false)]
   ["status"] false.

(** ws/json/ChangeAvailability.json *)
Definition s_ChangeAvailability : schema :=
  SObj [
   ("connectorId", SInt);
   ("type", SStr None ["Inoperative"; "Operative"] false)]
   ["connectorId"; "type"] false.

(** ws/json/ChangeAvailabilityResponse.json *)
Definition s_ChangeAvailabilityResponse : schema :=
  SObj [
   ("status", SStr None ["Accepted"; "Rejected"; "Scheduled"] false)]
   ["status"] false.

(** ws/json/ChangeConfiguration.json *)
Definition s_ChangeConfiguration : schema :=
  SObj [
   ("key", SStr (Some 50%nat) [] false);
   ("value", SStr (Some 500%nat) [] false)]
   ["key"; "value"] false.

(** ws/json/ChangeConfigurationResponse.json *)
Definition s_ChangeConfigurationResponse : schema :=
  SObj [
   ("status", SStr None ["Accepted"; "Rejected"; "RebootRequired"; "NotSupported"] false)]
   ["status"] false.

(** ws/json/ClearCache.json *)
Definition s_ClearCache : schema :=
  SObj []
   [] false.

(** ws/json/ClearCacheResponse.json *)
Definition s_ClearCacheResponse : schema :=
  SObj [
   ("status", SStr None ["Accepted"; "Rejected"] false)]
   ["status"] false.

(** ws/json/ClearChargingProfile.json *)
Definition s_ClearChargingProfile : schema :=
  SObj [
   ("id", SInt);
   ("connectorId", SInt);
   ("chargingProfilePurpose", SStr None ["ChargePointMaxProfile"; "TxDefaultProfile"; "TxProfile"] false);
   ("stackLevel", SInt)]
   [] false.

(** ws/json/ClearChargingProfileResponse.json *)
Definition s_ClearChargingProfileResponse : schema :=
  SObj [
   ("status", SStr None ["Accepted"; "Unknown"] false)]
   ["status"] false.

(** ws/json/DataTransfer.json *)
Definition s_DataTransfer : schema :=
  SObj [
   ("vendorId", SStr (Some 255%nat) [] false);
   ("messageId", SStr (Some 50%nat) [] false);
   ("data", SStr None [] false)]
   ["vendorId"] false.

(** ws/json/DataTransferResponse.json *)
Definition s_DataTransferResponse : schema :=
  SObj [
   ("status", SStr None ["Accepted"; "Rejected"; "UnknownMessageId"; "UnknownVendorId"] false);
   ("data", SStr None [] false)]
   ["status"] false.

(** ws/json/DiagnosticsStatusNotification.json *)
Definition s_DiagnosticsStatusNotification : schema :=
  SObj [
   ("status", SStr None ["Idle"; "Uploaded"; "UploadFailed"; "Uploading"] false)]
   ["status"] false.

(** ws/json/DiagnosticsStatusNotificationResponse.json *)
Definition s_DiagnosticsStatusNotificationResponse : schema :=
  SObj []
   [] false.

(** ws/json/FirmwareStatusNotification.json *)
Definition s_FirmwareStatusNotification : schema :=
  SObj [
   ("status", SStr None ["Downloaded"; "DownloadFailed"; "Downloading"; "Idle"; "InstallationFailed"; "Installing"; "Installed"] false)]
   ["status"] false.

(** ws/json/FirmwareStatusNotificationResponse.json *)
Definition s_FirmwareStatusNotificationResponse : schema :=
  SObj []
   [] false.

(** ws/json/GetCompositeSchedule.json *)
Definition s_GetCompositeSchedule : schema :=
  SObj [
   ("connectorId", SInt);
   ("duration", SInt);
   ("chargingRateUnit", SStr None ["A"; "W"] false)]
   ["connectorId"; "duration"] false.

(** ws/json/GetCompositeScheduleResponse.json *)
Definition s_GetCompositeScheduleResponse : schema :=
  SObj [
   ("status", SStr None ["Accepted"; "Rejected"] false);
   ("connectorId", SInt);
   ("scheduleStart", SStr None [] true);
   ("chargingSchedule", SObj [
       ("duration", SInt);
       ("startSchedule", SStr None [] true);
       ("chargingRateUnit", SStr None ["A"; "W"] false);
       ("chargingSchedulePeriod", SArr (SObj [
             ("startPeriod", SInt);
             ("limit", SNum);
             ("numberPhases", SInt)]
             ["startPeriod"; "limit"] true));
       ("minChargingRate", SNum)]
       ["chargingRateUnit"; "chargingSchedulePeriod"] true)]
   ["status"] false.

(** ws/json/GetConfiguration.json *)
Definition s_GetConfiguration : schema :=
  SObj [
   ("key", SArr (SStr (Some 50%nat) [] false))]
   [] false.

(** ws/json/GetConfigurationResponse.json *)
Definition s_GetConfigurationResponse : schema :=
  SObj [
   ("configurationKey", SArr (SObj [
         ("key", SStr (Some 50%nat) [] false);
         ("readonly", SBool);
         ("value", SStr (Some 500%nat) [] false)]
         ["key"; "readonly"] true));
   ("unknownKey", SArr (SStr (Some 50%nat) [] false))]
   [] false.

(** ws/json/GetDiagnostics.json *)
Definition s_GetDiagnostics : schema :=
  SObj [
   ("location", SStr None [] false);
   ("retries", SInt);
   ("retryInterval", SInt);
   ("startTime", SStr None [] true);
   ("stopTime", SStr None [] true)]
   ["location"] false.

(** ws/json/GetDiagnosticsResponse.json *)
Definition s_GetDiagnosticsResponse : schema :=
  SObj [
   ("fileName", SStr (Some 255%nat) [] false)]
   [] false.

(** ws/json/GetLocalListVersion.json *)
Definition s_GetLocalListVersion : schema :=
  SObj []
   [] false.

(** ws/json/GetLocalListVersionResponse.json *)
Definition s_GetLocalListVersionResponse : schema :=
  SObj [
   ("listVersion", SInt)]
   ["listVersion"] false.

(** ws/json/Heartbeat.json *)
Definition s_Heartbeat : schema :=
  SObj []
   [] false.

(** ws/json/HeartbeatResponse.json *)
Definition s_HeartbeatResponse : schema :=
  SObj [
   ("currentTime", SStr None [] true)]
   ["currentTime"] false.

(** ws/json/MeterValues.json *)
Definition s_MeterValues : schema :=
  SObj [
   ("connectorId", SInt);
   ("transactionId", SInt);
   ("meterValue", SArr (SObj [
         ("timestamp", SStr None [] true);
         ("sampledValue", SArr (SObj [
               ("value", SStr None [] false);
               ("context", SStr None ["Interruption.Begin"; "Interruption.End"; "Sample.Clock"; "Sample.Periodic"; "Transaction.Begin"; "Transaction.End"; "Trigger"; "Other"] false);
               ("format", SStr None ["Raw"; "SignedData"] false);
               ("measurand", SStr None ["Energy.Active.Export.Register"; "Energy.Active.Import.Register"; "Energy.Reactive.Export.Register"; "Energy.Reactive.Import.Register"; "Energy.Active.Export.Interval"; "Energy.Active.Import.Interval"; "Energy.Reactive.Export.Interval"; "Energy.Reactive.Import.Interval"; "Power.Active.Export"; "Power.Active.Import"; "Power.Offered"; "Power.Reactive.Export"; "Power.Reactive.Import"; "Power.Factor"; "Current.Import"; "Current.Export"; "Current.Offered"; "Voltage"; "Frequency"; "Temperature"; "SoC"; "RPM"] false);
               ("phase", SStr None ["L1"; "L2"; "L3"; "N"; "L1-N"; "L2-N"; "L3-N"; "L1-L2"; "L2-L3"; "L3-L1"] false);
               ("location", SStr None ["Cable"; "EV"; "Inlet"; "Outlet"; "Body"] false);
               ("unit", SStr None ["Wh"; "kWh"; "varh"; "kvarh"; "W"; "kW"; "VA"; "kVA"; "var"; "kvar"; "A"; "V"; "K"; "Celcius"; "Fahrenheit"; "Percent"] false)]
               ["value"] true))]
         ["timestamp"; "sampledValue"] true))]
   ["connectorId"; "meterValue"] false.

(** ws/json/MeterValuesResponse.json *)
Definition s_MeterValuesResponse : schema :=
  SObj []
   [] false.

(** ws/json/RemoteStartTransaction.json *)
Definition s_RemoteStartTransaction : schema :=
  SObj [
   ("connectorId", SInt);
   ("idTag", SStr (Some 20%nat) [] false);
   ("chargingProfile", SObj [
       ("chargingProfileId", SInt);
       ("transactionId", SInt);
       ("stackLevel", SInt);
       ("chargingProfilePurpose", SStr None ["ChargePointMaxProfile"; "TxDefaultProfile"; "TxProfile"] false);
       ("chargingProfileKind", SStr None ["Absolute"; "Recurring"; "Relative"] false);
       ("recurrencyKind", SStr None ["Daily"; "Weekly"] false);
       ("validFrom", SStr None [] true);
       ("validTo", SStr None [] true);
       ("chargingSchedule", SObj [
           ("duration", SInt);
           ("startSchedule", SStr None [] true);
           ("chargingRateUnit", SStr None ["A"; "W"] false);
           ("chargingSchedulePeriod", SArr (SObj [
                 ("startPeriod", SInt);
                 ("limit", SNum);
                 ("numberPhases", SInt)]
                 ["startPeriod"; "limit"] true));
           ("minChargingRate", SNum)]
           ["chargingRateUnit"; "chargingSchedulePeriod"] true)]
       ["chargingProfileId"; "stackLevel"; "chargingProfilePurpose"; "chargingProfileKind"; "chargingSchedule"] true)]
   ["idTag"] false.

(** ws/json/RemoteStartTransactionResponse.json *)
Definition s_RemoteStartTransactionResponse : schema :=
  SObj [
   ("status", SStr None ["Accepted"; "Rejected"] false)]
   ["status"] false.

(** ws/json/RemoteStopTransaction.json *)
Definition s_RemoteStopTransaction : schema :=
  SObj [
   ("transactionId", SInt)]
   ["transactionId"] false.

(** ws/json/RemoteStopTransactionResponse.json *)
Definition s_RemoteStopTransactionResponse : schema :=
  SObj [
   ("status", SStr None ["Accepted"; "Rejected"] false)]
   ["status"] false.

(** ws/json/ReserveNow.json *)
Definition s_ReserveNow : schema :=
  SObj [
   ("connectorId", SInt);
   ("expiryDate", SStr None [] true);
   ("idTag", SStr (Some 20%nat) [] false);
   ("parentIdTag", SStr (Some 20%nat) [] false);
   ("reservationId", SInt)]
   ["connectorId"; "expiryDate"; "idTag"; "reservationId"] false.

(** ws/json/ReserveNowResponse.json *)
Definition s_ReserveNowResponse : schema :=
  SObj [
   ("status", SStr None ["Accepted"; "Faulted"; "Occupied"; "Rejected"; "Unavailable"] false)]
   ["status"] false.

(** ws/json/Reset.json *)
Definition s_Reset : schema :=
  SObj [
   ("type", SStr None ["Hard"; "Soft"] false)]
   ["type"] false.

(** ws/json/ResetResponse.json *)
Definition s_ResetResponse : schema :=
  SObj [
   ("status", SStr None ["Accepted"; "Rejected"] false)]
   ["status"] false.

(** ws/json/SendLocalList.json *)
Definition s_SendLocalList : schema :=
  SObj [
   ("listVersion", SInt);
   ("localAuthorizationList", SArr (SObj [
         ("idTag", SStr (Some 20%nat) [] false);
         ("idTagInfo", SObj [
             ("status", SStr None ["Accepted"; "Blocked"; "Expired"; "Invalid"; "ConcurrentTx"] false)]
             ["status"] true)]
         ["idTag"] true));
   ("updateType", SStr None ["Differential"; "Full"] false)]
   ["listVersion"; "updateType"] false.

(** ws/json/SendLocalListResponse.json *)
Definition s_SendLocalListResponse : schema :=
  SObj [
   ("status", SStr None ["Accepted"; "Failed"; "NotSupported"; "VersionMismatch"] false)]
   ["status"] false.

(** ws/json/SetChargingProfile.json *)
Definition s_SetChargingProfile : schema :=
  SObj [
   ("connectorId", SInt);
   ("csChargingProfiles", SObj [
       ("chargingProfileId", SInt);
       ("transactionId", SInt);
       ("stackLevel", SInt);
       ("chargingProfilePurpose", SStr None ["ChargePointMaxProfile"; "TxDefaultProfile"; "TxProfile"] false);
       ("chargingProfileKind", SStr None ["Absolute"; "Recurring"; "Relative"] false);
       ("recurrencyKind", SStr None ["Daily"; "Weekly"] false);
       ("validFrom", SStr None [] true);
       ("validTo", SStr None [] true);
       ("chargingSchedule", SObj [
           ("duration", SInt);
           ("startSchedule", SStr None [] true);
           ("chargingRateUnit", SStr None ["A"; "W"] false);
           ("chargingSchedulePeriod", SArr (SObj [
                 ("startPeriod", SInt);
                 ("limit", SNum);
                 ("numberPhases", SInt)]
                 ["startPeriod"; "limit"] true));
           ("minChargingRate", SNum)]
           ["chargingRateUnit"; "chargingSchedulePeriod"] true)]
       ["chargingProfileId"; "stackLevel"; "chargingProfilePurpose"; "chargingProfileKind"; "chargingSchedule"] true)]
   ["connectorId"; "csChargingProfiles"] false.

(** ws/json/SetChargingProfileResponse.json *)
Definition s_SetChargingProfileResponse : schema :=
  SObj [
   ("status", SStr None ["Accepted"; "Rejected"; "NotSupported"] false)]
   ["status"] false.

(** ws/json/StartTransaction.json *)
Definition s_StartTransaction : schema :=
  SObj [
   ("connectorId", SInt);
   ("idTag", SStr (Some 20%nat) [] false);
   ("meterStart", SInt);
   ("reservationId", SInt);
   ("timestamp", SStr None [] true)]
   ["connectorId"; "idTag"; "meterStart"; "timestamp"] false.

(** ws/json/StartTransactionResponse.json *)
Definition s_StartTransactionResponse : schema :=
  SObj [
   ("idTagInfo", SObj [
       ("expiryDate", SStr None [] true);
       ("parentIdTag", SStr (Some 20%nat) [] false);
       ("status", SStr None ["Accepted"; "Blocked"; "Expired"; "Invalid"; "ConcurrentTx"] false)]
       ["status"] true);
   ("transactionId", SInt)]
   ["idTagInfo"; "transactionId"] false.

(** ws/json/StatusNotification.json *)
Definition s_StatusNotification : schema :=
  SObj [
   ("connectorId", SInt);
   ("errorCode", SStr None ["ConnectorLockFailure"; "EVCommunicationError"; "GroundFailure"; "HighTemperature"; "InternalError"; "LocalListConflict"; "NoError"; "OtherError"; "OverCurrentFailure"; "PowerMeterFailure"; "PowerSwitchFailure"; "ReaderFailure"; "ResetFailure"; "UnderVoltage"; "OverVoltage"; "WeakSignal"] false);
   ("info", SStr (Some 50%nat) [] false);
   ("status", SStr None ["Available"; "Preparing"; "Charging"; "SuspendedEVSE"; "SuspendedEV"; "Finishing"; "Reserved"; "Unavailable"; "Faulted"] false);
   ("timestamp", SStr None [] true);
   ("vendorId", SStr (Some 255%nat) [] false);
   ("vendorErrorCode", SStr (Some 50%nat) [] false)]
   ["connectorId"; "errorCode"; "status"] false.

(** ws/json/StatusNotificationResponse.json *)
Definition s_StatusNotificationResponse : schema :=
  SObj []
   [] false.

(** ws/json/StopTransaction.json *)
Definition s_StopTransaction : schema :=
  SObj [
   ("idTag", SStr (Some 20%nat) [] false);
   ("meterStop", SInt);
   ("timestamp", SStr None [] true);
   ("transactionId", SInt);
   ("reason", SStr None ["EmergencyStop"; "EVDisconnected"; "HardReset"; "Local"; "Other"; "PowerLoss"; "Reboot"; "Remote"; "SoftReset"; "UnlockCommand"; "DeAuthorized"] false);
   ("transactionData", SArr (SObj [
         ("timestamp", SStr None [] true);
         ("sampledValue", SArr (SObj [
               ("value", SStr None [] false);
               ("context", SStr None ["Interruption.Begin"; "Interruption.End"; "Sample.Clock"; "Sample.Periodic"; "Transaction.Begin"; "Transaction.End"; "Trigger"; "Other"] false);
               ("format", SStr None ["Raw"; "SignedData"] false);
               ("measurand", SStr None ["Energy.Active.Export.Register"; "Energy.Active.Import.Register"; "Energy.Reactive.Export.Register"; "Energy.Reactive.Import.Register"; "Energy.Active.Export.Interval"; "Energy.Active.Import.Interval"; "Energy.Reactive.Export.Interval"; "Energy.Reactive.Import.Interval"; "Power.Active.Export"; "Power.Active.Import"; "Power.Offered"; "Power.Reactive.Export"; "Power.Reactive.Import"; "Power.Factor"; "Current.Import"; "Current.Export"; "Current.Offered"; "Voltage"; "Frequency"; "Temperature"; "SoC"; "RPM"] false);
               ("phase", SStr None ["L1"; "L2"; "L3"; "N"; "L1-N"; "L2-N"; "L3-N"; "L1-L2"; "L2-L3"; "L3-L1"] false);
               ("location", SStr None ["Cable"; "EV"; "Inlet"; "Outlet"; "Body"] false);
               ("unit", SStr None ["Wh"; "kWh"; "varh"; "kvarh"; "W"; "kW"; "VA"; "kVA"; "var"; "kvar"; "A"; "V"; "K"; "Celcius"; "Fahrenheit"; "Percent"] false)]
               ["value"] true))]
         ["timestamp"; "sampledValue"] true))]
   ["transactionId"; "timestamp"; "meterStop"] false.

(** ws/json/StopTransactionResponse.json *)
Definition s_StopTransactionResponse : schema :=
  SObj [
   ("idTagInfo", SObj [
       ("expiryDate", SStr None [] true);
       ("parentIdTag", SStr (Some 20%nat) [] false);
       ("status", SStr None ["Accepted"; "Blocked"; "Expired"; "Invalid"; "ConcurrentTx"] false)]
       ["status"] true)]
   [] false.

(** ws/json/TriggerMessage.json *)
Definition s_TriggerMessage : schema :=
  SObj [
   ("requestedMessage", SStr None ["BootNotification"; "DiagnosticsStatusNotification"; "FirmwareStatusNotification"; "Heartbeat"; "MeterValues"; "StatusNotification"] false);
   ("connectorId", SInt)]
   ["requestedMessage"] false.

(** ws/json/TriggerMessageResponse.json *)
Definition s_TriggerMessageResponse : schema :=
  SObj [
   ("status", SStr None ["Accepted"; "Rejected"; "NotImplemented"] false)]
   ["status"] false.

(** ws/json/UnlockConnector.json *)
Definition s_UnlockConnector : schema :=
  SObj [
   ("connectorId", SInt)]
   ["connectorId"] false.

(** ws/json/UnlockConnectorResponse.json *)
Definition s_UnlockConnectorResponse : schema :=
  SObj [
   ("status", SStr None ["Unlocked"; "UnlockFailed"; "NotSupported"] false)]
   ["status"] false.

(** ws/json/UpdateFirmware.json *)
Definition s_UpdateFirmware : schema :=
  SObj [
   ("location", SStr None [] false);
   ("retries", SNum);
   ("retrieveDate", SStr None [] true);
   ("retryInterval", SNum)]
   ["location"; "retrieveDate"] false.

(** ws/json/UpdateFirmwareResponse.json *)
Definition s_UpdateFirmwareResponse : schema :=
  SObj []
   [] false.

(** ws/json/*.json, by title of the file. *)
Definition schemas : list (string * schema) :=
  [("Authorize", s_Authorize);
   ("AuthorizeResponse", s_AuthorizeResponse);
   ("BootNotification", s_BootNotification);
   ("BootNotificationResponse", s_BootNotificationResponse);
   ("CancelReservation", s_CancelReservation);
   ("CancelReservationResponse", s_CancelReservationResponse);
   ("ChangeAvailability", s_ChangeAvailability);
   ("ChangeAvailabilityResponse", s_ChangeAvailabilityResponse);
   ("ChangeConfiguration", s_ChangeConfiguration);
   ("ChangeConfigurationResponse", s_ChangeConfigurationResponse);
   ("ClearCache", s_ClearCache);
   ("ClearCacheResponse", s_ClearCacheResponse);
   ("ClearChargingProfile", s_ClearChargingProfile);
   ("ClearChargingProfileResponse", s_ClearChargingProfileResponse);
   ("DataTransfer", s_DataTransfer);
   ("DataTransferResponse", s_DataTransferResponse);
   ("DiagnosticsStatusNotification", s_DiagnosticsStatusNotification);
   ("DiagnosticsStatusNotificationResponse", s_DiagnosticsStatusNotificationResponse);
   ("FirmwareStatusNotification", s_FirmwareStatusNotification);
   ("FirmwareStatusNotificationResponse", s_FirmwareStatusNotificationResponse);
   ("GetCompositeSchedule", s_GetCompositeSchedule);
   ("GetCompositeScheduleResponse", s_GetCompositeScheduleResponse);
   ("GetConfiguration", s_GetConfiguration);
   ("GetConfigurationResponse", s_GetConfigurationResponse);
   ("GetDiagnostics", s_GetDiagnostics);
   ("GetDiagnosticsResponse", s_GetDiagnosticsResponse);
   ("GetLocalListVersion", s_GetLocalListVersion);
   ("GetLocalListVersionResponse", s_GetLocalListVersionResponse);
   ("Heartbeat", s_Heartbeat);
   ("HeartbeatResponse", s_HeartbeatResponse);
   ("MeterValues", s_MeterValues);
   ("MeterValuesResponse", s_MeterValuesResponse);
   ("RemoteStartTransaction", s_RemoteStartTransaction);
   ("RemoteStartTransactionResponse", s_RemoteStartTransactionResponse);
   ("RemoteStopTransaction", s_RemoteStopTransaction);
   ("RemoteStopTransactionResponse", s_RemoteStopTransactionResponse);
   ("ReserveNow", s_ReserveNow);
   ("ReserveNowResponse", s_ReserveNowResponse);
   ("Reset", s_Reset);
   ("ResetResponse", s_ResetResponse);
   ("SendLocalList", s_SendLocalList);
   ("SendLocalListResponse", s_SendLocalListResponse);
   ("SetChargingProfile", s_SetChargingProfile);
   ("SetChargingProfileResponse", s_SetChargingProfileResponse);
   ("StartTransaction", s_StartTransaction);
   ("StartTransactionResponse", s_StartTransactionResponse);
   ("StatusNotification", s_StatusNotification);
   ("StatusNotificationResponse", s_StatusNotificationResponse);
   ("StopTransaction", s_StopTransaction);
   ("StopTransactionResponse", s_StopTransactionResponse);
   ("TriggerMessage", s_TriggerMessage);
   ("TriggerMessageResponse", s_TriggerMessageResponse);
   ("UnlockConnector", s_UnlockConnector);
   ("UnlockConnectorResponse", s_UnlockConnectorResponse);
   ("UpdateFirmware", s_UpdateFirmware);
   ("UpdateFirmwareResponse", s_UpdateFirmwareResponse)].
