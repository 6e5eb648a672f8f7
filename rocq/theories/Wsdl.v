(** GENERATED by tools/gen_wsdl.py: the OCPP 1.5 service descriptions bundled with
    the library (soap/wsdl/*.wsdl, not used by its code), as an independent
    description of the SOAP messages. *)
From Verif Require Import GoBase.
Open Scope string_scope.
Open Scope list_scope.

(** A type of the service descriptions, as far as soap/wsdl/*.wsdl use XML Schema:
    strings (with a maximal length and an enumeration), integers of 32 bits,
    booleans, date-times; sequences of elements (name, required, may repeat,
    type); strings with optional attributes (name, enumeration). *)
Inductive wtype : Type :=
| WStr (maxlen : option nat) (enum : list string)
| WInt | WBool | WTime
| WSeq (parts : list (string * bool * bool * wtype))
| WVal (attrs : list (string * list string)).

(** soap/wsdl/ocpp_centralsystemservice_1.5_final.wsdl, element authorizeRequest. *)
Definition w_cs_authorizeRequest : wtype :=
  WSeq [
   ("idTag", true, false, WStr (Some 20%nat) [])].

(** soap/wsdl/ocpp_centralsystemservice_1.5_final.wsdl, element authorizeResponse. *)
Definition w_cs_authorizeResponse : wtype :=
  WSeq [
   ("idTagInfo", true, false, WSeq [
       ("status", true, false, WStr None ["Accepted"; "Blocked"; "Expired"; "Invalid"; "ConcurrentTx"]);
       ("expiryDate", false, false, WTime);
       ("parentIdTag", false, false, WStr (Some 20%nat) [])])].

(** soap/wsdl/ocpp_centralsystemservice_1.5_final.wsdl, element startTransactionRequest. *)
Definition w_cs_startTransactionRequest : wtype :=
  WSeq [
   ("connectorId", true, false, WInt);
   ("idTag", true, false, WStr (Some 20%nat) []);
   ("timestamp", true, false, WTime);
   ("meterStart", true, false, WInt);
   ("reservationId", false, false, WInt)].

(** soap/wsdl/ocpp_centralsystemservice_1.5_final.wsdl, element startTransactionResponse. *)
Definition w_cs_startTransactionResponse : wtype :=
  WSeq [
   ("transactionId", true, false, WInt);
   ("idTagInfo", true, false, WSeq [
       ("status", true, false, WStr None ["Accepted"; "Blocked"; "Expired"; "Invalid"; "ConcurrentTx"]);
       ("expiryDate", false, false, WTime);
       ("parentIdTag", false, false, WStr (Some 20%nat) [])])].

(** soap/wsdl/ocpp_centralsystemservice_1.5_final.wsdl, element stopTransactionRequest. *)
Definition w_cs_stopTransactionRequest : wtype :=
  WSeq [
   ("transactionId", true, false, WInt);
   ("idTag", false, false, WStr (Some 20%nat) []);
   ("timestamp", true, false, WTime);
   ("meterStop", true, false, WInt);
   ("transactionData", false, true, WSeq [
       ("values", false, true, WSeq [
           ("timestamp", true, false, WTime);
           ("value", true, true, WVal [("context", ["Interruption.Begin"; "Interruption.End"; "Sample.Clock"; "Sample.Periodic"; "Transaction.Begin"; "Transaction.End"]);
                ("format", ["Raw"; "SignedData"]);
                ("measurand", ["Energy.Active.Export.Register"; "Energy.Active.Import.Register"; "Energy.Reactive.Export.Register"; "Energy.Reactive.Import.Register"; "Energy.Active.Export.Interval"; "Energy.Active.Import.Interval"; "Energy.Reactive.Export.Interval"; "Energy.Reactive.Import.Interval"; "Power.Active.Export"; "Power.Active.Import"; "Power.Reactive.Export"; "Power.Reactive.Import"; "Current.Export"; "Current.Import"; "Voltage"; "Temperature"]);
                ("location", ["Inlet"; "Outlet"; "Body"]);
                ("unit", ["Wh"; "kWh"; "varh"; "kvarh"; "W"; "kW"; "var"; "kvar"; "Amp"; "Volt"; "Celsius"])])])])].

(** soap/wsdl/ocpp_centralsystemservice_1.5_final.wsdl, element stopTransactionResponse. *)
Definition w_cs_stopTransactionResponse : wtype :=
  WSeq [
   ("idTagInfo", false, false, WSeq [
       ("status", true, false, WStr None ["Accepted"; "Blocked"; "Expired"; "Invalid"; "ConcurrentTx"]);
       ("expiryDate", false, false, WTime);
       ("parentIdTag", false, false, WStr (Some 20%nat) [])])].

(** soap/wsdl/ocpp_centralsystemservice_1.5_final.wsdl, element heartbeatRequest. *)
Definition w_cs_heartbeatRequest : wtype :=
  WSeq [].

(** soap/wsdl/ocpp_centralsystemservice_1.5_final.wsdl, element heartbeatResponse. *)
Definition w_cs_heartbeatResponse : wtype :=
  WSeq [
   ("currentTime", true, false, WTime)].

(** soap/wsdl/ocpp_centralsystemservice_1.5_final.wsdl, element meterValuesRequest. *)
Definition w_cs_meterValuesRequest : wtype :=
  WSeq [
   ("connectorId", true, false, WInt);
   ("transactionId", false, false, WInt);
   ("values", false, true, WSeq [
       ("timestamp", true, false, WTime);
       ("value", true, true, WVal [("context", ["Interruption.Begin"; "Interruption.End"; "Sample.Clock"; "Sample.Periodic"; "Transaction.Begin"; "Transaction.End"]);
            ("format", ["Raw"; "SignedData"]);
            ("measurand", ["Energy.Active.Export.Register"; "Energy.Active.Import.Register"; "Energy.Reactive.Export.Register"; "Energy.Reactive.Import.Register"; "Energy.Active.Export.Interval"; "Energy.Active.Import.Interval"; "Energy.Reactive.Export.Interval"; "Energy.Reactive.Import.Interval"; "Power.Active.Export"; "Power.Active.Import"; "Power.Reactive.Export"; "Power.Reactive.Import"; "Current.Export"; "Current.Import"; "Voltage"; "Temperature"]);
            ("location", ["Inlet"; "Outlet"; "Body"]);
            ("unit", ["Wh"; "kWh"; "varh"; "kvarh"; "W"; "kW"; "var"; "kvar"; "Amp"; "Volt"; "Celsius"])])])].

(** soap/wsdl/ocpp_centralsystemservice_1.5_final.wsdl, element meterValuesResponse. *)
Definition w_cs_meterValuesResponse : wtype :=
  WSeq [].

(** soap/wsdl/ocpp_centralsystemservice_1.5_final.wsdl, element bootNotificationRequest. *)
Definition w_cs_bootNotificationRequest : wtype :=
  WSeq [
   ("chargePointVendor", true, false, WStr (Some 20%nat) []);
   ("chargePointModel", true, false, WStr (Some 20%nat) []);
   ("chargePointSerialNumber", false, false, WStr (Some 25%nat) []);
   ("chargeBoxSerialNumber", false, false, WStr (Some 25%nat) []);
   ("firmwareVersion", false, false, WStr (Some 50%nat) []);
   ("iccid", false, false, WStr (Some 20%nat) []);
   ("imsi", false, false, WStr (Some 20%nat) []);
   ("meterType", false, false, WStr (Some 25%nat) []);
   ("meterSerialNumber", false, false, WStr (Some 25%nat) [])].

(** soap/wsdl/ocpp_centralsystemservice_1.5_final.wsdl, element bootNotificationResponse. *)
Definition w_cs_bootNotificationResponse : wtype :=
  WSeq [
   ("status", true, false, WStr None ["Accepted"; "Rejected"]);
   ("currentTime", true, false, WTime);
   ("heartbeatInterval", true, false, WInt)].

(** soap/wsdl/ocpp_centralsystemservice_1.5_final.wsdl, element statusNotificationRequest. *)
Definition w_cs_statusNotificationRequest : wtype :=
  WSeq [
   ("connectorId", true, false, WInt);
   ("status", true, false, WStr None ["Available"; "Occupied"; "Faulted"; "Unavailable"; "Reserved"]);
   ("errorCode", true, false, WStr None ["ConnectorLockFailure"; "HighTemperature"; "Mode3Error"; "NoError"; "PowerMeterFailure"; "PowerSwitchFailure"; "ReaderFailure"; "ResetFailure"; "GroundFailure"; "OverCurrentFailure"; "UnderVoltage"; "WeakSignal"; "OtherError"]);
   ("info", false, false, WStr None []);
   ("timestamp", false, false, WTime);
   ("vendorId", false, false, WStr None []);
   ("vendorErrorCode", false, false, WStr None [])].

(** soap/wsdl/ocpp_centralsystemservice_1.5_final.wsdl, element statusNotificationResponse. *)
Definition w_cs_statusNotificationResponse : wtype :=
  WSeq [].

(** soap/wsdl/ocpp_centralsystemservice_1.5_final.wsdl, element firmwareStatusNotificationRequest. *)
Definition w_cs_firmwareStatusNotificationRequest : wtype :=
  WSeq [
   ("status", true, false, WStr None ["Downloaded"; "DownloadFailed"; "InstallationFailed"; "Installed"])].

(** soap/wsdl/ocpp_centralsystemservice_1.5_final.wsdl, element firmwareStatusNotificationResponse. *)
Definition w_cs_firmwareStatusNotificationResponse : wtype :=
  WSeq [].

(** soap/wsdl/ocpp_centralsystemservice_1.5_final.wsdl, element diagnosticsStatusNotificationRequest. *)
Definition w_cs_diagnosticsStatusNotificationRequest : wtype :=
  WSeq [
   ("status", true, false, WStr None ["Uploaded"; "UploadFailed"])].

(** soap/wsdl/ocpp_centralsystemservice_1.5_final.wsdl, element diagnosticsStatusNotificationResponse. *)
Definition w_cs_diagnosticsStatusNotificationResponse : wtype :=
  WSeq [].

(** soap/wsdl/ocpp_centralsystemservice_1.5_final.wsdl, element dataTransferRequest. *)
Definition w_cs_dataTransferRequest : wtype :=
  WSeq [
   ("vendorId", true, false, WStr None []);
   ("messageId", false, false, WStr None []);
   ("data", false, false, WStr None [])].

(** soap/wsdl/ocpp_centralsystemservice_1.5_final.wsdl, element dataTransferResponse. *)
Definition w_cs_dataTransferResponse : wtype :=
  WSeq [
   ("status", true, false, WStr None ["Accepted"; "Rejected"; "UnknownMessageId"; "UnknownVendorId"]);
   ("data", false, false, WStr None [])].

(** soap/wsdl/ocpp_chargepointservice_1.5_final.wsdl, element unlockConnectorRequest. *)
Definition w_cp_unlockConnectorRequest : wtype :=
  WSeq [
   ("connectorId", true, false, WInt)].

(** soap/wsdl/ocpp_chargepointservice_1.5_final.wsdl, element unlockConnectorResponse. *)
Definition w_cp_unlockConnectorResponse : wtype :=
  WSeq [
   ("status", true, false, WStr None ["Accepted"; "Rejected"])].

(** soap/wsdl/ocpp_chargepointservice_1.5_final.wsdl, element resetRequest. *)
Definition w_cp_resetRequest : wtype :=
  WSeq [
   ("type", true, false, WStr None ["Hard"; "Soft"])].

(** soap/wsdl/ocpp_chargepointservice_1.5_final.wsdl, element resetResponse. *)
Definition w_cp_resetResponse : wtype :=
  WSeq [
   ("status", true, false, WStr None ["Accepted"; "Rejected"])].

(** soap/wsdl/ocpp_chargepointservice_1.5_final.wsdl, element changeAvailabilityRequest. *)
Definition w_cp_changeAvailabilityRequest : wtype :=
  WSeq [
   ("connectorId", true, false, WInt);
   ("type", true, false, WStr None ["Inoperative"; "Operative"])].

(** soap/wsdl/ocpp_chargepointservice_1.5_final.wsdl, element changeAvailabilityResponse. *)
Definition w_cp_changeAvailabilityResponse : wtype :=
  WSeq [
   ("status", true, false, WStr None ["Accepted"; "Rejected"; "Scheduled"])].

(** soap/wsdl/ocpp_chargepointservice_1.5_final.wsdl, element getDiagnosticsRequest. *)
Definition w_cp_getDiagnosticsRequest : wtype :=
  WSeq [
   ("location", true, false, WStr None []);
   ("startTime", false, false, WTime);
   ("stopTime", false, false, WTime);
   ("retries", false, false, WInt);
   ("retryInterval", false, false, WInt)].

(** soap/wsdl/ocpp_chargepointservice_1.5_final.wsdl, element getDiagnosticsResponse. *)
Definition w_cp_getDiagnosticsResponse : wtype :=
  WSeq [
   ("fileName", false, false, WStr None [])].

(** soap/wsdl/ocpp_chargepointservice_1.5_final.wsdl, element clearCacheRequest. *)
Definition w_cp_clearCacheRequest : wtype :=
  WSeq [].

(** soap/wsdl/ocpp_chargepointservice_1.5_final.wsdl, element clearCacheResponse. *)
Definition w_cp_clearCacheResponse : wtype :=
  WSeq [
   ("status", true, false, WStr None ["Accepted"; "Rejected"])].

(** soap/wsdl/ocpp_chargepointservice_1.5_final.wsdl, element updateFirmwareRequest. *)
Definition w_cp_updateFirmwareRequest : wtype :=
  WSeq [
   ("retrieveDate", true, false, WTime);
   ("location", true, false, WStr None []);
   ("retries", false, false, WInt);
   ("retryInterval", false, false, WInt)].

(** soap/wsdl/ocpp_chargepointservice_1.5_final.wsdl, element updateFirmwareResponse. *)
Definition w_cp_updateFirmwareResponse : wtype :=
  WSeq [].

(** soap/wsdl/ocpp_chargepointservice_1.5_final.wsdl, element changeConfigurationRequest. *)
Definition w_cp_changeConfigurationRequest : wtype :=
  WSeq [
   ("key", true, false, WStr None []);
   ("value", true, false, WStr None [])].

(** soap/wsdl/ocpp_chargepointservice_1.5_final.wsdl, element changeConfigurationResponse. *)
Definition w_cp_changeConfigurationResponse : wtype :=
  WSeq [
   ("status", true, false, WStr None ["Accepted"; "Rejected"; "NotSupported"])].

(** soap/wsdl/ocpp_chargepointservice_1.5_final.wsdl, element remoteStartTransactionRequest. *)
Definition w_cp_remoteStartTransactionRequest : wtype :=
  WSeq [
   ("idTag", true, false, WStr (Some 20%nat) []);
   ("connectorId", false, false, WInt)].

(** soap/wsdl/ocpp_chargepointservice_1.5_final.wsdl, element remoteStartTransactionResponse.
    The type of its status is misspelt in the file (tns:RemoteSta1rtStopStatus) and
    undefined; taken as a string. *)
Definition w_cp_remoteStartTransactionResponse : wtype :=
  WSeq [
   ("status", true, false, WStr None [])].

(** soap/wsdl/ocpp_chargepointservice_1.5_final.wsdl, element remoteStopTransactionRequest. *)
Definition w_cp_remoteStopTransactionRequest : wtype :=
  WSeq [
   ("transactionId", true, false, WInt)].

(** soap/wsdl/ocpp_chargepointservice_1.5_final.wsdl, element remoteStopTransactionResponse. *)
Definition w_cp_remoteStopTransactionResponse : wtype :=
  WSeq [
   ("status", true, false, WStr None ["Accepted"; "Rejected"])].

(** soap/wsdl/ocpp_chargepointservice_1.5_final.wsdl, element cancelReservationRequest. *)
Definition w_cp_cancelReservationRequest : wtype :=
  WSeq [
   ("reservationId", true, false, WInt)].

(** soap/wsdl/ocpp_chargepointservice_1.5_final.wsdl, element cancelReservationResponse. *)
Definition w_cp_cancelReservationResponse : wtype :=
  WSeq [
   ("status", true, false, WStr None ["Accepted"; "Rejected"])].

(** soap/wsdl/ocpp_chargepointservice_1.5_final.wsdl, element dataTransferRequest. *)
Definition w_cp_dataTransferRequest : wtype :=
  WSeq [
   ("vendorId", true, false, WStr None []);
   ("messageId", false, false, WStr None []);
   ("data", false, false, WStr None [])].

(** soap/wsdl/ocpp_chargepointservice_1.5_final.wsdl, element dataTransferResponse. *)
Definition w_cp_dataTransferResponse : wtype :=
  WSeq [
   ("status", true, false, WStr None ["Accepted"; "Rejected"; "UnknownMessageId"; "UnknownVendorId"]);
   ("data", false, false, WStr None [])].

(** soap/wsdl/ocpp_chargepointservice_1.5_final.wsdl, element getConfigurationRequest. *)
Definition w_cp_getConfigurationRequest : wtype :=
  WSeq [
   ("key", false, true, WStr None [])].

(** soap/wsdl/ocpp_chargepointservice_1.5_final.wsdl, element getConfigurationResponse. *)
Definition w_cp_getConfigurationResponse : wtype :=
  WSeq [
   ("configurationKey", false, true, WSeq [
       ("key", true, false, WStr None []);
       ("readonly", true, false, WBool);
       ("value", false, false, WStr None [])]);
   ("unknownKey", false, true, WStr None [])].

(** soap/wsdl/ocpp_chargepointservice_1.5_final.wsdl, element getLocalListVersionRequest. *)
Definition w_cp_getLocalListVersionRequest : wtype :=
  WSeq [].

(** soap/wsdl/ocpp_chargepointservice_1.5_final.wsdl, element getLocalListVersionResponse. *)
Definition w_cp_getLocalListVersionResponse : wtype :=
  WSeq [
   ("listVersion", true, false, WInt)].

(** soap/wsdl/ocpp_chargepointservice_1.5_final.wsdl, element reserveNowRequest. *)
Definition w_cp_reserveNowRequest : wtype :=
  WSeq [
   ("connectorId", true, false, WInt);
   ("expiryDate", true, false, WTime);
   ("idTag", true, false, WStr (Some 20%nat) []);
   ("parentIdTag", false, false, WStr (Some 20%nat) []);
   ("reservationId", true, false, WInt)].

(** soap/wsdl/ocpp_chargepointservice_1.5_final.wsdl, element reserveNowResponse. *)
Definition w_cp_reserveNowResponse : wtype :=
  WSeq [
   ("status", true, false, WStr None ["Accepted"; "Faulted"; "Occupied"; "Rejected"; "Unavailable"])].

(** soap/wsdl/ocpp_chargepointservice_1.5_final.wsdl, element sendLocalListRequest. *)
Definition w_cp_sendLocalListRequest : wtype :=
  WSeq [
   ("updateType", true, false, WStr None ["Differential"; "Full"]);
   ("listVersion", true, false, WInt);
   ("localAuthorisationList", false, true, WSeq [
       ("idTag", true, false, WStr (Some 20%nat) []);
       ("idTagInfo", false, false, WSeq [
           ("status", true, false, WStr None ["Accepted"; "Blocked"; "Expired"; "Invalid"; "ConcurrentTx"]);
           ("expiryDate", false, false, WTime);
           ("parentIdTag", false, false, WStr (Some 20%nat) [])])]);
   ("hash", false, false, WStr None [])].

(** soap/wsdl/ocpp_chargepointservice_1.5_final.wsdl, element sendLocalListResponse. *)
Definition w_cp_sendLocalListResponse : wtype :=
  WSeq [
   ("status", true, false, WStr None ["Accepted"; "Failed"; "HashError"; "NotSupported"; "VersionMismatch"]);
   ("hash", false, false, WStr None [])].

(** All messages of soap/wsdl/*.wsdl: namespace, element, type. *)
Definition services : list (string * string * wtype) :=
  [("urn://Ocpp/Cs/2012/06/", "authorizeRequest", w_cs_authorizeRequest);
   ("urn://Ocpp/Cs/2012/06/", "authorizeResponse", w_cs_authorizeResponse);
   ("urn://Ocpp/Cs/2012/06/", "startTransactionRequest", w_cs_startTransactionRequest);
   ("urn://Ocpp/Cs/2012/06/", "startTransactionResponse", w_cs_startTransactionResponse);
   ("urn://Ocpp/Cs/2012/06/", "stopTransactionRequest", w_cs_stopTransactionRequest);
   ("urn://Ocpp/Cs/2012/06/", "stopTransactionResponse", w_cs_stopTransactionResponse);
   ("urn://Ocpp/Cs/2012/06/", "heartbeatRequest", w_cs_heartbeatRequest);
   ("urn://Ocpp/Cs/2012/06/", "heartbeatResponse", w_cs_heartbeatResponse);
   ("urn://Ocpp/Cs/2012/06/", "meterValuesRequest", w_cs_meterValuesRequest);
   ("urn://Ocpp/Cs/2012/06/", "meterValuesResponse", w_cs_meterValuesResponse);
   ("urn://Ocpp/Cs/2012/06/", "bootNotificationRequest", w_cs_bootNotificationRequest);
   ("urn://Ocpp/Cs/2012/06/", "bootNotificationResponse", w_cs_bootNotificationResponse);
   ("urn://Ocpp/Cs/2012/06/", "statusNotificationRequest", w_cs_statusNotificationRequest);
   ("urn://Ocpp/Cs/2012/06/", "statusNotificationResponse", w_cs_statusNotificationResponse);
   ("urn://Ocpp/Cs/2012/06/", "firmwareStatusNotificationRequest", w_cs_firmwareStatusNotificationRequest);
   ("urn://Ocpp/Cs/2012/06/", "firmwareStatusNotificationResponse", w_cs_firmwareStatusNotificationResponse);
   ("urn://Ocpp/Cs/2012/06/", "diagnosticsStatusNotificationRequest", w_cs_diagnosticsStatusNotificationRequest);
   ("urn://Ocpp/Cs/2012/06/", "diagnosticsStatusNotificationResponse", w_cs_diagnosticsStatusNotificationResponse);
   ("urn://Ocpp/Cs/2012/06/", "dataTransferRequest", w_cs_dataTransferRequest);
   ("urn://Ocpp/Cs/2012/06/", "dataTransferResponse", w_cs_dataTransferResponse);
   ("urn://Ocpp/Cp/2012/06/", "unlockConnectorRequest", w_cp_unlockConnectorRequest);
   ("urn://Ocpp/Cp/2012/06/", "unlockConnectorResponse", w_cp_unlockConnectorResponse);
   ("urn://Ocpp/Cp/2012/06/", "resetRequest", w_cp_resetRequest);
   ("urn://Ocpp/Cp/2012/06/", "resetResponse", w_cp_resetResponse);
   ("urn://Ocpp/Cp/2012/06/", "changeAvailabilityRequest", w_cp_changeAvailabilityRequest);
   ("urn://Ocpp/Cp/2012/06/", "changeAvailabilityResponse", w_cp_changeAvailabilityResponse);
   ("urn://Ocpp/Cp/2012/06/", "getDiagnosticsRequest", w_cp_getDiagnosticsRequest);
   ("urn://Ocpp/Cp/2012/06/", "getDiagnosticsResponse", w_cp_getDiagnosticsResponse);
   ("urn://Ocpp/Cp/2012/06/", "clearCacheRequest", w_cp_clearCacheRequest);
   ("urn://Ocpp/Cp/2012/06/", "clearCacheResponse", w_cp_clearCacheResponse);
   ("urn://Ocpp/Cp/2012/06/", "updateFirmwareRequest", w_cp_updateFirmwareRequest);
   ("urn://Ocpp/Cp/2012/06/", "updateFirmwareResponse", w_cp_updateFirmwareResponse);
   ("urn://Ocpp/Cp/2012/06/", "changeConfigurationRequest", w_cp_changeConfigurationRequest);
   ("urn://Ocpp/Cp/2012/06/", "changeConfigurationResponse", w_cp_changeConfigurationResponse);
   ("urn://Ocpp/Cp/2012/06/", "remoteStartTransactionRequest", w_cp_remoteStartTransactionRequest);
   ("urn://Ocpp/Cp/2012/06/", "remoteStartTransactionResponse", w_cp_remoteStartTransactionResponse);
   ("urn://Ocpp/Cp/2012/06/", "remoteStopTransactionRequest", w_cp_remoteStopTransactionRequest);
   ("urn://Ocpp/Cp/2012/06/", "remoteStopTransactionResponse", w_cp_remoteStopTransactionResponse);
   ("urn://Ocpp/Cp/2012/06/", "cancelReservationRequest", w_cp_cancelReservationRequest);
   ("urn://Ocpp/Cp/2012/06/", "cancelReservationResponse", w_cp_cancelReservationResponse);
   ("urn://Ocpp/Cp/2012/06/", "dataTransferRequest", w_cp_dataTransferRequest);
   ("urn://Ocpp/Cp/2012/06/", "dataTransferResponse", w_cp_dataTransferResponse);
   ("urn://Ocpp/Cp/2012/06/", "getConfigurationRequest", w_cp_getConfigurationRequest);
   ("urn://Ocpp/Cp/2012/06/", "getConfigurationResponse", w_cp_getConfigurationResponse);
   ("urn://Ocpp/Cp/2012/06/", "getLocalListVersionRequest", w_cp_getLocalListVersionRequest);
   ("urn://Ocpp/Cp/2012/06/", "getLocalListVersionResponse", w_cp_getLocalListVersionResponse);
   ("urn://Ocpp/Cp/2012/06/", "reserveNowRequest", w_cp_reserveNowRequest);
   ("urn://Ocpp/Cp/2012/06/", "reserveNowResponse", w_cp_reserveNowResponse);
   ("urn://Ocpp/Cp/2012/06/", "sendLocalListRequest", w_cp_sendLocalListRequest);
   ("urn://Ocpp/Cp/2012/06/", "sendLocalListResponse", w_cp_sendLocalListResponse)].
