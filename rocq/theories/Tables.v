(** GENERATED by tools/gen_tables.py. Lookup tables of the registries. *)
From Verif Require Import GoBase.
Open Scope string_scope.

(** messages/req/actions.go:9-73: action name -> request type (cases of FromActionName in order; all other strings give nil) *)
Definition req_actions : list (string * string) :=
  [("Authorize", "cpreq.Authorize");
   ("BootNotification", "cpreq.BootNotification");
   ("DiagnosticsStatusNotification", "cpreq.DiagnosticsStatusNotification");
   ("FirmwareStatusNotification", "cpreq.FirmwareStatusNotification");
   ("Heartbeat", "cpreq.Heartbeat");
   ("MeterValues", "cpreq.MeterValues");
   ("StartTransaction", "cpreq.StartTransaction");
   ("StatusNotification", "cpreq.StatusNotification");
   ("StopTransaction", "cpreq.StopTransaction");
   ("CancelReservation", "csreq.CancelReservation");
   ("ChangeAvailability", "csreq.ChangeAvailability");
   ("ChangeConfiguration", "csreq.ChangeConfiguration");
   ("ClearCache", "csreq.ClearCache");
   ("ClearChargingProfile", "csreq.ClearChargingProfile");
   ("GetCompositeSchedule", "csreq.GetCompositeSchedule");
   ("GetConfiguration", "csreq.GetConfiguration");
   ("GetDiagnostics", "csreq.GetDiagnostics");
   ("GetLocalListVersion", "csreq.GetLocalListVersion");
   ("RemoteStartTransaction", "csreq.RemoteStartTransaction");
   ("RemoteStopTransaction", "csreq.RemoteStopTransaction");
   ("ReserveNow", "csreq.ReserveNow");
   ("Reset", "csreq.Reset");
   ("SendLocalList", "csreq.SendLocalList");
   ("TriggerMessage", "csreq.TriggerMessage");
   ("UnlockConnector", "csreq.UnlockConnector");
   ("UpdateFirmware", "csreq.UpdateFirmware");
   ("SetChargingProfile", "csreq.SetChargingProfile")].

(** messages/res/actions.go:9-73: action name -> response type *)
Definition res_actions : list (string * string) :=
  [("CancelReservation", "csresp.CancelReservation");
   ("ChangeAvailability", "csresp.ChangeAvailability");
   ("ChangeConfiguration", "csresp.ChangeConfiguration");
   ("ClearCache", "csresp.ClearCache");
   ("ClearChargingProfile", "csresp.ClearChargingProfile");
   ("GetCompositeSchedule", "csresp.GetCompositeSchedule");
   ("GetConfiguration", "csresp.GetConfiguration");
   ("GetDiagnostics", "csresp.GetDiagnostics");
   ("GetLocalListVersion", "csresp.GetLocalListVersion");
   ("RemoteStartTransaction", "csresp.RemoteStartTransaction");
   ("RemoteStopTransaction", "csresp.RemoteStopTransaction");
   ("ReserveNow", "csresp.ReserveNow");
   ("Reset", "csresp.Reset");
   ("SendLocalList", "csresp.SendLocalList");
   ("TriggerMessage", "csresp.TriggerMessage");
   ("UnlockConnector", "csresp.UnlockConnector");
   ("UpdateFirmware", "csresp.UpdateFirmware");
   ("SetChargingProfile", "csresp.SetChargingProfile");
   ("Authorize", "cpresp.Authorize");
   ("BootNotification", "cpresp.BootNotification");
   ("DiagnosticsStatusNotification", "cpresp.DiagnosticsStatusNotification");
   ("FirmwareStatusNotification", "cpresp.FirmwareStatusNotification");
   ("Heartbeat", "cpresp.Heartbeat");
   ("MeterValues", "cpresp.MeterValues");
   ("StartTransaction", "cpresp.StartTransaction");
   ("StatusNotification", "cpresp.StatusNotification");
   ("StopTransaction", "cpresp.StopTransaction")].

(** soap/marshal.go:52-151: local name of a child of the SOAP body -> message type *)
Definition soap_names : list (string * string) :=
  [("bootNotificationRequest", "cpreq.BootNotification");
   ("heartbeatRequest", "cpreq.Heartbeat");
   ("statusNotificationRequest", "cpreq.StatusNotification");
   ("meterValuesRequest", "cpreq.MeterValues");
   ("authorizeRequest", "cpreq.Authorize");
   ("startTransactionRequest", "cpreq.StartTransaction");
   ("stopTransactionRequest", "cpreq.StopTransaction");
   ("firmwareStatusNotificationRequest", "cpreq.FirmwareStatusNotification");
   ("diagnosticsStatusNotificationRequest", "cpreq.DiagnosticsStatusNotification");
   ("bootNotificationResponse", "cpresp.BootNotification");
   ("heartbeatResponse", "cpresp.Heartbeat");
   ("statusNotificationResponse", "cpresp.StatusNotification");
   ("meterValuesResponse", "cpresp.MeterValues");
   ("authorizeResponse", "cpresp.Authorize");
   ("startTransactionResponse", "cpresp.StartTransaction");
   ("stopTransactionResponse", "cpresp.StopTransaction");
   ("firmwareStatusNotificationResponse", "cpresp.FirmwareStatusNotification");
   ("diagnosticsStatusNotificationResponse", "cpresp.DiagnosticsStatusNotification");
   ("unlockConnectorRequest", "csreq.UnlockConnector");
   ("resetRequest", "csreq.Reset");
   ("changeAvailabilityRequest", "csreq.ChangeAvailability");
   ("getDiagnosticsRequest", "csreq.GetDiagnostics");
   ("clearCacheRequest", "csreq.ClearCache");
   ("updateFirmwareRequest", "csreq.UpdateFirmware");
   ("changeConfigurationRequest", "csreq.ChangeConfiguration");
   ("remoteStartTransactionRequest", "csreq.RemoteStartTransaction");
   ("remoteStopTransactionRequest", "csreq.RemoteStopTransaction");
   ("cancelReservationRequest", "csreq.CancelReservation");
   ("dataTransferRequest", "csreq.DataTransfer");
   ("getConfigurationRequest", "csreq.GetConfiguration");
   ("getLocalListVersionRequest", "csreq.GetLocalListVersion");
   ("reserveNowRequest", "csreq.ReserveNow");
   ("sendLocalListRequest", "csreq.SendLocalList");
   ("unlockConnectorResponse", "csresp.UnlockConnector");
   ("resetResponse", "csresp.Reset");
   ("changeAvailabilityResponse", "csresp.ChangeAvailability");
   ("getDiagnosticsResponse", "csresp.GetDiagnostics");
   ("clearCacheResponse", "csresp.ClearCache");
   ("updateFirmwareResponse", "csresp.UpdateFirmware");
   ("changeConfigurationResponse", "csresp.ChangeConfiguration");
   ("remoteStartTransactionResponse", "csresp.RemoteStartTransaction");
   ("remoteStopTransactionResponse", "csresp.RemoteStopTransaction");
   ("cancelReservationResponse", "csresp.CancelReservation");
   ("dataTransferResponse", "csresp.DataTransfer");
   ("getConfigurationResponse", "csresp.GetConfiguration");
   ("getLocalListVersionResponse", "csresp.GetLocalListVersion");
   ("reserveNowResponse", "csresp.ReserveNow");
   ("sendLocalListResponse", "csresp.SendLocalList")].
