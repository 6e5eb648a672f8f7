(** GENERATED by tools/gen_types.py from messages/v1x/*/messages.go and json_encode.go.
    Every struct type with its fields and tags, and its MarshalJSON / UnmarshalJSON
    methods statement by statement.  Do not edit. *)
From Verif Require Import GoBase Lang.
Open Scope string_scope.
Open Scope list_scope.

(** cpreq.Authorize: messages/v1x/cpreq/messages.go:13-18;
    MarshalJSON json_encode.go:11-32; UnmarshalJSON json_encode.go:34-57 *)
Definition d_cpreq_Authorize : decl := MkD "cpreq.Authorize" "chargepointRequest"
  (Some ("urn://Ocpp/Cs/2012/06/", "authorizeRequest"))
  [MkF "IdTag" (TStr) "idTag" false (MkX XElem "idTag" true)]
  (EProg [IWrite "{";
      ICommaFalse;
      IComma;
      IWrite """idTag"": ";
      IMarshal "IdTag";
      ISetComma;
      IWrite "}"])
  (DTable ["idTag"]
     [MkC "idTag" "IdTag" (Some "idTag")]
     true [("idTag", """idTag"" is required but was not present")]).

(** cpreq.BootNotification: messages/v1x/cpreq/messages.go:21-34;
    MarshalJSON json_encode.go:59-170; UnmarshalJSON json_encode.go:172-233 *)
Definition d_cpreq_BootNotification : decl := MkD "cpreq.BootNotification" "chargepointRequest"
  (Some ("urn://Ocpp/Cs/2012/06/", "bootNotificationRequest"))
  [MkF "ChargeBoxSerialNumber" (TStr) "chargeBoxSerialNumber" true (MkX XElem "chargeBoxSerialNumber" true);
   MkF "ChargePointModel" (TStr) "chargePointModel" false (MkX XElem "chargePointModel" true);
   MkF "ChargePointSerialNumber" (TStr) "chargePointSerialNumber" true (MkX XElem "chargePointSerialNumber" true);
   MkF "ChargePointVendor" (TStr) "chargePointVendor" false (MkX XElem "chargePointVendor" true);
   MkF "FirmwareVersion" (TStr) "firmwareVersion" true (MkX XElem "firmwareVersion" true);
   MkF "Iccid" (TStr) "iccid" true (MkX XElem "iccid" true);
   MkF "Imsi" (TStr) "imsi" true (MkX XElem "imsi" true);
   MkF "MeterSerialNumber" (TStr) "meterSerialNumber" true (MkX XElem "meterSerialNumber" true);
   MkF "MeterType" (TStr) "meterType" true (MkX XElem "meterType" true)]
  (EProg [IWrite "{";
      ICommaFalse;
      IComma;
      IWrite """chargeBoxSerialNumber"": ";
      IMarshal "ChargeBoxSerialNumber";
      ISetComma;
      IComma;
      IWrite """chargePointModel"": ";
      IMarshal "ChargePointModel";
      ISetComma;
      IComma;
      IWrite """chargePointSerialNumber"": ";
      IMarshal "ChargePointSerialNumber";
      ISetComma;
      IComma;
      IWrite """chargePointVendor"": ";
      IMarshal "ChargePointVendor";
      ISetComma;
      IComma;
      IWrite """firmwareVersion"": ";
      IMarshal "FirmwareVersion";
      ISetComma;
      IComma;
      IWrite """iccid"": ";
      IMarshal "Iccid";
      ISetComma;
      IComma;
      IWrite """imsi"": ";
      IMarshal "Imsi";
      ISetComma;
      IComma;
      IWrite """meterSerialNumber"": ";
      IMarshal "MeterSerialNumber";
      ISetComma;
      IComma;
      IWrite """meterType"": ";
      IMarshal "MeterType";
      ISetComma;
      IWrite "}"])
  (DTable ["chargePointModel"; "chargePointVendor"]
     [MkC "chargeBoxSerialNumber" "ChargeBoxSerialNumber" None;
      MkC "chargePointModel" "ChargePointModel" (Some "chargePointModel");
      MkC "chargePointSerialNumber" "ChargePointSerialNumber" None;
      MkC "chargePointVendor" "ChargePointVendor" (Some "chargePointVendor");
      MkC "firmwareVersion" "FirmwareVersion" None;
      MkC "iccid" "Iccid" None;
      MkC "imsi" "Imsi" None;
      MkC "meterSerialNumber" "MeterSerialNumber" None;
      MkC "meterType" "MeterType" None]
     true [("chargePointModel", """chargePointModel"" is required but was not present"); ("chargePointVendor", """chargePointVendor"" is required but was not present")]).

(** cpreq.DataTransfer: messages/v1x/cpreq/messages.go:37-44;
    MarshalJSON json_encode.go:235-278; UnmarshalJSON json_encode.go:280-311 *)
Definition d_cpreq_DataTransfer : decl := MkD "cpreq.DataTransfer" "chargepointRequest"
  (Some ("urn://Ocpp/Cs/2012/06/", "dataTransferRequest"))
  [MkF "Data" (TStr) "data" true (MkX XElem "data" true);
   MkF "MessageId" (TStr) "messageId" true (MkX XElem "messageId" true);
   MkF "VendorId" (TStr) "vendorId" false (MkX XElem "vendorId" true)]
  (EProg [IWrite "{";
      ICommaFalse;
      IComma;
      IWrite """data"": ";
      IMarshal "Data";
      ISetComma;
      IComma;
      IWrite """messageId"": ";
      IMarshal "MessageId";
      ISetComma;
      IComma;
      IWrite """vendorId"": ";
      IMarshal "VendorId";
      ISetComma;
      IWrite "}"])
  (DTable ["vendorId"]
     [MkC "data" "Data" None;
      MkC "messageId" "MessageId" None;
      MkC "vendorId" "VendorId" (Some "vendorId")]
     true [("vendorId", """vendorId"" is required but was not present")]).

(** cpreq.DiagnosticsStatusNotification: messages/v1x/cpreq/messages.go:47-52;
    MarshalJSON json_encode.go:313-334; UnmarshalJSON json_encode.go:336-359 *)
Definition d_cpreq_DiagnosticsStatusNotification : decl := MkD "cpreq.DiagnosticsStatusNotification" "chargepointRequest"
  (Some ("urn://Ocpp/Cs/2012/06/", "diagnosticsStatusNotificationRequest"))
  [MkF "Status" (TStr) "status" false (MkX XElem "status" true)]
  (EProg [IWrite "{";
      ICommaFalse;
      IComma;
      IWrite """status"": ";
      IMarshal "Status";
      ISetComma;
      IWrite "}"])
  (DTable ["status"]
     [MkC "status" "Status" (Some "status")]
     true [("status", """status"" is required but was not present")]).

(** cpreq.FirmwareStatusNotification: messages/v1x/cpreq/messages.go:55-60;
    MarshalJSON json_encode.go:361-382; UnmarshalJSON json_encode.go:384-407 *)
Definition d_cpreq_FirmwareStatusNotification : decl := MkD "cpreq.FirmwareStatusNotification" "chargepointRequest"
  (Some ("urn://Ocpp/Cs/2012/06/", "firmwareStatusNotificationRequest"))
  [MkF "Status" (TStr) "status" false (MkX XElem "status" true)]
  (EProg [IWrite "{";
      ICommaFalse;
      IComma;
      IWrite """status"": ";
      IMarshal "Status";
      ISetComma;
      IWrite "}"])
  (DTable ["status"]
     [MkC "status" "Status" (Some "status")]
     true [("status", """status"" is required but was not present")]).

(** cpreq.Heartbeat: messages/v1x/cpreq/messages.go:63-66;
    MarshalJSON json_encode.go:409-416; UnmarshalJSON json_encode.go:418-431 *)
Definition d_cpreq_Heartbeat : decl := MkD "cpreq.Heartbeat" "chargepointRequest"
  (Some ("urn://Ocpp/Cs/2012/06/", "heartbeatRequest"))
  []
  (EProg [IWrite "{";
      IWrite "}"])
  (DTable []
     []
     true []).

(** cpreq.MeterValueItems: messages/v1x/cpreq/messages.go:69-73;
    MarshalJSON json_encode.go:433-467; UnmarshalJSON json_encode.go:469-500 *)
Definition d_cpreq_MeterValueItems : decl := MkD "cpreq.MeterValueItems" ""
  None
  [MkF "SampledValues" (TSlice (TPtr (TStruct "cpreq.SampledValue"))) "sampledValue" false (MkX XElem "value" true);
   MkF "Timestamp" (TTime) "timestamp" false (MkX XElem "timestamp" true)]
  (EProg [IWrite "{";
      ICommaFalse;
      IComma;
      IWrite """sampledValue"": ";
      IMarshal "SampledValues";
      ISetComma;
      IComma;
      IWrite """timestamp"": ";
      IMarshalTime "Timestamp";
      ISetComma;
      IWrite "}"])
  (DTable ["sampledValue"; "timestamp"]
     [MkC "sampledValue" "SampledValues" (Some "sampledValue");
      MkC "timestamp" "Timestamp" (Some "timestamp")]
     false [("sampledValue", """sampledValue"" is required but was not present"); ("timestamp", """timestamp"" is required but was not present")]).

(** cpreq.MeterValues: messages/v1x/cpreq/messages.go:76-84;
    MarshalJSON json_encode.go:502-547; UnmarshalJSON json_encode.go:549-586 *)
Definition d_cpreq_MeterValues : decl := MkD "cpreq.MeterValues" "chargepointRequest"
  (Some ("urn://Ocpp/Cs/2012/06/", "meterValuesRequest"))
  [MkF "ConnectorId" (TInt 64) "connectorId" false (MkX XElem "connectorId" true);
   MkF "MeterValue" (TSlice (TPtr (TStruct "cpreq.MeterValueItems"))) "meterValue" false (MkX XElem "values" true);
   MkF "TransactionId" (TInt 32) "transactionId" true (MkX XElem "transactionId" true)]
  (EProg [IWrite "{";
      ICommaFalse;
      IComma;
      IWrite """connectorId"": ";
      IMarshal "ConnectorId";
      ISetComma;
      IComma;
      IWrite """meterValue"": ";
      IMarshal "MeterValue";
      ISetComma;
      IComma;
      IWrite """transactionId"": ";
      IMarshal "TransactionId";
      ISetComma;
      IWrite "}"])
  (DTable ["connectorId"; "meterValue"]
     [MkC "connectorId" "ConnectorId" (Some "connectorId");
      MkC "meterValue" "MeterValue" (Some "meterValue");
      MkC "transactionId" "TransactionId" None]
     true [("connectorId", """connectorId"" is required but was not present"); ("meterValue", """meterValue"" is required but was not present")]).

(** cpreq.SampledValue: messages/v1x/cpreq/messages.go:87-97;
    MarshalJSON json_encode.go:588-675; UnmarshalJSON json_encode.go:677-722 *)
Definition d_cpreq_SampledValue : decl := MkD "cpreq.SampledValue" ""
  None
  [MkF "Context" (TStr) "context" true (MkX XAttr "context" true);
   MkF "Format" (TStr) "format" true (MkX XAttr "format" true);
   MkF "Location" (TStr) "location" true (MkX XAttr "location" true);
   MkF "Measurand" (TStr) "measurand" true (MkX XAttr "measurand" true);
   MkF "Phase" (TStr) "phase" true (MkX XSkip "" false);
   MkF "Unit" (TStr) "unit" true (MkX XAttr "unit" true);
   MkF "Value" (TStr) "value" false (MkX XChar "" false)]
  (EProg [IWrite "{";
      ICommaFalse;
      IComma;
      IWrite """context"": ";
      IMarshal "Context";
      ISetComma;
      IComma;
      IWrite """format"": ";
      IMarshal "Format";
      ISetComma;
      IComma;
      IWrite """location"": ";
      IMarshal "Location";
      ISetComma;
      IComma;
      IWrite """measurand"": ";
      IMarshal "Measurand";
      ISetComma;
      IComma;
      IWrite """phase"": ";
      IMarshal "Phase";
      ISetComma;
      IComma;
      IWrite """unit"": ";
      IMarshal "Unit";
      ISetComma;
      IComma;
      IWrite """value"": ";
      IMarshal "Value";
      ISetComma;
      IWrite "}"])
  (DTable ["value"]
     [MkC "context" "Context" None;
      MkC "format" "Format" None;
      MkC "location" "Location" None;
      MkC "measurand" "Measurand" None;
      MkC "phase" "Phase" None;
      MkC "unit" "Unit" None;
      MkC "value" "Value" (Some "value")]
     false [("value", """value"" is required but was not present")]).

(** cpreq.StartTransaction: messages/v1x/cpreq/messages.go:100-109;
    MarshalJSON json_encode.go:724-795; UnmarshalJSON json_encode.go:797-854 *)
Definition d_cpreq_StartTransaction : decl := MkD "cpreq.StartTransaction" "chargepointRequest"
  (Some ("urn://Ocpp/Cs/2012/06/", "startTransactionRequest"))
  [MkF "ConnectorId" (TInt 64) "connectorId" false (MkX XElem "connectorId" true);
   MkF "IdTag" (TStr) "idTag" false (MkX XElem "idTag" true);
   MkF "MeterStart" (TInt 64) "meterStart" false (MkX XElem "meterStart" true);
   MkF "ReservationId" (TInt 64) "reservationId" true (MkX XElem "reservationId" true);
   MkF "Timestamp" (TTime) "timestamp" false (MkX XElem "timestamp" true)]
  (EProg [IWrite "{";
      ICommaFalse;
      IComma;
      IWrite """connectorId"": ";
      IMarshal "ConnectorId";
      ISetComma;
      IComma;
      IWrite """idTag"": ";
      IMarshal "IdTag";
      ISetComma;
      IComma;
      IWrite """meterStart"": ";
      IMarshal "MeterStart";
      ISetComma;
      IComma;
      IWrite """reservationId"": ";
      IMarshal "ReservationId";
      ISetComma;
      IComma;
      IWrite """timestamp"": ";
      IMarshalTime "Timestamp";
      ISetComma;
      IWrite "}"])
  (DTable ["connectorId"; "idTag"; "meterStart"; "timestamp"]
     [MkC "connectorId" "ConnectorId" (Some "connectorId");
      MkC "idTag" "IdTag" (Some "idTag");
      MkC "meterStart" "MeterStart" (Some "meterStart");
      MkC "reservationId" "ReservationId" None;
      MkC "timestamp" "Timestamp" (Some "timestamp")]
     true [("connectorId", """connectorId"" is required but was not present"); ("idTag", """idTag"" is required but was not present"); ("meterStart", """meterStart"" is required but was not present"); ("timestamp", """timestamp"" is required but was not present")]).

(** cpreq.StatusNotification: messages/v1x/cpreq/messages.go:112-123;
    MarshalJSON json_encode.go:856-946; UnmarshalJSON json_encode.go:948-1007 *)
Definition d_cpreq_StatusNotification : decl := MkD "cpreq.StatusNotification" "chargepointRequest"
  (Some ("urn://Ocpp/Cs/2012/06/", "statusNotificationRequest"))
  [MkF "ConnectorId" (TInt 64) "connectorId" false (MkX XElem "connectorId" true);
   MkF "ErrorCode" (TStr) "errorCode" false (MkX XElem "errorCode" true);
   MkF "Info" (TStr) "info" true (MkX XElem "info" true);
   MkF "Status" (TStr) "status" false (MkX XElem "status" true);
   MkF "Timestamp" (TPtr (TTime)) "timestamp" true (MkX XElem "timestamp" true);
   MkF "VendorErrorCode" (TStr) "vendorErrorCode" true (MkX XElem "vendorErrorCode" true);
   MkF "VendorId" (TStr) "vendorId" true (MkX XElem "vendorId" true)]
  (EProg [IWrite "{";
      ICommaFalse;
      IComma;
      IWrite """connectorId"": ";
      IMarshal "ConnectorId";
      ISetComma;
      IComma;
      IWrite """errorCode"": ";
      IMarshal "ErrorCode";
      ISetComma;
      IComma;
      IWrite """info"": ";
      IMarshal "Info";
      ISetComma;
      IComma;
      IWrite """status"": ";
      IMarshal "Status";
      IIfSet "Timestamp" [IWrite ","; IWrite """timestamp"": "; IMarshalTime "Timestamp"];
      ISetComma;
      IComma;
      IWrite """vendorErrorCode"": ";
      IMarshal "VendorErrorCode";
      ISetComma;
      IComma;
      IWrite """vendorId"": ";
      IMarshal "VendorId";
      ISetComma;
      IWrite "}"])
  (DTable ["connectorId"; "errorCode"; "status"]
     [MkC "connectorId" "ConnectorId" (Some "connectorId");
      MkC "errorCode" "ErrorCode" (Some "errorCode");
      MkC "info" "Info" None;
      MkC "status" "Status" (Some "status");
      MkC "timestamp" "Timestamp" None;
      MkC "vendorErrorCode" "VendorErrorCode" None;
      MkC "vendorId" "VendorId" None]
     true [("connectorId", """connectorId"" is required but was not present"); ("errorCode", """errorCode"" is required but was not present"); ("status", """status"" is required but was not present")]).

(** cpreq.StopTransaction: messages/v1x/cpreq/messages.go:126-136;
    MarshalJSON json_encode.go:1009-1089; UnmarshalJSON json_encode.go:1091-1146 *)
Definition d_cpreq_StopTransaction : decl := MkD "cpreq.StopTransaction" "chargepointRequest"
  (Some ("urn://Ocpp/Cs/2012/06/", "stopTransactionRequest"))
  [MkF "IdTag" (TStr) "idTag" true (MkX XElem "idTag" true);
   MkF "MeterStop" (TInt 64) "meterStop" false (MkX XElem "meterStop" true);
   MkF "Reason" (TStr) "reason" true (MkX XElem "reason" true);
   MkF "Timestamp" (TTime) "timestamp" false (MkX XElem "timestamp" true);
   MkF "TransactionData" (TSlice (TPtr (TStruct "cpreq.TransactionDataItems"))) "transactionData" true (MkX XElem "transactionData" true);
   MkF "TransactionId" (TInt 64) "transactionId" false (MkX XElem "transactionId" true)]
  (EProg [IWrite "{";
      ICommaFalse;
      IComma;
      IWrite """idTag"": ";
      IMarshal "IdTag";
      ISetComma;
      IComma;
      IWrite """meterStop"": ";
      IMarshal "MeterStop";
      ISetComma;
      IComma;
      IWrite """reason"": ";
      IMarshal "Reason";
      ISetComma;
      IComma;
      IWrite """timestamp"": ";
      IMarshalTime "Timestamp";
      ISetComma;
      IComma;
      IWrite """transactionData"": ";
      IMarshal "TransactionData";
      ISetComma;
      IComma;
      IWrite """transactionId"": ";
      IMarshal "TransactionId";
      ISetComma;
      IWrite "}"])
  (DTable ["meterStop"; "timestamp"; "transactionId"]
     [MkC "idTag" "IdTag" None;
      MkC "meterStop" "MeterStop" (Some "meterStop");
      MkC "reason" "Reason" None;
      MkC "timestamp" "Timestamp" (Some "timestamp");
      MkC "transactionData" "TransactionData" None;
      MkC "transactionId" "TransactionId" (Some "transactionId")]
     true [("meterStop", """meterStop"" is required but was not present"); ("timestamp", """timestamp"" is required but was not present"); ("transactionId", """transactionId"" is required but was not present")]).

(** cpreq.TransactionDataItems: messages/v1x/cpreq/messages.go:139-142;
    MarshalJSON json_encode.go:1148-1182; UnmarshalJSON json_encode.go:1184-1215 *)
Definition d_cpreq_TransactionDataItems : decl := MkD "cpreq.TransactionDataItems" ""
  None
  [MkF "SampledValues" (TSlice (TPtr (TStruct "cpreq.SampledValue"))) "sampledValue" false (MkX XElem "sampledValue" true);
   MkF "Timestamp" (TTime) "timestamp" false (MkX XElem "timestamp" true)]
  (EProg [IWrite "{";
      ICommaFalse;
      IComma;
      IWrite """sampledValue"": ";
      IMarshal "SampledValues";
      ISetComma;
      IComma;
      IWrite """timestamp"": ";
      IMarshalTime "Timestamp";
      ISetComma;
      IWrite "}"])
  (DTable ["sampledValue"; "timestamp"]
     [MkC "sampledValue" "SampledValues" (Some "sampledValue");
      MkC "timestamp" "Timestamp" (Some "timestamp")]
     false [("sampledValue", """sampledValue"" is required but was not present"); ("timestamp", """timestamp"" is required but was not present")]).

(** cpresp.Authorize: messages/v1x/cpresp/messages.go:9-14;
    MarshalJSON json_encode.go:11-34; UnmarshalJSON json_encode.go:36-59 *)
Definition d_cpresp_Authorize : decl := MkD "cpresp.Authorize" "chargepointResponse"
  (Some ("urn://Ocpp/Cs/2012/06/", "authorizeResponse"))
  [MkF "IdTagInfo" (TPtr (TStruct "cpresp.IdTagInfo")) "idTagInfo" false (MkX XElem "idTagInfo" true)]
  (EProg [IWrite "{";
      ICommaFalse;
      IReqNil "IdTagInfo" "idTagInfo is a required field";
      IComma;
      IWrite """idTagInfo"": ";
      IMarshal "IdTagInfo";
      ISetComma;
      IWrite "}"])
  (DTable ["idTagInfo"]
     [MkC "idTagInfo" "IdTagInfo" (Some "idTagInfo")]
     true [("idTagInfo", """idTagInfo"" is required but was not present")]).

(** cpresp.BootNotification: messages/v1x/cpresp/messages.go:17-26;
    MarshalJSON json_encode.go:61-108; UnmarshalJSON json_encode.go:110-153 *)
Definition d_cpresp_BootNotification : decl := MkD "cpresp.BootNotification" "chargepointResponse"
  (Some ("urn://Ocpp/Cs/2012/06/", "bootNotificationResponse"))
  [MkF "Status" (TStr) "status" false (MkX XElem "status" true);
   MkF "CurrentTime" (TTime) "currentTime" false (MkX XElem "currentTime" true);
   MkF "Interval" (TF64) "interval" false (MkX XElem "heartbeatInterval" true)]
  (EProg [IWrite "{";
      ICommaFalse;
      IComma;
      IWrite """currentTime"": ";
      IMarshalTime "CurrentTime";
      ISetComma;
      IComma;
      IWrite """interval"": ";
      IMarshal "Interval";
      ISetComma;
      IComma;
      IWrite """status"": ";
      IMarshal "Status";
      ISetComma;
      IWrite "}"])
  (DTable ["currentTime"; "interval"; "status"]
     [MkC "currentTime" "CurrentTime" (Some "currentTime");
      MkC "interval" "Interval" (Some "interval");
      MkC "status" "Status" (Some "status")]
     true [("currentTime", """currentTime"" is required but was not present"); ("interval", """interval"" is required but was not present"); ("status", """status"" is required but was not present")]).

(** cpresp.DataTransfer: messages/v1x/cpresp/messages.go:29-35;
    MarshalJSON json_encode.go:155-187; UnmarshalJSON json_encode.go:189-216 *)
Definition d_cpresp_DataTransfer : decl := MkD "cpresp.DataTransfer" "chargepointResponse"
  (Some ("urn://Ocpp/Cs/2012/06/", "dataTransferResponse"))
  [MkF "Data" (TStr) "data" false (MkX XElem "Data" false);
   MkF "Status" (TStr) "status" false (MkX XElem "status" true)]
  (EProg [IWrite "{";
      ICommaFalse;
      IComma;
      IWrite """data"": ";
      IMarshal "Data";
      ISetComma;
      IComma;
      IWrite """status"": ";
      IMarshal "Status";
      ISetComma;
      IWrite "}"])
  (DTable ["status"]
     [MkC "data" "Data" None;
      MkC "status" "Status" (Some "status")]
     true [("status", """status"" is required but was not present")]).

(** cpresp.DiagnosticsStatusNotification: messages/v1x/cpresp/messages.go:38-41;
    MarshalJSON json_encode.go:218-225; UnmarshalJSON json_encode.go:227-240 *)
Definition d_cpresp_DiagnosticsStatusNotification : decl := MkD "cpresp.DiagnosticsStatusNotification" "chargepointResponse"
  (Some ("urn://Ocpp/Cs/2012/06/", "diagnosticsStatusNotificationResponse"))
  []
  (EProg [IWrite "{";
      IWrite "}"])
  (DTable []
     []
     true []).

(** cpresp.FirmwareStatusNotification: messages/v1x/cpresp/messages.go:44-47;
    MarshalJSON json_encode.go:242-249; UnmarshalJSON json_encode.go:251-264 *)
Definition d_cpresp_FirmwareStatusNotification : decl := MkD "cpresp.FirmwareStatusNotification" "chargepointResponse"
  (Some ("urn://Ocpp/Cs/2012/06/", "firmwareStatusNotificationResponse"))
  []
  (EProg [IWrite "{";
      IWrite "}"])
  (DTable []
     []
     true []).

(** cpresp.Heartbeat: messages/v1x/cpresp/messages.go:50-55;
    MarshalJSON json_encode.go:266-287; UnmarshalJSON json_encode.go:289-312 *)
Definition d_cpresp_Heartbeat : decl := MkD "cpresp.Heartbeat" "chargepointResponse"
  (Some ("urn://Ocpp/Cs/2012/06/", "heartbeatResponse"))
  [MkF "CurrentTime" (TTime) "currentTime" false (MkX XElem "currentTime" true)]
  (EProg [IWrite "{";
      ICommaFalse;
      IComma;
      IWrite """currentTime"": ";
      IMarshalTime "CurrentTime";
      ISetComma;
      IWrite "}"])
  (DTable ["currentTime"]
     [MkC "currentTime" "CurrentTime" (Some "currentTime")]
     true [("currentTime", """currentTime"" is required but was not present")]).

(** cpresp.IdTagInfo: messages/v1x/cpresp/messages.go:58-62;
    MarshalJSON json_encode.go:314-345; UnmarshalJSON json_encode.go:347-376 *)
Definition d_cpresp_IdTagInfo : decl := MkD "cpresp.IdTagInfo" ""
  None
  [MkF "ExpiryDate" (TPtr (TTime)) "expiryDate" true (MkX XElem "expiryDate" true);
   MkF "ParentIdTag" (TStr) "parentIdTag" true (MkX XElem "parentIdTag" true);
   MkF "Status" (TStr) "status" false (MkX XElem "status" true)]
  (EProg [IWrite "{";
      IIfSet "ExpiryDate" [IWrite """expiryDate"": "; IMarshalTime "ExpiryDate"; IWrite ","];
      IWrite """parentIdTag"": ";
      IMarshal "ParentIdTag";
      IWrite ",";
      IWrite """status"": ";
      IMarshal "Status";
      IWrite "}"])
  (DTable ["status"]
     [MkC "expiryDate" "ExpiryDate" None;
      MkC "parentIdTag" "ParentIdTag" None;
      MkC "status" "Status" (Some "status")]
     false [("status", """status"" is required but was not present")]).

(** cpresp.MeterValues: messages/v1x/cpresp/messages.go:65-68;
    MarshalJSON json_encode.go:378-385; UnmarshalJSON json_encode.go:387-400 *)
Definition d_cpresp_MeterValues : decl := MkD "cpresp.MeterValues" "chargepointResponse"
  (Some ("urn://Ocpp/Cs/2012/06/", "meterValuesResponse"))
  []
  (EProg [IWrite "{";
      IWrite "}"])
  (DTable []
     []
     true []).

(** cpresp.StartTransaction: messages/v1x/cpresp/messages.go:71-77;
    MarshalJSON json_encode.go:402-438; UnmarshalJSON json_encode.go:440-473 *)
Definition d_cpresp_StartTransaction : decl := MkD "cpresp.StartTransaction" "chargepointResponse"
  (Some ("urn://Ocpp/Cs/2012/06/", "startTransactionResponse"))
  [MkF "IdTagInfo" (TPtr (TStruct "cpresp.IdTagInfo")) "idTagInfo" false (MkX XElem "idTagInfo" true);
   MkF "TransactionId" (TInt 32) "transactionId" false (MkX XElem "transactionId" true)]
  (EProg [IWrite "{";
      ICommaFalse;
      IReqNil "IdTagInfo" "idTagInfo is a required field";
      IComma;
      IWrite """idTagInfo"": ";
      IMarshal "IdTagInfo";
      ISetComma;
      IComma;
      IWrite """transactionId"": ";
      IMarshal "TransactionId";
      ISetComma;
      IWrite "}"])
  (DTable ["idTagInfo"; "transactionId"]
     [MkC "idTagInfo" "IdTagInfo" (Some "idTagInfo");
      MkC "transactionId" "TransactionId" (Some "transactionId")]
     true [("idTagInfo", """idTagInfo"" is required but was not present"); ("transactionId", """transactionId"" is required but was not present")]).

(** cpresp.StatusNotification: messages/v1x/cpresp/messages.go:80-83;
    MarshalJSON json_encode.go:475-482; UnmarshalJSON json_encode.go:484-497 *)
Definition d_cpresp_StatusNotification : decl := MkD "cpresp.StatusNotification" "chargepointResponse"
  (Some ("urn://Ocpp/Cs/2012/06/", "statusNotificationResponse"))
  []
  (EProg [IWrite "{";
      IWrite "}"])
  (DTable []
     []
     true []).

(** cpresp.StopTransaction: messages/v1x/cpresp/messages.go:86-91;
    MarshalJSON json_encode.go:499-518; UnmarshalJSON json_encode.go:520-537 *)
Definition d_cpresp_StopTransaction : decl := MkD "cpresp.StopTransaction" "chargepointResponse"
  (Some ("urn://Ocpp/Cs/2012/06/", "stopTransactionResponse"))
  [MkF "IdTagInfo" (TPtr (TStruct "cpresp.IdTagInfo")) "idTagInfo" false (MkX XElem "IdTagInfo" false)]
  (EProg [IWrite "{";
      ICommaFalse;
      IComma;
      IWrite """idTagInfo"": ";
      IMarshal "IdTagInfo";
      ISetComma;
      IWrite "}"])
  (DTable []
     [MkC "idTagInfo" "IdTagInfo" None]
     true []).

(** csreq.CancelReservation: messages/v1x/csreq/messages.go:12-17;
    MarshalJSON json_encode.go:11-32; UnmarshalJSON json_encode.go:34-57 *)
Definition d_csreq_CancelReservation : decl := MkD "csreq.CancelReservation" "centralSystemRequest"
  (Some ("urn://Ocpp/Cp/2012/06/", "cancelReservationRequest"))
  [MkF "ReservationId" (TInt 64) "reservationId" false (MkX XElem "reservationId" false)]
  (EProg [IWrite "{";
      ICommaFalse;
      IComma;
      IWrite """reservationId"": ";
      IMarshal "ReservationId";
      ISetComma;
      IWrite "}"])
  (DTable ["reservationId"]
     [MkC "reservationId" "ReservationId" (Some "reservationId")]
     true [("reservationId", """reservationId"" is required but was not present")]).

(** csreq.ChangeAvailability: messages/v1x/csreq/messages.go:20-26;
    MarshalJSON json_encode.go:59-93; UnmarshalJSON json_encode.go:95-128 *)
Definition d_csreq_ChangeAvailability : decl := MkD "csreq.ChangeAvailability" "centralSystemRequest"
  (Some ("urn://Ocpp/Cp/2012/06/", "changeAvailabilityRequest"))
  [MkF "ConnectorId" (TInt 64) "connectorId" false (MkX XElem "connectorId" false);
   MkF "Type" (TStr) "type" false (MkX XElem "type" false)]
  (EProg [IWrite "{";
      ICommaFalse;
      IComma;
      IWrite """connectorId"": ";
      IMarshal "ConnectorId";
      ISetComma;
      IComma;
      IWrite """type"": ";
      IMarshal "Type";
      ISetComma;
      IWrite "}"])
  (DTable ["connectorId"; "type"]
     [MkC "connectorId" "ConnectorId" (Some "connectorId");
      MkC "type" "Type" (Some "type")]
     true [("connectorId", """connectorId"" is required but was not present"); ("type", """type"" is required but was not present")]).

(** csreq.ChangeConfiguration: messages/v1x/csreq/messages.go:29-35;
    MarshalJSON json_encode.go:130-164; UnmarshalJSON json_encode.go:166-199 *)
Definition d_csreq_ChangeConfiguration : decl := MkD "csreq.ChangeConfiguration" "centralSystemRequest"
  (Some ("urn://Ocpp/Cp/2012/06/", "changeConfigurationRequest"))
  [MkF "Key" (TStr) "key" false (MkX XElem "key" false);
   MkF "Value" (TStr) "value" false (MkX XElem "value" false)]
  (EProg [IWrite "{";
      ICommaFalse;
      IComma;
      IWrite """key"": ";
      IMarshal "Key";
      ISetComma;
      IComma;
      IWrite """value"": ";
      IMarshal "Value";
      ISetComma;
      IWrite "}"])
  (DTable ["key"; "value"]
     [MkC "key" "Key" (Some "key");
      MkC "value" "Value" (Some "value")]
     true [("key", """key"" is required but was not present"); ("value", """value"" is required but was not present")]).

(** csreq.ChargingProfile: messages/v1x/csreq/messages.go:38-48;
    MarshalJSON json_encode.go:201-314; UnmarshalJSON json_encode.go:316-393 *)
Definition d_csreq_ChargingProfile : decl := MkD "csreq.ChargingProfile" ""
  None
  [MkF "ChargingProfileId" (TInt 64) "chargingProfileId" false (MkX XElem "chargingProfileId" false);
   MkF "ChargingProfileKind" (TStr) "chargingProfileKind" false (MkX XElem "chargingProfileKind" false);
   MkF "ChargingProfilePurpose" (TStr) "chargingProfilePurpose" false (MkX XElem "chargingProfilePurpose" false);
   MkF "ChargingSchedule" (TPtr (TStruct "csreq.ChargingSchedule")) "chargingSchedule" false (MkX XElem "chargingSchedule" false);
   MkF "RecurrencyKind" (TStr) "recurrencyKind" true (MkX XElem "recurrencyKind" true);
   MkF "StackLevel" (TInt 64) "stackLevel" false (MkX XElem "stackLevel" false);
   MkF "TransactionId" (TInt 64) "transactionId" true (MkX XElem "transactionId" true);
   MkF "ValidFrom" (TPtr (TTime)) "validFrom" true (MkX XElem "validFrom" true);
   MkF "ValidTo" (TPtr (TTime)) "validTo" true (MkX XElem "validTo" true)]
  (EProg [IWrite "{";
      ICommaFalse;
      IComma;
      IWrite """chargingProfileId"": ";
      IMarshal "ChargingProfileId";
      ISetComma;
      IComma;
      IWrite """chargingProfileKind"": ";
      IMarshal "ChargingProfileKind";
      ISetComma;
      IComma;
      IWrite """chargingProfilePurpose"": ";
      IMarshal "ChargingProfilePurpose";
      ISetComma;
      IReqNil "ChargingSchedule" "chargingSchedule is a required field";
      IComma;
      IWrite """chargingSchedule"": ";
      IMarshal "ChargingSchedule";
      ISetComma;
      IComma;
      IWrite """recurrencyKind"": ";
      IMarshal "RecurrencyKind";
      ISetComma;
      IComma;
      IWrite """stackLevel"": ";
      IMarshal "StackLevel";
      ISetComma;
      IComma;
      IWrite """transactionId"": ";
      IMarshal "TransactionId";
      IIfSet "ValidFrom" [IWrite ","; IWrite """validFrom"": "; IMarshalTime "ValidFrom"];
      IIfSet "ValidTo" [IWrite ","; IWrite """validTo"": "; IMarshalTime "ValidTo"];
      IWrite "}"])
  (DTable ["chargingProfileId"; "chargingProfileKind"; "chargingProfilePurpose"; "chargingSchedule"; "stackLevel"]
     [MkC "chargingProfileId" "ChargingProfileId" (Some "chargingProfileId");
      MkC "chargingProfileKind" "ChargingProfileKind" (Some "chargingProfileKind");
      MkC "chargingProfilePurpose" "ChargingProfilePurpose" (Some "chargingProfilePurpose");
      MkC "chargingSchedule" "ChargingSchedule" (Some "chargingSchedule");
      MkC "recurrencyKind" "RecurrencyKind" None;
      MkC "stackLevel" "StackLevel" (Some "stackLevel");
      MkC "transactionId" "TransactionId" None;
      MkC "validFrom" "ValidFrom" None;
      MkC "validTo" "ValidTo" None]
     false [("chargingProfileId", """chargingProfileId"" is required but was not present"); ("chargingProfileKind", """chargingProfileKind"" is required but was not present"); ("chargingProfilePurpose", """chargingProfilePurpose"" is required but was not present"); ("chargingSchedule", """chargingSchedule"" is required but was not present"); ("stackLevel", """stackLevel"" is required but was not present")]).

(** csreq.ChargingSchedule: messages/v1x/csreq/messages.go:51-57;
    MarshalJSON json_encode.go:1279-1342; UnmarshalJSON json_encode.go:1344-1387 *)
Definition d_csreq_ChargingSchedule : decl := MkD "csreq.ChargingSchedule" ""
  None
  [MkF "ChargingRateUnit" (TStr) "chargingRateUnit" false (MkX XElem "chargingRateUnit" false);
   MkF "ChargingSchedulePeriod" (TSlice (TPtr (TStruct "csreq.ChargingSchedulePeriodItems"))) "chargingSchedulePeriod" false (MkX XElem "chargingSchedulePeriod" false);
   MkF "Duration" (TInt 64) "duration" true (MkX XElem "duration" true);
   MkF "MinChargingRate" (TF64) "minChargingRate" true (MkX XElem "minChargingRate" true);
   MkF "StartSchedule" (TPtr (TTime)) "startSchedule" true (MkX XElem "startSchedule" true)]
  (EProg [IWrite "{";
      ICommaFalse;
      IComma;
      IWrite """chargingRateUnit"": ";
      IMarshal "ChargingRateUnit";
      ISetComma;
      IComma;
      IWrite """chargingSchedulePeriod"": ";
      IMarshal "ChargingSchedulePeriod";
      ISetComma;
      IComma;
      IWrite """duration"": ";
      IMarshal "Duration";
      ISetComma;
      IComma;
      IWrite """minChargingRate"": ";
      IMarshal "MinChargingRate";
      IIfSet "StartSchedule" [IWrite ","; IWrite """startSchedule"": "; IMarshalTime "StartSchedule"];
      IWrite "}"])
  (DTable ["chargingRateUnit"; "chargingSchedulePeriod"]
     [MkC "chargingRateUnit" "ChargingRateUnit" (Some "chargingRateUnit");
      MkC "chargingSchedulePeriod" "ChargingSchedulePeriod" (Some "chargingSchedulePeriod");
      MkC "duration" "Duration" None;
      MkC "minChargingRate" "MinChargingRate" None;
      MkC "startSchedule" "StartSchedule" None]
     false [("chargingRateUnit", """chargingRateUnit"" is required but was not present"); ("chargingSchedulePeriod", """chargingSchedulePeriod"" is required but was not present")]).

(** csreq.ChargingSchedulePeriodItems: messages/v1x/csreq/messages.go:60-64;
    MarshalJSON json_encode.go:1389-1434; UnmarshalJSON json_encode.go:1436-1471 *)
Definition d_csreq_ChargingSchedulePeriodItems : decl := MkD "csreq.ChargingSchedulePeriodItems" ""
  None
  [MkF "Limit" (TF64) "limit" false (MkX XElem "limit" false);
   MkF "NumberPhases" (TInt 64) "numberPhases" true (MkX XElem "numberPhases" true);
   MkF "StartPeriod" (TInt 64) "startPeriod" false (MkX XElem "startPeriod" false)]
  (EProg [IWrite "{";
      ICommaFalse;
      IComma;
      IWrite """limit"": ";
      IMarshal "Limit";
      ISetComma;
      IComma;
      IWrite """numberPhases"": ";
      IMarshal "NumberPhases";
      ISetComma;
      IComma;
      IWrite """startPeriod"": ";
      IMarshal "StartPeriod";
      ISetComma;
      IWrite "}"])
  (DTable ["limit"; "startPeriod"]
     [MkC "limit" "Limit" (Some "limit");
      MkC "numberPhases" "NumberPhases" None;
      MkC "startPeriod" "StartPeriod" (Some "startPeriod")]
     false [("limit", """limit"" is required but was not present"); ("startPeriod", """startPeriod"" is required but was not present")]).

(** csreq.ClearCache: messages/v1x/csreq/messages.go:67-70;
    MarshalJSON json_encode.go:395-402; UnmarshalJSON json_encode.go:404-417 *)
Definition d_csreq_ClearCache : decl := MkD "csreq.ClearCache" "centralSystemRequest"
  (Some ("urn://Ocpp/Cp/2012/06/", "clearCacheRequest"))
  []
  (EProg [IWrite "{";
      IWrite "}"])
  (DTable []
     []
     true []).

(** csreq.ClearChargingProfile: messages/v1x/csreq/messages.go:73-81;
    MarshalJSON json_encode.go:419-471; UnmarshalJSON json_encode.go:473-502 *)
Definition d_csreq_ClearChargingProfile : decl := MkD "csreq.ClearChargingProfile" "centralSystemRequest"
  (Some ("urn://Ocpp/Cp/2012/06/", "clearChargingProfileRequest"))
  [MkF "ChargingProfilePurpose" (TStr) "chargingProfilePurpose" true (MkX XElem "chargingProfilePurpose" true);
   MkF "ConnectorId" (TInt 64) "connectorId" true (MkX XElem "connectorId" true);
   MkF "Id" (TInt 64) "id" true (MkX XElem "id" true);
   MkF "StackLevel" (TInt 64) "stackLevel" true (MkX XElem "stackLevel" true)]
  (EProg [IWrite "{";
      ICommaFalse;
      IComma;
      IWrite """chargingProfilePurpose"": ";
      IMarshal "ChargingProfilePurpose";
      ISetComma;
      IComma;
      IWrite """connectorId"": ";
      IMarshal "ConnectorId";
      ISetComma;
      IComma;
      IWrite """id"": ";
      IMarshal "Id";
      ISetComma;
      IComma;
      IWrite """stackLevel"": ";
      IMarshal "StackLevel";
      ISetComma;
      IWrite "}"])
  (DTable []
     [MkC "chargingProfilePurpose" "ChargingProfilePurpose" None;
      MkC "connectorId" "ConnectorId" None;
      MkC "id" "Id" None;
      MkC "stackLevel" "StackLevel" None]
     true []).

(** csreq.DataTransfer: messages/v1x/csreq/messages.go:84-91;
    MarshalJSON json_encode.go:504-547; UnmarshalJSON json_encode.go:549-580 *)
Definition d_csreq_DataTransfer : decl := MkD "csreq.DataTransfer" "centralSystemRequest"
  (Some ("urn://Ocpp/Cp/2012/06/", "dataTransferRequest"))
  [MkF "Data" (TStr) "data" true (MkX XElem "data" true);
   MkF "MessageId" (TStr) "messageId" true (MkX XElem "messageId" true);
   MkF "VendorId" (TStr) "vendorId" false (MkX XElem "vendorId" false)]
  (EProg [IWrite "{";
      ICommaFalse;
      IComma;
      IWrite """data"": ";
      IMarshal "Data";
      ISetComma;
      IComma;
      IWrite """messageId"": ";
      IMarshal "MessageId";
      ISetComma;
      IComma;
      IWrite """vendorId"": ";
      IMarshal "VendorId";
      ISetComma;
      IWrite "}"])
  (DTable ["vendorId"]
     [MkC "data" "Data" None;
      MkC "messageId" "MessageId" None;
      MkC "vendorId" "VendorId" (Some "vendorId")]
     true [("vendorId", """vendorId"" is required but was not present")]).

(** csreq.GetCompositeSchedule: messages/v1x/csreq/messages.go:94-101;
    MarshalJSON json_encode.go:582-627; UnmarshalJSON json_encode.go:629-666 *)
Definition d_csreq_GetCompositeSchedule : decl := MkD "csreq.GetCompositeSchedule" "centralSystemRequest"
  (Some ("urn://Ocpp/Cp/2012/06/", "getCompositeScheduleRequest"))
  [MkF "ChargingRateUnit" (TStr) "chargingRateUnit" true (MkX XElem "chargingRateUnit" true);
   MkF "ConnectorId" (TInt 64) "connectorId" false (MkX XElem "connectorId" false);
   MkF "Duration" (TInt 64) "duration" false (MkX XElem "duration" false)]
  (EProg [IWrite "{";
      ICommaFalse;
      IComma;
      IWrite """chargingRateUnit"": ";
      IMarshal "ChargingRateUnit";
      ISetComma;
      IComma;
      IWrite """connectorId"": ";
      IMarshal "ConnectorId";
      ISetComma;
      IComma;
      IWrite """duration"": ";
      IMarshal "Duration";
      ISetComma;
      IWrite "}"])
  (DTable ["connectorId"; "duration"]
     [MkC "chargingRateUnit" "ChargingRateUnit" None;
      MkC "connectorId" "ConnectorId" (Some "connectorId");
      MkC "duration" "Duration" (Some "duration")]
     true [("connectorId", """connectorId"" is required but was not present"); ("duration", """duration"" is required but was not present")]).

(** csreq.GetConfiguration: messages/v1x/csreq/messages.go:104-109;
    MarshalJSON json_encode.go:668-674; UnmarshalJSON json_encode.go:676-693 *)
Definition d_csreq_GetConfiguration : decl := MkD "csreq.GetConfiguration" "centralSystemRequest"
  (Some ("urn://Ocpp/Cp/2012/06/", "getConfigurationRequest"))
  [MkF "Key" (TSlice (TStr)) "key" true (MkX XElem "key" true)]
  (EOptMap "key" "Key")
  (DTable []
     [MkC "key" "Key" None]
     true []).

(** csreq.GetDiagnostics: messages/v1x/csreq/messages.go:112-121;
    MarshalJSON json_encode.go:695-754; UnmarshalJSON json_encode.go:756-795 *)
Definition d_csreq_GetDiagnostics : decl := MkD "csreq.GetDiagnostics" "centralSystemRequest"
  (Some ("urn://Ocpp/Cp/2012/06/", "getDiagnosticsRequest"))
  [MkF "Location" (TStr) "location" false (MkX XElem "location" false);
   MkF "Retries" (TInt 64) "retries" true (MkX XElem "retries" true);
   MkF "RetryInterval" (TInt 64) "retryInterval" true (MkX XElem "retryInterval" true);
   MkF "StartTime" (TPtr (TTime)) "startTime" true (MkX XElem "startTime" true);
   MkF "StopTime" (TPtr (TTime)) "stopTime" true (MkX XElem "stopTime" true)]
  (EProg [IWrite "{";
      ICommaFalse;
      IComma;
      IWrite """location"": ";
      IMarshal "Location";
      ISetComma;
      IComma;
      IWrite """retries"": ";
      IMarshal "Retries";
      ISetComma;
      IComma;
      IWrite """retryInterval"": ";
      IMarshal "RetryInterval";
      IIfSet "StartTime" [IWrite ","; IWrite """startTime"": "; IMarshalTime "StartTime"];
      IIfSet "StopTime" [IWrite ","; IWrite """stopTime"": "; IMarshalTime "StopTime"];
      IWrite "}"])
  (DTable ["location"]
     [MkC "location" "Location" (Some "location");
      MkC "retries" "Retries" None;
      MkC "retryInterval" "RetryInterval" None;
      MkC "startTime" "StartTime" None;
      MkC "stopTime" "StopTime" None]
     true [("location", """location"" is required but was not present")]).

(** csreq.GetLocalListVersion: messages/v1x/csreq/messages.go:124-127;
    MarshalJSON json_encode.go:797-804; UnmarshalJSON json_encode.go:806-819 *)
Definition d_csreq_GetLocalListVersion : decl := MkD "csreq.GetLocalListVersion" "centralSystemRequest"
  (Some ("urn://Ocpp/Cp/2012/06/", "getLocalListVersionRequest"))
  []
  (EProg [IWrite "{";
      IWrite "}"])
  (DTable []
     []
     true []).

(** csreq.IdTagInfo: messages/v1x/csreq/messages.go:130-134;
    MarshalJSON json_encode.go:821-864; UnmarshalJSON json_encode.go:866-887 *)
Definition d_csreq_IdTagInfo : decl := MkD "csreq.IdTagInfo" ""
  None
  [MkF "ExpiryDate" (TPtr (TTime)) "expiryDate" true (MkX XElem "expiryDate" true);
   MkF "ParentIdTag" (TStr) "parentIdTag" true (MkX XElem "parentIdTag" true);
   MkF "Status" (TStr) "status" false (MkX XElem "status" false)]
  (EProg [IWrite "{";
      ICommaFalse;
      IComma;
      IWrite """expiryDate"": ";
      IMarshalTime "ExpiryDate";
      ISetComma;
      IComma;
      IWrite """parentIdTag"": ";
      IMarshal "ParentIdTag";
      ISetComma;
      IComma;
      IWrite """status"": ";
      IMarshal "Status";
      ISetComma;
      IWrite "}"])
  (DTable ["status"]
     [MkC "status" "Status" (Some "status")]
     false [("status", """status"" is required but was not present")]).

(** csreq.LocalAuthorizationListItems: messages/v1x/csreq/messages.go:137-140;
    MarshalJSON json_encode.go:889-921; UnmarshalJSON json_encode.go:923-948 *)
Definition d_csreq_LocalAuthorizationListItems : decl := MkD "csreq.LocalAuthorizationListItems" ""
  None
  [MkF "IdTag" (TStr) "idTag" false (MkX XElem "idTag" false);
   MkF "IdTagInfo" (TPtr (TStruct "csreq.IdTagInfo")) "idTagInfo" true (MkX XElem "idTagInfo" true)]
  (EProg [IWrite "{";
      ICommaFalse;
      IComma;
      IWrite """idTag"": ";
      IMarshal "IdTag";
      ISetComma;
      IComma;
      IWrite """idTagInfo"": ";
      IMarshal "IdTagInfo";
      ISetComma;
      IWrite "}"])
  (DTable ["idTag"]
     [MkC "idTag" "IdTag" (Some "idTag");
      MkC "idTagInfo" "IdTagInfo" None]
     false [("idTag", """idTag"" is required but was not present")]).

(** csreq.RemoteStartTransaction: messages/v1x/csreq/messages.go:143-150;
    MarshalJSON none (reflective); UnmarshalJSON none (reflective) *)
Definition d_csreq_RemoteStartTransaction : decl := MkD "csreq.RemoteStartTransaction" "centralSystemRequest"
  (Some ("urn://Ocpp/Cp/2012/06/", "remoteStartTransactionRequest"))
  [MkF "IdTag" (TStr) "idTag" false (MkX XElem "idTag" false);
   MkF "ChargingProfile" (TPtr (TStruct "csreq.ChargingProfile")) "chargingProfile" true (MkX XElem "chargingProfile" true);
   MkF "ConnectorId" (TInt 32) "connectorId" true (MkX XElem "connectorId" true)]
  (EDefault)
  (DDefault).

(** csreq.RemoteStopTransaction: messages/v1x/csreq/messages.go:153-158;
    MarshalJSON none (reflective); UnmarshalJSON none (reflective) *)
Definition d_csreq_RemoteStopTransaction : decl := MkD "csreq.RemoteStopTransaction" "centralSystemRequest"
  (Some ("urn://Ocpp/Cp/2012/06/", "remoteStopTransactionRequest"))
  [MkF "TransactionId" (TInt 32) "transactionId" false (MkX XElem "transactionId" false)]
  (EDefault)
  (DDefault).

(** csreq.ReserveNow: messages/v1x/csreq/messages.go:161-170;
    MarshalJSON json_encode.go:950-1021; UnmarshalJSON json_encode.go:1023-1080 *)
Definition d_csreq_ReserveNow : decl := MkD "csreq.ReserveNow" "centralSystemRequest"
  (Some ("urn://Ocpp/Cp/2012/06/", "reserveNowRequest"))
  [MkF "ConnectorId" (TInt 64) "connectorId" false (MkX XElem "connectorId" false);
   MkF "ExpiryDate" (TTime) "expiryDate" false (MkX XElem "expiryDate" false);
   MkF "IdTag" (TStr) "idTag" false (MkX XElem "idTag" false);
   MkF "ParentIdTag" (TStr) "parentIdTag" true (MkX XElem "parentIdTag" true);
   MkF "ReservationId" (TInt 64) "reservationId" false (MkX XElem "reservationId" false)]
  (EProg [IWrite "{";
      ICommaFalse;
      IComma;
      IWrite """connectorId"": ";
      IMarshal "ConnectorId";
      ISetComma;
      IComma;
      IWrite """expiryDate"": ";
      IMarshalTime "ExpiryDate";
      ISetComma;
      IComma;
      IWrite """idTag"": ";
      IMarshal "IdTag";
      ISetComma;
      IComma;
      IWrite """parentIdTag"": ";
      IMarshal "ParentIdTag";
      ISetComma;
      IComma;
      IWrite """reservationId"": ";
      IMarshal "ReservationId";
      ISetComma;
      IWrite "}"])
  (DTable ["connectorId"; "expiryDate"; "idTag"; "reservationId"]
     [MkC "connectorId" "ConnectorId" (Some "connectorId");
      MkC "expiryDate" "ExpiryDate" (Some "expiryDate");
      MkC "idTag" "IdTag" (Some "idTag");
      MkC "parentIdTag" "ParentIdTag" None;
      MkC "reservationId" "ReservationId" (Some "reservationId")]
     true [("connectorId", """connectorId"" is required but was not present"); ("expiryDate", """expiryDate"" is required but was not present"); ("idTag", """idTag"" is required but was not present"); ("reservationId", """reservationId"" is required but was not present")]).

(** csreq.Reset: messages/v1x/csreq/messages.go:173-178;
    MarshalJSON json_encode.go:1082-1103; UnmarshalJSON json_encode.go:1105-1128 *)
Definition d_csreq_Reset : decl := MkD "csreq.Reset" "centralSystemRequest"
  (Some ("urn://Ocpp/Cp/2012/06/", "resetRequest"))
  [MkF "Type" (TStr) "type" false (MkX XElem "type" false)]
  (EProg [IWrite "{";
      ICommaFalse;
      IComma;
      IWrite """type"": ";
      IMarshal "Type";
      ISetComma;
      IWrite "}"])
  (DTable ["type"]
     [MkC "type" "Type" (Some "type")]
     true [("type", """type"" is required but was not present")]).

(** csreq.SendLocalList: messages/v1x/csreq/messages.go:181-188;
    MarshalJSON json_encode.go:1130-1175; UnmarshalJSON json_encode.go:1177-1214 *)
Definition d_csreq_SendLocalList : decl := MkD "csreq.SendLocalList" "centralSystemRequest"
  (Some ("urn://Ocpp/Cp/2012/06/", "sendLocalListRequest"))
  [MkF "ListVersion" (TInt 64) "listVersion" false (MkX XElem "listVersion" false);
   MkF "LocalAuthorizationList" (TSlice (TPtr (TStruct "csreq.LocalAuthorizationListItems"))) "localAuthorizationList" true (MkX XElem "localAuthorizationList" true);
   MkF "UpdateType" (TStr) "updateType" false (MkX XElem "updateType" false)]
  (EProg [IWrite "{";
      ICommaFalse;
      IComma;
      IWrite """listVersion"": ";
      IMarshal "ListVersion";
      ISetComma;
      IComma;
      IWrite """localAuthorizationList"": ";
      IMarshal "LocalAuthorizationList";
      ISetComma;
      IComma;
      IWrite """updateType"": ";
      IMarshal "UpdateType";
      ISetComma;
      IWrite "}"])
  (DTable ["listVersion"; "updateType"]
     [MkC "listVersion" "ListVersion" (Some "listVersion");
      MkC "localAuthorizationList" "LocalAuthorizationList" None;
      MkC "updateType" "UpdateType" (Some "updateType")]
     true [("listVersion", """listVersion"" is required but was not present"); ("updateType", """updateType"" is required but was not present")]).

(** csreq.TriggerMessage: messages/v1x/csreq/messages.go:191-197;
    MarshalJSON json_encode.go:1216-1248; UnmarshalJSON json_encode.go:1250-1277 *)
Definition d_csreq_TriggerMessage : decl := MkD "csreq.TriggerMessage" "centralSystemRequest"
  (Some ("urn://Ocpp/Cp/2012/06/", "triggerMessageRequest"))
  [MkF "ConnectorId" (TInt 64) "connectorId" true (MkX XElem "connectorId" true);
   MkF "RequestedMessage" (TStr) "requestedMessage" false (MkX XElem "requestedMessage" false)]
  (EProg [IWrite "{";
      ICommaFalse;
      IComma;
      IWrite """connectorId"": ";
      IMarshal "ConnectorId";
      ISetComma;
      IComma;
      IWrite """requestedMessage"": ";
      IMarshal "RequestedMessage";
      ISetComma;
      IWrite "}"])
  (DTable ["requestedMessage"]
     [MkC "connectorId" "ConnectorId" None;
      MkC "requestedMessage" "RequestedMessage" (Some "requestedMessage")]
     true [("requestedMessage", """requestedMessage"" is required but was not present")]).

(** csreq.UnlockConnector: messages/v1x/csreq/messages.go:200-205;
    MarshalJSON json_encode.go:1746-1767; UnmarshalJSON json_encode.go:1769-1792 *)
Definition d_csreq_UnlockConnector : decl := MkD "csreq.UnlockConnector" "centralSystemRequest"
  (Some ("urn://Ocpp/Cp/2012/06/", "unlockConnectorRequest"))
  [MkF "ConnectorId" (TInt 64) "connectorId" false (MkX XElem "connectorId" false)]
  (EProg [IWrite "{";
      ICommaFalse;
      IComma;
      IWrite """connectorId"": ";
      IMarshal "ConnectorId";
      ISetComma;
      IWrite "}"])
  (DTable ["connectorId"]
     [MkC "connectorId" "ConnectorId" (Some "connectorId")]
     true [("connectorId", """connectorId"" is required but was not present")]).

(** csreq.UpdateFirmware: messages/v1x/csreq/messages.go:208-216;
    MarshalJSON json_encode.go:1794-1850; UnmarshalJSON json_encode.go:1852-1893 *)
Definition d_csreq_UpdateFirmware : decl := MkD "csreq.UpdateFirmware" "centralSystemRequest"
  (Some ("urn://Ocpp/Cp/2012/06/", "updateFirmwareRequest"))
  [MkF "Location" (TStr) "location" false (MkX XElem "location" false);
   MkF "Retries" (TF64) "retries" true (MkX XElem "retries" true);
   MkF "RetrieveDate" (TTime) "retrieveDate" false (MkX XElem "retrieveDate" false);
   MkF "RetryInterval" (TF64) "retryInterval" true (MkX XElem "retryInterval" true)]
  (EProg [IWrite "{";
      ICommaFalse;
      IComma;
      IWrite """location"": ";
      IMarshal "Location";
      ISetComma;
      IComma;
      IWrite """retries"": ";
      IMarshal "Retries";
      ISetComma;
      IComma;
      IWrite """retrieveDate"": ";
      IMarshalTime "RetrieveDate";
      ISetComma;
      IComma;
      IWrite """retryInterval"": ";
      IMarshal "RetryInterval";
      ISetComma;
      IWrite "}"])
  (DTable ["location"; "retrieveDate"]
     [MkC "location" "Location" (Some "location");
      MkC "retries" "Retries" None;
      MkC "retrieveDate" "RetrieveDate" (Some "retrieveDate");
      MkC "retryInterval" "RetryInterval" None]
     true [("location", """location"" is required but was not present"); ("retrieveDate", """retrieveDate"" is required but was not present")]).

(** csreq.CsChargingProfiles: messages/v1x/csreq/messages.go:219-229;
    MarshalJSON json_encode.go:1473-1592; UnmarshalJSON json_encode.go:1594-1671 *)
Definition d_csreq_CsChargingProfiles : decl := MkD "csreq.CsChargingProfiles" ""
  None
  [MkF "ChargingProfileId" (TInt 64) "chargingProfileId" false (MkX XElem "chargingProfileId" false);
   MkF "ChargingProfileKind" (TStr) "chargingProfileKind" false (MkX XElem "chargingProfileKind" false);
   MkF "ChargingProfilePurpose" (TStr) "chargingProfilePurpose" false (MkX XElem "chargingProfilePurpose" false);
   MkF "ChargingSchedule" (TPtr (TStruct "csreq.ChargingSchedule")) "chargingSchedule" false (MkX XElem "chargingSchedule" false);
   MkF "RecurrencyKind" (TStr) "recurrencyKind" true (MkX XElem "recurrencyKind" true);
   MkF "StackLevel" (TInt 64) "stackLevel" false (MkX XElem "stackLevel" false);
   MkF "TransactionId" (TInt 64) "transactionId" true (MkX XElem "transactionId" true);
   MkF "ValidFrom" (TTime) "validFrom" true (MkX XElem "validFrom" true);
   MkF "ValidTo" (TTime) "validTo" true (MkX XElem "validTo" true)]
  (EProg [IWrite "{";
      ICommaFalse;
      IComma;
      IWrite """chargingProfileId"": ";
      IMarshal "ChargingProfileId";
      ISetComma;
      IComma;
      IWrite """chargingProfileKind"": ";
      IMarshal "ChargingProfileKind";
      ISetComma;
      IComma;
      IWrite """chargingProfilePurpose"": ";
      IMarshal "ChargingProfilePurpose";
      ISetComma;
      IReqNil "ChargingSchedule" "chargingSchedule is a required field";
      IComma;
      IWrite """chargingSchedule"": ";
      IMarshal "ChargingSchedule";
      ISetComma;
      IComma;
      IWrite """recurrencyKind"": ";
      IMarshal "RecurrencyKind";
      ISetComma;
      IComma;
      IWrite """stackLevel"": ";
      IMarshal "StackLevel";
      ISetComma;
      IComma;
      IWrite """transactionId"": ";
      IMarshal "TransactionId";
      ISetComma;
      IComma;
      IWrite """validFrom"": ";
      IMarshalTime "ValidFrom";
      ISetComma;
      IComma;
      IWrite """validTo"": ";
      IMarshalTime "ValidTo";
      ISetComma;
      IWrite "}"])
  (DTable ["chargingProfileId"; "chargingProfileKind"; "chargingProfilePurpose"; "chargingSchedule"; "stackLevel"]
     [MkC "chargingProfileId" "ChargingProfileId" (Some "chargingProfileId");
      MkC "chargingProfileKind" "ChargingProfileKind" (Some "chargingProfileKind");
      MkC "chargingProfilePurpose" "ChargingProfilePurpose" (Some "chargingProfilePurpose");
      MkC "chargingSchedule" "ChargingSchedule" (Some "chargingSchedule");
      MkC "recurrencyKind" "RecurrencyKind" None;
      MkC "stackLevel" "StackLevel" (Some "stackLevel");
      MkC "transactionId" "TransactionId" None;
      MkC "validFrom" "ValidFrom" None;
      MkC "validTo" "ValidTo" None]
     false [("chargingProfileId", """chargingProfileId"" is required but was not present"); ("chargingProfileKind", """chargingProfileKind"" is required but was not present"); ("chargingProfilePurpose", """chargingProfilePurpose"" is required but was not present"); ("chargingSchedule", """chargingSchedule"" is required but was not present"); ("stackLevel", """stackLevel"" is required but was not present")]).

(** csreq.SetChargingProfile: messages/v1x/csreq/messages.go:232-238;
    MarshalJSON json_encode.go:1673-1709; UnmarshalJSON json_encode.go:1711-1744 *)
Definition d_csreq_SetChargingProfile : decl := MkD "csreq.SetChargingProfile" "centralSystemRequest"
  (Some ("urn://Ocpp/Cp/2012/06/", "setChargingProfileRequest"))
  [MkF "ConnectorId" (TInt 64) "connectorId" false (MkX XElem "connectorId" false);
   MkF "CsChargingProfiles" (TPtr (TStruct "csreq.CsChargingProfiles")) "csChargingProfiles" false (MkX XElem "csChargingProfiles" false)]
  (EProg [IWrite "{";
      ICommaFalse;
      IComma;
      IWrite """connectorId"": ";
      IMarshal "ConnectorId";
      ISetComma;
      IReqNil "CsChargingProfiles" "csChargingProfiles is a required field";
      IComma;
      IWrite """csChargingProfiles"": ";
      IMarshal "CsChargingProfiles";
      ISetComma;
      IWrite "}"])
  (DTable ["connectorId"; "csChargingProfiles"]
     [MkC "connectorId" "ConnectorId" (Some "connectorId");
      MkC "csChargingProfiles" "CsChargingProfiles" (Some "csChargingProfiles")]
     true [("connectorId", """connectorId"" is required but was not present"); ("csChargingProfiles", """csChargingProfiles"" is required but was not present")]).

(** csresp.CancelReservation: messages/v1x/csresp/messages.go:9-14;
    MarshalJSON json_encode.go:11-32; UnmarshalJSON json_encode.go:34-57 *)
Definition d_csresp_CancelReservation : decl := MkD "csresp.CancelReservation" "centralSystemResponse"
  (Some ("urn://Ocpp/Cp/2012/06/", "cancelReservationResponse"))
  [MkF "Status" (TStr) "status" false (MkX XElem "status" false)]
  (EProg [IWrite "{";
      ICommaFalse;
      IComma;
      IWrite """status"": ";
      IMarshal "Status";
      ISetComma;
      IWrite "}"])
  (DTable ["status"]
     [MkC "status" "Status" (Some "status")]
     true [("status", """status"" is required but was not present")]).

(** csresp.ChangeAvailability: messages/v1x/csresp/messages.go:17-22;
    MarshalJSON json_encode.go:59-80; UnmarshalJSON json_encode.go:82-105 *)
Definition d_csresp_ChangeAvailability : decl := MkD "csresp.ChangeAvailability" "centralSystemResponse"
  (Some ("urn://Ocpp/Cp/2012/06/", "changeAvailabilityResponse"))
  [MkF "Status" (TStr) "status" false (MkX XElem "status" false)]
  (EProg [IWrite "{";
      ICommaFalse;
      IComma;
      IWrite """status"": ";
      IMarshal "Status";
      ISetComma;
      IWrite "}"])
  (DTable ["status"]
     [MkC "status" "Status" (Some "status")]
     true [("status", """status"" is required but was not present")]).

(** csresp.ChangeConfiguration: messages/v1x/csresp/messages.go:25-30;
    MarshalJSON json_encode.go:107-128; UnmarshalJSON json_encode.go:130-153 *)
Definition d_csresp_ChangeConfiguration : decl := MkD "csresp.ChangeConfiguration" "centralSystemResponse"
  (Some ("urn://Ocpp/Cp/2012/06/", "changeConfigurationResponse"))
  [MkF "Status" (TStr) "status" false (MkX XElem "status" false)]
  (EProg [IWrite "{";
      ICommaFalse;
      IComma;
      IWrite """status"": ";
      IMarshal "Status";
      ISetComma;
      IWrite "}"])
  (DTable ["status"]
     [MkC "status" "Status" (Some "status")]
     true [("status", """status"" is required but was not present")]).

(** csresp.ChargingSchedule: messages/v1x/csresp/messages.go:33-39;
    MarshalJSON json_encode.go:155-220; UnmarshalJSON json_encode.go:222-265 *)
Definition d_csresp_ChargingSchedule : decl := MkD "csresp.ChargingSchedule" ""
  None
  [MkF "ChargingRateUnit" (TStr) "chargingRateUnit" false (MkX XElem "chargingRateUnit" false);
   MkF "ChargingSchedulePeriod" (TSlice (TPtr (TStruct "csresp.ChargingSchedulePeriodItems"))) "chargingSchedulePeriod" false (MkX XElem "chargingSchedulePeriod" false);
   MkF "Duration" (TInt 64) "duration" true (MkX XElem "duration" true);
   MkF "MinChargingRate" (TF64) "minChargingRate" true (MkX XElem "minChargingRate" true);
   MkF "StartSchedule" (TPtr (TTime)) "startSchedule" true (MkX XElem "startSchedule" true)]
  (EProg [IWrite "{";
      ICommaFalse;
      IComma;
      IWrite """chargingRateUnit"": ";
      IMarshal "ChargingRateUnit";
      ISetComma;
      IComma;
      IWrite """chargingSchedulePeriod"": ";
      IMarshal "ChargingSchedulePeriod";
      ISetComma;
      IComma;
      IWrite """duration"": ";
      IMarshal "Duration";
      ISetComma;
      IComma;
      IWrite """minChargingRate"": ";
      IMarshal "MinChargingRate";
      IIfSet "StartSchedule" [IWrite ","; IWrite """startSchedule"": "; IMarshalTime "StartSchedule"];
      IWrite "}"])
  (DTable ["chargingRateUnit"; "chargingSchedulePeriod"]
     [MkC "chargingRateUnit" "ChargingRateUnit" (Some "chargingRateUnit");
      MkC "chargingSchedulePeriod" "ChargingSchedulePeriod" (Some "chargingSchedulePeriod");
      MkC "duration" "Duration" None;
      MkC "minChargingRate" "MinChargingRate" None;
      MkC "startSchedule" "StartSchedule" None]
     false [("chargingRateUnit", """chargingRateUnit"" is required but was not present"); ("chargingSchedulePeriod", """chargingSchedulePeriod"" is required but was not present")]).

(** csresp.ChargingSchedulePeriodItems: messages/v1x/csresp/messages.go:42-46;
    MarshalJSON json_encode.go:267-312; UnmarshalJSON json_encode.go:314-349 *)
Definition d_csresp_ChargingSchedulePeriodItems : decl := MkD "csresp.ChargingSchedulePeriodItems" ""
  None
  [MkF "Limit" (TF64) "limit" false (MkX XElem "limit" false);
   MkF "NumberPhases" (TInt 64) "numberPhases" true (MkX XElem "numberPhases" true);
   MkF "StartPeriod" (TInt 64) "startPeriod" false (MkX XElem "startPeriod" false)]
  (EProg [IWrite "{";
      ICommaFalse;
      IComma;
      IWrite """limit"": ";
      IMarshal "Limit";
      ISetComma;
      IComma;
      IWrite """numberPhases"": ";
      IMarshal "NumberPhases";
      ISetComma;
      IComma;
      IWrite """startPeriod"": ";
      IMarshal "StartPeriod";
      ISetComma;
      IWrite "}"])
  (DTable ["limit"; "startPeriod"]
     [MkC "limit" "Limit" (Some "limit");
      MkC "numberPhases" "NumberPhases" None;
      MkC "startPeriod" "StartPeriod" (Some "startPeriod")]
     false [("limit", """limit"" is required but was not present"); ("startPeriod", """startPeriod"" is required but was not present")]).

(** csresp.ClearCache: messages/v1x/csresp/messages.go:49-54;
    MarshalJSON json_encode.go:351-372; UnmarshalJSON json_encode.go:374-397 *)
Definition d_csresp_ClearCache : decl := MkD "csresp.ClearCache" "centralSystemResponse"
  (Some ("urn://Ocpp/Cp/2012/06/", "clearCacheResponse"))
  [MkF "Status" (TStr) "status" false (MkX XElem "status" false)]
  (EProg [IWrite "{";
      ICommaFalse;
      IComma;
      IWrite """status"": ";
      IMarshal "Status";
      ISetComma;
      IWrite "}"])
  (DTable ["status"]
     [MkC "status" "Status" (Some "status")]
     true [("status", """status"" is required but was not present")]).

(** csresp.ClearChargingProfile: messages/v1x/csresp/messages.go:57-62;
    MarshalJSON json_encode.go:399-420; UnmarshalJSON json_encode.go:422-445 *)
Definition d_csresp_ClearChargingProfile : decl := MkD "csresp.ClearChargingProfile" "centralSystemResponse"
  (Some ("urn://Ocpp/Cp/2012/06/", "clearChargingProfileResponse"))
  [MkF "Status" (TStr) "status" false (MkX XElem "status" false)]
  (EProg [IWrite "{";
      ICommaFalse;
      IComma;
      IWrite """status"": ";
      IMarshal "Status";
      ISetComma;
      IWrite "}"])
  (DTable ["status"]
     [MkC "status" "Status" (Some "status")]
     true [("status", """status"" is required but was not present")]).

(** csresp.ConfigurationKeyItems: messages/v1x/csresp/messages.go:65-69;
    MarshalJSON json_encode.go:447-492; UnmarshalJSON json_encode.go:494-529 *)
Definition d_csresp_ConfigurationKeyItems : decl := MkD "csresp.ConfigurationKeyItems" ""
  None
  [MkF "Key" (TStr) "key" false (MkX XElem "key" false);
   MkF "Readonly" (TBool) "readonly" false (MkX XElem "readonly" false);
   MkF "Value" (TStr) "value" true (MkX XElem "value" true)]
  (EProg [IWrite "{";
      ICommaFalse;
      IComma;
      IWrite """key"": ";
      IMarshal "Key";
      ISetComma;
      IComma;
      IWrite """readonly"": ";
      IMarshal "Readonly";
      ISetComma;
      IComma;
      IWrite """value"": ";
      IMarshal "Value";
      ISetComma;
      IWrite "}"])
  (DTable ["key"; "readonly"]
     [MkC "key" "Key" (Some "key");
      MkC "readonly" "Readonly" (Some "readonly");
      MkC "value" "Value" None]
     false [("key", """key"" is required but was not present"); ("readonly", """readonly"" is required but was not present")]).

(** csresp.DataTransfer: messages/v1x/csresp/messages.go:72-78;
    MarshalJSON json_encode.go:531-563; UnmarshalJSON json_encode.go:565-592 *)
Definition d_csresp_DataTransfer : decl := MkD "csresp.DataTransfer" "centralSystemResponse"
  (Some ("urn://Ocpp/Cp/2012/06/", "dataTransferResponse"))
  [MkF "Data" (TStr) "data" true (MkX XElem "data" true);
   MkF "Status" (TStr) "status" false (MkX XElem "status" false)]
  (EProg [IWrite "{";
      ICommaFalse;
      IComma;
      IWrite """data"": ";
      IMarshal "Data";
      ISetComma;
      IComma;
      IWrite """status"": ";
      IMarshal "Status";
      ISetComma;
      IWrite "}"])
  (DTable ["status"]
     [MkC "data" "Data" None;
      MkC "status" "Status" (Some "status")]
     true [("status", """status"" is required but was not present")]).

(** csresp.GetCompositeSchedule: messages/v1x/csresp/messages.go:81-89;
    MarshalJSON json_encode.go:594-643; UnmarshalJSON json_encode.go:645-680 *)
Definition d_csresp_GetCompositeSchedule : decl := MkD "csresp.GetCompositeSchedule" "centralSystemResponse"
  (Some ("urn://Ocpp/Cp/2012/06/", "getCompositeScheduleResponse"))
  [MkF "ChargingSchedule" (TPtr (TStruct "csresp.ChargingSchedule")) "chargingSchedule" true (MkX XElem "chargingSchedule" true);
   MkF "ConnectorId" (TInt 64) "connectorId" true (MkX XElem "connectorId" true);
   MkF "ScheduleStart" (TPtr (TTime)) "scheduleStart" true (MkX XElem "scheduleStart" true);
   MkF "Status" (TStr) "status" false (MkX XElem "status" false)]
  (EProg [IWrite "{";
      ICommaFalse;
      IComma;
      IWrite """chargingSchedule"": ";
      IMarshal "ChargingSchedule";
      ISetComma;
      IComma;
      IWrite """connectorId"": ";
      IMarshal "ConnectorId";
      IIfSet "ScheduleStart" [IWrite ","; IWrite """scheduleStart"": "; IMarshalTime "ScheduleStart"];
      IWrite ",";
      IWrite """status"": ";
      IMarshal "Status";
      IWrite "}"])
  (DTable ["status"]
     [MkC "chargingSchedule" "ChargingSchedule" None;
      MkC "connectorId" "ConnectorId" None;
      MkC "scheduleStart" "ScheduleStart" None;
      MkC "status" "Status" (Some "status")]
     true [("status", """status"" is required but was not present")]).

(** csresp.GetConfiguration: messages/v1x/csresp/messages.go:92-98;
    MarshalJSON json_encode.go:682-712; UnmarshalJSON json_encode.go:714-735 *)
Definition d_csresp_GetConfiguration : decl := MkD "csresp.GetConfiguration" "centralSystemResponse"
  (Some ("urn://Ocpp/Cp/2012/06/", "getConfigurationResponse"))
  [MkF "ConfigurationKey" (TSlice (TPtr (TStruct "csresp.ConfigurationKeyItems"))) "configurationKey" true (MkX XElem "configurationKey" true);
   MkF "UnknownKey" (TSlice (TStr)) "unknownKey" true (MkX XElem "unknownKey" true)]
  (EProg [IWrite "{";
      ICommaFalse;
      IComma;
      IWrite """configurationKey"": ";
      IMarshal "ConfigurationKey";
      ISetComma;
      IComma;
      IWrite """unknownKey"": ";
      IMarshal "UnknownKey";
      ISetComma;
      IWrite "}"])
  (DTable []
     [MkC "configurationKey" "ConfigurationKey" None;
      MkC "unknownKey" "UnknownKey" None]
     true []).

(** csresp.GetDiagnostics: messages/v1x/csresp/messages.go:101-106;
    MarshalJSON json_encode.go:737-756; UnmarshalJSON json_encode.go:758-775 *)
Definition d_csresp_GetDiagnostics : decl := MkD "csresp.GetDiagnostics" "centralSystemResponse"
  (Some ("urn://Ocpp/Cp/2012/06/", "getDiagnosticsResponse"))
  [MkF "FileName" (TStr) "fileName" true (MkX XElem "fileName" true)]
  (EProg [IWrite "{";
      ICommaFalse;
      IComma;
      IWrite """fileName"": ";
      IMarshal "FileName";
      ISetComma;
      IWrite "}"])
  (DTable []
     [MkC "fileName" "FileName" None]
     true []).

(** csresp.GetLocalListVersion: messages/v1x/csresp/messages.go:109-114;
    MarshalJSON json_encode.go:777-798; UnmarshalJSON json_encode.go:800-823 *)
Definition d_csresp_GetLocalListVersion : decl := MkD "csresp.GetLocalListVersion" "centralSystemResponse"
  (Some ("urn://Ocpp/Cp/2012/06/", "getLocalListVersionResponse"))
  [MkF "ListVersion" (TInt 64) "listVersion" false (MkX XElem "listVersion" false)]
  (EProg [IWrite "{";
      ICommaFalse;
      IComma;
      IWrite """listVersion"": ";
      IMarshal "ListVersion";
      ISetComma;
      IWrite "}"])
  (DTable ["listVersion"]
     [MkC "listVersion" "ListVersion" (Some "listVersion")]
     true [("listVersion", """listVersion"" is required but was not present")]).

(** csresp.RemoteStartTransaction: messages/v1x/csresp/messages.go:117-122;
    MarshalJSON json_encode.go:825-846; UnmarshalJSON json_encode.go:848-871 *)
Definition d_csresp_RemoteStartTransaction : decl := MkD "csresp.RemoteStartTransaction" "centralSystemResponse"
  (Some ("urn://Ocpp/Cp/2012/06/", "remoteStartTransactionResponse"))
  [MkF "Status" (TStr) "status" false (MkX XElem "status" false)]
  (EProg [IWrite "{";
      ICommaFalse;
      IComma;
      IWrite """status"": ";
      IMarshal "Status";
      ISetComma;
      IWrite "}"])
  (DTable ["status"]
     [MkC "status" "Status" (Some "status")]
     true [("status", """status"" is required but was not present")]).

(** csresp.RemoteStopTransaction: messages/v1x/csresp/messages.go:125-130;
    MarshalJSON json_encode.go:873-894; UnmarshalJSON json_encode.go:896-919 *)
Definition d_csresp_RemoteStopTransaction : decl := MkD "csresp.RemoteStopTransaction" "centralSystemResponse"
  (Some ("urn://Ocpp/Cp/2012/06/", "remoteStopTransactionResponse"))
  [MkF "Status" (TStr) "status" false (MkX XElem "status" false)]
  (EProg [IWrite "{";
      ICommaFalse;
      IComma;
      IWrite """status"": ";
      IMarshal "Status";
      ISetComma;
      IWrite "}"])
  (DTable ["status"]
     [MkC "status" "Status" (Some "status")]
     true [("status", """status"" is required but was not present")]).

(** csresp.ReserveNow: messages/v1x/csresp/messages.go:133-138;
    MarshalJSON json_encode.go:921-942; UnmarshalJSON json_encode.go:944-967 *)
Definition d_csresp_ReserveNow : decl := MkD "csresp.ReserveNow" "centralSystemResponse"
  (Some ("urn://Ocpp/Cp/2012/06/", "reserveNowResponse"))
  [MkF "Status" (TStr) "status" false (MkX XElem "status" false)]
  (EProg [IWrite "{";
      ICommaFalse;
      IComma;
      IWrite """status"": ";
      IMarshal "Status";
      ISetComma;
      IWrite "}"])
  (DTable ["status"]
     [MkC "status" "Status" (Some "status")]
     true [("status", """status"" is required but was not present")]).

(** csresp.Reset: messages/v1x/csresp/messages.go:141-146;
    MarshalJSON json_encode.go:969-990; UnmarshalJSON json_encode.go:992-1015 *)
Definition d_csresp_Reset : decl := MkD "csresp.Reset" "centralSystemResponse"
  (Some ("urn://Ocpp/Cp/2012/06/", "resetResponse"))
  [MkF "Status" (TStr) "status" false (MkX XElem "status" false)]
  (EProg [IWrite "{";
      ICommaFalse;
      IComma;
      IWrite """status"": ";
      IMarshal "Status";
      ISetComma;
      IWrite "}"])
  (DTable ["status"]
     [MkC "status" "Status" (Some "status")]
     true [("status", """status"" is required but was not present")]).

(** csresp.SendLocalList: messages/v1x/csresp/messages.go:149-154;
    MarshalJSON json_encode.go:1017-1038; UnmarshalJSON json_encode.go:1040-1063 *)
Definition d_csresp_SendLocalList : decl := MkD "csresp.SendLocalList" "centralSystemResponse"
  (Some ("urn://Ocpp/Cp/2012/06/", "sendLocalListResponse"))
  [MkF "Status" (TStr) "status" false (MkX XElem "status" false)]
  (EProg [IWrite "{";
      ICommaFalse;
      IComma;
      IWrite """status"": ";
      IMarshal "Status";
      ISetComma;
      IWrite "}"])
  (DTable ["status"]
     [MkC "status" "Status" (Some "status")]
     true [("status", """status"" is required but was not present")]).

(** csresp.TriggerMessage: messages/v1x/csresp/messages.go:157-162;
    MarshalJSON json_encode.go:1113-1134; UnmarshalJSON json_encode.go:1136-1159 *)
Definition d_csresp_TriggerMessage : decl := MkD "csresp.TriggerMessage" "centralSystemResponse"
  (Some ("urn://Ocpp/Cp/2012/06/", "triggerMessageResponse"))
  [MkF "Status" (TStr) "status" false (MkX XElem "status" false)]
  (EProg [IWrite "{";
      ICommaFalse;
      IComma;
      IWrite """status"": ";
      IMarshal "Status";
      ISetComma;
      IWrite "}"])
  (DTable ["status"]
     [MkC "status" "Status" (Some "status")]
     true [("status", """status"" is required but was not present")]).

(** csresp.UnlockConnector: messages/v1x/csresp/messages.go:165-170;
    MarshalJSON json_encode.go:1161-1182; UnmarshalJSON json_encode.go:1184-1207 *)
Definition d_csresp_UnlockConnector : decl := MkD "csresp.UnlockConnector" "centralSystemResponse"
  (Some ("urn://Ocpp/Cp/2012/06/", "unlockConnectorResponse"))
  [MkF "Status" (TStr) "status" false (MkX XElem "status" false)]
  (EProg [IWrite "{";
      ICommaFalse;
      IComma;
      IWrite """status"": ";
      IMarshal "Status";
      ISetComma;
      IWrite "}"])
  (DTable ["status"]
     [MkC "status" "Status" (Some "status")]
     true [("status", """status"" is required but was not present")]).

(** csresp.UpdateFirmware: messages/v1x/csresp/messages.go:173-176;
    MarshalJSON json_encode.go:1209-1216; UnmarshalJSON json_encode.go:1218-1231 *)
Definition d_csresp_UpdateFirmware : decl := MkD "csresp.UpdateFirmware" "centralSystemResponse"
  (Some ("urn://Ocpp/Cp/2012/06/", "updateFirmwareResponse"))
  []
  (EProg [IWrite "{";
      IWrite "}"])
  (DTable []
     []
     true []).

(** csresp.SetChargingProfile: messages/v1x/csresp/messages.go:179-184;
    MarshalJSON json_encode.go:1065-1086; UnmarshalJSON json_encode.go:1088-1111 *)
Definition d_csresp_SetChargingProfile : decl := MkD "csresp.SetChargingProfile" "centralSystemResponse"
  (Some ("urn://Ocpp/Cp/2012/06/", "setChargingProfileResponse"))
  [MkF "Status" (TStr) "status" false (MkX XElem "status" false)]
  (EProg [IWrite "{";
      ICommaFalse;
      IComma;
      IWrite """status"": ";
      IMarshal "Status";
      ISetComma;
      IWrite "}"])
  (DTable ["status"]
     [MkC "status" "Status" (Some "status")]
     true [("status", """status"" is required but was not present")]).

(** All struct types of messages/v1x/*/messages.go. *)
Definition all_decls : list decl :=
  [d_cpreq_Authorize;
   d_cpreq_BootNotification;
   d_cpreq_DataTransfer;
   d_cpreq_DiagnosticsStatusNotification;
   d_cpreq_FirmwareStatusNotification;
   d_cpreq_Heartbeat;
   d_cpreq_MeterValueItems;
   d_cpreq_MeterValues;
   d_cpreq_SampledValue;
   d_cpreq_StartTransaction;
   d_cpreq_StatusNotification;
   d_cpreq_StopTransaction;
   d_cpreq_TransactionDataItems;
   d_cpresp_Authorize;
   d_cpresp_BootNotification;
   d_cpresp_DataTransfer;
   d_cpresp_DiagnosticsStatusNotification;
   d_cpresp_FirmwareStatusNotification;
   d_cpresp_Heartbeat;
   d_cpresp_IdTagInfo;
   d_cpresp_MeterValues;
   d_cpresp_StartTransaction;
   d_cpresp_StatusNotification;
   d_cpresp_StopTransaction;
   d_csreq_CancelReservation;
   d_csreq_ChangeAvailability;
   d_csreq_ChangeConfiguration;
   d_csreq_ChargingProfile;
   d_csreq_ChargingSchedule;
   d_csreq_ChargingSchedulePeriodItems;
   d_csreq_ClearCache;
   d_csreq_ClearChargingProfile;
   d_csreq_DataTransfer;
   d_csreq_GetCompositeSchedule;
   d_csreq_GetConfiguration;
   d_csreq_GetDiagnostics;
   d_csreq_GetLocalListVersion;
   d_csreq_IdTagInfo;
   d_csreq_LocalAuthorizationListItems;
   d_csreq_RemoteStartTransaction;
   d_csreq_RemoteStopTransaction;
   d_csreq_ReserveNow;
   d_csreq_Reset;
   d_csreq_SendLocalList;
   d_csreq_TriggerMessage;
   d_csreq_UnlockConnector;
   d_csreq_UpdateFirmware;
   d_csreq_CsChargingProfiles;
   d_csreq_SetChargingProfile;
   d_csresp_CancelReservation;
   d_csresp_ChangeAvailability;
   d_csresp_ChangeConfiguration;
   d_csresp_ChargingSchedule;
   d_csresp_ChargingSchedulePeriodItems;
   d_csresp_ClearCache;
   d_csresp_ClearChargingProfile;
   d_csresp_ConfigurationKeyItems;
   d_csresp_DataTransfer;
   d_csresp_GetCompositeSchedule;
   d_csresp_GetConfiguration;
   d_csresp_GetDiagnostics;
   d_csresp_GetLocalListVersion;
   d_csresp_RemoteStartTransaction;
   d_csresp_RemoteStopTransaction;
   d_csresp_ReserveNow;
   d_csresp_Reset;
   d_csresp_SendLocalList;
   d_csresp_TriggerMessage;
   d_csresp_UnlockConnector;
   d_csresp_UpdateFirmware;
   d_csresp_SetChargingProfile].

(** Action() of every request type: messages/v1x/cpreq/messages.go, csreq/messages.go. *)
Definition action_table : list (string * string) :=
  [("cpreq.Authorize", "Authorize")  (* cpreq/messages.go:144 *);
   ("cpreq.BootNotification", "BootNotification")  (* cpreq/messages.go:145 *);
   ("cpreq.DataTransfer", "DataTransfer")  (* cpreq/messages.go:146 *);
   ("cpreq.DiagnosticsStatusNotification", "DiagnosticsStatusNotification")  (* cpreq/messages.go:147 *);
   ("cpreq.FirmwareStatusNotification", "FirmwareStatusNotification")  (* cpreq/messages.go:148 *);
   ("cpreq.Heartbeat", "Heartbeat")  (* cpreq/messages.go:149 *);
   ("cpreq.MeterValues", "MeterValues")  (* cpreq/messages.go:150 *);
   ("cpreq.StartTransaction", "StartTransaction")  (* cpreq/messages.go:151 *);
   ("cpreq.StatusNotification", "StatusNotification")  (* cpreq/messages.go:152 *);
   ("cpreq.StopTransaction", "StopTransaction")  (* cpreq/messages.go:153 *);
   ("csreq.CancelReservation", "CancelReservation")  (* csreq/messages.go:240 *);
   ("csreq.ChangeAvailability", "ChangeAvailability")  (* csreq/messages.go:241 *);
   ("csreq.ChangeConfiguration", "ChangeConfiguration")  (* csreq/messages.go:242 *);
   ("csreq.ClearCache", "ClearCache")  (* csreq/messages.go:243 *);
   ("csreq.ClearChargingProfile", "ClearChargingProfile")  (* csreq/messages.go:244 *);
   ("csreq.DataTransfer", "DataTransfer")  (* csreq/messages.go:245 *);
   ("csreq.GetCompositeSchedule", "GetCompositeSchedule")  (* csreq/messages.go:246 *);
   ("csreq.GetConfiguration", "GetConfiguration")  (* csreq/messages.go:247 *);
   ("csreq.GetDiagnostics", "GetDiagnostics")  (* csreq/messages.go:248 *);
   ("csreq.GetLocalListVersion", "GetLocalListVersion")  (* csreq/messages.go:249 *);
   ("csreq.RemoteStartTransaction", "RemoteStartTransaction")  (* csreq/messages.go:250 *);
   ("csreq.RemoteStopTransaction", "RemoteStopTransaction")  (* csreq/messages.go:251 *);
   ("csreq.ReserveNow", "ReserveNow")  (* csreq/messages.go:252 *);
   ("csreq.Reset", "Reset")  (* csreq/messages.go:253 *);
   ("csreq.SendLocalList", "SendLocalList")  (* csreq/messages.go:254 *);
   ("csreq.TriggerMessage", "TriggerMessage")  (* csreq/messages.go:255 *);
   ("csreq.UnlockConnector", "UnlockConnector")  (* csreq/messages.go:256 *);
   ("csreq.UpdateFirmware", "UpdateFirmware")  (* csreq/messages.go:257 *);
   ("csreq.SetChargingProfile", "SetChargingProfile")  (* csreq/messages.go:258 *)].

(** GetResponse() of every request type: messages/v1x/cpreq/messages.go, csreq/messages.go. *)
Definition response_table : list (string * string) :=
  [("cpreq.Authorize", "cpresp.Authorize")  (* cpreq/messages.go:155 *);
   ("cpreq.BootNotification", "cpresp.BootNotification")  (* cpreq/messages.go:156 *);
   ("cpreq.DataTransfer", "cpresp.DataTransfer")  (* cpreq/messages.go:157 *);
   ("cpreq.DiagnosticsStatusNotification", "cpresp.DiagnosticsStatusNotification")  (* cpreq/messages.go:158 *);
   ("cpreq.FirmwareStatusNotification", "cpresp.FirmwareStatusNotification")  (* cpreq/messages.go:161 *);
   ("cpreq.Heartbeat", "cpresp.Heartbeat")  (* cpreq/messages.go:164 *);
   ("cpreq.MeterValues", "cpresp.MeterValues")  (* cpreq/messages.go:165 *);
   ("cpreq.StartTransaction", "cpresp.StartTransaction")  (* cpreq/messages.go:166 *);
   ("cpreq.StatusNotification", "cpresp.StatusNotification")  (* cpreq/messages.go:167 *);
   ("cpreq.StopTransaction", "cpresp.StopTransaction")  (* cpreq/messages.go:168 *);
   ("csreq.CancelReservation", "csresp.CancelReservation")  (* csreq/messages.go:260 *);
   ("csreq.ChangeAvailability", "csresp.ChangeAvailability")  (* csreq/messages.go:263 *);
   ("csreq.ChangeConfiguration", "csresp.ChangeConfiguration")  (* csreq/messages.go:266 *);
   ("csreq.ClearCache", "csresp.ClearCache")  (* csreq/messages.go:269 *);
   ("csreq.ClearChargingProfile", "csresp.ClearChargingProfile")  (* csreq/messages.go:272 *);
   ("csreq.DataTransfer", "csresp.DataTransfer")  (* csreq/messages.go:275 *);
   ("csreq.GetCompositeSchedule", "csresp.GetCompositeSchedule")  (* csreq/messages.go:278 *);
   ("csreq.GetConfiguration", "csresp.GetConfiguration")  (* csreq/messages.go:281 *);
   ("csreq.GetDiagnostics", "csresp.GetDiagnostics")  (* csreq/messages.go:284 *);
   ("csreq.GetLocalListVersion", "csresp.GetLocalListVersion")  (* csreq/messages.go:287 *);
   ("csreq.RemoteStartTransaction", "csresp.RemoteStartTransaction")  (* csreq/messages.go:290 *);
   ("csreq.RemoteStopTransaction", "csresp.RemoteStopTransaction")  (* csreq/messages.go:293 *);
   ("csreq.ReserveNow", "csresp.ReserveNow")  (* csreq/messages.go:296 *);
   ("csreq.Reset", "csresp.Reset")  (* csreq/messages.go:299 *);
   ("csreq.SendLocalList", "csresp.SendLocalList")  (* csreq/messages.go:302 *);
   ("csreq.TriggerMessage", "csresp.TriggerMessage")  (* csreq/messages.go:305 *);
   ("csreq.UnlockConnector", "csresp.UnlockConnector")  (* csreq/messages.go:308 *);
   ("csreq.UpdateFirmware", "csresp.UpdateFirmware")  (* csreq/messages.go:311 *);
   ("csreq.SetChargingProfile", "csresp.SetChargingProfile")  (* csreq/messages.go:314 *)].
