-Q theories Verif
theories/GoBase.v
theories/Utf8.v
theories/Json.v
theories/JsonProofs.v
theories/JsonText.v
theories/Float64.v
theories/Float64Proofs.v
theories/GoTime.v
theories/GoTimeProofs.v
theories/Lang.v
theories/Types.v
theories/Codec.v
theories/EncProofs.v
theories/Any.v
theories/AnyProofs.v
theories/DecProofs.v
theories/SpecCodec.v
theories/RoundTrip.v
theories/NumTotal.v
theories/Tables.v
theories/Registry.v
theories/Frame.v
theories/FrameProofs.v
theories/Schemas.v
theories/SpecFrame.v
theories/FrameMore.v
theories/SpecEnc.v
theories/EncTotal.v
theories/DecTyped.v
theories/SpecSchema.v
theories/FloatInt.v
theories/SchemaProofs.v
theories/Leaves.v
theories/PropsFrame.v
theories/PropsCodec.v
theories/SchemaMore.v
theories/SchemaEmit.v
theories/PropsSchema.v
theories/Conn.v
theories/FrameRead.v
theories/SpecConn.v
theories/ConnBase.v
theories/ConnInv.v
theories/ConnSend.v
theories/ConnEvid.v
theories/ConnMore.v
theories/ConnFate.v
theories/ConnLast.v
theories/ConnTop.v
theories/ConnServe.v
theories/PropsConn.v
theories/CentralSystem.v
theories/SpecCS.v
theories/CSInv.v
theories/SpecLive.v
theories/CSMore.v
theories/PropsCS.v
theories/ChargePoint.v
theories/SpecCP.v
theories/CPInv.v
theories/CPMore.v
theories/PropsCP.v
theories/Xml.v
theories/SpecSoap.v
theories/XmlProofs.v
theories/XmlTyped.v
theories/Soap.v
theories/SoapProofs.v
theories/SoapMore.v
theories/SpecXmlText.v
theories/XmlText.v
theories/XmlWritten.v
theories/PropsSoap.v
theories/PropsSoapWire.v
theories/Net.v
theories/SpecNet.v
theories/NetProofs.v
theories/NetMore.v
theories/NetOrder.v
theories/NetLive.v
theories/PropsNet.v
theories/Wsdl.v
theories/SpecWsdl.v
theories/WsdlRead.v
theories/WsdlSound.v
theories/WsdlPresent.v
theories/PropsWsdl.v
theories/SpecTime.v
theories/PropsTime.v
theories/System.v
theories/SpecSys.v
theories/SysInv.v
theories/SysMore.v
theories/SysLive.v
theories/PropsSys.v
theories/ConnLive.v
theories/PanicProofs.v
theories/PropsPanic.v
theories/SpecSettle.v
theories/ConnSettle.v
theories/LiveProofs.v
theories/PropsLive.v
theories/CSSettle.v
theories/CPSettle.v
theories/PropsSettle.v
theories/SpecCalm.v
theories/NetCalm.v
theories/NetSettle.v
theories/PropsNetSettle.v
theories/XmlSyntax.v
theories/SpecXml.v
theories/XmlSyntaxProofs.v
theories/XmlWrite.v
theories/XmlWriteProofs.v
theories/XmlCut.v
theories/XmlBad.v
theories/XmlFuel.v
theories/PropsXml.v
theories/ConnRetry.v
theories/Process.v
theories/PropsRun.v
theories/SpecSysCalm.v
theories/SysCalm.v
theories/SysSettle.v
theories/PropsSysSettle.v
theories/SpecJson.v
theories/JsonGrammar.v
theories/JsonWritten.v
theories/PropsJson.v
theories/SpecReads.v
theories/ReadsProofs.v
theories/PropsReads.v
theories/SpecSays.v
theories/SaysProofs.v
theories/PropsSays.v
theories/SpecNumber.v
theories/FloatNear.v
theories/NearProofs.v
theories/NumberProofs.v
theories/ShortText.v
theories/SpecDouble.v
theories/DoubleProofs.v
theories/SpecTells.v
theories/TellsProofs.v
theories/PropsTells.v
theories/ShortProofs.v
theories/SpecShort.v
theories/ShortFound.v
theories/ShortUnique.v
theories/SpecWeigh.v
theories/WeighProofs.v
theories/NumberSent.v
theories/PropsNumber.v
theories/SpecYields.v
theories/YieldsProofs.v
theories/PropsYields.v
theories/SpecArrives.v
theories/ArriveInt.v
theories/ArriveProofs.v
theories/PropsArrive.v
theories/PropsArriveNet.v
theories/Http.v
theories/SpecHttp.v
theories/PropsHttp.v
theories/Listen.v
theories/PropsListen.v
theories/PropsSysParts.v
theories/PropsAlone.v
