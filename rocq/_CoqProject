-Q theories Verif
theories/Base.v
theories/Value.v
theories/M_Marshal.v
theories/M_BinUnmarshal.v
theories/M_TreeBuilder.v
theories/S_Events.v
theories/S_Value.v
theories/L_Base.v
theories/L_BinUnmarshal.v
theories/L_BinSafety.v
theories/L_Nesting.v
theories/L_Bits.v
theories/L_RoundTrip.v
theories/L_TreeBuilder.v
theories/L_Message.v
theories/S_Wire.v
theories/L_Wire.v
theories/L_Morph.v
theories/L_Complete.v
theories/L_Truncate.v
theories/L_CutCall.v
theories/L_Origin.v
theories/L_Inject.v
theories/L_Old.v
theories/L_Bound.v
theories/L_Extra.v
theories/L_Send.v
theories/L_Dup.v
theories/L_Dead.v
theories/P_RoundTrip.v
theories/P_Decode.v
theories/P_Tree.v
theories/Text.v
theories/L_Text.v
theories/M_Secrets.v
theories/S_Secrets.v
theories/L_Secrets.v
theories/L_ExtBuild.v
theories/P_Secrets.v
theories/M_Values.v
theories/M_Dump.v
theories/S_Dump.v
theories/P_Dump.v
theories/S_Compare.v
theories/L_Compare.v
theories/S_Containers.v
theories/P_Values.v
theories/M_Base64.v
theories/S_Base64.v
theories/L_Base64.v
theories/P_Base64.v
theories/M_Iso.v
theories/S_Iso.v
theories/L_Iso.v
theories/P_Iso.v
theories/M_Url.v
theories/S_Url.v
theories/L_Url.v
theories/P_Url.v
theories/M_Json.v
theories/S_Json.v
theories/L_Json.v
theories/P_Json.v
theories/M_Xml.v
theories/S_Xml.v
theories/L_Xml.v
theories/L_Xml2.v
theories/L_Xml3.v
theories/L_Xml4.v
theories/L_Xml5.v
theories/L_Xml6.v
theories/L_Xml7.v
theories/P_Xml.v
theories/M_Http.v
theories/M_HttpIO.v
theories/S_Http.v
theories/L_HttpIO.v
theories/L_HttpIO2.v
theories/L_HttpIO3.v
theories/L_HttpIO4.v
theories/L_Http.v
theories/L_UrlText.v
theories/L_HttpIO5.v
theories/P_Http.v
theories/P_HttpIO.v
theories/M_HttpWriter.v
theories/L_HttpWriter.v
theories/M_Registry.v
theories/S_Registry.v
theories/L_Registry.v
theories/L_Registry2.v
theories/L_Registry3.v
theories/L_Call.v
theories/P_HttpWriter.v
theories/P_Registry.v
theories/P_EndToEnd.v
theories/M_Server.v
theories/S_Server.v
theories/L_Server.v
theories/L_Server2.v
theories/L_Server3.v
theories/L_Server4.v
theories/L_Server5.v
theories/P_Server.v
theories/S_Framing.v
theories/P_Framing.v
theories/M_PyDate.v
theories/S_PyDate.v
theories/L_PyDate.v
theories/P_PyDate.v
theories/M_PyTree.v
theories/S_PyTree.v
theories/L_PyTree.v
theories/P_PyTree.v
theories/M_PyBuilder.v
theories/S_PyBuilder.v
theories/L_PyBuilder.v
theories/P_PyBuilder.v
theories/S_Refuse.v
theories/P_Refuse.v
theories/P_CutBody.v
theories/M_Client.v
theories/S_Client.v
theories/L_Client.v
theories/L_Client2.v
theories/L_Client3.v
theories/S_EndToEnd.v
theories/M_XmlUm.v
theories/S_XmlUm.v
theories/L_XmlUm.v
theories/L_XmlParser.v
theories/L_EndToEnd.v
theories/P_Client.v
theories/P_Session.v
theories/M_Proxy.v
theories/S_Proxy.v
theories/L_Proxy.v
theories/P_Proxy.v
theories/M_Validate.v
theories/S_Validate.v
theories/P_Validate.v
theories/M_Log.v
theories/S_Log.v
theories/P_Log.v
theories/M_Pool.v
theories/S_Pool.v
theories/L_Pool.v
theories/P_Pool.v
theories/M_Connector.v
theories/S_Connector.v
theories/P_Connector.v
theories/L_XmlSafe.v
theories/L_XmlSafe2.v
theories/P_XmlClient.v
theories/S_Calendar.v
theories/M_DateTime.v
theories/S_DateTime.v
theories/L_Calendar.v
theories/L_DateTime.v
theories/P_DateTime.v
theories/M_Detect.v
theories/S_Detect.v
theories/L_Detect.v
theories/P_Detect.v
theories/Unicode.v
theories/M_Js.v
theories/S_Js.v
theories/L_JsText.v
theories/L_Js.v
theories/P_Js.v
theories/L_JsCall.v
theories/P_JsCall.v
theories/L_JsCut.v
theories/M_JsHints.v
theories/S_JsHints.v
theories/L_JsHints.v
theories/P_JsHints.v
theories/P_JsCut.v
theories/M_Convert.v
theories/P_Convert.v
theories/M_Python.v
theories/S_Python.v
theories/L_PyText.v
theories/L_PyBuild.v
theories/L_PyRead.v
theories/L_Python.v
theories/L_PyLoad.v
theories/L_PySafe.v
theories/L_PyCall.v
theories/P_Python.v
theories/L_UrlSafe.v
theories/L_ServerUrl.v
theories/L_ReadAny.v
theories/M_PyRegistry.v
theories/S_PyRegistry.v
theories/L_PyRegistry.v
theories/L_PyRegister.v
theories/P_PyRegistry.v
theories/M_PyServer.v
theories/S_PyServer.v
theories/L_PyServer.v
theories/L_PyServer2.v
theories/P_PyServer.v
theories/P_B64Body.v
theories/L_PyStrs.v
theories/L_PyServer3.v
theories/L_PyXml.v
theories/P_PyAny.v
theories/M_PyClient.v
theories/S_PyClient.v
theories/L_PyClient.v
theories/L_PyClient2.v
theories/L_PyClient3.v
theories/P_PyClient.v
theories/L_PyXml2.v
theories/L_PyClient4.v
theories/P_PyHooks.v
theories/P_PyClientAny.v
theories/L_PyXmlMsg.v
theories/M_PyDumps.v
theories/S_PyXml.v
theories/L_PyDumps.v
theories/P_PyXml.v
theories/M_PyHandlers.v
theories/S_PyHandlers.v
theories/L_PyHandlers.v
theories/P_PyHandlers.v
theories/M_Netcat.v
theories/S_Netcat.v
theories/L_Netcat.v
theories/L_Netcat2.v
theories/P_Netcat.v
theories/M_Owner.v
theories/S_Owner.v
theories/L_Owner.v
theories/P_Owner.v
theories/M_PyErrors.v
theories/S_PyErrors.v
theories/L_PyErrors.v
theories/P_PyErrors.v
theories/S_Reuse.v
theories/L_Reuse.v
theories/P_Reuse.v
theories/L_PyReuse.v
theories/P_PyReuse.v
theories/M_PyRefs.v
theories/S_PyRefs.v
theories/L_PyRefs.v
theories/P_PyRefs.v
theories/M_ErrText.v
theories/S_ErrText.v
theories/L_ErrText.v
theories/P_ErrText.v
theories/L_JsHonest.v
theories/P_JsHonest.v
theories/M_PyCycle.v
theories/S_PyCycle.v
theories/L_PyCycle.v
theories/P_PyCycle.v
theories/M_PoolFeed.v
theories/S_PoolFeed.v
theories/L_PoolFeed.v
theories/P_PoolFeed.v
