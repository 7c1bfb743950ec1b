-Q theories Verif
theories/PyBase.v
theories/PyRe.v
theories/Xml.v
theories/PyVal.v
theories/XsdDate.v
theories/XsdSimple.v
theories/XsdComplex.v
theories/XsdEq.v
theories/PfBase.v
theories/PfRe.v
theories/SpecSimple.v
theories/PfSimple.v
theories/PropSimple.v
theories/SpecDate.v
theories/PfDate.v
theories/PropDate.v
theories/SpecObject.v
theories/PfObject.v
theories/SpecRender.v
theories/PfRender.v
theories/PfRender2.v
theories/SpecParse.v
theories/PfParse.v
theories/ExEnv.v
theories/ExNames.v
theories/PropObject.v
theories/PropRender.v
theories/PfParseEx.v
theories/PropParse.v
theories/SpecRound.v
theories/SpecParse2.v
theories/SpecTotal.v
theories/PfLayout.v
theories/PfRound.v
theories/PfParse2.v
theories/PfParse3.v
theories/PfEq.v
theories/PfTotal.v
theories/PfLeaf.v
theories/PfRoundEx.v
theories/PropRound.v
theories/PropParse2.v
theories/PropEq.v
theories/PropTotal.v
theories/XsdSchema.v
theories/SpecSchema.v
theories/PfSchema.v
theories/PropSchema.v
theories/PyHttp.v
theories/Soap.v
theories/SpecSoap.v
theories/PfSoap.v
theories/PfSoap2.v
theories/PfSoap3.v
theories/PropSoap.v
theories/Dispatch.v
theories/SpecDispatch.v
theories/PfDispatch.v
theories/PfPin.v
theories/PfDispatch2.v
theories/ExSoap.v
theories/PfDispatch3.v
theories/PropDispatch.v
theories/SpecHttp.v
theories/PfHttp.v
theories/PropDispatch2.v
theories/PropHttp.v
theories/SpecServer.v
theories/PfServer.v
theories/PropServer.v
theories/SpecEnvelope.v
theories/PfEnvelope.v
theories/PfEnvelope2.v
theories/ExEnvelope.v
theories/PropEnvelope.v
theories/Threads.v
theories/SpecThreads.v
theories/PfThreads.v
theories/PropThreads.v
theories/Texts.v
theories/SpecTexts.v
theories/PfTexts.v
theories/ExTexts.v
theories/PropTexts.v
theories/PfMono.v
theories/Client.v
theories/SpecClient.v
theories/PfClient.v
theories/PfClient2.v
theories/PfClient3.v
theories/PropClient.v
theories/PySort.v
theories/XsdMeta.v
theories/SpecMeta.v
theories/PfMeta.v
theories/PfMeta2.v
theories/PfMeta3.v
theories/PropMeta.v
theories/XsdHeap.v
theories/SpecHeap.v
theories/PfHeap.v
theories/PfHeap2.v
theories/PropHeap.v
theories/GenOrder.v
theories/SpecOrder.v
theories/PfOrder.v
theories/PfOrder2.v
theories/PropOrder.v
theories/GenNames.v
theories/SpecNames.v
theories/PfNames.v
theories/PropNames.v
theories/PyPath.v
theories/SpecPath.v
theories/PfPath.v
theories/GenImports.v
theories/SpecImports.v
theories/PfPath2.v
theories/PfImports.v
theories/PfImports2.v
theories/PfImports3.v
theories/PfWsdl.v
theories/PfWsdl2.v
theories/PfWsdl3.v
theories/PfWsdl4.v
theories/PropImports.v
theories/LibClasses.v
theories/Py2Xsd.v
theories/SpecXsd.v
theories/SpecFacets.v
theories/PfLib.v
theories/PfXsd.v
theories/PfXsd2.v
theories/PfXsd3.v
theories/PfXsd4.v
theories/ExXsd.v
theories/PropXsd.v
theories/Py2Wsdl.v
theories/SpecGenWsdl.v
theories/PfGenWsdl.v
theories/PfGenWsdl2.v
theories/PfGenWsdl3.v
theories/PfGenWsdl4.v
theories/PfLibRound.v
theories/PfXsdRt.v
theories/ExGenWsdl.v
theories/PfGenWsdl5.v
theories/PropGenWsdl.v
theories/PfGenWsdl6.v
theories/Xsd2Py.v
theories/PyLoad.v
theories/PfLoad.v
theories/PfLoad2.v
theories/SpecGenCode.v
theories/PfGenCode.v
theories/PfGenCode2.v
theories/PfGenCode3.v
theories/PfGenCode4.v
theories/PfGenCode5.v
theories/PfGenCode6.v
theories/PfGenCode7.v
theories/PfGenCode8.v
theories/PfGenCode9.v
theories/ExGenCode.v
theories/PropGenCode.v
theories/PyUrl.v
theories/SpecUrl.v
theories/PfUrl.v
theories/Wsdl2Py.v
theories/PyService.v
theories/SpecService.v
theories/PfService.v
theories/PfService2.v
theories/PfService3.v
theories/PfService4.v
theories/PfService5.v
theories/ExService.v
theories/PropService.v
theories/PyInterop.v
theories/SpecInterop.v
theories/PfInterop.v
theories/ExInterop.v
theories/PropInterop.v
theories/SpecRegen.v
theories/PfRegen.v
theories/PfRegen2.v
theories/PfRegen3.v
theories/ExRegen.v
theories/PropRegen.v
theories/SpecLoadable.v
theories/PfLoadable.v
theories/PfLoadable2.v
theories/PfLoadable3.v
theories/PfLoadable4.v
theories/ExLoadable.v
theories/PropLoadable.v
theories/XsdPrefixes.v
theories/SpecReclass.v
theories/PfReclass.v
theories/PfReclass2.v
theories/PfReclass3.v
theories/ExReclass.v
theories/PropReclass.v
theories/SpecExchange.v
theories/PfAgree.v
theories/PfExchange.v
theories/ExExchange.v
theories/PropExchange.v
theories/PyModule.v
theories/SpecModule.v
theories/PfModule.v
theories/ExModule.v
theories/PropModule.v
theories/SpecPeer.v
theories/PfPeer.v
theories/ExPeer.v
theories/PropPeer.v
theories/XsdFiles.v
theories/SpecFiles.v
theories/PfFiles.v
theories/PfFiles2.v
theories/PfFiles3.v
theories/PfFiles4.v
theories/PfFiles5.v
theories/PfFiles6.v
theories/ExFiles.v
theories/PropFiles.v
theories/SpecValid.v
theories/SpecGiven.v
theories/PfValid.v
theories/PfValid2.v
theories/PfValid3.v
theories/PfValid4.v
theories/PfValid5.v
theories/ExValid.v
theories/PropValid.v
theories/SpecRead.v
theories/PfRead.v
theories/PfRead2.v
theories/PfRead3.v
theories/PfRead4.v
theories/ExRead.v
theories/PropRead.v
theories/Wsa.v
theories/SpecWsa.v
theories/PfWsa.v
theories/ExWsa.v
theories/PropWsa.v
theories/Route.v
theories/SpecRoute.v
theories/PfRoute.v
theories/PropRoute.v
theories/Serve.v
theories/SpecServe.v
theories/PfServe.v
theories/PfServe2.v
theories/PfServe3.v
theories/ExServe.v
theories/PropServe.v
theories/SpecContract.v
theories/PfContract.v
theories/ExContract.v
theories/PropContract.v
theories/SpecHeaders.v
theories/PfHeaders.v
theories/PfHeaders2.v
theories/PfHeaders3.v
theories/PfHeaders4.v
theories/ExHeaders.v
theories/PropHeaders.v
theories/PfHeaders5.v
theories/ExHeaders2.v
theories/PropHeaders2.v
theories/Cli.v
theories/SpecCli.v
theories/PfCli.v
theories/ExCli.v
theories/PropCli.v
theories/Prefixes.v
theories/SpecPrefixes.v
theories/PfPrefixes.v
theories/PropPrefixes.v
theories/SpecOrder2.v
theories/PfOrder3.v
theories/PropOrder2.v
theories/SpecEnvelope2.v
theories/PfEnvelope3.v
theories/PropEnvelope2.v
theories/PfThreads2.v
theories/PyPrint.v
theories/SpecPrint.v
theories/PfPrint.v
theories/PropPrint.v
theories/SpecGenCode2.v
theories/PfGenCode10.v
theories/PropGenCode2.v
theories/SchemaHist.v
theories/SpecSchemaHist.v
theories/PfSchemaHist.v
theories/PropSchemaHist.v
theories/SpecContract2.v
theories/PfContract2.v
theories/ExContract2.v
theories/PropContract2.v
theories/SpecDate2.v
theories/PfDate2.v
theories/PropDate2.v
theories/PfSimple2.v
theories/PropSimple2.v
theories/PfObject2.v
theories/PropObject2.v
theories/XsdTypes.v
theories/PfXsdTypes.v
theories/PropXsdTypes.v
theories/PfHooks.v
theories/PropHooks.v
theories/PfAnswers.v
theories/PropAnswers.v
