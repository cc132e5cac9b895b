-Q theories Verif
theories/Base.v
theories/RString.v
theories/Utf8.v
theories/Rope.v
theories/Types.v
theories/Captures.v
theories/MDefinition.v
theories/MObjects.v
theories/MTemplates.v
theories/MSearchErrors.v
theories/MLspFiles.v
theories/MLspTask.v
theories/MChannels.v
theories/MBackend.v
theories/MNode.v
theories/SpecText.v
theories/PText.v
theories/PText2.v
theories/SpecText2.v
theories/PText3.v
theories/PUtf8.v
theories/PropText.v
theories/SpecFiles.v
theories/PFiles.v
theories/PropFiles.v
theories/SpecScope.v
theories/ExScope.v
theories/PScope.v
theories/PScope2.v
theories/SpecScope2.v
theories/PScope3.v
theories/PropScope.v
theories/SpecObjects.v
theories/PObjects.v
theories/SpecObjects2.v
theories/PObjects2.v
theories/PObjects3.v
theories/PObjects4.v
theories/PropObjects.v
theories/SpecLint.v
theories/PLint.v
theories/PLint2.v
theories/PLint3.v
theories/SpecOrder.v
theories/POrder.v
theories/PropLint.v
theories/SpecNav.v
theories/PNav.v
theories/PNav2.v
theories/SpecConfig.v
theories/SpecPlace.v
theories/PNav3.v
theories/PNav4.v
theories/PConfig.v
theories/PropConfig.v
theories/SpecChannels.v
theories/PChannels.v
theories/PChannels2.v
theories/PChannels3.v
theories/PChannels4.v
theories/PChannels5.v
theories/PropChannels.v
theories/SpecNode.v
theories/PNode.v
theories/PNode2.v
theories/PropNode.v
theories/PNav5.v
theories/PPlace.v
theories/POrder2.v
theories/PPlace2.v
theories/PropNav.v
theories/SpecAccept.v
theories/PAccept.v
theories/PropPlace.v
theories/PropAccept.v
theories/SpecBackend.v
theories/PBackend.v
theories/PropBackend.v
theories/SpecServer.v
theories/SpecClient.v
theories/PServer.v
theories/PropServer.v
theories/MQueries.v
theories/SpecQueries.v
theories/PQueries.v
theories/PQueries2.v
theories/SpecQueries2.v
theories/SpecQueries3.v
theories/PQueries3.v
theories/PQueries4.v
theories/PQueries5.v
theories/PQueries6.v
theories/PQueries7.v
theories/PQueries8.v
theories/SpecQueries4.v
theories/PQueries9.v
theories/PQueries10.v
theories/PropQueries.v
theories/SpecQueries5.v
theories/PQueries11.v
theories/SpecQueries6.v
theories/PQueries12.v
theories/PropQueries2.v
theories/PropQueries3.v
theories/PropQueries4.v
theories/SpecScreen.v
theories/PScreen.v
theories/PropScreen.v
theories/SpecLayout.v
theories/PLayout.v
theories/PropLayout.v
theories/SpecCode.v
theories/PCode.v
theories/PCode2.v
theories/PropCode.v
theories/PCode3.v
theories/PropCode2.v
theories/PCode4.v
theories/PropCode3.v
theories/MExtension.v
theories/SpecExtension.v
theories/PExtension.v
theories/PropExtension.v
theories/SpecTyping.v
theories/PTyping.v
theories/PropTyping.v
theories/PropLinks.v
theories/ExRepo.v
theories/PClient.v
theories/PClient2.v
theories/MSettings.v
theories/SpecSettings.v
theories/PSettings.v
theories/PropSettings.v
theories/PropClient.v
theories/SpecHistory.v
theories/PHistory.v
theories/PropHistory.v
theories/SpecOffer.v
theories/SpecAsking.v
theories/SpecIndex.v
theories/POffer.v
theories/PropOffer.v
theories/PAsking.v
theories/PropAsking.v
theories/PIndex.v
theories/PropIndex.v
theories/PIndex2.v
theories/PropIndex2.v
theories/PIndex3.v
theories/PropIndex3.v
theories/SpecIndex2.v
theories/PIndex4.v
theories/PropIndex4.v
theories/PropConfig2.v
theories/PIndex5.v
theories/PropIndex5.v
theories/PIndex6.v
theories/PropIndex6.v
theories/PIndex7.v
theories/PropIndex7.v
theories/PIndex8.v
theories/PropIndex8.v
theories/SpecIndex3.v
theories/PIndex9.v
theories/PropIndex9.v
