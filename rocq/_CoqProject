-Q theories Verif
theories/Strs.v
theories/Types.v
theories/StringArray.v
theories/Base64.v
theories/Prog.v
theories/TokenSvc.v
theories/AuthzSvc.v
theories/DeviceSvc.v
theories/Compare.v
theories/Jwk.v
theories/DPoP.v
theories/ClientAuth.v
theories/Storage.v
theories/System.v
theories/SysLemmas.v
theories/ProgTac.v
theories/Spec.v
theories/SpecLive.v
theories/SpecWebLive.v
theories/ProgFacts.v
theories/ProgFacts2.v
theories/StoreFacts.v
theories/CallFacts.v
theories/TokStore.v
theories/HistFacts.v
theories/NoFault.v
theories/Demo.v
theories/PfCode.v
theories/PfCode2.v
theories/PfToken.v
theories/Ends.v
theories/PfErr.v
theories/SpecErr.v
theories/PfErr2.v
theories/PfToken2.v
theories/PfDev.v
theories/PfDev2.v
theories/PfDev3.v
theories/PfStore.v
theories/PfStore2.v
theories/TokenStore.v
theories/SpecStore.v
theories/PfStore3.v
theories/StrFacts.v
theories/PfAuthz.v
theories/PfIssuer.v
theories/PfLive.v
theories/PfLive2.v
theories/PfGate.v
theories/PfCompare.v
theories/PfAuthn.v
theories/Base62.v
theories/Verifiable.v
theories/Sdk.v
theories/SpecSdk.v
theories/PfBase62.v
theories/PfVerifiable.v
theories/PfSdk.v
theories/Randomness.v
theories/SpecRand.v
theories/PfRandomness.v
theories/MeetRand.v
theories/Claims.v
theories/Signer.v
theories/Jarm.v
theories/SpecTok.v
theories/PfTok.v
theories/PfTok2.v
theories/Http.v
theories/Client.v
theories/ClientHttp.v
theories/HttpSystem.v
theories/SpecWait.v
theories/ResourceServer.v
theories/SpecHttp.v
theories/PfHttp.v
theories/PfHttp2.v
theories/PfHttp3.v
theories/PfHttp4.v
theories/PfHttp6.v
theories/Refine.v
theories/PfRef.v
theories/PfRef2.v
theories/SpecWeb.v
theories/PfWeb.v
theories/PfWeb2.v
theories/PfWeb3.v
theories/PfWeb4.v
theories/PfWeb5.v
theories/PfWebLive.v
theories/PfWebLive2.v
theories/PfWebLive3.v
theories/PfWebLive4.v
theories/PfWebLive5.v
theories/PfWebLive6.v
theories/PfWebLive7.v
theories/MeetWebLive.v
theories/PropsWebLive.v
theories/PfFlow.v
theories/PfFlow2.v
theories/MeetFlow.v
theories/PropsFlow.v
theories/PfWait.v
theories/Meet.v
theories/MeetLive.v
theories/MeetSdk.v
theories/MeetTok.v
theories/DemoHttp.v
theories/PfHttp5.v
theories/MeetHttp.v
theories/MeetWeb.v
theories/PfWebRace.v
theories/PropsCode.v
theories/PropsToken.v
theories/PropsDevice.v
theories/PropsAuthz.v
theories/PropsLive.v
theories/PropsGate.v
theories/PropsAuthn.v
theories/PropsSdk.v
theories/PropsRand.v
theories/PropsTok.v
theories/PropsHttp.v
theories/PropsWeb.v
theories/Wire.v
theories/Schemas.v
theories/SpecWire.v
theories/WireFacts.v
theories/WireFacts2.v
theories/WireFacts3.v
theories/WireFacts4.v
theories/WireFacts5.v
theories/WireFacts6.v
theories/WireFacts7.v
theories/PfWire.v
theories/MeetWire.v
theories/PropsWire.v
theories/TokenSteps.v
theories/SpecSteps.v
theories/PfSteps.v
theories/PfSteps2.v
theories/PfSteps3.v
theories/PfSteps4.v
theories/MeetSteps.v
theories/PropsSteps.v
theories/Attestation.v
theories/SpecAttest.v
theories/PfAttest.v
theories/MeetAttest.v
theories/PropsAttest.v
theories/Metadata.v
theories/SpecMetadata.v
theories/PfMetadata.v
theories/Discovery.v
theories/PfDiscovery.v
theories/PropsMetadata.v
theories/JsonReq.v
theories/SpecJsonReq.v
theories/PfJsonReq.v
theories/MeetJsonReq.v
theories/PropsJsonReq.v
theories/SignedDocs.v
theories/SpecPurpose.v
theories/PfPurpose.v
theories/MeetPurpose.v
theories/PropsPurpose.v
theories/Formats.v
theories/SpecFormats.v
theories/PfFormats.v
theories/MeetFormats.v
theories/PropsFormats.v
theories/Registry.v
theories/SpecRegistry.v
theories/PfRegistry.v
theories/MeetRegistry.v
theories/PropsRegistry.v
theories/UrlForm.v
theories/SpecForm.v
theories/PfForm.v
theories/Headers.v
theories/SpecHeaders.v
theories/PfHeaders.v
theories/MeetForm.v
theories/PropsForm.v
theories/TokenGen.v
theories/SpecMint.v
theories/PfMint.v
theories/MeetMint.v
theories/PropsMint.v
theories/Announced.v
theories/SpecAnnounced.v
theories/PfAnnounced.v
theories/MeetAnnounced.v
theories/PropsAnnounced.v
theories/SpecSent.v
theories/PfSent.v
theories/MeetSent.v
theories/PropsSent.v
theories/PfAlways.v
theories/MeetAlways.v
theories/PropsAlways.v
theories/Keys.v
theories/SpecKeys.v
theories/PfKeys.v
theories/MeetKeys.v
theories/PropsKeys.v
