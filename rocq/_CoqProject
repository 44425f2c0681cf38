-Q theories Verif
theories/Base.v
theories/BaseFacts.v
theories/Utf8.v
theories/Utf8Facts.v
theories/Base64.v
theories/SpecCodec.v
theories/Base64Facts.v
theories/Json.v
theories/JsonFacts.v
theories/Url.v
theories/UrlFacts.v
theories/Webtools.v
theories/SpecWeb.v
theories/WebtoolsFacts.v
theories/PropsWebtools.v
theories/Crypto.v
theories/RefCrypto.v
theories/Jwk.v
theories/SpecKey.v
theories/JwkFacts.v
theories/PropsJwk.v
theories/Jws.v
theories/Jwt.v
theories/SpecJws.v
theories/JwsFacts.v
theories/JwsRef.v
theories/PropsJws.v
theories/SpecJwt.v
theories/JwtFacts.v
theories/PropsJwt.v
theories/Prog.v
theories/Http.v
theories/OAuth.v
theories/ProgFacts.v
theories/SpecUrl.v
theories/SpecWrite.v
theories/DecFacts.v
theories/WriteFacts.v
theories/SpecOAuth.v
theories/OAuthFacts.v
theories/GrantFacts.v
theories/UrlQuoteFacts.v
theories/UrlWriteFacts.v
theories/EndpointFacts.v
theories/Example.v
theories/ExampleFacts.v
theories/OAuthRef.v
theories/RequestFacts.v
theories/AuthzFacts.v
theories/TokenFacts.v
theories/ResponseFacts.v
theories/IssueFacts.v
theories/RaiseFacts.v
theories/IdTokenFacts.v
theories/OAuthWit.v
theories/SpecHistory.v
theories/HistoryFacts.v
theories/Race.v
theories/StoreFacts.v
theories/HistoryWit.v
theories/OAuthEx.v
theories/PropsAuth.v
theories/PropsToken.v
theories/PropsHistory.v
theories/PropsOidc.v
theories/SpecFlow.v
theories/CompleteFacts.v
theories/FlowFacts.v
theories/LineageFacts.v
theories/FlowWit.v
theories/PropsFlow.v
theories/SpecRfc.v
theories/RfcFacts.v
theories/RfcWit.v
theories/PropsRfc.v
theories/SpecHook.v
theories/HookFacts.v
theories/ExTokenFacts.v
theories/HookWit.v
theories/PropsHook.v
theories/App.v
theories/SpecApp.v
theories/AppFacts.v
theories/AppWit.v
theories/PropsApp.v
theories/RepoTests.v
theories/StdTests.v
theories/SpecLife.v
theories/LifeFacts.v
theories/LifeWit.v
theories/PropsLife.v
theories/SpecLogin.v
theories/LoginFacts.v
theories/LoginWit.v
theories/PropsLogin.v
theories/SpecPy.v
theories/SpecReaders.v
theories/ReaderFacts.v
theories/ReadB64Facts.v
theories/FormFacts.v
theories/HeaderFacts.v
theories/PropsReaders.v
theories/SpecPart.v
theories/LogoutFacts.v
theories/DescFacts.v
theories/PartFacts.v
theories/PropsPart.v
theories/Ext.v
theories/SpecExt.v
theories/ExtFacts.v
theories/ExtHookFacts.v
theories/ExtSimFacts.v
theories/ExtWit.v
theories/PropsExt.v
theories/LifetimeFacts.v
theories/LifetimeWit.v
theories/SpecError.v
theories/ErrorFacts.v
theories/ErrorWit.v
theories/PropsError.v
theories/FormAllFacts.v
theories/ReadJwsFacts.v
theories/SpecJoseErr.v
theories/JoseErrFacts.v
theories/ReadOAuthFacts.v
theories/ClaimFacts.v
theories/TokenWriteFacts.v
theories/TokenWriteWit.v
theories/SpecToken.v
theories/TokenTextFacts.v
theories/JwkSign.v
theories/SpecKeySign.v
theories/KeySignFacts.v
theories/PropsKeySign.v
theories/SpecIssued.v
theories/IssuedFacts.v
theories/IssuedWit.v
theories/PropsIssued.v
theories/WebAny.v
theories/SpecAny.v
theories/AnyFacts.v
theories/PropsAny.v
theories/PropsJoseErr.v
theories/JwkFile.v
theories/SpecJwkErr.v
theories/JwkErrFacts.v
theories/JwkWit.v
theories/PropsKey.v
theories/SpecKeySet.v
theories/KeySetFacts.v
theories/PyFacts.v
theories/JwkGen.v
theories/SpecJwkGen.v
theories/JwkGenFacts.v
theories/JwkGenWit.v
theories/SpecJwkParse.v
theories/JwkParseFacts.v
theories/JwkParseWit.v
theories/PropsGen.v
theories/SpecConsent.v
theories/ConsentFacts.v
theories/ConsentWit.v
theories/PropsConsent.v
theories/JoseAny.v
theories/JoseAnyFacts.v
theories/PropsJoseAny.v
theories/Change.v
theories/SpecChange.v
theories/ChangeFacts.v
theories/PropsChange.v
theories/SpecHide.v
theories/HideFacts.v
theories/HideWit.v
theories/PropsHide.v
theories/Page.v
theories/SpecPage.v
theories/PageFacts.v
theories/PageWit.v
theories/PropsPage.v
theories/SpecKeep.v
theories/KeepFacts.v
theories/KeepWit.v
theories/PropsKeep.v
theories/SpecWho.v
theories/WhoFacts.v
theories/WhoWit.v
theories/PropsWho.v
theories/SpecSound.v
theories/SoundFacts.v
theories/SoundWit.v
theories/PropsSound.v
theories/SpecSize.v
theories/SizeFacts.v
theories/SizeWit.v
theories/PropsSize.v
theories/SpecAvail.v
theories/AvailFacts.v
theories/AvailWit.v
theories/PropsAvail.v
theories/LastFacts.v
theories/LastWit.v
theories/PropsLast.v
theories/LoginLastFacts.v
theories/LoginLastWit.v
theories/PropsLoginLast.v
theories/DanceFacts.v
theories/DanceWit.v
theories/PropsDance.v
theories/HandFacts.v
theories/HandWit.v
theories/PropsHand.v
theories/SpecOwner.v
theories/OwnerFacts.v
theories/OwnerWit.v
theories/PropsOwner.v
