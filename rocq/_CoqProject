-Q theories Verif
theories/PyStr.v
theories/PyStrFacts.v
theories/Regex.v
theories/RegexFacts.v
theories/ModelQuote.v
theories/SpecQuote.v
theories/ProofQuote.v
theories/ProofOptions.v
theories/PropsQuote.v
theories/ModelHeaders.v
theories/SpecHeaders.v
theories/ProofHeaders.v
theories/PropsHeaders.v
theories/ModelRange.v
theories/SpecRange.v
theories/ProofRange.v
theories/PropsRange.v
theories/ModelEtag.v
theories/SpecEtag.v
theories/ProofEtag.v
theories/PropsEtag.v
theories/Utf8.v
theories/Utf8Facts.v
theories/ModelUrls.v
theories/SpecUrls.v
theories/ProofUrls.v
theories/ProofIri.v
theories/PropsUrls.v
theories/ModelCookie.v
theories/SpecCookie.v
theories/ProofCookie.v
theories/PropsCookie.v
theories/ModelAuth.v
theories/SpecAuth.v
theories/ProofAuth.v
theories/PropsAuth.v
theories/ModelStream.v
theories/SpecStream.v
theories/ProofStream.v
theories/ProofLines.v
theories/PropsStream.v
theories/ModelWsgi.v
theories/SpecWsgi.v
theories/ProofWsgi.v
theories/PropsWsgi.v
theories/ModelRoute.v
theories/SpecRoute.v
theories/ProofRoute.v
theories/PropsRoute.v
theories/ModelUrlMap.v
theories/SpecUrlMap.v
theories/ProofUrlMap.v
theories/PropsUrlMap.v
theories/SpecCanon.v
theories/ProofCanon.v
theories/PropsCanon.v
theories/ModelResponse.v
theories/SpecResponse.v
theories/ProofResponse.v
theories/PropsResponse.v
theories/ModelClose.v
theories/SpecClose.v
theories/ProofClose.v
theories/PropsClose.v
theories/ModelMultiDict.v
theories/SpecMultiDict.v
theories/ProofMultiDict.v
theories/PropsMultiDict.v
theories/ModelOrdered.v
theories/SpecOrdered.v
theories/ProofOrdered.v
theories/PropsOrdered.v
theories/ModelCombined.v
theories/SpecCombined.v
theories/ProofCombined.v
theories/PropsCombined.v
theories/ModelCallback.v
theories/SpecCallback.v
theories/ProofCallback.v
theories/PropsCallback.v
theories/ModelAccept.v
theories/SpecAccept.v
theories/ProofAccept.v
theories/PropsAccept.v
theories/ModelDispatch.v
theories/SpecDispatch.v
theories/ProofDispatch.v
theories/PropsDispatch.v
theories/ModelUtils.v
theories/SpecUtils.v
theories/ProofUtils.v
theories/PropsUtils.v
theories/ModelDate.v
theories/SpecDate.v
theories/ProofDate.v
theories/PropsDate.v
theories/ModelRequest.v
theories/SpecRequest.v
theories/ProofRequest.v
theories/ProofCurrent.v
theories/PropsRequest.v
theories/ModelTest.v
theories/SpecTest.v
theories/ProofTest.v
theories/PropsTest.v
theories/ProofBuilder.v
theories/ProofEnviron.v
theories/ProofClient.v
theories/ModelMirror.v
theories/SpecMirror.v
theories/ProofMirror.v
theories/PropsMirror.v
theories/ModelConvArgs.v
theories/SpecConvArgs.v
theories/ProofConvArgs.v
theories/PropsConvArgs.v
theories/ModelApplication.v
theories/SpecApplication.v
theories/ProofApplication.v
theories/PropsApplication.v
theories/ModelAcceptText.v
theories/SpecAcceptText.v
theories/ProofAcceptText.v
theories/PropsAcceptText.v
theories/ModelRequestObject.v
theories/SpecRequestObject.v
theories/ProofRequestObject.v
theories/PropsRequestObject.v
theories/ModelHeadersObject.v
theories/SpecHeadersObject.v
theories/ProofHeadersObject.v
theories/PropsHeadersObject.v
theories/ModelFile.v
theories/SpecFile.v
theories/ProofFile.v
theories/PropsFile.v
theories/ModelRespond.v
theories/SpecRespond.v
theories/ProofRespond.v
theories/PropsRespond.v
theories/ModelJson.v
theories/SpecJson.v
theories/ProofJson.v
theories/PropsJson.v
theories/ModelMultiObject.v
theories/SpecMultiObject.v
theories/ProofMultiObject.v
theories/PropsMultiObject.v
theories/ModelEtagSet.v
theories/SpecEtagSet.v
theories/ProofEtagSet.v
theories/PropsEtagSet.v
theories/ModelCookieJar.v
theories/SpecCookieJar.v
theories/ProofCookieJar.v
theories/PropsCookieJar.v
theories/ModelFrozen.v
theories/SpecFrozen.v
theories/ProofFrozen.v
theories/PropsFrozen.v
theories/ModelCompare.v
theories/SpecCompare.v
theories/PropsCompare.v
theories/SpecForm.v
theories/ProofForm.v
theories/PropsForm.v
theories/SpecJoin.v
theories/ProofJoin.v
theories/PropsJoin.v
theories/ModelBind.v
theories/SpecBind.v
theories/ProofBind.v
theories/PropsBind.v
theories/SpecFirst.v
theories/ProofFirst.v
theories/PropsFirst.v
theories/ModelFactory.v
theories/SpecFactory.v
theories/ProofFactory.v
theories/PropsFactory.v
theories/SpecIri.v
theories/ProofIriParts.v
theories/PropsIri.v
theories/ProofLimitedLines.v
theories/PropsLimitedLines.v
theories/ModelMixins.v
theories/SpecMixins.v
theories/ProofMixins.v
theories/PropsMixins.v
theories/SpecCompile.v
theories/ProofCompile.v
theories/PropsCompile.v
theories/ModelReuse.v
theories/SpecReuse.v
theories/ProofReuse.v
theories/PropsReuse.v
theories/ModelServe.v
theories/SpecServe.v
theories/ProofServe.v
theories/PropsServe.v
theories/SpecKeywords.v
theories/PropsMore.v
theories/SpecLocation.v
theories/ProofLocation.v
theories/PropsLocation.v
theories/PropsMore2.v
theories/SpecEnvHeaders.v
theories/ProofEnvHeaders.v
theories/PropsEnvHeaders.v
theories/ModelQop.v
theories/ProofQop.v
theories/PropsQop.v
theories/SpecCloseAny.v
theories/ProofCloseAny.v
theories/PropsCloseAny.v
theories/PropsMore3.v
theories/PropsMore4.v
theories/SpecLength.v
theories/ProofLength.v
theories/PropsLength.v
theories/ModelCombinedObject.v
theories/SpecCombinedObject.v
theories/ProofCombinedObject.v
theories/PropsCombinedObject.v
theories/SpecSlash.v
theories/ProofSlash.v
theories/PropsSlash.v
theories/ModelErrorText.v
theories/ProofErrorText.v
theories/PropsErrorText.v
theories/ModelModified.v
theories/ProofModified.v
theories/PropsModified.v
theories/ModelClientCall.v
theories/SpecClientCall.v
theories/ProofClientCall.v
theories/PropsClientCall.v
theories/ModelRepr.v
theories/ProofRepr.v
theories/PropsRepr.v
theories/ProofHeadersSource.v
theories/PropsHeadersSource.v
theories/ProofHeaderSetAny.v
theories/PropsHeaderSetAny.v
theories/PropsHandlersAny.v
theories/PropsQopAny.v
theories/PropsSetAny.v
theories/PropsRangeAny.v
