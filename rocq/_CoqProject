-Q theories Verif
theories/AliasFacts.v
theories/AliasModel.v
theories/Base64Facts.v
theories/Base64Model.v
theories/BodyFacts.v
theories/BodyRun.v
theories/BodySpec.v
theories/BoundaryFacts.v
theories/BoundaryModel.v
theories/BoundarySpec.v
theories/CodecFacts.v
theories/CodecModel.v
theories/CustomCap.v
theories/CustomCausal.v
theories/CustomFacts.v
theories/CustomFail.v
theories/CustomGuard.v
theories/CustomInput.v
theories/CustomLib.v
theories/CustomModel.v
theories/CustomPar.v
theories/CustomProto.v
theories/CustomRun.v
theories/CustomSem.v
theories/CustomUpto.v
theories/DateFacts.v
theories/DateModel.v
theories/DateSpec.v
theories/DirFacts.v
theories/DiskModel.v
theories/EncModel.v
theories/ExnFacts.v
theories/FileApiModel.v
theories/FileFacts.v
theories/FileModel.v
theories/FileSpec.v
theories/FilesModel.v
theories/ForceModel.v
theories/FormFacts.v
theories/FormSpec.v
theories/FuelFacts.v
theories/HeadFacts.v
theories/HeadLineFacts.v
theories/HeadModel.v
theories/HeadSpec.v
theories/HeaderFacts.v
theories/HeaderModel.v
theories/HeaderRun.v
theories/HeaderSpec.v
theories/ImmModel.v
theories/ItemFacts.v
theories/LifeFacts.v
theories/LifeModel.v
theories/LimitFacts.v
theories/LimitMono.v
theories/ListModel.v
theories/LoadModel.v
theories/MVDFacts.v
theories/MVDModel.v
theories/MVDSpec.v
theories/ModuleModel.v
theories/MultipartDet.v
theories/MultipartFacts.v
theories/MultipartInv.v
theories/MultipartModel.v
theories/MultipartRun.v
theories/MultipartSem.v
theories/MultipartSpec.v
theories/ParseRun.v
theories/PartErrors.v
theories/PartFacts.v
theories/PartsFacts.v
theories/PartsSpec.v
theories/PathFacts.v
theories/PathModel.v
theories/PercentFacts.v
theories/PercentModel.v
theories/PrintModel.v
theories/PropsAlias.v
theories/PropsApi.v
theories/PropsAvail.v
theories/PropsBack.v
theories/PropsBody.v
theories/PropsCap.v
theories/PropsCausal.v
theories/PropsCharset.v
theories/PropsChoice.v
theories/PropsCustom.v
theories/PropsData.v
theories/PropsDate.v
theories/PropsDeclared.v
theories/PropsDelim.v
theories/PropsDir.v
theories/PropsDirAll.v
theories/PropsDisk.v
theories/PropsEnc.v
theories/PropsEnd.v
theories/PropsExact.v
theories/PropsExact2.v
theories/PropsExact3.v
theories/PropsExn.v
theories/PropsExn2.v
theories/PropsExt.v
theories/PropsFail.v
theories/PropsFiles.v
theories/PropsFixed.v
theories/PropsForm.v
theories/PropsFuel.v
theories/PropsHead.v
theories/PropsHeads.v
theories/PropsHost.v
theories/PropsInject.v
theories/PropsJoin.v
theories/PropsKept.v
theories/PropsLife.v
theories/PropsLimits.v
theories/PropsLine.v
theories/PropsList.v
theories/PropsLost.v
theories/PropsMedia.v
theories/PropsMore.v
theories/PropsMore2.v
theories/PropsMoreAll.v
theories/PropsMultipart.v
theories/PropsMutable.v
theories/PropsName.v
theories/PropsNoLimit.v
theories/PropsNoLimit2.v
theories/PropsOrder.v
theories/PropsOwn.v
theories/PropsParam.v
theories/PropsPart.v
theories/PropsPipe.v
theories/PropsPrint.v
theories/PropsQueryEnc.v
theories/PropsRedirect.v
theories/PropsRepr.v
theories/PropsRequest.v
theories/PropsRetry.v
theories/PropsRetry2.v
theories/PropsRetry3.v
theories/PropsSafe.v
theories/PropsSame.v
theories/PropsSetup.v
theories/PropsSignal.v
theories/PropsSize.v
theories/PropsSkip.v
theories/PropsSpell.v
theories/PropsState.v
theories/PropsStream.v
theories/PropsTight.v
theories/PropsTwice.v
theories/PropsUni.v
theories/PropsUri.v
theories/PropsUriExact.v
theories/PropsUriOf.v
theories/PropsUrl.v
theories/PropsUtil.v
theories/PropsWatch.v
theories/PropsWays.v
theories/PropsWin.v
theories/Py.v
theories/PyDict.v
theories/PyFacts.v
theories/QueryFacts.v
theories/QueryModel.v
theories/QuerySpec.v
theories/ReaderSim.v
theories/ReprModel.v
theories/RequestModel.v
theories/RequestMulti.v
theories/RequestRel.v
theories/RequestSpec.v
theories/SettingsModel.v
theories/SizeFacts.v
theories/SkipFacts.v
theories/Spec.v
theories/StateModel.v
theories/StreamCalm.v
theories/StreamFacts.v
theories/StreamModel.v
theories/StreamSpec.v
theories/TapeFacts.v
theories/TwinFacts.v
theories/UniFacts.v
theories/UniModel.v
theories/UploadFacts.v
theories/UploadModel.v
theories/UriModel.v
theories/UrlFacts.v
theories/UtilFacts.v
theories/UtilModel.v
theories/WinModel.v
theories/WrittenParams.v
