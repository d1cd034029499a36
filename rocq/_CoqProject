-Q theories Verif
theories/Base.v
theories/GoStr.v
theories/Strconv.v
theories/Pattern.v
theories/PatternSpec.v
theories/PatternFacts.v
theories/Tree.v
theories/GoStrFacts.v
theories/TreeSpec.v
theories/ListFacts.v
theories/TreeFacts.v
theories/TreeMatch.v
theories/TreeTop.v
theories/TreeOrder.v
theories/TreeParams.v
theories/RoutingFacts.v
theories/ExampleRegexp.v
theories/Router.v
theories/RouterSpec.v
theories/RouterFacts.v
theories/RouterDump.v
theories/MethodFacts.v
theories/HandlerFacts.v
theories/PathClean.v
theories/StaticReg.v
theories/RouterProps.v
theories/Variant.v
theories/ExampleRouter.v
theories/PropRouting.v
theories/PropRouter.v
theories/Header.v
theories/Ctx.v
theories/CtxFacts.v
theories/TraceSpec.v
theories/Engine.v
theories/ServeFacts.v
theories/ServeProps.v
theories/EngineSpec.v
theories/ServeTop.v
theories/ServeDispatch.v
theories/Sim.v
theories/ServeMore.v
theories/ServePairs.v
theories/ServeThms.v
theories/ExampleServe.v
theories/PropEngine.v
theories/UtilSpec.v
theories/StrconvFacts.v
theories/Util.v
theories/UtilFacts.v
theories/Getters.v
theories/GetterSpec.v
theories/GetterFacts.v
theories/TrimFacts.v
theories/PropUtil.v
theories/Upload.v
theories/UploadFacts.v
theories/PropUpload.v
theories/Content.v
theories/Middleware.v
theories/ContentFacts.v
theories/MiddlewareSpec.v
theories/RecoveryFacts.v
theories/LoggerFacts.v
theories/CorsFacts.v
theories/CorsMore.v
theories/RedirectFacts.v
theories/PropMiddleware.v
theories/Binding.v
theories/BindCtx.v
theories/BindingSpec.v
theories/BindingFacts.v
theories/BindingMore.v
theories/BindingTop.v
theories/ExampleBinding.v
theories/PropBinding.v
theories/PropBindMore.v
theories/CallSpec.v
theories/HttpFacts.v
theories/PropCalls.v
theories/Static.v
theories/StaticSpec.v
theories/LastingSpec.v
theories/ParamSpec.v
theories/TreeLasting.v
theories/ServeParams.v
theories/StaticFacts.v
theories/StaticTop.v
theories/StaticPaths.v
theories/PropStatic.v
theories/Reach.v
theories/PropReach.v
theories/PropParams.v
theories/Machine.v
theories/MachineSpec.v
theories/MachineFacts.v
theories/MachineThms.v
theories/ExampleMachine.v
theories/PropConc.v
theories/Listing.v
theories/ListingSpec.v
theories/ListingFacts.v
theories/ListingTree.v
theories/ListingNode.v
theories/ListingTop.v
theories/PropListing.v
theories/Mapping.v
theories/MappingSpec.v
theories/MappingFacts.v
theories/MappingFiles.v
theories/MappingWalk.v
theories/MappingTop.v
theories/MappingAccept.v
theories/MappingEnds.v
theories/MappingCalls.v
theories/MappingValue.v
theories/ExampleMapping.v
theories/PropMapping.v
theories/DefaultFacts.v
theories/PropDefault.v
theories/BodySpec.v
theories/RequestSpec.v
theories/RequestFacts.v
theories/BodyFacts.v
theories/BodyTop.v
theories/PropBody.v
theories/Environ.v
theories/EnvironFacts.v
theories/AbortFacts.v
theories/HelperFacts.v
theories/HelperSpec.v
theories/HelperLog.v
theories/PropRequest.v
theories/PropBehind.v
theories/Forms.v
theories/FormsSpec.v
theories/FormsFacts.v
theories/PropForms.v
theories/NetFile.v
theories/FileSpec.v
theories/FileFacts.v
theories/PropFile.v
theories/Mount.v
theories/MountSpec.v
theories/MountFacts.v
theories/PropMount.v
theories/LogFacts.v
theories/PropLogger.v
theories/RouterTry.v
theories/RouterTryFacts.v
theories/PropTry.v
theories/HandlerName.v
theories/PickSpec.v
theories/PickFacts.v
theories/NameFacts.v
theories/PropName.v
theories/Wire.v
theories/WireSpec.v
theories/WireFacts.v
theories/WireHttp.v
theories/WireSim.v
theories/PropWire.v
theories/Slices.v
theories/SliceSpec.v
theories/SliceMem.v
theories/SliceFacts.v
theories/SliceSim.v
theories/SliceHandler.v
theories/SliceActs.v
theories/PropSlices.v
theories/Stray.v
theories/StrayFacts.v
theories/PropStray.v
theories/NetServe.v
theories/CondSpec.v
theories/NetServeFacts.v
theories/CondTop.v
theories/PropCond.v
theories/NetCookie.v
theories/CookieSpec.v
theories/CookieFacts.v
theories/CookieDomain.v
theories/CookieText.v
theories/CookieServe.v
theories/PropCookie.v
theories/NetQuery.v
theories/QuerySpec.v
theories/QueryFacts.v
theories/QueryServe.v
theories/PropQuery.v
theories/NetRedirect.v
theories/RedirectSpec.v
theories/NetRedirectFacts.v
theories/PropRedirect.v
theories/NetPath.v
theories/TargetSpec.v
theories/TargetFacts.v
theories/PropTarget.v
theories/Render.v
theories/RenderSpec.v
theories/RenderFacts.v
theories/PropRender.v
theories/NetRange.v
theories/RangeSpec.v
theories/NetRangeFacts.v
theories/RangeTop.v
theories/NetHead.v
theories/HeadSpec.v
theories/HeadFacts.v
theories/PropHead.v
theories/PropRange.v
theories/NetMultipart.v
theories/MultipartSpec.v
theories/MultipartFacts.v
theories/MultipartServe.v
theories/MultipartCut.v
theories/PropMultipart.v
theories/TagSpec.v
theories/TagFacts.v
theories/TagAnySpec.v
theories/TagAny.v
theories/TagServe.v
theories/PropTag.v
theories/PropTagAny.v
theories/NetSniff.v
theories/SniffSpec.v
theories/SniffFacts.v
theories/PropSniff.v
theories/NetRegexp.v
theories/RegexpSpec.v
theories/RegexpRunes.v
theories/RegexpFacts.v
theories/RegexpParse.v
theories/RegexpTop.v
theories/PropRegexp.v
theories/NetFrame.v
theories/FrameSpec.v
theories/FrameClaim.v
theories/FrameRead.v
theories/FrameFacts.v
theories/FrameTop.v
theories/FrameSend.v
theories/FrameCut.v
theories/FrameConn.v
theories/FrameRun.v
theories/PropFrame.v
theories/FrameFile.v
theories/FrameLoad.v
theories/PropFrameFile.v
theories/FrameApi.v
theories/PropFrameApi.v
theories/FrameOver.v
theories/PropFrameOver.v
theories/FrameHead.v
theories/FrameHeadRun.v
theories/PropFrameHead.v
theories/NetDir.v
theories/DirSpec.v
theories/DirFacts.v
theories/DirTop.v
theories/PropDir.v
theories/NetDate.v
theories/DateSpec.v
theories/DateFacts.v
theories/DateLooseSpec.v
theories/DateLoose.v
theories/DateTop.v
theories/PropDate.v
theories/NetDateOld.v
theories/DateOldSpec.v
theories/DateOld.v
theories/DateAnswerSpec.v
theories/DateServe.v
theories/PropDateServe.v
