-Q theories Verif
theories/Base.v
theories/Graph.v
theories/GraphSpec.v
theories/GraphProofs.v
theories/GraphEqProofs.v
theories/Json.v
theories/GraphJson.v
theories/JsonProofs.v
theories/GraphJsonProofs.v
theories/GraphMain.v
theories/PropsGraph.v
theories/Hot.v
theories/HotSpec.v
theories/HotDirtyProofs.v
theories/HotDrive.v
theories/HotSchedProofs.v
theories/HotSchedMain.v
theories/HotTermProofs.v
theories/HotMain.v
theories/HotExamples.v
theories/PropsHot.v
theories/HotGraphs.v
theories/HotGraphsProofs.v
theories/HotResultSpec.v
theories/HotResultProofs.v
theories/HotResultExamples.v
theories/HotForgetProofs.v
theories/PropsResult.v
theories/Cold.v
theories/ColdSpec.v
theories/ColdProofs.v
theories/ColdMain.v
theories/ColdHistory.v
theories/ColdExamples.v
theories/PropsCold.v
theories/PyStr.v
theories/External.v
theories/ExternalSpec.v
theories/ExternalProofs.v
theories/ExternalExamples.v
theories/PropsExternal.v
theories/IoUtil.v
theories/IoUtilSpec.v
theories/IoUtilProofs.v
theories/IoUtilExamples.v
theories/PropsIoUtil.v
theories/Css.v
theories/CssSpec.v
theories/CssSound.v
theories/CssTerm.v
theories/CssRoundSpec.v
theories/CssRound.v
theories/CssExamples.v
theories/PropsCss.v
theories/Builder.v
theories/BuilderSpec.v
theories/BuilderProofs.v
theories/PyPath.v
theories/CssVersion.v
theories/CssVersionSpec.v
theories/CssVersionProofs.v
theories/PropsBuilder.v
theories/JsTables.v
theories/Js.v
theories/JsSpec.v
theories/JsProofs.v
theories/JsRoundSpec.v
theories/JsRound.v
theories/JsExamples.v
theories/PropsJs.v
theories/PyNorm.v
theories/JsYield.v
theories/JsManip.v
theories/JsYieldProofs.v
theories/JsManipSpec.v
theories/JsManipGrammar.v
theories/JsManipProofs.v
theories/JsManipMain.v
theories/JsManipExamples.v
theories/PropsJsManip.v
theories/PyNormProofs.v
theories/PathSpec.v
theories/JsPathProofs.v
theories/PropsJsPath.v
theories/Handlers.v
theories/HandlersSpec.v
theories/HandlersProofs.v
theories/PropsHandlers.v
theories/Dev.v
theories/DevSpec.v
theories/DevProofs.v
theories/PropsDev.v
theories/Clean.v
theories/CleanSpec.v
theories/CleanProofs.v
theories/PropsClean.v
theories/IconColor.v
theories/IconColorSpec.v
theories/IconColorProofs.v
theories/PropsIconColor.v
theories/IconParse.v
theories/IconParseSpec.v
theories/IconParseProofs.v
theories/PropsIconParse.v
theories/IconManip.v
theories/IconManipSpec.v
theories/IconManipProofs.v
theories/PropsIconManip.v
theories/OutlineData.v
theories/OutlineDataSpec.v
theories/OutlineDataProofs.v
theories/PropsOutlineData.v
theories/JsonLoadProofs.v
theories/Html.v
theories/HtmlSpec.v
theories/HtmlProofs.v
theories/HtmlRun.v
theories/HtmlMain.v
theories/HtmlTemplate.v
theories/HtmlExamples.v
theories/PropsHtml.v
theories/ImgSize.v
theories/ImgSizeSpec.v
theories/ImgNumProofs.v
theories/ImgSizeProofs.v
theories/ImgSizesProofs.v
theories/PropsImgSize.v
theories/ImgSettings.v
theories/ImgSettingsSpec.v
theories/ImgSettingsProofs.v
theories/PropsImgSettings.v
theories/ImgExport.v
theories/ImgExportSpec.v
theories/ImgExportProofs.v
theories/ImgExportRun.v
theories/ImgExportMain.v
theories/PropsImgExport.v
theories/ImgTarget.v
theories/ImgTargetSpec.v
theories/ImgTargetProofs.v
theories/ImgTargetExample.v
theories/PropsImgTarget.v
theories/ImgBuildSpec.v
theories/ImgBuildProofs.v
theories/ImgBuildMain.v
theories/ImgBuildReuse.v
theories/ImgBuildExample.v
theories/PropsImgBuild.v
theories/Nest.v
theories/NestSpec.v
theories/NestText.v
theories/NestProofs.v
theories/NestSound.v
theories/NestBook.v
theories/NestFuel.v
theories/NestTotal.v
theories/NestOrder.v
theories/NestMain.v
theories/NestExamples.v
theories/PropsNest.v
theories/ImgCommand.v
theories/ImgCommandSpec.v
theories/ImgCommandProofs.v
theories/ImgSource.v
theories/ImgPage.v
theories/ImgPageProofs.v
theories/ImgPageMain.v
theories/ImgPageExample.v
theories/PropsImgCommand.v
theories/Glue.v
theories/GlueSpec.v
theories/GlueJson.v
theories/JsonReads.v
theories/GlueProofs.v
theories/GlueMain.v
theories/GluePresent.v
theories/GlueAgree.v
theories/GlueExample.v
theories/PropsGlue.v
theories/JsonTorn.v
theories/JsonPretty.v
theories/JsonPrettyProofs.v
theories/ImgMeta.v
theories/ImgMetaSpec.v
theories/ImgMetaProofs.v
theories/ImgMetaExport.v
theories/ImgDiskSpec.v
theories/ImgDiskProofs.v
theories/ImgDiskMain.v
theories/ImgDiskExample.v
theories/PropsImgMeta.v
theories/IconSettings.v
theories/IconSettingsSpec.v
theories/IconSettingsProofs.v
theories/IconSettingsMain.v
theories/PropsIconSettings.v
theories/Config.v
theories/ConfigSpec.v
theories/ConfigProofs.v
theories/PropsConfig.v
theories/HotWantSpec.v
theories/HotWantProofs.v
theories/Page.v
theories/Project.v
theories/ProjectSpec.v
theories/ProjectPump.v
theories/ProjectRun.v
theories/ProjectSeen.v
theories/ProjectPaths.v
theories/ProjectNest.v
theories/ProjectCss.v
theories/ProjectPage.v
theories/ProjectEdit.v
theories/ProjectFiles.v
theories/ProjectMain.v
theories/ProjectSheet.v
theories/ProjectHistory.v
theories/ProjectHandlers.v
theories/ProjectExamples.v
theories/PropsProject.v
theories/ProjectSite.v
theories/ProjectSiteProofs.v
theories/ProjectSiteExamples.v
theories/PropsSite.v
theories/ProjectSheetExamples.v
theories/CssWhole.v
theories/CssWholeProofs.v
theories/PropsSheets.v
theories/PageWhole.v
theories/ProjectPageSpec.v
theories/ProjectPageSim.v
theories/ProjectPageMain.v
theories/ColdStop.v
theories/ColdStopRun.v
theories/ProjectPageExamples.v
theories/PropsPages.v
theories/ProjectOrderSpec.v
theories/ProjectOrderFiles.v
theories/HotGraphsTotal.v
theories/HotSelf.v
theories/ProjectOrder.v
theories/ProjectOrderScan.v
theories/ProjectOrderSheet.v
theories/ProjectOrderFirst.v
theories/ProjectOrderSite.v
theories/ProjectOrderExamples.v
theories/ProjectOrderStart.v
theories/ProjectOrderKids.v
theories/ProjectOrderAgain.v
theories/PropsOrder.v
theories/DevStart.v
theories/DevStartSpec.v
theories/ProjectSame.v
theories/DevStartProofs.v
theories/DevStartSite.v
theories/Octal.v
theories/DevStartExamples.v
theories/PropsDevStart.v
theories/FolderSpec.v
theories/FolderProofs.v
theories/FolderExamples.v
theories/PropsFolder.v
theories/Watch.v
theories/WatchSpec.v
theories/WatchMain.v
theories/WatchProofs.v
theories/WatchExamples.v
theories/PropsWatch.v
theories/SessionSpec.v
theories/SessionProofs.v
theories/SessionExamples.v
theories/PropsSession.v
theories/Prune.v
theories/PruneSpec.v
theories/PruneProofs.v
theories/PruneExamples.v
theories/PruneSiteExamples.v
theories/PropsPrune.v
theories/Makedirs.v
theories/MakedirsSpec.v
theories/MakedirsProofs.v
theories/MakedirsExamples.v
theories/PropsMakedirs.v
theories/Signature.v
theories/SignatureSpec.v
theories/SignatureProofs.v
theories/SignatureExamples.v
theories/PropsSignature.v
theories/Serve.v
theories/ServeSpec.v
theories/ServeProofs.v
theories/PropsServe.v
