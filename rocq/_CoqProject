-Q theories Verif
theories/Bytes.v
theories/GoPath.v
theories/Here.v
theories/GoTypes.v
theories/Mem.v
theories/MemSpec.v
theories/MemBase.v
theories/MemFiles.v
theories/MemFiles2.v
theories/PropsFiles.v
theories/WalkSpec.v
theories/MemWalk.v
theories/MemReaddir.v
theories/InStep.v
theories/PropsWalk.v
theories/MemDirs.v
theories/MemDirs2.v
theories/PropsDirs.v
theories/Wrap.v
theories/Layers.v
theories/Apply.v
theories/PropsLayers.v
theories/Embed.v
theories/GoNum.v
theories/GoTimeFmt.v
theories/JsonStr.v
theories/JsonText.v
theories/GoQuote.v
theories/Quote.v
theories/JsonSpec.v
theories/RawJson.v
theories/PropsEmbed.v
theories/Base64.v
theories/Decode.v
theories/Marshal.v
theories/MarshalMem.v
theories/PropsMarshal.v
theories/Disk.v
theories/Decls.v
theories/DeclsProofs.v
theories/PropsParser.v
theories/Source.v
theories/SourceProofs.v
theories/ParserDirs.v
theories/PropsSource.v
theories/Pack.v
theories/PropsPack.v
theories/Package.v
theories/PropsPackage.v
theories/Cli.v
theories/PropsCli.v
theories/Maps.v
theories/PropsMaps.v
theories/DiskOps.v
theories/Std.v
theories/PropsStd.v
theories/Dump.v
theories/PropsDump.v
theories/PropsSame.v
theories/Project.v
theories/PropsProject.v
theories/ParserApi.v
theories/Imports.v
theories/PropsParserApi.v
theories/Indent.v
theories/Cmds.v
theories/PropsCmds.v
theories/PropsMain.v
theories/Http.v
theories/HttpProofs.v
theories/HttpRange.v
theories/HttpMem.v
theories/HttpDisk.v
theories/PropsHttp.v
theories/PropsHttpSame.v
theories/LayersHttp.v
theories/PropsLayersHttp.v
theories/NilInfo.v
theories/PropsNil.v
theories/PropsJson.v
theories/PropsFields.v
theories/Conc.v
theories/ConcProofs.v
theories/ConcSame.v
theories/PropsConc.v
theories/PropsSerial.v
theories/Share.v
theories/ShareRead.v
theories/PropsShare.v
theories/Requests.v
theories/PropsRequests.v
theories/PropsConcSame.v
theories/Links.v
theories/LinksProofs.v
theories/PropsLinks.v
theories/Assumptions.v
theories/Both.v
theories/PropsBoth.v
theories/Handles.v
theories/PropsHandles.v
theories/PropsPage.v
theories/PropsDate.v
theories/PropsTime.v
theories/MapsJson.v
theories/PropsMapsJson.v
theories/PropsQuote.v
theories/Errors.v
theories/PropsErrors.v
theories/PropsReaddir.v
theories/RepoTests.v
theories/Precond.v
theories/PropsPrecond.v
theories/PropsServed.v
theories/CondHeaders.v
theories/PropsHeaders.v
theories/PropsRangeText.v
theories/PropsPaths.v
theories/PropsUnquote.v
theories/Examples.v
theories/PropsExamples.v
theories/PropsSys.v
theories/PropsDynamic.v
theories/PropsExHttp.v
theories/PropsAgain.v
