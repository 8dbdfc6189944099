-Q theories Verif
theories/Base.v
theories/Msg.v
theories/Reader.v
theories/Num.v
theories/Lexer.v
theories/Obj.v
theories/ReadObj.v
theories/Bits.v
theories/Filters.v
theories/Rc4.v
theories/Md5.v
theories/Env.v
theories/Getters.v
theories/Crypt.v
theories/Stream.v
theories/GetObj.v
theories/Regex.v
theories/Xref.v
theories/Security.v
theories/Load.v
theories/Output.v
theories/Render.v
theories/Font.v
theories/Page.v
theories/Tree.v
theories/Extract.v
theories/Parse.v
theories/BaseP.v
theories/ReaderP.v
theories/Plain.v
theories/LexerP.v
theories/ReadObjP.v
theories/PObjP.v
theories/SpecLex.v
theories/SpecLexP.v
theories/NumP.v
theories/SpecObj.v
theories/SpecNumP.v
theories/SpecObjP.v
theories/SpecRead.v
theories/ReadP.v
theories/ReadEx.v
theories/PropRead.v
theories/SpecFilters.v
theories/FiltersP.v
theories/PngP.v
theories/TiffP.v
theories/FiltersEx.v
theories/PropFilters.v
theories/RelP.v
theories/GetObjP.v
theories/SpecFetch.v
theories/FetchP.v
theories/TermP.v
theories/FetchEx.v
theories/PropFetch.v
theories/SpecStream.v
theories/StreamP.v
theories/StreamObjP.v
theories/StreamEx.v
theories/PropStream.v
theories/SpecLook.v
theories/LookP.v
theories/SpecCrypt.v
theories/CryptP.v
theories/SpecSecurity.v
theories/SecurityP.v
theories/CryptObjP.v
theories/CryptEx.v
theories/PropCrypt.v
theories/SpecScan.v
theories/RegexP.v
theories/ChunkP.v
theories/ScanP.v
theories/RepairP.v
theories/SpecXref.v
theories/XrefP.v
theories/XTermP.v
theories/XrefEx.v
theories/PropXref.v
theories/SpecText.v
theories/TextP.v
theories/SpecPage.v
theories/PageP.v
theories/CMapP.v
theories/TextEx.v
theories/PropText.v
theories/SpecTree.v
theories/TreeP.v
theories/TreeEx.v
theories/PropTree.v
theories/SpecOut.v
theories/OutP.v
theories/OutTopP.v
theories/LoadInvP.v
theories/RawP.v
theories/ExtractP.v
theories/FuelP.v
theories/OutEx.v
theories/PropOut.v
theories/SpecSource.v
theories/SpecPages.v
theories/SourceP.v
theories/AttachP.v
theories/PagesP.v
theories/SourceEx.v
theories/ManifestP.v
theories/PropSource.v
theories/PagesEx.v
theories/PropPages.v
theories/SpecRaw.v
theories/RawReadP.v
theories/RawReadEx.v
theories/SpecRecover.v
theories/RecoverP.v
theories/RecoverEx.v
theories/PropRaw.v
theories/LoadMonoP.v
theories/DocP.v
theories/DocEx.v
theories/SpecCryptDoc.v
theories/CryptDocP.v
theories/CryptDocEx.v
theories/CryptFilterEx.v
theories/PropDoc.v
theories/SpecOrder.v
theories/OrderP.v
theories/OrderEx.v
theories/PropOrder.v
theories/SpecContents.v
theories/ContentsP.v
theories/ContentsEx.v
theories/PropContents.v
theories/SpecTolerant.v
theories/TolerantP.v
theories/TolerantEx.v
theories/PropTolerant.v
theories/Errors.v
theories/AlongP.v
theories/SpecErrors.v
theories/ErrorsP.v
theories/ErrorsEx.v
theories/PropErrors.v
theories/SpecTotal.v
theories/TotalP.v
theories/TotalEx.v
theories/PropTotal.v
theories/SpecWrite.v
theories/WriteP.v
theories/WriteDocP.v
theories/WriteLoadP.v
theories/WriteOutP.v
theories/SpecFollow.v
theories/WriteRunP.v
theories/WriteEx.v
theories/PropWrite.v
theories/SpecUpdate.v
theories/StrayP.v
theories/UpdateP.v
theories/UpdateLoadP.v
theories/UpdateFindP.v
theories/UpdateOutP.v
theories/UpdateEx.v
theories/PropUpdate.v
theories/SpecSeal.v
theories/SealP.v
theories/SealEx.v
theories/PropSeal.v
theories/SpecExact.v
theories/ExactP.v
theories/ExactEx.v
theories/PropExact.v
theories/SpecTrailer.v
theories/TrailerP.v
theories/TrailerUpP.v
theories/TrailerEx.v
theories/PropTrailer.v
theories/SpecLocked.v
theories/LockedP.v
theories/LockedEx.v
theories/PropLocked.v
theories/SpecDisk.v
theories/DiskP.v
theories/DiskEx.v
theories/PropDisk.v
theories/SpecLinear.v
theories/LinearP.v
theories/LinearLoadP.v
theories/LinearOutP.v
theories/LinearEx.v
theories/PropLinear.v
theories/SpecReal.v
theories/RealP.v
theories/RealReadP.v
theories/RealEx.v
theories/PropReal.v
theories/Inflate.v
theories/UnitData.v
theories/UnitTests.v
theories/SpecXWrite.v
theories/XWriteP.v
theories/XOutP.v
theories/XPutP.v
theories/SpecWrong.v
theories/WrongP.v
theories/WrongRunP.v
theories/SpecList.v
theories/ListP.v
theories/ListRunP.v
theories/ListEx.v
theories/PropList.v
theories/WrongEx.v
theories/PropWrong.v
theories/XWriteEx.v
theories/PropXWrite.v
theories/SpecCommand.v
theories/CommandP.v
theories/CommandEx.v
theories/PropCommand.v
theories/SpecLines.v
theories/LinesP.v
theories/LinesEx.v
theories/PropLines.v
theories/SpecPacked.v
theories/PackedP.v
theories/PackedEx.v
theories/PropPacked.v
theories/SpecCMap.v
theories/CMapListP.v
theories/CMapListEx.v
theories/PropCMap.v
theories/SpecForm.v
theories/FormP.v
theories/FormEx.v
theories/PropForm.v
theories/SpecXSeal.v
theories/XSealP.v
theories/XSealEx.v
theories/PropXSeal.v
theories/SpecOwner.v
theories/OwnerP.v
theories/OwnerEx.v
theories/PropOwner.v
theories/SpecXUpdate.v
theories/XUpdateP.v
theories/XUpdateLoadP.v
theories/XUpdateFindP.v
theories/XUpdateOutP.v
theories/XUPutP.v
theories/XUpdateEx.v
theories/PropXUpdate.v
theories/SpecUSeal.v
theories/USealP.v
theories/USealEx.v
theories/PropUSeal.v
theories/SpecXUSeal.v
theories/XUSealP.v
theories/XUSealEx.v
theories/PropXUSeal.v
theories/RestP.v
theories/RestEx.v
theories/PropRest.v
theories/SpecHybrid.v
theories/HybridP.v
theories/HybridEx.v
theories/PropHybrid.v
theories/SpecAgain.v
theories/AgainP.v
theories/AgainEx.v
theories/PropAgain.v
theories/SpecGen.v
theories/GenP.v
theories/GenEx.v
theories/PropGen.v
theories/SpecLength.v
theories/LengthP.v
theories/LengthEx.v
theories/PropLength.v
theories/SpecIndirect.v
theories/IndirectP.v
theories/IndirectEx.v
theories/PropIndirect.v
theories/SpecChain.v
theories/ChainP.v
theories/ChainEx.v
theories/PropChain.v
theories/SpecScript.v
theories/ScriptP.v
theories/ScriptEx.v
theories/PropScript.v
theories/SpecTrunc.v
theories/TruncP.v
theories/TruncTiffP.v
theories/TruncEx.v
theories/PropTrunc.v
theories/PassP.v
theories/PassEx.v
theories/PropPass.v
theories/TruncCryptP.v
theories/TruncCryptEx.v
theories/PropTruncCrypt.v
