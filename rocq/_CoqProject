-Q theories Verif
theories/PyStr.v
theories/PyDict.v
theories/Spec.v
theories/Globals.v
theories/GlobalsProofs.v
theories/WordCount.v
theories/WordCountProofs.v
theories/NovelModel.v
theories/NovelOps.v
theories/NovelOpsProofs.v
theories/XRef.v
theories/SpecNovel.v
theories/XRefProofs.v
theories/P_Model.v
theories/SpecSplit.v
theories/Splitter.v
theories/SplitterProofs.v
theories/SplitMarks.v
theories/P_Split.v
theories/YwTree.v
theories/IsoDate.v
theories/Yw7Build.v
theories/Yw7Read.v
theories/YwTreeProofs.v
theories/Yw7SceneProofs.v
theories/Yw7StartProofs.v
theories/Yw7SceneRT.v
theories/Yw7ChapterRT.v
theories/Yw7ElemRT.v
theories/Yw7ListRT.v
theories/Yw7TreeInv.v
theories/Yw7ProjRT.v
theories/Yw7SecRT.v
theories/Yw7TreeRT.v
theories/YwText.v
theories/YwTextProofs.v
theories/SpecYw7.v
theories/Yw7Clean.v
theories/Yw7Clean2.v
theories/Yw7Repr.v
theories/Yw7Repr2.v
theories/Yw7Repr3.v
theories/Yw7Total.v
theories/SpecFrame.v
theories/Yw7Frame.v
theories/Yw7Frame2.v
theories/Yw7Notes.v
theories/SpecText.v
theories/Yw7Facts.v
theories/Yw7Facts2.v
theories/Yw7Facts3.v
theories/P_Yw7.v
theories/FileOps.v
theories/FileOpsProofs.v
theories/FileWrite.v
theories/SpecFile.v
theories/FileWriteProofs.v
theories/OdfWriteProofs.v
theories/FileExec.v
theories/P_File.v
theories/Converter.v
theories/SpecConv.v
theories/ConverterProofs.v
theories/ConverterProofs2.v
theories/ConverterProofs3.v
theories/NewProject.v
theories/P_Conv.v
theories/Config.v
theories/SpecConfig.v
theories/ConfigProofs.v
theories/P_Config.v
theories/Purge.v
theories/SpecPurge.v
theories/PurgeProofs.v
theories/P_Purge.v
theories/Msgfmt.v
theories/SpecMo.v
theories/MsgfmtProofs.v
theories/P_Mo.v
theories/OdfXml.v
theories/OdfXmlProofs.v
theories/OdtText.v
theories/SpecOdf.v
theories/OdtTextProofs.v
theories/OdtTextProofs2.v
theories/P_Odf.v
theories/Template.v
theories/SpecTemplate.v
theories/TemplateProofs.v
theories/Export.v
theories/SpecExport.v
theories/ExportProofs.v
theories/ExportProofs2.v
theories/P_Export.v
theories/Templates.v
theories/OdsRead.v
theories/SpecOds.v
theories/OdsProofs.v
theories/P_Ods.v
theories/OdsTree.v
theories/OdfLex.v
theories/OdsWrite.v
theories/OdsRoundTrip.v
theories/OdsRoundTrip2.v
theories/OdsRoundTrip3.v
theories/XmlTags2.v
theories/SceneTable.v
theories/OdsWriteScenes.v
theories/SpecSceneList.v
theories/SceneListRows.v
theories/SceneListRT.v
theories/P_OdsRT.v
theories/Inliner.v
theories/SpecInliner.v
theories/InlinerProofs.v
theories/P_Inline.v
theories/Translations.v
theories/SpecTrans.v
theories/TransProofs.v
theories/TransProofs2.v
theories/P_Trans.v
theories/OdtRead.v
theories/SpecRead.v
theories/ReadFrame.v
theories/ReadFrame2.v
theories/ReadFrame3.v
theories/ReadFrame4.v
theories/ReadFrame5.v
theories/ReadFrame6.v
theories/SpecImport.v
theories/ImportProofs.v
theories/ImportProofs2.v
theories/ImportProofs3.v
theories/ImportProofs4.v
theories/ImportProofs5.v
theories/P_Read.v
theories/SpecFormat.v
theories/FormatWords.v
theories/FormatLines.v
theories/FormatRun.v
theories/FormatWeak.v
theories/FormatXml.v
theories/FormatXml2.v
theories/FormatXml3.v
theories/FormatXml4.v
theories/FormatXml5.v
theories/FormatProofs.v
theories/FormatEnds.v
theories/P_Format.v
theories/Manuscript.v
theories/SpecManuscript.v
theories/ManuRead.v
theories/ManuText.v
theories/ManuClean.v
theories/ManuEvents.v
theories/ManuMachine.v
theories/XmlTags.v
theories/ManuDoc.v
theories/ManuWalk.v
theories/ManuStyles.v
theories/ManuQuote.v
theories/ManuBlocks.v
theories/ManuExport.v
theories/ManuProofs.v
theories/P_Manuscript.v
theories/Notes.v
theories/SpecNotes.v
theories/NotesExport.v
theories/P_Notes.v
theories/SpecVars.v
theories/VarsProofs.v
theories/VarsAgain.v
theories/P_Vars.v
theories/MainTk.v
theories/SpecMain.v
theories/MainProofs.v
theories/P_Main.v
theories/DataFiles.v
theories/SpecData.v
theories/DataProofs.v
theories/DataProofs2.v
theories/P_Data.v
theories/Yw7Strict.v
theories/Yw7Reopen.v
theories/Yw7Reopen2.v
theories/Yw7Session.v
theories/SpecSession.v
theories/SessionTree.v
theories/SessionTotal.v
theories/SessionAgain.v
theories/SessionProofs.v
theories/SessionUnchanged.v
theories/P_Session.v
theories/SpecRedesc.v
theories/SpecRelist.v
theories/Redesc.v
theories/SpecDesc.v
theories/Descriptions.v
theories/DescEngine.v
theories/DescBlocks.v
theories/DescDoc.v
theories/DescScenes.v
theories/DescMore.v
theories/DescWorlds.v
theories/DescCharacters.v
theories/P_Desc.v
theories/MsgfmtMake.v
theories/SpecPo.v
theories/PoProofs.v
theories/PoProofs2.v
theories/PoProofs3.v
theories/PoProofs4.v
theories/P_Po.v
theories/SpecShow.v
theories/ShowProofs.v
theories/ShowUnique.v
theories/P_Show.v
theories/SpecOutline.v
theories/OutlineProofs.v
theories/SpecRetext.v
theories/Retext.v
theories/Written.v
theories/Proofing.v
theories/ProofXml.v
theories/ProofEvents.v
theories/SpecProof.v
theories/ProofRead.v
theories/ProofMachine.v
theories/ProofWalk.v
theories/ProofStyles.v
theories/ProofBlocks.v
theories/ProofExport.v
theories/ProofRT.v
theories/P_Proof.v
theories/XRefWrite.v
theories/SpecXref.v
theories/XRefWriteProofs.v
theories/SpecXrefDoc.v
theories/XRefDocProofs.v
theories/P_Xref.v
