-Q theories Verif
theories/PyBase.v
theories/PyLemmas.v
theories/PyTac.v
theories/LzModel.v
theories/LzSpec.v
theories/LzLemmas.v
theories/Lz10Lemmas.v
theories/CodeLzLemmas.v
theories/LzProps.v
theories/CommonModel.v
theories/CommonLemmas.v
theories/InfoBlockLemmas.v
theories/CrcLemmas.v
theories/CommonProps.v
theories/FindProps.v
theories/ColorModel.v
theories/ColorLemmas.v
theories/ColorProps.v
theories/BnModel.v
theories/BnLemmas.v
theories/BnProps.v
theories/FntModel.v
theories/FntSpec.v
theories/FntLemmas.v
theories/FntSaveLemmas.v
theories/FntProps.v
theories/NarcModel.v
theories/NarcLemmas.v
theories/NarcProps.v
theories/CodeModel.v
theories/CodeLemmas.v
theories/CodeProps.v
theories/Gfx2DModel.v
theories/Gfx2DLemmas.v
theories/Gfx2DProps.v
theories/WaveModel.v
theories/WaveLemmas.v
theories/WaveProps.v
theories/SeqModel.v
theories/SeqSpec.v
theories/SeqLemmas.v
theories/SeqSave.v
theories/SeqParse.v
theories/SeqRead.v
theories/SeqTotal.v
theories/SeqProps.v
theories/SeqGood.v
theories/SsarModel.v
theories/SsarLemmas.v
theories/SsarProps.v
theories/SbnkModel.v
theories/SbnkLemmas.v
theories/SbnkBank.v
theories/SbnkProps.v
theories/SbnkSpec.v
theories/SbnkInacc.v
theories/SbnkGuess.v
theories/SbnkLayout.v
theories/SbnkScan.v
theories/SbnkBack.v
theories/SbnkBack2.v
theories/SbnkResave.v
theories/SbnkResave2.v
theories/SbnkLoaded.v
theories/SbnkKept.v
theories/SbnkInaccProps.v
theories/SbnkWrittenProps.v
theories/AtLemmas.v
theories/TexModel.v
theories/TexSpec.v
theories/TexLemmas.v
theories/TexBlock.v
theories/TexRender.v
theories/TexProps.v
theories/BmgModel.v
theories/BmgSpec.v
theories/BmgText.v
theories/BmgScan.v
theories/BmgFile.v
theories/BmgLoad.v
theories/BmgSave.v
theories/BmgProps.v
theories/RomModel.v
theories/RomSpec.v
theories/RomBody.v
theories/RomHeader.v
theories/RomLayout.v
theories/RomLoad.v
theories/RomChecks.v
theories/RomProps.v
theories/RomEditSpec.v
theories/RomResave.v
theories/RomEditLemmas.v
theories/RomEditProps.v
theories/SdatModel.v
theories/SdatFiles.v
theories/SdatSymb.v
theories/SdatFat.v
theories/SdatSave.v
theories/SdatLoad.v
theories/SdatBack.v
theories/SdatSpec.v
theories/SdatLayout.v
theories/SdatReload.v
theories/SdatRound.v
theories/SdatProps.v
theories/SdatResave.v
theories/SdatResaveProps.v
theories/HeaderProps.v
theories/MusicModel.v
theories/MusicSpec.v
theories/MusicLemmas.v
theories/MusicEdit.v
theories/MusicTrack.v
theories/MusicSseq.v
theories/MusicProps.v
theories/MusicErrProps.v
theories/MinifyModel.v
theories/MinifySpec.v
theories/MinifyLemmas.v
theories/MinifyMain.v
theories/MinifyProps.v
theories/NsbmdModel.v
theories/NsbmdLemmas.v
theories/NsbmdProps.v
theories/ImageModel.v
theories/ImageSpec.v
theories/ImageLemmas.v
theories/ImageRender.v
theories/ImageTexture.v
theories/ImageProps.v
theories/TextModel.v
theories/TextSpec.v
theories/TextLemmas.v
theories/TextProps.v
theories/LoadTotal.v
theories/LoadProps.v
theories/FilesModel.v
theories/FilesSpec.v
theories/FilesLemmas.v
theories/FilesProps.v
theories/FntToolProps.v
theories/SdatAlignProps.v
theories/CsoSpec.v
theories/CsoLemmas.v
theories/CsoProps.v
theories/NewProps.v
theories/SeqTextModel.v
theories/SeqTextSpec.v
theories/SeqTextLemmas.v
theories/SeqTextLabels.v
theories/SeqTextRepr.v
theories/SeqTextProps.v
theories/BmgExact.v
theories/BmgResave.v
theories/BmgReload.v
theories/BmgTextProps.v
theories/SeqErrSpec.v
theories/SeqErr.v
theories/SeqErrProps.v
theories/SeqStraightProps.v
theories/SeqStateModel.v
theories/SeqStateSpec.v
theories/SeqState.v
theories/SeqStateProps.v
theories/SeqStateMoreProps.v
theories/BnTextModel.v
theories/BnTextSpec.v
theories/BnText.v
theories/BnTextProps.v
theories/BnNumProps.v
theories/ReprModel.v
theories/ReprSpec.v
theories/ReprLemmas.v
theories/ReprObjects.v
theories/ReprProps.v
theories/ReprMoreSpec.v
theories/ReprMore.v
theories/ReprEvents.v
theories/ReprMoreProps.v
theories/StrSpec.v
theories/StrLemmas.v
theories/StrProps.v
theories/StrMoreProps.v
theories/StrBankProps.v
theories/StrHexProps.v
theories/ViewSpec.v
theories/ViewLemmas.v
theories/ViewRom.v
theories/ViewProps.v
theories/ViewFiles.v
theories/ViewWave.v
theories/ViewFilesProps.v
theories/ViewSdatSpec.v
theories/ViewSdat.v
theories/ViewSdatLoad.v
theories/ViewSdatAll.v
theories/ViewSdatProps.v
theories/ViewBankSpec.v
theories/ViewBank.v
theories/ViewBankProps.v
theories/ViewTexSpec.v
theories/ViewTex.v
theories/ViewTexProps.v
theories/ViewNsbmdSpec.v
theories/ViewNsbmd.v
theories/ViewNsbmdProps.v
theories/ViewBmgSpec.v
theories/ViewBmg.v
theories/ViewBmgProps.v
theories/ViewLzSpec.v
theories/ViewLz.v
theories/ViewLzAny.v
theories/ViewLzProps.v
theories/ViewEvSpec.v
theories/ViewEv.v
theories/ViewEvAll.v
theories/ViewEvProps.v
theories/ViewGfxSpec.v
theories/ViewGfx.v
theories/ViewGfxProps.v
theories/PictureSpec.v
theories/Picture.v
theories/PictureProps.v
theories/RomViewSpec.v
theories/RomView.v
theories/RomViewProps.v
theories/EditSpec.v
theories/EditBytes.v
theories/EditView.v
theories/EditViewProps.v
theories/EditSdatSpec.v
theories/EditSdat.v
theories/EditSdatProps.v
theories/EditBmgSpec.v
theories/EditFile.v
theories/EditBmgProps.v
theories/EditCodeSpec.v
theories/EditCode.v
theories/EditCodeProps.v
theories/PartsModel.v
theories/PartsProps.v
theories/ExactSpec.v
theories/Exact.v
theories/ExactStrm.v
theories/ExactFiles.v
theories/ExactNarc.v
theories/ExactSeq.v
theories/ExactProps.v
theories/ExactFntSpec.v
theories/ExactFnt.v
theories/ExactFntProps.v
theories/ExactOvProps.v
theories/InPlaceSpec.v
theories/InPlaceLz.v
theories/InPlace.v
theories/InPlaceProps.v
theories/ToolsModel.v
theories/ToolsLemmas.v
theories/ToolsProps.v
theories/ExamplesModel.v
theories/ExamplesProps.v
theories/EditTexProps.v
theories/EditSeqProps.v
theories/EditSsarProps.v
theories/EditSoundProps.v
theories/EditGameProps.v
theories/EditBankProps.v
theories/EditBanksProps.v
theories/EditBandProps.v
theories/EditWaveProps.v
theories/EditArtProps.v
theories/EditPackedProps.v
theories/EditNestProps.v
