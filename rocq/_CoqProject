-Q theories Verif
theories/CBase.v
theories/CBaseFacts.v
theories/SearchModel.v
theories/SearchSpec.v
theories/SearchProofs.v
theories/PropSearch.v
theories/PathModel.v
theories/PathSpec.v
theories/PathProofs.v
theories/PropPath.v
theories/StringModel.v
theories/StringSpec.v
theories/StringProofs.v
theories/PropString.v
theories/LineModel.v
theories/LineSpec.v
theories/LineProofs.v
theories/PropLine.v
theories/KeyTableModel.v
theories/KeyTableSpec.v
theories/KeyTableProofs.v
theories/PropKeyTable.v
theories/CardModel.v
theories/CardSpec.v
theories/CardProofs.v
theories/CardFloat.v
theories/CardType.v
theories/PropCard.v
theories/CardIeee.v
theories/PropCardIeee.v
theories/KeyParseModel.v
theories/KeyParseSpec.v
theories/KeyParseLow.v
theories/KeyParseAbs.v
theories/KeyParseProofs.v
theories/KeyRootProofs.v
theories/PropKeyParse.v
theories/KeyWriteSpec.v
theories/KeyWriteProofs.v
theories/PropKeyWrite.v
theories/KeyMemModel.v
theories/KeyMemSpec.v
theories/KeyMemProofs.v
theories/PropKeyMem.v
theories/TransformModel.v
theories/TransformSpec.v
theories/TransformProofs.v
theories/PropTransform.v
theories/BinDirModel.v
theories/BinDirSpec.v
theories/BinDirProofs.v
theories/PropBinDir.v
theories/BinModel.v
theories/BinSpec.v
theories/BinProofs.v
theories/PropBin.v
theories/TimedModel.v
theories/TimedSpec.v
theories/TimedProofs.v
theories/TimedFound.v
theories/PropTimed.v
theories/MultiModel.v
theories/MultiSpec.v
theories/MultiProofs.v
theories/PropMulti.v
theories/D3BufModel.v
theories/D3BufSpec.v
theories/D3BufProofs.v
theories/PropD3Buf.v
theories/D3SeqModel.v
theories/D3SeqSpec.v
theories/D3SeqProofs.v
theories/PropD3Seq.v
theories/D3Model.v
theories/D3Spec.v
theories/D3CurProofs.v
theories/D3OpenProofs.v
theories/D3SectProofs.v
theories/D3StateProofs.v
theories/D3BadProofs.v
theories/D3Sample.v
theories/PropD3Open.v
theories/D3ReadModel.v
theories/D3ReadSpec.v
theories/D3ReadProofs.v
theories/PropD3Read.v
theories/D3FloatModel.v
theories/D3FloatSpec.v
theories/D3FloatProofs.v
theories/PropD3Float.v
theories/D3ElemModel.v
theories/D3ElemSpec.v
theories/D3ElemProofs.v
theories/D3LayerProofs.v
theories/D3ShellProofs.v
theories/D3ShellReadProofs.v
theories/D3BeamProofs.v
theories/D3MeanProofs.v
theories/D3Rich.v
theories/PropD3Elem.v
theories/D3WriteSpec.v
theories/D3WriteProofs.v
theories/PropD3Write.v
theories/D3PartModel.v
theories/D3PartSpec.v
theories/D3PartProofs.v
theories/PropD3Part.v
theories/CppArrayModel.v
theories/CppArraySpec.v
theories/CppArrayProofs.v
theories/PropCppArray.v
theories/CppKeyModel.v
theories/CppKeySpec.v
theories/CppKeyProofs.v
theories/CppCardProofs.v
theories/PropCppKey.v
theories/D3SoundProofs.v
theories/PropD3Sound.v
theories/OwnModel.v
theories/OwnProofs.v
theories/CppPartModel.v
theories/CppPartSpec.v
theories/CppPartProofs.v
theories/PropCppPart.v
theories/CppPartNodesModel.v
theories/PropCppPartNodes.v
theories/CppTitleModel.v
theories/PropCppTitle.v
theories/OwnSpec.v
theories/CppTransformModel.v
theories/CppTransformSpec.v
theories/CppTransformProofs.v
theories/PropCppTransform.v
theories/HandleModel.v
theories/HandleSpec.v
theories/HandleProofs.v
theories/PropHandle.v
theories/PropD3Words.v
theories/PyBinoutModel.v
theories/PyBinoutSpec.v
theories/PyBinoutProofs.v
theories/PropPyBinout.v
theories/FilesSpec.v
theories/FilesProofs.v
theories/PropFiles.v
theories/PyCardModel.v
theories/PyCardSpec.v
theories/PyCardProofs.v
theories/PropPyCard.v
theories/PyArrayModel.v
theories/PyArraySpec.v
theories/PropPyArray.v
theories/PyLifeModel.v
theories/PyLifeSpec.v
theories/PyLifeProofs.v
theories/PropPyLife.v
theories/ElemMemModel.v
theories/ElemMemSpec.v
theories/ElemMemProofs.v
theories/PropElemMem.v
theories/CppStateModel.v
theories/CppStateSpec.v
theories/CppStateProofs.v
theories/CppStateReadProofs.v
theories/PropCppState.v
theories/ProfModel.v
theories/ProfSpec.v
theories/ProfProofs.v
theories/ProfRunProofs.v
theories/ProfReportProofs.v
theories/ProfEndProofs.v
theories/PropProf.v
theories/GlobModel.v
theories/GlobSpec.v
theories/GlobProofs.v
theories/PropGlob.v
theories/ReadMemModel.v
theories/ReadMemSpec.v
theories/ReadMemProofs.v
theories/ReadRoomProofs.v
theories/PropReadMem.v
theories/BinMemModel.v
theories/BinMemSpec.v
theories/BinMemProofs.v
theories/PropBinMem.v
theories/CppReadModel.v
theories/CppReadSpec.v
theories/CppReadProofs.v
theories/PropCppRead.v
theories/CppBinMemModel.v
theories/CppBinMemSpec.v
theories/CppBinMemProofs.v
theories/PropCppBinMem.v
theories/D3MsgModel.v
theories/D3MsgSpec.v
theories/D3MsgProofs.v
theories/PropD3Msg.v
theories/CppTimeModel.v
theories/PropCppTime.v
