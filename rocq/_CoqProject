-Q theories Verif
theories/Base.v
theories/Lib.v
theories/RefsModel.v
theories/FormulaModel.v
theories/RefsSpec.v
theories/RefsProofs.v
theories/RefsProps.v
theories/AttrModel.v
theories/AttrSpec.v
theories/AttrProofs.v
theories/XmlModel.v
theories/XmlSpec.v
theories/XmlProofs.v
theories/XmlProps.v
theories/TreeProofs.v
theories/OMap.v
theories/OMapProofs.v
theories/CellModel.v
theories/CellSpec.v
theories/CellProofs.v
theories/ColsProofs.v
theories/CellProps.v
theories/HeaderModel.v
theories/HeaderSpec.v
theories/HeaderProofs.v
theories/HeaderCuts.v
theories/HeaderProps.v
theories/SplitModel.v
theories/SplitSpec.v
theories/SplitProofs.v
theories/SplitProps.v
theories/NumModel.v
theories/NumSpec.v
theories/NumProofs.v
theories/EnumModel.v
theories/NumProps.v
theories/DrawModel.v
theories/CellIoModel.v
theories/CellIoSpec.v
theories/CellIoProofs.v
theories/DrawProofs.v
theories/RichProofs.v
theories/CellOrderProofs.v
theories/CellIoProps.v
theories/DrawProps.v
theories/RichProps.v
theories/TableModel.v
theories/TableRun.v
theories/TableCells.v
theories/TableCols.v
theories/TableRead.v
theories/TableSpec.v
theories/TableNested.v
theories/TablePlaced.v
theories/TableWhole.v
theories/TableProps.v
theories/BookModel.v
theories/BookProps.v
theories/CondModel.v
theories/CondSpec.v
theories/CondProps.v
theories/ConfigModel.v
theories/ConfigSpec.v
theories/ConfigProofs.v
theories/ConfigIo.v
theories/ConfigShape.v
theories/ConfigProps.v
theories/ViewModel.v
theories/ViewProofs.v
theories/ViewProps.v
theories/MetaModel.v
theories/MetaProofs.v
theories/MetaProps.v
theories/ScriptModel.v
theories/ScriptProofs.v
theories/ScriptProps.v
theories/ValidModel.v
theories/ValidProofs.v
theories/ValidProps.v
theories/CloneModel.v
theories/CloneSpec.v
theories/CloneProofs.v
theories/CloneProps.v
theories/PkgModel.v
theories/PkgSpec.v
theories/PkgProofs.v
theories/PkgProps.v
theories/StyleModel.v
theories/FlowProofs.v
theories/StyleSpec.v
theories/StyleProofs.v
theories/StyleDocProofs.v
theories/StyleProps.v
theories/GroupSpec.v
theories/GroupProofs.v
theories/GroupCols.v
theories/GroupProps.v
theories/WorkModel.v
theories/WorkSpec.v
theories/WorkFlow.v
theories/ValidFlat.v
theories/ExtraProofs.v
theories/WorkProofs.v
theories/WorkProps.v
theories/TermModel.v
theories/TermSpec.v
theories/TermProofs.v
theories/TermProps.v
theories/PanicSpec.v
theories/PanicProofs.v
theories/PanicParts.v
theories/PanicTable.v
theories/PanicWork.v
theories/PanicProps.v
theories/NsSpec.v
theories/NsProofs.v
theories/NsProps.v
theories/FmtModel.v
theories/FmtSpec.v
theories/FmtProofs.v
theories/FmtProps.v
theories/SetModel.v
theories/GetModel.v
theories/SetSpec.v
theories/SetText.v
theories/SetProofs.v
theories/SetProofs2.v
theories/SetProofs3.v
theories/SetProps.v
theories/SizeModel.v
theories/SizeProps.v
theories/ConvModel.v
theories/ConvProps.v
theories/TagModel.v
theories/TagProps.v
theories/ImageModel.v
theories/ImageProps.v
theories/AccModel.v
theories/AccProps.v
theories/OptProofs.v
theories/OptFiles.v
theories/OptProps.v
theories/ExtraProps.v
theories/StableProofs.v
theories/StableProps.v
theories/FitSpec.v
theories/FitProofs.v
theories/FitWork.v
theories/FitProps.v
theories/ApiSpec.v
theories/ApiProofs.v
theories/ApiProps.v
theories/HintModel.v
theories/HintSpec.v
theories/HintProps.v
theories/FreezeModel.v
theories/FreezeSpec.v
theories/FreezeProps.v
theories/SkipSpec.v
theories/SkipProofs.v
theories/SkipProps.v
theories/IndentSpec.v
theories/IndentProofs.v
theories/IndentProps.v
theories/SpellSpec.v
theories/SpellProofs.v
theories/SpellProps.v
theories/ForeignSpec.v
theories/ForeignProofs.v
theories/ForeignProps.v
theories/JumbleSpec.v
theories/JumbleAttrs.v
theories/JumbleProofs.v
theories/JumbleFiles.v
theories/JumbleProps.v
theories/GlyphSpec.v
theories/GlyphProofs.v
theories/GlyphProps.v
theories/TidySpec.v
theories/TidyProps.v
theories/HashSpec.v
theories/HashProps.v
theories/AgainProofs.v
theories/AgainProps.v
theories/AgainViewProps.v
theories/ShapeProps.v
theories/SettleProps.v
theories/WidthProps.v
