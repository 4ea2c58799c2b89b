-Q theories Verif
theories/PyBase.v
theories/Dom.v
theories/PyBaseFacts.v
theories/Whitespace.v
theories/WhitespaceSpec.v
theories/WhitespaceProofs.v
theories/TextProofs.v
theories/T_Whitespace.v
theories/TableUtils.v
theories/TableUtilsSpec.v
theories/TableUtilsProofs.v
theories/T_TableUtils.v
theories/TableNorm.v
theories/TableNormSpec.v
theories/TableNormProofs.v
theories/T_TableNorm.v
theories/NodeOrganizer.v
theories/NodeStore.v
theories/NodeStoreFacts.v
theories/Table.v
theories/TableSpec.v
theories/TableFacts.v
theories/TableProofs.v
theories/TableCellProofs.v
theories/TableOps.v
theories/TableLife.v
theories/TableHist.v
theories/TableMain.v
theories/TableAccess.v
theories/T_Table.v
theories/CellSpan.v
theories/CellSpanSpec.v
theories/CellSpanProofs.v
theories/T_CellSpan.v
theories/PyFloat.v
theories/Cells.v
theories/CellsSpec.v
theories/CellsProofs.v
theories/T_Cells.v
theories/FileSys.v
theories/FileManager.v
theories/FileSpec.v
theories/FileProofs.v
theories/T_Files.v
theories/NodeOrganizerSpec.v
theories/NodeOrganizerProofs.v
theories/T_NodeOrganizer.v
theories/Meta.v
theories/MetaSpec.v
theories/MetaProofs.v
theories/T_Meta.v
theories/Document.v
theories/DocumentSpec.v
theories/DocumentProofs.v
theories/SolidProofs.v
theories/T_Document.v
theories/Wrapper.v
theories/WrapperSpec.v
theories/WrapperProofs.v
theories/T_Wrapper.v
theories/Pages.v
theories/PagesSpec.v
theories/PagesProofs.v
theories/T_Pages.v
theories/Attrs.v
theories/AttrsSpec.v
theories/AttrsProofs.v
theories/T_Attrs.v
theories/Xmlns.v
theories/XmlnsSpec.v
theories/XmlnsProofs.v
theories/T_Xmlns.v
theories/WrapCache.v
theories/WrapCacheSpec.v
theories/WrapCacheProofs.v
theories/T_WrapCache.v
theories/Observer.v
theories/ObserverSpec.v
theories/ObserverProofs.v
theories/T_Observer.v
theories/Float64.v
theories/Float64Proofs.v
theories/TimeParser.v
theories/TimeParserSpec.v
theories/TimeParserProofs.v
theories/T_TimeParser.v
theories/Variables.v
theories/VariablesSpec.v
theories/Relabel.v
theories/VariablesProofs.v
theories/T_Variables.v
theories/Styles.v
theories/StylesSpec.v
theories/StylesProofs.v
theories/T_Styles.v
theories/TextLists.v
theories/TextListsSpec.v
theories/TextListsProofs.v
theories/T_TextLists.v
theories/TableReloadSpec.v
theories/TableReload.v
theories/T_TableReload.v
theories/T_TableSaved.v
theories/FlatDocument.v
theories/FlatDocumentSpec.v
theories/FlatProofs.v
theories/T_FlatDocument.v
theories/Sheet.v
theories/SheetSpec.v
theories/SheetProofs.v
theories/T_Sheet.v
theories/SpanLayout.v
theories/SpanLayoutSpec.v
theories/SpanLayoutProofs.v
theories/T_SpanLayout.v
theories/Validity.v
theories/ValiditySpec.v
theories/ValidityProofs.v
theories/T_Validity.v
theories/Inject.v
theories/InjectSpec.v
theories/InjectProofs.v
theories/T_Inject.v
theories/Config.v
theories/ConfigSpec.v
theories/ConfigProofs.v
theories/T_Config.v
theories/Protect.v
theories/ProtectSpec.v
theories/ProtectProofs.v
theories/T_Protect.v
theories/EzList.v
theories/EzListSpec.v
theories/T_EzList.v
theories/PageNames.v
theories/PageNamesSpec.v
theories/PageNamesProofs.v
theories/T_PageNames.v
theories/PageLayout.v
theories/PageLayoutSpec.v
theories/T_PageLayout.v
theories/SolidCells.v
theories/TextDoc.v
theories/TextDocSpec.v
theories/TextDocProofs.v
theories/T_TextDoc.v
theories/Sessions.v
theories/SessionsSpec.v
theories/T_Sessions.v
theories/Book.v
theories/BookSpec.v
theories/BookProofs.v
theories/BookSaved.v
theories/T_Book.v
theories/TableProps.v
theories/BookTable.v
theories/BookProps.v
theories/TableCheck.v
theories/T_TableCheck.v
theories/BookLifeSpec.v
theories/T_BookLife.v
theories/BookSpans.v
theories/MoveSpec.v
theories/T_Move.v
theories/VarLife.v
theories/VarLifeSpec.v
theories/VarLifeProofs.v
theories/T_VarLife.v
theories/Drawing.v
theories/DrawingSpec.v
theories/DrawingProofs.v
theories/DrawingSaved.v
theories/T_Drawing.v
theories/DrawingLifeSpec.v
theories/T_DrawingLife.v
theories/FieldLifeSpec.v
theories/T_FieldLife.v
theories/FlatLifeSpec.v
theories/T_FlatLife.v
theories/StylesSavedSpec.v
theories/StylesSaved.v
theories/T_StylesSaved.v
theories/InjectSavedSpec.v
theories/InjectSaved.v
theories/T_InjectSaved.v
