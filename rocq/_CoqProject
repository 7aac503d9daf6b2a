-Q theories Verif
theories/Base.v
theories/HistoryModel.v
theories/HistorySpec.v
theories/HistoryProofs.v
theories/HistoryProps.v
theories/ByteStreamModel.v
theories/ByteStreamSpec.v
theories/ByteStreamProofs.v
theories/ByteStreamProps.v
theories/Sorting.v
theories/PlacesModel.v
theories/PlacesSpec.v
theories/PlacesProofs.v
theories/PlacesProps.v
theories/SettingsModel.v
theories/ConfigModel.v
theories/ConfigSpec.v
theories/SettingsProofs.v
theories/ConfigProofs.v
theories/ConfigProps.v
theories/Text.v
theories/CookieModel.v
theories/CookieSpec.v
theories/CookieProofs.v
theories/CookieProps.v
theories/CookieStoreModel.v
theories/CookieStoreSpec.v
theories/CookieStoreProofs.v
theories/CookieStoreProps.v
theories/StorageModel.v
theories/StorageSpec.v
theories/StorageProofs.v
theories/StorageProps.v
theories/DomModel.v
theories/DomSpec.v
theories/DomProofs.v
theories/DomTraverse.v
theories/DomNames.v
theories/DomProps.v
theories/NetModel.v
theories/NetSpec.v
theories/NetProofs.v
theories/NetViewer.v
theories/NetProps.v
theories/HubModel.v
theories/HubSpec.v
theories/HubProofs.v
theories/HubProps.v
theories/Entities.v
theories/TokenModel.v
theories/TokenSpec.v
theories/TokenProofs.v
theories/TokenStep.v
theories/TokenStep2.v
theories/TokenRun.v
theories/TokenRefs.v
theories/TokenDocs.v
theories/TokenTable.v
theories/TokenBody.v
theories/TokenCases.v
theories/TokenProps.v
theories/TokenInput.v
theories/TokenInputProps.v
theories/QuirksModel.v
theories/QuirksSpec.v
theories/QuirksProofs.v
theories/QuirksProps.v
theories/F64.v
theories/F64Facts.v
theories/ScrollModel.v
theories/ScrollSpec.v
theories/ScrollProofs.v
theories/ScrollProps.v
theories/TileModel.v
theories/TileSpec.v
theories/TileProofs.v
theories/TileProps.v
theories/SelectorModel.v
theories/SelectorSpec.v
theories/SelectorProofs.v
theories/SelectorProps.v
theories/SelectorHover.v
theories/SyntaxModel.v
theories/SyntaxSpec.v
theories/SyntaxProofs.v
theories/SyntaxEnds.v
theories/SyntaxProps.v
theories/GrammarData.v
theories/GrammarModel.v
theories/GrammarSpec.v
theories/GrammarProofs.v
theories/GrammarProps.v
theories/GrammarReferSpec.v
theories/GrammarRefer.v
theories/GrammarReferProps.v
theories/CascadeModel.v
theories/CascadeSpec.v
theories/CascadeProofs.v
theories/CascadeMore.v
theories/CascadeBox.v
theories/CascadeProps.v
theories/CascadeShipped.v
theories/CascadeShippedProps.v
theories/TabModel.v
theories/TabSpec.v
theories/TabProofs.v
theories/TabProps.v
theories/GrammarText.v
theories/GrammarRead.v
theories/GrammarReadProps.v
theories/LatticeModel.v
theories/LatticeSpec.v
theories/LatticeProofs.v
theories/LatticePage.v
theories/LatticeProps.v
theories/CssTokenModel.v
theories/CssTokenSpec.v
theories/CssTokenProofs.v
theories/CssTokenRead.v
theories/CssTokenCursor.v
theories/CssTokenProps.v
theories/CssParseModel.v
theories/CssParseTotal.v
theories/CssParseCursor.v
theories/CssParseDeep.v
theories/CssParseSpec.v
theories/CssParseRead.v
theories/CssParseProps.v
theories/ComputedModel.v
theories/ComputedSpec.v
theories/ComputedProofs.v
theories/ComputedProps.v
theories/DisplayModel.v
theories/DisplaySpec.v
theories/DisplayProofs.v
theories/DisplayProps.v
theories/CompositeModel.v
theories/CompositeSpec.v
theories/CompositeProofs.v
theories/CompositeProps.v
theories/MediaModel.v
theories/MediaSpec.v
theories/MediaProofs.v
theories/MediaProps.v
theories/GradientModel.v
theories/GradientSpec.v
theories/GradientProofs.v
theories/GradientProps.v
theories/ConsoleModel.v
theories/ConsoleSpec.v
theories/ConsoleProofs.v
theories/ConsoleProps.v
