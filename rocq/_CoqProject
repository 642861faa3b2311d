-Q theories Verif
theories/Str.v
theories/EscapeModel.v
theories/EscapeSpec.v
theories/EscapeProofs.v
theories/EscapeProps.v
theories/XmlSpec.v
theories/XmlProofs.v
theories/XmlWriterModel.v
theories/XmlWriterSpec.v
theories/XmlWriterProofs.v
theories/XmlWriterProps.v
theories/XmlTpl.v
theories/StrRefl.v
theories/GenModel.v
theories/OpcSpec.v
theories/GenProofs.v
theories/FontsModel.v
theories/FontsSpec.v
theories/PresProofs.v
theories/PresProps.v
theories/PackageModel.v
theories/PackageSpec.v
theories/PackageProofs.v
theories/PackageProps.v
theories/TypesProofs.v
theories/EditorModel.v
theories/EditorSpec.v
theories/EditorIndexProofs.v
theories/EditorProofs.v
theories/EditorSessionProofs.v
theories/EditorProps.v
theories/Num.v
theories/MergeModel.v
theories/MergeSpec.v
theories/MergeProofs.v
theories/MergeProps.v
theories/TplRead.v
theories/SectionModel.v
theories/SectionSpec.v
theories/SectionProofs.v
theories/SectionProps.v
theories/CommentsModel.v
theories/CommentsSpec.v
theories/CommentsProofs.v
theories/CommentsProps.v
theories/XmlTreeModel.v
theories/XmlTreeSpec.v
theories/XmlTreeProofs.v
theories/XmlTreeProps.v
theories/RelsModel.v
theories/RelsSpec.v
theories/RelsProofs.v
theories/RelsProps.v
theories/ColorModel.v
theories/ColorSpec.v
theories/ColorProofs.v
theories/ColorProps.v
theories/Base64Model.v
theories/Base64Spec.v
theories/Base64Proofs.v
theories/Base64Props.v
theories/ProbeModel.v
theories/ProbeSpec.v
theories/ProbeProofs.v
theories/ProbeProps.v
theories/XmlPath.v
theories/PathRead.v
theories/ConnectorModel.v
theories/ConnectorSpec.v
theories/ConnectorProofs.v
theories/ConnectorProps.v
theories/DocPropsModel.v
theories/DocPropsSpec.v
theories/DocPropsProofs.v
theories/DocPropsProps.v
theories/ChartModel.v
theories/ChartSpec.v
theories/ChartTpl.v
theories/ChartProofs.v
theories/ChartProps.v
theories/TableModel.v
theories/TableSpec.v
theories/TableProofs.v
theories/TableProps.v
theories/ShapeModel.v
theories/SlideModel.v
theories/SlideSpec.v
theories/ElemRead.v
theories/ShapeProofs.v
theories/SlideProofs.v
theories/SlideInput.v
theories/SlideRead.v
theories/SlideIds.v
theories/SlideShow.v
theories/SlideWant.v
theories/SlideThms.v
theories/SlideRefute.v
theories/SlideProps.v
theories/ResolveModel.v
theories/ResolveSpec.v
theories/ResolveProofs.v
theories/ResolveProps.v
theories/InlineModel.v
theories/InlineSpec.v
theories/InlineProofs.v
theories/InlineProps.v
theories/CompressModel.v
theories/CompressProofs.v
theories/CompressSpec.v
theories/CompressProps.v
theories/CompressRefute.v
theories/DeckModel.v
theories/DeckSpec.v
theories/DeckInput.v
theories/DeckParts.v
theories/DeckWhole.v
theories/DeckRels.v
theories/NotesRead.v
theories/DeckThms.v
theories/DeckTypes.v
theories/DeckLinks.v
theories/DeckClosed.v
theories/DeckKindSpec.v
theories/DeckKinds.v
theories/DeckLazy.v
theories/DeckRefute.v
theories/DeckProps.v
theories/ExportModel.v
theories/MdSpec.v
theories/MdWant.v
theories/MdProofs.v
theories/HtmlSpec.v
theories/HtmlWant.v
theories/HtmlProofs.v
theories/ExportRefute.v
theories/ExportProps.v
theories/ReaderModel.v
theories/XmlKeys.v
theories/ReaderSpec.v
theories/ReaderProofs.v
theories/DeckReader.v
theories/TplTree.v
theories/SlideBackSpec.v
theories/SlideBack.v
theories/SlideBackProofs.v
theories/DeckBack.v
theories/ReaderProps.v
theories/ValidModel.v
theories/ValidSpec.v
theories/ValidProofs.v
theories/ValidRefute.v
theories/ValidProps.v
theories/RepairModel.v
theories/RepairSpec.v
theories/RepairProofs.v
theories/RepairText.v
theories/RepairSlides.v
theories/RepairRefute.v
theories/RepairProps.v
theories/MdParseModel.v
theories/MdParseSpec.v
theories/MdParseProofs.v
theories/MdParseMore.v
theories/MdParseRefute.v
theories/MdParseProps.v
theories/HtmlInModel.v
theories/HtmlInSpec.v
theories/HtmlInProofs.v
theories/HtmlInMore.v
theories/HtmlInTokens.v
theories/HtmlInDoc.v
theories/HtmlInEnd.v
theories/HtmlInRefute.v
theories/HtmlInProps.v
theories/LookSpec.v
theories/TableLook.v
theories/ChartLook.v
theories/GeomSpec.v
theories/GeomProofs.v
theories/ListingProofs.v
theories/ImportModel.v
theories/ImportSpec.v
theories/ImportProofs.v
theories/ImportDeck.v
theories/ImportAgain.v
theories/ImportRefute.v
theories/ImportProps.v
theories/McpModel.v
theories/McpSpec.v
theories/McpProofs.v
theories/McpRefute.v
theories/McpProps.v
theories/SettingsModel.v
theories/SettingsSpec.v
theories/SettingsKinds.v
theories/ShowProofs.v
theories/PrintProofs.v
theories/MasterProofs.v
theories/LayoutProofs.v
theories/ThemeProofs.v
theories/SignProofs.v
theories/SettingsThms.v
theories/SettingsRefute.v
theories/SettingsProps.v
theories/FlowModel.v
theories/FlowSpec.v
theories/FlowText.v
theories/FlowParse.v
theories/FlowLay.v
theories/FlowDraw.v
theories/FlowThms.v
theories/FlowRefute.v
theories/FlowProps.v
theories/DiagramModel.v
theories/DiagramSpec.v
theories/DiagramCommon.v
theories/DiagramSeq.v
theories/DiagramTime.v
theories/DiagramWay.v
theories/DiagramRefute.v
theories/DiagramProps.v
theories/GraphSpec.v
theories/GraphCommon.v
theories/GraphThms.v
theories/GraphEr.v
theories/GraphRefute.v
theories/GraphProps.v
theories/PlaceSpec.v
theories/PlaceThms.v
theories/PlaceRefute.v
theories/PlaceProps.v
theories/WebModel.v
theories/WebSpec.v
theories/WebText.v
theories/WebRead.v
theories/WebSlides.v
theories/WebThms.v
theories/WebRefute.v
theories/WebProps.v
theories/TemplateModel.v
theories/TemplateSpec.v
theories/TemplateThms.v
theories/TemplateProps.v
theories/ArrangeModel.v
theories/ArrangeSpec.v
theories/ArrangeThms.v
theories/ArrangeProps.v
theories/QuickModel.v
theories/QuickSpec.v
theories/QuickPlain.v
theories/QuickThms.v
theories/QuickProps.v
theories/PartsModel.v
theories/PartsSpec.v
theories/PartsProofs.v
theories/PartsPres.v
theories/PartsMore.v
theories/PartsSlide.v
theories/PartsProps.v
theories/PartsPresProps.v
theories/PartsMoreProps.v
theories/CliModel.v
theories/CliSpec.v
theories/CliProofs.v
theories/CliMore.v
theories/CliProps.v
theories/FloatModel.v
theories/FloatProofs.v
theories/DimModel.v
theories/DimSpec.v
theories/DimProofs.v
theories/DimProps.v
theories/ShadeModel.v
theories/ShadeSpec.v
theories/ShadeProofs.v
theories/ShadeProps.v
theories/FitModel.v
theories/FitSpec.v
theories/FitProofs.v
theories/FitProps.v
theories/GradModel.v
theories/GradSpec.v
theories/GradProofs.v
theories/GradProps.v
theories/MediaModel.v
theories/MediaSpec.v
theories/MediaProofs.v
theories/MediaProps.v
theories/TpartModel.v
theories/TpartSpec.v
theories/TpartProofs.v
theories/TpartRead.v
theories/TpartProps.v
theories/TxtModel.v
theories/TxtSpec.v
theories/TxtProofs.v
theories/TxtProps.v
theories/RepairMade.v
theories/LaysModel.v
theories/LaysSpec.v
theories/LaysProofs.v
theories/LaysShow.v
theories/LaysRead.v
theories/LaysThms.v
theories/LaysIds.v
theories/LaysProps.v
