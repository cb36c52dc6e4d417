-Q theories Verif
theories/Base.v
theories/Graph.v
theories/GraphSpec.v
theories/GraphProofs.v
theories/GraphTraverse.v
theories/GraphPaths.v
theories/GraphMore.v
theories/GraphProps.v
theories/Components.v
theories/ComponentsProofs.v
theories/ComponentsProps.v
theories/Variants.v
theories/VariantsSpec.v
theories/VariantsProofs.v
theories/VariantsRefine.v
theories/VariantsProps.v
theories/NetIndex.v
theories/NetIndexSpec.v
theories/NetIndexProofs.v
theories/NetIndexProps.v
theories/Equip.v
theories/TapChanger.v
theories/TapChangerProofs.v
theories/TransformerProofs.v
theories/TapChangerProps.v
theories/Setters.v
theories/SettersSpec.v
theories/SettersProofs.v
theories/SettersProps.v
theories/DblArith.v
theories/Curve.v
theories/CurveProofs.v
theories/CurveProps.v
theories/Limits.v
theories/LimitsProofs.v
theories/LimitsProps.v
theories/Anonymizer.v
theories/AnonymizerProofs.v
theories/AnonymizerProps.v
theories/Ranges.v
theories/RangesProofs.v
theories/RangesProps.v
theories/NodeTopo.v
theories/NodeTopoSpec.v
theories/NodeTopoProofs.v
theories/NodeTopoInv.v
theories/NodeTopoConn.v
theories/NodeTopoProps.v
theories/BusTopo.v
theories/BusTopoSpec.v
theories/BusTopoProofs.v
theories/BusTopoInv.v
theories/BusTopoView.v
theories/BusTopoProps.v
theories/Hvdc.v
theories/HvdcSpec.v
theories/HvdcProofs.v
theories/HvdcProps.v
theories/Sv.v
theories/SvSpec.v
theories/SvProofs.v
theories/SvProps.v
theories/Ext.v
theories/ExtSpec.v
theories/ExtProofs.v
theories/ExtProps.v
theories/BusSum.v
theories/BusSumSpec.v
theories/BusSumProofs.v
theories/BusSumProps.v
theories/PropMap.v
theories/PropMapSpec.v
theories/PropMapProps.v
theories/TieLine.v
theories/TieLineSpec.v
theories/TieLineProofs.v
theories/TieBoundary.v
theories/TieLineProps.v
theories/Xml.v
theories/XmlSpec.v
theories/XmlProofs.v
theories/XmlProps.v
theories/Threads.v
theories/ThreadsSpec.v
theories/ThreadsProofs.v
theories/ThreadsProps.v
theories/CompNet.v
theories/CompNetSpec.v
theories/CompNetProofs.v
theories/CompNetLinks.v
theories/CompNetInv.v
theories/CompNetStep.v
theories/CompNetQuery.v
theories/CompNetProps.v
theories/Removal.v
theories/RemovalSpec.v
theories/RemovalProofs.v
theories/RemovalLoops.v
theories/RemovalSub.v
theories/RemovalAll.v
theories/RemovalProps.v
theories/NetXml.v
theories/NetXmlSpec.v
theories/NetXmlProofs.v
theories/NetXmlMore.v
theories/NetXmlProps.v
theories/NetXmlFields.v
theories/NetXmlParts.v
theories/NetXmlLeaf.v
theories/NetXmlDec.v
theories/DoubleText.v
theories/DoubleTextProofs.v
theories/DoubleTextProps.v
theories/Traverse.v
theories/TraverseSpec.v
theories/TraverseProofs.v
theories/TraverseProps.v
theories/ExtXml.v
theories/ExtXmlSpec.v
theories/ExtXmlContent.v
theories/ExtXmlProofs.v
theories/ExtXmlAll.v
theories/ExtXmlExport.v
theories/ExtXmlProps.v
theories/NetXmlShape.v
theories/NetXmlShapeProofs.v
theories/NodeGroups.v
theories/NodeGroupsSpec.v
theories/NodeGroupsProofs.v
theories/NodeGroupsProps.v
theories/Slack.v
theories/SlackSpec.v
theories/SlackProofs.v
theories/SlackProps.v
theories/BusValues.v
theories/BusValuesSpec.v
theories/BusValuesProofs.v
theories/BusValuesProps.v
theories/TopoExport.v
theories/TopoExportSpec.v
theories/TopoImportProofs.v
theories/TopoExportProofs.v
theories/TopoExportProps.v
theories/EquipNet.v
theories/EquipNetSpec.v
theories/EquipNetProofs.v
theories/EquipNetProps.v
theories/Measure.v
theories/MeasureSpec.v
theories/MeasureProofs.v
theories/MeasureProps.v
theories/RegTerm.v
theories/RegTermSpec.v
theories/RegTermProofs.v
theories/RegTermProps.v
theories/Filter.v
theories/FilterProps.v
theories/CalcBusXml.v
theories/CalcBusXmlSpec.v
theories/CalcBusXmlProofs.v
theories/CalcBusXmlBuild.v
theories/CalcBusXmlProps.v
theories/NetViews.v
theories/NetViewsSpec.v
theories/NetViewsProofs.v
theories/NetViewsSteps.v
theories/NetViewsProps.v
theories/Visit.v
theories/VisitSpec.v
theories/VisitProofs.v
theories/VisitProps.v
theories/ExtRegistry.v
theories/ExtRegistrySpec.v
theories/ExtRegistryProofs.v
theories/ExtRegistryProps.v
theories/Enum.v
theories/EnumTables.v
theories/EnumProofs.v
theories/EnumProps.v
theories/BusRef.v
theories/BusRefSpec.v
theories/BusRefProofs.v
theories/BusRefProps.v
theories/ExtSetters.v
theories/ExtSettersSpec.v
theories/ExtSettersProofs.v
theories/ExtSettersProps.v
theories/RemovalEq.v
theories/Impedance.v
theories/ImpedanceSpec.v
theories/ImpedanceProofs.v
theories/ImpedanceProps.v
theories/LimitsHolder.v
theories/LimitsHolderSpec.v
theories/LimitsHolderProofs.v
theories/LimitsHolderProps.v
theories/Options.v
theories/OptionsSpec.v
theories/OptionsProofs.v
theories/OptionsProps.v
theories/Files.v
theories/FilesSpec.v
theories/FilesProofs.v
theories/FilesProps.v
theories/DlBoundary.v
theories/DlBoundarySpec.v
theories/DlBoundaryProofs.v
theories/DlBoundaryProps.v
theories/VariantCode.v
theories/VariantCodeSpec.v
theories/VariantCodeProofs.v
theories/VariantCodeRefine.v
theories/VariantCodeProps.v
theories/Flows.v
theories/FlowsSpec.v
theories/FlowsProofs.v
theories/FlowsProps.v
theories/Messages.v
theories/MsgSites.v
theories/MessagesSpec.v
theories/MessagesProofs.v
theories/MessagesProps.v
theories/Catalog.v
theories/CatalogSpec.v
theories/CatalogProofs.v
theories/CatalogProps.v
theories/VocabularySpec.v
theories/VocabularyProofs.v
theories/VocabularyProps.v
theories/ColumnsSpec.v
theories/ColumnsProofs.v
theories/ColumnsProps.v
theories/ExtVocabSpec.v
theories/ExtVocabProofs.v
theories/ExtVocabProps.v
theories/NodeViews.v
theories/NodeViewsSpec.v
theories/NodeViewsProofs.v
theories/NodeViewsProps.v
theories/BusViews.v
theories/BusViewsSpec.v
theories/BusViewsProofs.v
theories/BusViewsProps.v
theories/BusViewsBlank.v
theories/BusFreshProofs.v
theories/BusFreshProps.v
theories/EquipLinksProofs.v
theories/EquipLinksProps.v
theories/NetList.v
theories/NetListSpec.v
theories/NetListProofs.v
theories/NetListProps.v
theories/NodeFreshProofs.v
theories/NodeFreshProps.v
theories/BusLists.v
theories/BusListsSpec.v
theories/BusListsProofs.v
theories/BusListsProps.v
theories/UncachedProps.v
