(** The calls of stdcxx::format and of the loggers in /repo, with their texts and the number of their arguments; written by
    tools/gen_msgsites.py from the sources.  The other texts logged at ValidationUtils.cpp:28 are literals without directive. *)
From Verif Require Export Messages.

(** stdcxx::format("...", ...): file, line, text, number of arguments. *)
Definition format_sites : list site := [
  mkSite "src/iidm/AbstractComponentsManager.cpp" 143 "%1% components computed in %2% ms" 2;
  mkSite "src/iidm/AbstractTerminalTopologyVisitor.cpp" 87 "Unexpected 3WT side %1%" 1;
  mkSite "src/iidm/Branch.cpp" 63 "Unexpected side %1%" 1;
  mkSite "src/iidm/Branch.cpp" 96 "Unexpected side %1%" 1;
  mkSite "src/iidm/Branch.cpp" 123 "Unexpected side: %1%" 1;
  mkSite "src/iidm/Branch.cpp" 154 "Unexpected side: %1%" 1;
  mkSite "src/iidm/Branch.cpp" 187 "Unexpected side: %1%" 1;
  mkSite "src/iidm/Branch.cpp" 224 "Getting %1% limits is not supported." 1;
  mkSite "src/iidm/Branch.cpp" 262 "Unexpected side value: %1%" 1;
  mkSite "src/iidm/Branch.cpp" 274 "Both terminals are connected to voltage level %1%" 1;
  mkSite "src/iidm/Branch.cpp" 283 "No terminal connected to voltage level %1%" 1;
  mkSite "src/iidm/Branch.cpp" 319 "Getting %1% limits is not supported" 1;
  mkSite "src/iidm/Bus.cpp" 129 "Unexpected connectable type: %1%" 1;
  mkSite "src/iidm/Bus.cpp" 161 "Unexpected connectable type: %1%" 1;
  mkSite "src/iidm/BusBreakerVoltageLevel.cpp" 77 "Voltage level '%1%' has a bus/breaker topology, a bus connection should be specified instead of a node connection" 1;
  mkSite "src/iidm/BusBreakerVoltageLevel.cpp" 168 "Invalid bus id (expected: '%1%', actual: '%2%')" 2;
  mkSite "src/iidm/BusBreakerVoltageLevel.cpp" 202 "Switch '%1%' not found in the voltage level '%2%'" 2;
  mkSite "src/iidm/BusBreakerVoltageLevel.cpp" 228 "Invalid switch id (expected: '%1%', actual: '%2%')" 2;
  mkSite "src/iidm/BusBreakerVoltageLevel.cpp" 280 "Bus '%1%' not found in the voltage level '%2%'" 2;
  mkSite "src/iidm/BusBreakerVoltageLevel.cpp" 298 "Cannot remove all buses because there is still some switches" 0;
  mkSite "src/iidm/BusBreakerVoltageLevel.cpp" 303 "Cannot remove bus '%1%' due to connected equipments" 1;
  mkSite "src/iidm/BusBreakerVoltageLevel.cpp" 326 "Cannot remove bus '%1%' due to connectable equipments" 1;
  mkSite "src/iidm/BusBreakerVoltageLevel.cpp" 338 "Cannot remove bus '%1%' due to the connected switch '%2%'" 2;
  mkSite "src/iidm/BusBreakerVoltageLevel.cpp" 351 "Switch '%1%' not found in voltage level '%2%'" 2;
  mkSite "src/iidm/BusBreakerVoltageLevelTopology.cpp" 31 "%1%_%2%" 2;
  mkSite "src/iidm/BusBreakerVoltageLevelTopology.cpp" 32 "%1%_%2%" 2;
  mkSite "src/iidm/BusBreakerVoltageLevelTopology.cpp" 42 "Bus %1% not found in voltage level %2%" 2;
  mkSite "src/iidm/BusBreakerVoltageLevelTopology.cpp" 93 "Unexpected ConnectableType value: %1%" 1;
  mkSite "src/iidm/BusRef.cpp" 30 "%1% is not supported in resolve a BusRef" 1;
  mkSite "src/iidm/ConfiguredBus.cpp" 186 "Terminal %1% not found" 1;
  mkSite "src/iidm/Country.cpp" 276 "Unexpected %1% value: %2%" 2;
  mkSite "src/iidm/DanglingLineGeneration.cpp" 46 "DanglingLine.Generation already attached to %1%" 1;
  mkSite "src/iidm/Extension.cpp" 29 "Extension is already associated to the extendable %1%" 1;
  mkSite "src/iidm/ExtensionProviders.cpp" 50 "No provider found for extension '%1%'" 1;
  mkSite "src/iidm/ExtensionProviders.cpp" 81 "Path %1% does not exist" 1;
  mkSite "src/iidm/ExtensionProviders.cpp" 85 "Path %1% is not a directory" 1;
  mkSite "src/iidm/ExtensionProviders.cpp" 113 "Unable to load file %1%: %2%" 2;
  mkSite "src/iidm/ExtensionProviders.cpp" 125 "Unable to load file %1%: Extension %2% is already registered" 2;
  mkSite "src/iidm/ExtensionProviders.cpp" 127 "Extension %1% has been loaded from %2%" 2;
  mkSite "src/iidm/HalfLine.cpp" 68 "Half line '%1%': " 1;
  mkSite "src/iidm/HalfLine.cpp" 122 "TieLine.HalfLine already attached to %1%" 1;
  mkSite "src/iidm/HalfLineAdder.cpp" 27 "id is not set for half line %1%" 1;
  mkSite "src/iidm/HalfLineAdder.cpp" 30 "r is not set for half line %1%" 1;
  mkSite "src/iidm/HalfLineAdder.cpp" 33 "x is not set for half line %1%" 1;
  mkSite "src/iidm/HalfLineAdder.cpp" 36 "g1 is not set for half line %1%" 1;
  mkSite "src/iidm/HalfLineAdder.cpp" 39 "b1 is not set for half line %1%" 1;
  mkSite "src/iidm/HalfLineAdder.cpp" 42 "g2 is not set for half line %1%" 1;
  mkSite "src/iidm/HalfLineAdder.cpp" 45 "b2 is not set for half line %1%" 1;
  mkSite "src/iidm/HalfLineAdder.cpp" 57 "Unexpected half line number %1%" 1;
  mkSite "src/iidm/HalfLineAdder.cpp" 68 "TieLine.halfLine%1%" 1;
  mkSite "src/iidm/HvdcConverterStation.cpp" 36 "Impossible to remove this converter station (still attached to '%1%')" 1;
  mkSite "src/iidm/HvdcLineAdder.cpp" 44 "Side %1% converter station not set" 1;
  mkSite "src/iidm/HvdcLineAdder.cpp" 48 "Side %1% converter station %2% not found" 2;
  mkSite "src/iidm/IdBasedBusRef.cpp" 50 "%1% is not a bus or injection." 1;
  mkSite "src/iidm/IdBasedBusRef.cpp" 63 "Unexpected side: " 1;
  mkSite "src/iidm/IdBasedBusRef.cpp" 67 "%1% is not a branch." 1;
  mkSite "src/iidm/Identifiable.cpp" 60 "%1% already has an alias of type %2%" 2;
  mkSite "src/iidm/Identifiable.cpp" 105 "Alias type must not be empty" 0;
  mkSite "src/iidm/Network.cpp" 51 "Unable to open file '%1%' for reading" 1;
  mkSite "src/iidm/Network.cpp" 63 "Unable to open file '%1%' for writing" 1;
  mkSite "src/iidm/Network.cpp" 331 "Unable to find to the HVDC line for station '%1%'" 1;
  mkSite "src/iidm/NetworkIndex.cpp" 61 "Object (%1%) with alias '%2%' cannot be created because alias already refers to object (%3%) with ID '%4%'" 4;
  mkSite "src/iidm/NetworkIndex.cpp" 73 "Object (%1%) with alias '%2%' cannot be created because alias already refers to object (%3%) with ID '%4%'" 4;
  mkSite "src/iidm/NetworkIndex.cpp" 98 "Unable to find to the identifiable '%1%'" 1;
  mkSite "src/iidm/NetworkIndex.cpp" 179 "No alias '%1%' found in the network" 1;
  mkSite "src/iidm/NetworkIndex.cpp" 182 "Alias '%1%' does not correspond to object '%2%'" 2;
  mkSite "src/iidm/NodeBreakerVoltageLevel.cpp" 65 "An equipment (%1%) is already connected to the node %2% of voltage level %3%" 3;
  mkSite "src/iidm/NodeBreakerVoltageLevel.cpp" 81 "Voltage level %1% has a node/breaker topology, a node connection should be specified instead of a bus connection" 1;
  mkSite "src/iidm/NodeBreakerVoltageLevel.cpp" 239 "Switch '%1%' not found in the voltage level '%2%'" 2;
  mkSite "src/iidm/NodeBreakerVoltageLevel.cpp" 280 "Invalid switch id (expected: '%1%', actual: '%2%')" 2;
  mkSite "src/iidm/NodeBreakerVoltageLevel.cpp" 363 "Internal connection not found between %1% and %2%" 2;
  mkSite "src/iidm/NodeBreakerVoltageLevel.cpp" 375 "Switch '%1%' not found in voltage level '%2%'" 2;
  mkSite "src/iidm/NodeBreakerVoltageLevelBusNamingStrategy.cpp" 26 "%1%_%2%" 2;
  mkSite "src/iidm/NodeBreakerVoltageLevelBusNamingStrategy.cpp" 32 "%1%_%2%" 2;
  mkSite "src/iidm/NodeBreakerVoltageLevelTopology.cpp" 25 "Switch %1% not found" 1;
  mkSite "src/iidm/NodeBreakerVoltageLevelTopology.cpp" 145 "Bus %1% not found in voltage level %2%" 2;
  mkSite "src/iidm/NodeBreakerVoltageLevelTopology.cpp" 242 "Unexpected ConnectableType value: %1%" 1;
  mkSite "src/iidm/NodeBreakerVoltageLevelTopology.cpp" 298 "Update bus topology of voltage level %1%" 1;
  mkSite "src/iidm/NodeBreakerVoltageLevelTopology.cpp" 313 "Found buses %1%" 1;
  mkSite "src/iidm/ReactiveCapabilityCurveAdder.cpp" 71 "A point is already defined for active power %1%" 1;
  mkSite "src/iidm/ShuntCompensatorLinearModel.cpp" 27 "ShuntCompensatorLinearModel already attached to %1%" 1;
  mkSite "src/iidm/ShuntCompensatorLinearModel.cpp" 35 "the given count of sections in service (%1%) is strictly greater than the maximum sections count" 1;
  mkSite "src/iidm/ShuntCompensatorLinearModel.cpp" 46 "the given count of sections in service (%1%) is strictly greater than the maximum sections count" 1;
  mkSite "src/iidm/ShuntCompensatorNonLinearModel.cpp" 27 "Section already attached to " 0;
  mkSite "src/iidm/ShuntCompensatorNonLinearModel.cpp" 59 "ShuntCompensatorNonLinearModel already attached to %1%" 1;
  mkSite "src/iidm/Switch.cpp" 103 "retain status is not modifiable in a non node/breaker voltage level" 0;
  mkSite "src/iidm/ThreadLocalMultipleVariantContext.cpp" 25 "Variant index not set for current thread %1%" 1;
  mkSite "src/iidm/ThreeWindingsTransformer.cpp" 132 "Unexpected side value: %1%" 1;
  mkSite "src/iidm/ThreeWindingsTransformerAdder.cpp" 56 "RatedU0 is not set. Fixed to leg1 ratedU: %1%" 1;
  mkSite "src/iidm/ThreeWindingsTransformerLeg.cpp" 24 "limits%1%" 1;
  mkSite "src/iidm/ThreeWindingsTransformerLeg.cpp" 43 "%1% '%2%': " 2;
  mkSite "src/iidm/ThreeWindingsTransformerLeg.cpp" 195 "%1% leg%2%" 2;
  mkSite "src/iidm/ThreeWindingsTransformerLegAdder.cpp" 72 "voltage level '%1%' not found" 1;
  mkSite "src/iidm/ThreeWindingsTransformerLegAdder.cpp" 75 "voltage level shall belong to the substation '%1%'" 1;
  mkSite "src/iidm/ThreeWindingsTransformerLegAdder.cpp" 82 "3 windings transformer leg%1% in substation %2%: " 2;
  mkSite "src/iidm/TieLine.cpp" 56 "Unknown branch side %1%" 1;
  mkSite "src/iidm/TopologyLevel.cpp" 33 "No topology kind associated to topology level %1%" 1;
  mkSite "src/iidm/TopologyVisitor.cpp" 96 "Unexpected connectable type %1%" 1;
  mkSite "src/iidm/TwoWindingsTransformerAdder.cpp" 29 "the 2 windings of the transformer shall belong to the substation '%1%' ('%2%', '%3%')" 3;
  mkSite "src/iidm/ValidationUtils.cpp" 32 " (%1%)" 1;
  mkSite "src/iidm/ValidationUtils.cpp" 33 "invalid value (%1%) for %2%%3%" 3;
  mkSite "src/iidm/ValidationUtils.cpp" 38 "Invalid active limits [%1%, %2%]" 2;
  mkSite "src/iidm/ValidationUtils.cpp" 98 "Unexpected converter mode value: %1%" 1;
  mkSite "src/iidm/ValidationUtils.cpp" 156 "the maximum number of section (%1%) should be greater than 0" 1;
  mkSite "src/iidm/ValidationUtils.cpp" 169 "Unexpected load type value: %1%" 1;
  mkSite "src/iidm/ValidationUtils.cpp" 258 "Unexpected regulation mode value: %1%" 1;
  mkSite "src/iidm/ValidationUtils.cpp" 302 "Invalid rated S value: %1%" 1;
  mkSite "src/iidm/ValidationUtils.cpp" 310 "rated U%1% is invalid" 1;
  mkSite "src/iidm/ValidationUtils.cpp" 329 "bad target voltage %1%" 1;
  mkSite "src/iidm/ValidationUtils.cpp" 351 "the maximum number of section (%1%) should be greater than 0" 1;
  mkSite "src/iidm/ValidationUtils.cpp" 354 "the current number (%1%) of section should be lesser than the maximum number of section (%2%)" 2;
  mkSite "src/iidm/ValidationUtils.cpp" 379 "Unexpected regulation mode value: %1%" 1;
  mkSite "src/iidm/ValidationUtils.cpp" 385 "incorrect tap position %1% [%2%, %3%]" 3;
  mkSite "src/iidm/ValidationUtils.cpp" 395 "Unexpected value for target deadband of tap changer: %1%" 1;
  mkSite "src/iidm/ValidationUtils.cpp" 410 "Invalid voltage setpoint value (%1%) while voltage regulator is on" 1;
  mkSite "src/iidm/ValidationUtils.cpp" 420 "Invalid voltage setpoint value (%1%) while voltage regulator is on" 1;
  mkSite "src/iidm/ValidationUtils.cpp" 423 "Invalid reactive power setpoint (%1%) while voltage regulator is off" 1;
  mkSite "src/iidm/ValidationUtils.cpp" 435 "Inconsistent voltage limit range [%1%, %2%]" 2;
  mkSite "src/iidm/VariantManager.cpp" 103 "Target variant '%1%' already exists" 1;
  mkSite "src/iidm/VariantManager.cpp" 170 "Variant '%1%' not found" 1;
  mkSite "src/iidm/VoltageLevelAdder.cpp" 44 "Unexpected TopologyKind value: %1%" 1;
  mkSite "src/iidm/converter/ExportOptions.cpp" 85 "%1% is not an extension you have passed in the extensions list to export." 1;
  mkSite "src/iidm/converter/ExportOptions.cpp" 88 "The version of %1%'s XML serializer has already been set." 1;
  mkSite "src/iidm/converter/SimpleAnonymizer.cpp" 53 "Mapping not found for anonymized string '%1%'" 1;
  mkSite "src/iidm/converter/SimpleAnonymizer.cpp" 83 "Invalid line '%1%'" 1;
  mkSite "src/iidm/converter/xml/AbstractTransformerXml.hxx" 78 "Unknown element <%1%>" 1;
  mkSite "src/iidm/converter/xml/AbstractTransformerXml.hxx" 137 "Unexpected XML element <%1%>" 1;
  mkSite "src/iidm/converter/xml/AbstractVersionableExtensionXmlSerializer.cpp" 32 "The version %1% of the %2% extension is not supported." 2;
  mkSite "src/iidm/converter/xml/AbstractVersionableExtensionXmlSerializer.cpp" 40 "IIDM-XML version of network (%1%) is not supported by the %2% extension's XML serializer" 2;
  mkSite "src/iidm/converter/xml/AbstractVersionableExtensionXmlSerializer.cpp" 47 "IIDM-XML version of network (%1%) is not compatible with the %2% extension's namespace URI" 2;
  mkSite "src/iidm/converter/xml/AbstractVersionableExtensionXmlSerializer.cpp" 55 "IIDM-XML version of network (%1%) is not supported by the %2% extension's XML serializer" 2;
  mkSite "src/iidm/converter/xml/AbstractVersionableExtensionXmlSerializer.cpp" 58 "IIDM-XML version of network (%1%) is not compatible with the version %2% of the %3% extension" 3;
  mkSite "src/iidm/converter/xml/AbstractVersionableExtensionXmlSerializer.cpp" 69 "Namespace URI null for %1% extension's version %2%" 2;
  mkSite "src/iidm/converter/xml/DanglingLineXml.cpp" 93 "%1%.generation" 1;
  mkSite "src/iidm/converter/xml/ExtensionXmlSerializer.cpp" 28 "The version %1% of the %2% extension's XML serializer is not supported" 2;
  mkSite "src/iidm/converter/xml/IidmXmlUtil.cpp" 33 "%1% is %2% for IIDM-XML version %3%. %4%%5%" 5;
  mkSite "src/iidm/converter/xml/IidmXmlUtil.cpp" 41 "%1%.%2%" 2;
  mkSite "src/iidm/converter/xml/IidmXmlUtil.cpp" 52 "Unexpected behaviour: %1%" 1;
  mkSite "src/iidm/converter/xml/IidmXmlUtil.cpp" 57 "%1%.%2%" 2;
  mkSite "src/iidm/converter/xml/IidmXmlVersion.cpp" 83 "Namespace %1% is not supported. The namespace for IIDM XML version %2% is: %3%." 3;
  mkSite "src/iidm/converter/xml/IidmXmlVersion.cpp" 97 "http://www.%1%/schema/iidm/%2%" 2;
  mkSite "src/iidm/converter/xml/IidmXmlVersion.cpp" 105 "iidm_V%1%.xsd" 1;
  mkSite "src/iidm/converter/xml/IidmXmlVersion.cpp" 115 "Version %1% is not supported." 1;
  mkSite "src/iidm/converter/xml/NetworkXml.cpp" 50 "Extensions %1% not found!" 1;
  mkSite "src/iidm/converter/xml/NetworkXml.cpp" 155 "Extension namespace URI collision" 0;
  mkSite "src/iidm/converter/xml/NetworkXml.cpp" 159 "Extension namespace prefix collision" 0;
  mkSite "src/iidm/converter/xml/NetworkXml.cpp" 173 "Extension XML Serializer of %1% should not be null" 1;
  mkSite "src/iidm/converter/xml/NetworkXml.cpp" 234 "Unable to open file '%1%' for reading" 1;
  mkSite "src/iidm/converter/xml/NetworkXml.cpp" 267 "Unexpected element: %1%" 1;
  mkSite "src/iidm/converter/xml/NetworkXml.cpp" 343 "Unable to open file '%1%' for writing" 1;
  mkSite "src/iidm/converter/xml/ReactiveLimitsXml.cpp" 45 "Unexpected element <%1%>" 1;
  mkSite "src/iidm/converter/xml/ReactiveLimitsXml.cpp" 57 "Unknown XML element <%1%>" 1;
  mkSite "src/iidm/converter/xml/ReactiveLimitsXml.cpp" 91 "Unknown reactive limit kind" 0;
  mkSite "src/iidm/converter/xml/ShuntCompensatorXml.cpp" 103 "Unknown element name <%1%> in <%2%>" 2;
  mkSite "src/iidm/converter/xml/ShuntCompensatorXml.cpp" 108 "Unknown element name <%1%> in <%2%>" 2;
  mkSite "src/iidm/converter/xml/ShuntCompensatorXml.cpp" 151 "Unexpected shunt type %1% for shunt %2%" 2;
  mkSite "src/iidm/converter/xml/TerminalRefXml.cpp" 36 "Terminal reference identifiable not found: '%1%'" 1;
  mkSite "src/iidm/converter/xml/TerminalRefXml.cpp" 50 "Unexpected terminal reference identifiable instance: %1%" 1;
  mkSite "src/iidm/converter/xml/TerminalRefXml.cpp" 64 "Oups, terminal ref point to a filtered equipment %1%" 1;
  mkSite "src/iidm/converter/xml/TerminalRefXml.cpp" 69 "Terminal ref should not point to a busbar section (here %1%). Try to export in node-breaker or delete this terminal ref." 1;
  mkSite "src/iidm/converter/xml/TerminalRefXml.cpp" 79 "Oups, terminal ref point to a filtered equipment %1%" 1;
  mkSite "src/iidm/converter/xml/TerminalRefXml.cpp" 84 "Terminal ref should not point to a busbar section (here %1%). Try to export in node-breaker or delete this terminal ref." 1;
  mkSite "src/iidm/converter/xml/TerminalRefXml.cpp" 97 "Unexpected Connectable instance: %1%" 1;
  mkSite "src/iidm/converter/xml/TieLineXml.cpp" 27 "%1% of TieLine %2% is recalculated. Its imported value is not used (imported value = %3%; calculated value = %4%)" 4;
  mkSite "src/iidm/converter/xml/VoltageLevelXml.cpp" 68 "Unsupported element %1%" 1;
  mkSite "src/iidm/converter/xml/VoltageLevelXml.cpp" 106 "Unexpected element %1%" 1;
  mkSite "src/iidm/converter/xml/VoltageLevelXml.cpp" 308 "Unexpected TopologyLevel value: " 1;
  mkSite "src/iidm/extensions/LoadDetail.cpp" 43 "Unexpected extendable type: %1% (%2% expected)" 2;
  mkSite "src/iidm/extensions/LoadDetailAdder.cpp" 27 "Unexpected extendable type: %1% (%2% expected)" 2;
  mkSite "src/iidm/extensions/LoadDetailXmlSerializer.cpp" 33 "Unexpected extendable type: %1% (%2% expected)" 2;
  mkSite "src/iidm/extensions/SlackTerminal.cpp" 38 "Unexpected extendable type: %1% (%2% expected)" 2;
  mkSite "src/iidm/extensions/SlackTerminal.cpp" 46 "Unable to find a terminal in the bus %1%" 1;
  mkSite "src/iidm/extensions/SlackTerminal.cpp" 105 "Terminal given is not in the right VoltageLevel (%1% instead of %2%)" 2;
  mkSite "src/iidm/extensions/SlackTerminalAdder.cpp" 31 "Terminal given is not in the right VoltageLevel (%1% instead of %2%)" 2;
  mkSite "src/iidm/extensions/SlackTerminalAdder.cpp" 35 "Unexpected extendable type: %1% (%2% expected)" 2;
  mkSite "src/iidm/extensions/SlackTerminalXmlSerializer.cpp" 54 "Unexpected extendable type: %1% (%2% expected)" 2;
  mkSite "src/iidm/util/Networks.cpp" 24 "The voltage level %1% is not described in Node/Breaker topology" 1;
  mkSite "src/iidm/util/Networks.cpp" 47 "The voltage level %1% is not described in Node/Breaker topology" 1;
  mkSite "src/iidm/util/Substations.cpp" 26 "The substation %1% is still connected to another substation" 1;
  mkSite "src/iidm/util/VoltageLevels.cpp" 30 "The voltage level '%1%' cannot be removed because of a remaining %2%" 2;
  mkSite "src/iidm/util/VoltageLevels.cpp" 34 "The voltage level '%1%' cannot be removed because of a remaining HVDC line" 1;
  mkSite "src/logging/Level.cpp" 31 "Unexpected %1% value: %2%" 2;
  mkSite "src/network/LoadBarExt.cpp" 22 "Unexpected extendable type: %1% (%2% expected)" 2;
  mkSite "src/network/LoadFooExt.cpp" 22 "Unexpected extendable type: %1% (%2% expected)" 2;
  mkSite "src/stdcxx/DateTime.cpp" 35 "Unable to parse the date '%1%'" 1;
  mkSite "src/stdcxx/Properties.cpp" 49 "Property %1% does not exist" 1;
  mkSite "src/xml/XmlStreamReader.cpp" 28 "Unexpected node type: %1% (expected: %2%)" 2;
  mkSite "src/xml/XmlStreamReader.cpp" 105 "Attribute %1% does not exists" 1;
  mkSite "src/xml/XmlStreamReader.cpp" 136 "Unknown prefix %1%" 1;
  mkSite "src/xml/XmlStreamReader.cpp" 281 "An error occurred while reading <%1%>" 1;
  mkSite "src/xml/XmlStreamReader.cpp" 310 "Unexpected end of file: expecting %1%" 1;
  mkSite "src/xml/XmlStreamWriter.cpp" 60 "Failed to write attribute %1%" 1;
  mkSite "src/xml/XmlStreamWriter.cpp" 75 "Failed to write characters %1%" 1;
  mkSite "src/xml/XmlStreamWriter.cpp" 145 "Unable to get encoder for encoding %1%" 1;
  mkSite "src/xml/XmlStreamWriter.cpp" 170 "Unable to create xml writer" 0;
  mkSite "src/xml/XmlStreamWriter.cpp" 179 "Cannot set indentation" 0;
  mkSite "src/xml/XmlStreamWriter.cpp" 192 "Failed to write start element %1%" 1;
  mkSite "include/powsybl/iidm/BranchAdder.hxx" 47 "First voltage level '%1%' not found" 1;
  mkSite "include/powsybl/iidm/BranchAdder.hxx" 61 "Second voltage level '%1%' not found" 1;
  mkSite "include/powsybl/iidm/Enum.hxx" 28 "Unexpected %1% name: %2%" 2;
  mkSite "include/powsybl/iidm/Enum.hxx" 39 "Unexpected %1% value: %2%" 2;
  mkSite "include/powsybl/iidm/Extendable.hxx" 48 "Extension %1% not found" 1;
  mkSite "include/powsybl/iidm/Extension.hxx" 26 "Unexpected extendable type: %1% (%2% expected)" 2;
  mkSite "include/powsybl/iidm/Extension.hxx" 34 "Unexpected extendable type: %1% (%2% expected)" 2;
  mkSite "include/powsybl/iidm/IdentifiableAdder.hxx" 28 "%1% id is not set" 1;
  mkSite "include/powsybl/iidm/IdentifiableAdder.hxx" 41 "The network %1% already contains an object '%2%' with the id '%3%'" 3;
  mkSite "include/powsybl/iidm/LoadingLimitsAdder.hxx" 57 "#%1%" 1;
  mkSite "include/powsybl/iidm/LoadingLimitsAdder.hxx" 124 "%1%temporary limit should be greater than permanent limit" 1;
  mkSite "include/powsybl/iidm/LoadingLimitsAdder.hxx" 129 "%1%temporary limits should be in ascending value order" 1;
  mkSite "include/powsybl/iidm/LoadingLimitsAdder.hxx" 138 "2 temporary limits have the same name %1%" 1;
  mkSite "include/powsybl/iidm/NetworkIndex.hxx" 39 "Object '%1%' already exists (%2%)" 2;
  mkSite "include/powsybl/iidm/NetworkIndex.hxx" 59 "Unable to find to the identifiable '%1%'" 1;
  mkSite "include/powsybl/iidm/NetworkIndex.hxx" 64 "Identifiable '%1%' is not a %2%" 2;
  mkSite "include/powsybl/iidm/OperationalLimitsHolder.hxx" 31 "Unexpected class for operational limits of type %1%. Expected: %2%, actual: %3" 3;
  mkSite "include/powsybl/iidm/ReactiveLimitsHolder.hxx" 30 "Incorrect reactive limits type %1%, expected %2%" 2;
  mkSite "include/powsybl/iidm/ShuntCompensator.hxx" 26 "incorrect shunt compensator model type %1%, expected %2%" 2;
  mkSite "include/powsybl/iidm/VoltageLevel.hxx" 42 "The injection '%1%' is not connected to the voltage level '%2%'" 2;
  mkSite "include/powsybl/iidm/VoltageLevel.hxx" 48 "The branch '%1%' is not connected to the voltage level '%2%'" 2;
  mkSite "include/powsybl/iidm/VoltageLevel.hxx" 55 "The 3 windings transformer '%1%' is not connected to the voltage level '%2%'" 2;
  mkSite "include/powsybl/iidm/VoltageLevel.hxx" 58 "Unexpected ConnectableType value: %1%" 1;
  mkSite "include/powsybl/iidm/converter/xml/AbstractConnectableXml.hxx" 207 "Unexpected TopologyLevel value: " 1;
  mkSite "include/powsybl/iidm/converter/xml/AbstractIdentifiableXml.hxx" 61 "Unknown element name <%1%> in <%2%>" 2;
  mkSite "include/powsybl/iidm/converter/xml/ExtensionXmlSerializer.hxx" 29 "Unexpected extension type: %1% (%2% expected)" 2;
  mkSite "include/powsybl/math/UndirectedGraph.hxx" 90 "Edge %1% not found" 1;
  mkSite "include/powsybl/math/UndirectedGraph.hxx" 97 "Vertex %1% not found" 1;
  mkSite "include/powsybl/math/UndirectedGraph.hxx" 158 "Edge %1% is not connected to vertex %2%" 2;
  mkSite "include/powsybl/math/UndirectedGraph.hxx" 394 "An edge is connected to the vertex %1%" 1;
  mkSite "extensions/entsoe/src/EntsoeArea.cpp" 28 "Unexpected extendable type: %1% (%2% expected)" 2;
  mkSite "extensions/entsoe/src/EntsoeAreaAdder.cpp" 27 "code is undefined" 0;
  mkSite "extensions/entsoe/src/EntsoeAreaAdder.cpp" 32 "Unexpected extendable type: %1% (%2% expected)" 2;
  mkSite "extensions/entsoe/src/MergedXnode.cpp" 40 "Unexpected extendable type: %1% (%2% expected)" 2;
  mkSite "extensions/entsoe/src/MergedXnode.cpp" 46 "Invalid divider position: %1%" 1;
  mkSite "extensions/entsoe/src/MergedXnode.cpp" 53 "Power flow is invalid" 0;
  mkSite "extensions/entsoe/src/MergedXnodeAdder.cpp" 29 "Unexpected extendable type: %1% (%2% expected)" 2;
  mkSite "extensions/entsoe/src/Xnode.cpp" 28 "Unexpected extendable type: %1% (%2% expected)" 2;
  mkSite "extensions/entsoe/src/XnodeAdder.cpp" 32 "Unexpected extendable type: %1% (%2% expected)" 2;
  mkSite "extensions/iidm/src/ActivePowerControl.cpp" 35 "Unexpected extendable type: %1% (%2% or %3% expected)" 3;
  mkSite "extensions/iidm/src/ActivePowerControlAdder.cpp" 34 "Unexpected extendable type: %1% (%2% or %3% expected)" 3;
  mkSite "extensions/iidm/src/CoordinatedReactiveControl.cpp" 34 "Unexpected extendable type: %1% (%2% expected)" 2;
  mkSite "extensions/iidm/src/CoordinatedReactiveControl.cpp" 44 "qPercent value of generator %1% does not seem to be a valid percent: %2%" 2;
  mkSite "extensions/iidm/src/CoordinatedReactiveControlAdder.cpp" 29 "Unexpected extendable type: %1% (%2% expected)" 2;
  mkSite "extensions/iidm/src/DiscreteMeasurement.cpp" 119 "Value type is not BOOLEAN but is: %1%" 1;
  mkSite "extensions/iidm/src/DiscreteMeasurement.cpp" 126 "Value type is not INT but is: %1%" 1;
  mkSite "extensions/iidm/src/DiscreteMeasurement.cpp" 133 "Value type is not STRING but is: %1%" 1;
  mkSite "extensions/iidm/src/DiscreteMeasurementValidationUtil.cpp" 30 "There is already a discrete measurement with ID %1%" 1;
  mkSite "extensions/iidm/src/DiscreteMeasurementValidationUtil.cpp" 81 "Unsupported value type for discrete measurement: %1%" 1;
  mkSite "extensions/iidm/src/DiscreteMeasurements.cpp" 32 "Unexpected extendable type: %1% (%2% expected)" 2;
  mkSite "extensions/iidm/src/DiscreteMeasurementsAdder.cpp" 33 "Unexpected extendable type: %1% (%2% expected)" 2;
  mkSite "extensions/iidm/src/DiscreteMeasurementsXmlSerializer.cpp" 47 "Unexpected element: %1%" 1;
  mkSite "extensions/iidm/src/DiscreteMeasurementsXmlSerializer.cpp" 81 "Unsupported value type: %1%" 1;
  mkSite "extensions/iidm/src/DiscreteMeasurementsXmlSerializer.cpp" 88 "Unexpected element: %1%" 1;
  mkSite "extensions/iidm/src/DiscreteMeasurementsXmlSerializer.cpp" 123 "Unsupported serialization for value type: %1%" 1;
  mkSite "extensions/iidm/src/HvdcAngleDroopActivePowerControl.cpp" 32 "Unexpected extendable type: %1% (%2% expected)" 2;
  mkSite "extensions/iidm/src/HvdcAngleDroopActivePowerControlAdder.cpp" 29 "Unexpected extendable type: %1% (%2% expected)" 2;
  mkSite "extensions/iidm/src/HvdcAngleDroopActivePowerControlXmlSerializer.cpp" 33 "Unexpected extendable type: %1% (%2% expected)" 2;
  mkSite "extensions/iidm/src/HvdcOperatorActivePowerRange.cpp" 33 "Unexpected extendable type: %1% (%2% expected)" 2;
  mkSite "extensions/iidm/src/HvdcOperatorActivePowerRange.cpp" 40 "OPR from %1% to %2% must be greater than 0 (current value %3%)." 3;
  mkSite "extensions/iidm/src/HvdcOperatorActivePowerRangeAdder.cpp" 31 "Unexpected extendable type: %1% (%2% expected)" 2;
  mkSite "extensions/iidm/src/HvdcOperatorActivePowerRangeXmlSerializer.cpp" 34 "Unexpected extendable type: %1% (%2% expected)" 2;
  mkSite "extensions/iidm/src/MeasurementValidationUtil.cpp" 28 "There is already a measurement with ID %1%" 1;
  mkSite "extensions/iidm/src/Measurements.cpp" 36 "Unexpected extendable type: %1% (%2% expected)" 2;
  mkSite "extensions/iidm/src/MeasurementsAdder.cpp" 32 "Unexpected extendable type: %1% (%2% expected)" 2;
  mkSite "extensions/iidm/src/MeasurementsXmlSerializer.cpp" 41 "Unexpected extendable type: %1% (%2% expected)" 2;
  mkSite "extensions/iidm/src/MeasurementsXmlSerializer.cpp" 64 "Unexpected element: %1%" 1;
  mkSite "extensions/iidm/src/MeasurementsXmlSerializer.cpp" 69 "Unexpected element: %1%" 1;
  mkSite "extensions/iidm/src/RemoteReactivePowerControl.cpp" 32 "Unexpected extendable type: %1% (%2% expected)" 2;
  mkSite "extensions/iidm/src/RemoteReactivePowerControlAdder.cpp" 32 "Unexpected extendable type: %1% (%2% expected)" 2;
  mkSite "extensions/iidm/src/ThreeWindingsTransformerPhaseAngleClock.cpp" 36 "Unexpected extendable type: %1% (%2% expected)" 2;
  mkSite "extensions/iidm/src/ThreeWindingsTransformerPhaseAngleClock.cpp" 42 "Unexpected value for phaseAngleClock: %1%" 1;
  mkSite "extensions/iidm/src/ThreeWindingsTransformerPhaseAngleClockAdder.cpp" 27 "Undefined value for phaseAngleClockLeg2" 0;
  mkSite "extensions/iidm/src/ThreeWindingsTransformerPhaseAngleClockAdder.cpp" 30 "Undefined value for phaseAngleClockLeg3" 0;
  mkSite "extensions/iidm/src/ThreeWindingsTransformerPhaseAngleClockAdder.cpp" 35 "Unexpected extendable type: %1% (%2% expected)" 2;
  mkSite "extensions/iidm/src/TwoWindingsTransformerPhaseAngleClock.cpp" 33 "Unexpected extendable type: %1% (%2% expected)" 2;
  mkSite "extensions/iidm/src/TwoWindingsTransformerPhaseAngleClock.cpp" 39 "Unexpected value for phaseAngleClock: %1%" 1;
  mkSite "extensions/iidm/src/TwoWindingsTransformerPhaseAngleClockAdder.cpp" 27 "Undefined value for phaseAngleClock" 0;
  mkSite "extensions/iidm/src/TwoWindingsTransformerPhaseAngleClockAdder.cpp" 32 "Unexpected extendable type: %1% (%2% expected)" 2;
  mkSite "extensions/iidm/src/VoltagePerReactivePowerControl.cpp" 27 "Unexpected extendable type: %1% (%2% expected)" 2;
  mkSite "extensions/iidm/src/VoltagePerReactivePowerControl.cpp" 36 "Slope value of SVC %1% must be positive: %2%" 2;
  mkSite "extensions/iidm/src/VoltagePerReactivePowerControlAdder.cpp" 31 "Unexpected extendable type: %1% (%2% expected)" 2;
  mkSite "extensions/sld/src/BranchStatus.cpp" 47 "Unexpected extendable type: %1% (%2% expected)" 2;
  mkSite "extensions/sld/src/BranchStatusAdder.cpp" 33 "Unexpected extendable type: %1% (%2% expected)" 2;
  mkSite "extensions/sld/src/BusbarSectionPosition.cpp" 30 "Unexpected extendable type: %1% (%2% expected)" 2;
  mkSite "extensions/sld/src/BusbarSectionPositionAdder.cpp" 37 "Unexpected extendable type: %1% (%2% expected)" 2;
  mkSite "extensions/sld/src/BusbarSectionPositionXmlSerializer.cpp" 32 "Unexpected extendable type: %1% (%2% expected)" 2;
  mkSite "extensions/sld/src/ConnectablePosition.cpp" 80 "Unexpected extendable type: %1% (%2% expected)" 2;
  mkSite "extensions/sld/src/ConnectablePosition.cpp" 86 "invalid feeder" 0;
  mkSite "extensions/sld/src/ConnectablePosition.cpp" 89 "feeder and feeder 1|2|3 are exclusives" 0;
  mkSite "extensions/sld/src/ConnectablePosition.cpp" 102 "feeder 1|2|3 have to be set in the right order" 0;
  mkSite "extensions/sld/src/ConnectablePositionAdder.cpp" 63 "Unexpected extendable type: %1% (%2% expected)" 2;
  mkSite "extensions/sld/src/ConnectablePositionXmlSerializer.cpp" 32 "Unexpected extendable type: %1% (%2% expected)" 2;
  mkSite "extensions/sld/src/ConnectablePositionXmlSerializer.cpp" 50 "Unexpected element: %1%" 1
].

(** logger.level("...", ...) and logger.level(stdcxx::format("...", ...)). *)
Definition log_sites : list (level * passing * site) := [
  (LvDebug, Twice, mkSite "src/iidm/AbstractComponentsManager.cpp" 143 "%1% components computed in %2% ms" 2);
  (LvError, Direct, mkSite "src/iidm/ExtensionProviders.cpp" 110 "Symbol not found" 0);
  (LvInfo, Twice, mkSite "src/iidm/ExtensionProviders.cpp" 113 "Unable to load file %1%: %2%" 2);
  (LvDebug, Twice, mkSite "src/iidm/ExtensionProviders.cpp" 127 "Extension %1% has been loaded from %2%" 2);
  (LvTrace, Twice, mkSite "src/iidm/NodeBreakerVoltageLevelTopology.cpp" 298 "Update bus topology of voltage level %1%" 1);
  (LvTrace, Twice, mkSite "src/iidm/NodeBreakerVoltageLevelTopology.cpp" 313 "Found buses %1%" 1);
  (LvWarn, Direct, mkSite "src/iidm/PhaseTapChangerAdder.cpp" 91 "%1% both Ratio and Phase Tap Changer are defined" 1);
  (LvWarn, Direct, mkSite "src/iidm/RatioTapChangerAdder.cpp" 86 "%1% both Ratio and Phase Tap Changer are defined" 1);
  (LvInfo, Twice, mkSite "src/iidm/ThreeWindingsTransformerAdder.cpp" 56 "RatedU0 is not set. Fixed to leg1 ratedU: %1%" 1);
  (LvTrace, Direct, mkSite "src/iidm/VariantManager.cpp" 48 "Recycling variant array indexes %1%" 1);
  (LvTrace, Direct, mkSite "src/iidm/VariantManager.cpp" 54 "Overwriting variant array indexes %1%" 1);
  (LvDebug, Direct, mkSite "src/iidm/VariantManager.cpp" 89 "Creating variants %1%" 1);
  (LvTrace, Direct, mkSite "src/iidm/VariantManager.cpp" 127 "Extending variant array size to %1% (+%2%)" 2);
  (LvDebug, Direct, mkSite "src/iidm/VariantManager.cpp" 214 "Removing variant '%1%'" 1);
  (LvTrace, Direct, mkSite "src/iidm/VariantManager.cpp" 234 "Reducing variant array size to %1%" 1);
  (LvTrace, Direct, mkSite "src/iidm/VariantManager.cpp" 242 "Deleting variant array element at index %1%" 1);
  (LvWarn, Direct, mkSite "src/iidm/converter/xml/NetworkXml.cpp" 85 "No extension XML serializer for %1%" 1);
  (LvDebug, Direct, mkSite "src/iidm/converter/xml/NetworkXml.cpp" 279 "XIIDM import done in %1% ms" 1);
  (LvDebug, Direct, mkSite "src/iidm/converter/xml/NetworkXml.cpp" 350 "XIIDM export done in %1% ms" 1);
  (LvInfo, Twice, mkSite "src/iidm/converter/xml/TieLineXml.cpp" 27 "%1% of TieLine %2% is recalculated. Its imported value is not used (imported value = %3%; calculated value = %4%)" 4);
  (LvTrace, Direct, mkSite "src/iidm/util/Identifiables.cpp" 39 "Object '%1%' is not unique, rename to '%2%'" 2);
  (LvDebug, Twice, mkSite "include/powsybl/iidm/LoadingLimitsAdder.hxx" 124 "%1%temporary limit should be greater than permanent limit" 1);
  (LvDebug, Twice, mkSite "include/powsybl/iidm/LoadingLimitsAdder.hxx" 129 "%1%temporary limits should be in ascending value order" 1);
  (LvDebug, Twice, mkSite "extensions/iidm/src/CoordinatedReactiveControl.cpp" 44 "qPercent value of generator %1% does not seem to be a valid percent: %2%" 2);
  (LvWarn, Twice, mkSite "src/iidm/ValidationUtils.cpp" 28 "bad target voltage %1%" 1);
  (LvError, Twice, mkSite "src/iidm/converter/xml/IidmXmlUtil.cpp" 50 "%1% is %2% for IIDM-XML version %3%. %4%%5%" 5);
  (LvWarn, Twice, mkSite "src/iidm/converter/xml/NetworkXml.cpp" 57 "Extensions %1% not found!" 1)
].
