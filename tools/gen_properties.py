#!/usr/bin/env python3
"""Writes /verif/properties.jsonl.  The table below is the source of truth."""
import json, os
P = []
def p(id, title, statement, quantifier, why, anchors):
    P.append(dict(id=id, title=title, statement=statement, quantifier=quantifier,
                  why_tests_cant=why, anchors=anchors))

G = "include/powsybl/math/UndirectedGraph.hxx"
p("C01", "Graph handles are stable and counts are exact",
  "For every sequence of addVertex / addVertexIfNotPresent / addEdge / removeEdge / removeVertex / removeAllEdges / setVertexObject calls on an empty UndirectedGraph, each live vertex and edge keeps its number, endpoints and object until it is itself removed; a number returned by addVertex/addEdge designates nothing that is already live; getVertexCount, getEdgeCount, getEdges, getVertexExists report exactly the live items; and no call made with a live handle touches memory out of bounds.",
  "every finite history of graph operations, any number of vertices and edges",
  "indices are recycled through free lists, so the behaviour depends on the whole history of removals; tests replay a handful of histories",
  [G + ": addVertex, addVertexIfNotPresent, addEdge, removeEdge, removeVertex, cleanVertices, removeAllEdges, getVertexCount, getEdgeCount, getEdges, vertexExists"])
p("C02", "Edges incident to a vertex are always up to date",
  "After any history of graph operations, the cached adjacency list used by traverse, findAllPaths, removeIsolatedVertices and getAdjacentEdges lists for each vertex exactly the live edges incident to it (a self-loop twice); no operation ever sees an adjacency list computed for an earlier graph.",
  "every finite history of graph operations interleaved with queries",
  "a stale cache shows only after particular interleavings of queries and mutations",
  [G + ": getAdjacencyList, invalidateAdjacencyList, addVertex, addEdge, removeEdge, removeVertex"])
p("C03", "Graph traversal visits exactly what is reachable",
  "traverse(v, f) terminates, never indexes outside its arrays, and marks exactly v and the vertices reachable from v through edges on which the traverser answers CONTINUE; the traverser is only called on edges adjacent to a visited vertex.",
  "every graph reachable by any history, every start vertex, every pure traverser",
  "reachability is a statement about all graphs of all sizes including multi-edges, self-loops and holes left by removals",
  [G + ": traverse"])
p("C04", "findAllPaths returns exactly the simple paths",
  "findAllPaths(from, complete, cancel) returns exactly the edge sequences of the vertex-simple paths that start at from, use no cancelled edge, end at a vertex satisfying complete and have no earlier (non-start) vertex satisfying it; no edge sequence is returned twice and the result is ordered by length.",
  "every graph, start vertex and pair of pure predicates",
  "the set of simple paths grows exponentially; only an inductive argument covers soundness, completeness and absence of duplicates",
  [G + ": findAllPaths"])
p("C05", "Removing isolated vertices removes exactly those",
  "removeIsolatedVertices removes exactly the vertices that carry no object and have no incident edge, and changes nothing else; removeAllVertices succeeds if and only if the graph has no edge left.",
  "every graph reachable by any history",
  "removal while iterating, combined with trailing-slot trimming, depends on the pattern of holes",
  [G + ": removeIsolatedVertices, removeAllVertices, removeVertex, cleanVertices"])
p("C06", "Connected component numbering",
  "computeConnectedComponents assigns the same number to two vertices iff they are connected; the numbers are 0..k-1; component sizes are the exact cardinalities, sum to the number of vertices, and are non increasing with the number (component 0 is a largest one).",
  "every symmetric adjacency list of any size",
  "an equivalence/partition property over all graphs",
  ["src/math/GraphUtil.cpp: computeConnectedComponents", "src/iidm/AbstractComponentsManager.cpp: update, fillAdjacencyList"])
V = "src/iidm/VariantManager.cpp"
p("C07", "Variant bookkeeping is consistent for every history",
  "For every sequence of successful or failing cloneVariant / removeVariant / setWorkingVariant calls, distinct variants use distinct storage slots, every live variant's slot exists in every variant array, the initial variant is always present, and unused slots are exactly the slots below the array size that no variant uses.",
  "every history of variant operations",
  "slots are recycled and arrays shrink from the top; failures leave partial state; only particular histories expose a bad slot",
  [V + ": cloneVariant, removeVariant, setWorkingVariant, allowVariantMultiThreadAccess"])
p("C08", "Cloned variants are independent copies",
  "After cloneVariant(source, targets) every per-variant value read under a target equals the value under source at the time of cloning, every value under every other variant is unchanged, and a later write under one variant is never visible under another.",
  "every history of clone/remove/write operations on any number of per-variant attributes",
  "aliasing between slots depends on the history of reuse and shrinking",
  [V + ": cloneVariant", "src/iidm/Terminal.cpp: allocateVariantArrayElement, extendVariantArraySize", "src/iidm/Generator.cpp: extendVariantArraySize"])
p("C09", "Removing a variant affects only that variant",
  "removeVariant(id) removes id, leaves every value of every other variant unchanged, refuses to remove the initial variant, and leaves the working variant undefined iff it was the removed one.",
  "every history of variant operations",
  "array shrinking removes a suffix computed from the set of unused slots",
  [V + ": removeVariant"])
p("C10", "A failed cloneVariant leaves the variants unchanged",
  "If cloneVariant throws, the set of variant ids and every per-variant value are as before the call, and later operations remain memory safe.",
  "every history, every list of target ids (including duplicates and existing ids), both overwrite modes",
  "needs failure at each position of the target list followed by arbitrary later operations",
  [V + ": cloneVariant"])
p("C11", "Extensions' variant arrays stay aligned with the network's",
  "For every extension with per-variant state the array length equals the network's variant array size after any history of clone/remove, so reading it under any live variant is in bounds and returns the last value written under that variant (or inherited by cloning).",
  "every history of variant operations, every multi-variant extension",
  "the off-by-shrink only appears when the array is reduced by a number different from its final size",
  ["src/iidm/extensions/SlackTerminal.cpp: reduceVariantArraySize", "src/iidm/extensions/LoadDetail.cpp: reduceVariantArraySize", "extensions/iidm/src/*.cpp: reduceVariantArraySize"])
NI = "src/iidm/NetworkIndex.cpp"
p("C12", "Identifiers are unique and resolvable",
  "For every sequence of object creations, removals, alias additions and alias removals, no two live objects share an id, every live object is found by its id, no id or alias resolves to a removed object, and the per-type listings contain exactly the live objects of that type.",
  "every history of add/remove/alias operations",
  "the index is three mutually redundant maps updated separately by each operation",
  [NI + ": checkAndAdd, remove, addAlias, removeAlias, find, getAll", "include/powsybl/iidm/NetworkIndex.hxx"])
p("C13", "Aliases designate exactly one object and never shadow an id",
  "An accepted alias resolves to the object it was added to, a rejected one changes nothing; an alias never equals the id of another object and never designates two objects; removing an alias makes it unresolvable; a given alias type has at most one alias per object.",
  "every history of add/remove/alias operations, every alias string and type",
  "the shadowing needs an object to be created after the alias",
  ["src/iidm/Identifiable.cpp: addAlias, removeAlias, getAliasFromType, getAliasType", NI + ": addAlias, removeAlias, checkAndAdd"])
p("C14", "Moving a network preserves what it contains",
  "After moving a Network into another object, every id and alias resolves to the same object as before the move.",
  "every network content",
  "the loss shows only when the moved network has aliases",
  ["src/iidm/Network.cpp: Network(Network&&)", NI + ": NetworkIndex(Network&, NetworkIndex&&)"])
TC = "include/powsybl/iidm/TapChanger.hxx"
p("C15", "Tap position stays in the tap range in every variant",
  "For every history of setTapPosition / setLowTapPosition / variant operations, the tap position in every live variant lies in [lowTapPosition, highTapPosition], so getCurrentStep never throws, and setLowTapPosition never changes which step is current.",
  "every history of tap changer and variant operations",
  "lowTapPosition is shared between variants whereas tapPosition is per variant: needs a multi-variant history",
  [TC + ": setTapPosition, setLowTapPosition, getCurrentStep, getStep, getHighTapPosition"])
p("C16", "A regulating ratio tap changer is completely configured",
  "Whatever sequence of setters is applied to a ratio tap changer accepted by its adder, whenever it is regulating and has load tap changing capabilities, it has a positive target voltage, a non negative defined deadband and a regulation terminal; failing setters change nothing.",
  "every sequence of setter calls with every argument, in every variant",
  "each setter checks a different combination of old and new values",
  ["src/iidm/RatioTapChanger.cpp: setLoadTapChangingCapabilities, setRegulating, setTargetV, setRegulationTerminal", "src/iidm/ValidationUtils.cpp: checkRatioTapChangerRegulation", TC + ": setTargetDeadband, setRegulating"])
p("C17", "At most one tap changer of a transformer regulates",
  "A transformer never has more than one regulating tap changer (ratio or phase, on any leg), in any variant.",
  "every history of tap changer additions and setter calls in every variant",
  "the check exists only in the adders and only for the working variant",
  ["src/iidm/ValidationUtils.cpp: checkOnlyOneTapChangerRegulatingEnabled", "src/iidm/RatioTapChangerAdder.cpp: add", "src/iidm/PhaseTapChangerAdder.cpp: add", "src/iidm/TwoWindingsTransformer.cpp: getRegulatingTapChangerCount"])
p("C18", "A regulating phase tap changer is completely configured",
  "Whatever sequence of setters is applied to a phase tap changer accepted by its adder, whenever it is regulating its mode is not FIXED_TAP, its regulation value is defined, its deadband is defined and non negative and it has a regulation terminal.",
  "every sequence of setter calls with every argument",
  "each setter checks a different combination of old and new values",
  ["src/iidm/PhaseTapChanger.cpp: setRegulationMode, setRegulationTerminal, setRegulationValue", "src/iidm/ValidationUtils.cpp: checkPhaseTapChangerRegulation", TC + ": setRegulating, setTargetDeadband"])
p("C19", "Shunt section count never exceeds the maximum",
  "In every live variant the section count of a shunt compensator lies in [0, maximumSectionCount], so getB and getG (for the current section) never throw, after any history of setSectionCount / setMaximumSectionCount / variant operations.",
  "every history of shunt and variant operations",
  "maximumSectionCount is shared between variants whereas sectionCount is per variant",
  ["src/iidm/ShuntCompensator.cpp: setSectionCount", "src/iidm/ShuntCompensatorLinearModel.cpp: setMaximumSectionCount, getB, getG", "src/iidm/ShuntCompensatorNonLinearModel.cpp: getB, getG"])
p("C20", "Equipment setters keep the set points consistent",
  "For generators, batteries, VSC stations, static var compensators, dangling line generation, HVDC lines and voltage levels: every setter either throws and changes nothing or leaves a state the corresponding adder would accept, in every variant (voltage regulator on implies a positive target voltage; off implies a defined reactive target; minP <= maxP; low voltage limit <= high voltage limit; ...).",
  "every sequence of setter calls with every argument, in every variant",
  "the invariant relates several fields, each set separately; all orders and NaN combinations must be covered",
  ["src/iidm/Generator.cpp", "src/iidm/Battery.cpp", "src/iidm/VscConverterStation.cpp", "src/iidm/StaticVarCompensator.cpp", "src/iidm/DanglingLineGeneration.cpp", "src/iidm/HvdcLine.cpp", "src/iidm/VoltageLevel.cpp", "src/iidm/ValidationUtils.cpp"])
RC = "src/iidm/ReactiveCapabilityCurve.cpp"
p("C21", "Reactive capability curve interpolation",
  "For every curve accepted by the adder and every active power p, getMinQ(p) and getMaxQ(p) return the bound of the point with that p if there is one, the bound of the extreme point outside [getMinP, getMaxP], and otherwise the linear interpolation between the two neighbouring points; results lie between the bounds of the neighbours, are continuous in p, and if minQ <= maxQ at each point then getMinQ(p) <= getMaxQ(p) everywhere.",
  "every finite curve and every rational p (exact arithmetic)",
  "a statement on a continuum of p for every number of points",
  [RC + ": getMinQ, getMaxQ, getMinP, getMaxP", "src/iidm/ReactiveCapabilityCurveAdder.cpp: add, addPoint"])
p("C22", "Accepted reactive curves are well formed",
  "Every curve built by the adder has at least two points, pairwise distinct active powers, points in increasing order of p, and minQ <= maxQ at each point.",
  "every sequence of adder calls",
  "validity of a collection built by any sequence of calls",
  ["src/iidm/ReactiveCapabilityCurveAdder.cpp: add, addPoint, endPoint", "src/iidm/MinMaxReactiveLimitsAdder.cpp: add"])
LL = "include/powsybl/iidm/LoadingLimitsAdder.hxx"
p("C23", "Overload detection",
  "checkTemporaryLimits returns the temporary limit whose interval [previous limit, limit) contains the value and nothing iff the value is below the permanent limit (or undefined); getOverloadDuration is the acceptable duration of that limit and does not increase with the current; a branch is overloaded iff a permanent limit is exceeded.",
  "every set of limits accepted by the adder, every value",
  "interval covering and monotonicity over a continuum of values and any number of limits",
  ["src/iidm/util/LimitViolationUtils.cpp: checkPermanentLimit, checkTemporaryLimits", "src/iidm/Branch.cpp: getOverloadDuration, isOverloaded", "src/iidm/LoadingLimits.cpp"])
p("C24", "No temporary limit is lost or duplicated",
  "Every temporary limit ended successfully in the adder is present in the resulting limits, names are pairwise distinct after ensureNameUnicity, and limits are listed by decreasing acceptable duration.",
  "every sequence of adder calls",
  "collisions of names and durations over all sequences",
  [LL + ": endTemporaryLimit, addTemporaryLimit, checkAndGetUniqueName, checkTemporaryLimits"])
p("C25", "Anonymization is injective and reversible",
  "For every sequence of strings anonymized, distinct strings get distinct codes, the same string always gets the same code, and deanonymizing the code gives the string back; the mapping file written and read back gives the same mapping.",
  "every sequence of strings, any length (codes past Z, ZZ, ...)",
  "injectivity of the bijective base 26 numbering over all naturals",
  ["src/iidm/converter/SimpleAnonymizer.cpp: anonymizeString, deanonymizeString, getAlpha, read, write"])
p("C26", "Generated identifiers are fresh",
  "getUniqueId(base, contains) terminates and returns an identifier not contained, equal to base when base is not contained and otherwise base#k with the smallest k whose identifier is free.",
  "every base string and every finite set of existing ids",
  "termination and minimality over all finite sets",
  ["src/iidm/util/Identifiables.cpp: getUniqueId", "include/powsybl/iidm/IdentifiableAdder.hxx: checkAndGetUniqueId"])
p("C27", "TerminalFinder returns a best terminal",
  "find returns nothing iff the range is empty and otherwise the first terminal that no other terminal of the range outranks by the lexicographic rule list; ranking is a strict weak order.",
  "every finite range of terminals and every rule list",
  "max_element is only meaningful if the comparator is a strict weak order, a statement on all triples",
  ["src/iidm/util/TerminalFinder.cpp: getComparator, find, getDefaultRules"])
p("C28", "Flattened ranges enumerate everything once in order",
  "Iterating a flattened range of ranges yields exactly the concatenation of the inner ranges, for any mixture of empty and non-empty inner ranges; the iterator never dereferences an end position.",
  "every list of lists",
  "all patterns of empty inner ranges",
  ["include/powsybl/stdcxx/flattened.hpp: FlatteningIterator"])
p("C29", "Distinct ranges",
  "Iterating the transformers of a substation yields each transformer exactly once, for every substation, and iterating the same range object again gives the same elements.",
  "every assignment of transformers to voltage levels, any number of iterations",
  "the filter predicate is stateful; needs repeated iteration of one range",
  ["src/iidm/Substation.cpp: getTwoWindingsTransformers, getThreeWindingsTransformers", "src/iidm/util/DistinctPredicate.cpp"])
NB = "src/iidm/NodeBreakerVoltageLevel.cpp"
NBT = "src/iidm/NodeBreakerVoltageLevelTopology.cpp"
p("C30", "Calculated buses are the electrical nodes",
  "In a node-breaker voltage level two nodes belong to the same calculated bus (bus view / bus-breaker view) iff they are linked by closed switches (respectively closed non retained switches) and internal connections and the bus is valid; each node belongs to at most one bus; every terminal of the group belongs to that bus and only that bus; a group yields a bus iff it satisfies the documented validity condition on busbar sections, feeders and branches.",
  "every topology of every voltage level: any graph, any switch positions, any equipment placement",
  "partition property over all graphs",
  [NBT + ": updateCache, traverse, isBusValid, getConnectableBus", "src/iidm/CalculatedBus.cpp"])
p("C31", "Bus views always reflect the current topology",
  "After any history of topology changes (switch operations, switch/bus/internal connection additions and removals, terminal attach/detach, variant changes) interleaved with queries, the bus views answer as if computed from scratch on the current topology.",
  "every history of topology operations and queries, in every variant",
  "a missing cache invalidation needs the right interleaving of query, mutation and query",
  [NB + ": addSwitch, removeSwitch, addInternalConnection, removeInternalConnections, invalidateCache, attach, detach", "src/iidm/BusBreakerVoltageLevel.cpp: addBus, addSwitch, removeBus, removeSwitch, invalidateCache", "src/iidm/Switch.cpp: setOpen, setRetained", "src/iidm/NetworkViews.cpp: invalidateCache"])
p("C32", "connect and disconnect do what they say",
  "In a node-breaker voltage level, connect(terminal) returning true leaves the terminal linked to a busbar section by closed switches, and disconnect(terminal) returning true leaves it linked to none; both only operate breakers (connect closes, disconnect opens), and report false when they changed nothing useful.",
  "every topology, every switch state",
  "quantifies over all paths of all graphs",
  [NB + ": connect, disconnect, isConnected"])
BB = "src/iidm/BusBreakerVoltageLevel.cpp"
p("C33", "Merged buses are the electrical nodes of a bus-breaker voltage level",
  "Two configured buses belong to the same merged bus iff linked by closed switches and the group is valid; computing the merged buses is memory safe after any history of bus additions and removals.",
  "every history of bus/switch additions and removals and every switch state",
  "holes in the vertex numbering appear only after removals",
  ["src/iidm/BusBreakerVoltageLevelTopology.cpp: updateCache, traverse, isBusValid, createMergedBus", G + ": getVertexCount, getVertexCapacity"])
p("C34", "HVDC lines and converter stations reference each other",
  "After any history of creations and removals, each live HVDC line has two distinct live converter stations, each of which answers that line as its HVDC line; a station used by a line cannot be removed; removing a line frees its stations.",
  "every history of station and line creations and removals",
  "double attachment needs two lines sharing a station, then a removal",
  ["src/iidm/HvdcLine.cpp: attach, remove", "src/iidm/HvdcLineAdder.cpp: add", "src/iidm/HvdcConverterStation.cpp: remove"])
p("C35", "Removing a substation removes all of it and nothing else",
  "If a substation is removable, remove() removes every one of its voltage levels and the substation, is memory safe, and leaves all other substations untouched; if it is not removable nothing changes.",
  "every number of voltage levels and every network",
  "the erasing-while-iterating behaviour depends on the number of voltage levels",
  ["src/iidm/Substation.cpp: remove", "src/iidm/VoltageLevel.cpp: remove", "src/iidm/util/Substations.cpp: checkRemovability", "src/iidm/util/VoltageLevels.cpp: checkRemovability"])
p("C36", "State of the other side of a branch",
  "For a branch with non-zero series impedance and non-zero voltage, SV(side 1).otherSide(branch) satisfies the two-port equations of the branch, and applying otherSide twice gives the initial P, Q, U and angle back.",
  "all complex voltages, powers and branch parameters (exact real arithmetic)",
  "an algebraic identity over a continuum",
  ["src/iidm/util/SV.cpp: otherSide, voltageAtEnd1, voltageAtEnd2, flowAtEnd1, flowAtEnd2", "src/iidm/util/LinkData.cpp: calculateBranchAdmittance"])
p("C37", "Extensions are found by name and by type",
  "After any history of addExtension/removeExtension on an object, looking an extension up by name or by type gives the same object, the one last added, and no removed extension is reachable.",
  "every history of extension operations, any naming of extension types",
  "two redundant maps, one owning and one referencing",
  ["src/iidm/Extendable.cpp: addExtension", "include/powsybl/iidm/Extendable.hxx: findExtension, removeExtension"])
p("C38", "XML attributes survive a round trip",
  "For each optional attribute written with its writer method and read with its reader method, the value read equals the value written, for every value including NaN, default values and every IIDM version.",
  "every value of every optional attribute, every supported version",
  "default handling differs between the writer and the reader; all values must be considered",
  ["src/xml/XmlStreamWriter.cpp: writeAttribute, writeOptionalAttribute", "src/xml/XmlStreamReader.cpp: getOptionalAttributeValue", "include/powsybl/iidm/converter/xml/AbstractTransformerXml.hxx: writeTargetDeadband, readTargetDeadband"])
p("C39", "Version guards partition the supported versions",
  "IIDM versions are totally ordered; exactly one of runUntilMaximumVersion(v_k) and runFromMinimumVersion(v_{k+1}) runs for each context version; a non default value is never silently dropped when exporting to a version that does not support it.",
  "all pairs of supported versions, all values",
  "all combinations of version, guard and value",
  ["src/iidm/converter/xml/IidmXmlUtil.cpp", "src/iidm/converter/xml/IidmXmlVersion.cpp"])
p("C40", "Anonymized exports can be imported back and reveal no identifier",
  "Exporting a network with anonymization, then importing the result with the mapping gives back the original identifiers everywhere, and no original identifier occurs in the anonymized file.",
  "every network",
  "each reference written to XML must be anonymized and deanonymized consistently",
  ["src/iidm/converter/xml/HvdcLineXml.cpp", "src/iidm/converter/xml/VoltageLevelXml.cpp: writeBusBreakerTopology", "src/iidm/converter/SimpleAnonymizer.cpp"])
p("C41", "Bus injections are sums over connected terminals",
  "Bus P and Q equal the sum over the connected equipment of the documented types of the defined values, NaN iff none is defined, independently of the enumeration order.",
  "every multiset of terminals and values (exact arithmetic)",
  "order independence and NaN handling for any number of terminals",
  ["src/iidm/Bus.cpp: getP, getQ"])
p("C42", "Properties map",
  "setProperty/getProperty/removeProperty/hasProperty on an object behave as a finite map for every history; a removed or never set property reads as the default.",
  "every history of property operations",
  "functional-map refinement over all histories",
  ["src/stdcxx/Properties.cpp"])
p("C43", "Skipping XML sub-trees",
  "readUntilEndElement(name, handler) calls the handler once for each direct child and stops exactly at the matching end tag, for any nesting, including children that have the same name as their parent.",
  "every well formed XML element tree",
  "nesting of arbitrary depth",
  ["src/xml/XmlStreamReader.cpp: readUntilEndElement, readUntilNextElement"])
p("C44", "Tie line parameters combine the two halves",
  "A tie line's series impedance and shunt admittances are the sums of its halves' values for every parameters, and its setters always throw without changing anything.",
  "every pair of half lines",
  "identity over all parameters",
  ["src/iidm/TieLine.cpp"])
p("C45", "Network wide component lookup is current",
  "The connected component reported for a bus is the one computed on the current topology, after any history of switch operations, line removals, HVDC line additions and removals.",
  "every history of topology operations and component queries",
  "missing invalidation needs the right interleaving",
  ["src/iidm/AbstractComponentsManager.cpp: update, invalidate", "src/iidm/HvdcLineAdder.cpp: add", "src/iidm/HvdcLine.cpp: remove", "src/iidm/NetworkViews.cpp"])
p("C46", "Moving a variant context between threads",
  "With multi-threaded variant access, the working variant selected by a thread on one network is not affected by other threads, nor by selections made on another network.",
  "every interleaving of setWorkingVariant / getWorkingVariantId calls by any number of threads on any number of networks",
  "all interleavings",
  ["src/iidm/ThreadLocalMultipleVariantContext.cpp", "src/iidm/MultipleVariantContext.cpp", V + ": allowVariantMultiThreadAccess"])
p("C47", "Moving a network keeps its variants",
  "Moving a Network object (move construction) gives a network with the same variants and per-variant values, after any history of variant operations.",
  "every history of clone/remove operations followed by a move",
  "only histories that leave an unused slot make the per-variant storage contain holes",
  ["include/powsybl/iidm/VariantArray.hxx: VariantArray(owner, VariantArray&&)", "src/iidm/Network.cpp: Network(Network&&)"])
p("C48", "forEachVariant applies the function to every variant and restores the working variant",
  "forEachVariant(f) runs f once with each existing variant as working variant, and afterwards the working variant is the one from before the call, whether set or unset.",
  "every history of variant operations",
  "iteration over every possible set of variants; unset working variant after a removal",
  [V + ": forEachVariant", "src/iidm/VariantContextGuard.cpp"])
p("C49", "Sections of a non linear shunt model can be modified",
  "setB and setG of a section of a non linear shunt compensator model accept every defined value, in every reachable shunt compensator.",
  "every reachable shunt compensator, section and value",
  "a statement about all histories: whether any of them sets the reference the setters dereference",
  ["src/iidm/ShuntCompensatorNonLinearModel.cpp: Section::attach, Section::setB, Section::setG, attach", "include/powsybl/stdcxx/reference.hpp"])

p("C50", "A failed creation leaves no trace",
  "When the add() of an adder throws, the network is unchanged: the equipment is not in the network, and calling add() again with corrected attributes succeeds.",
  "every reachable network and every set of attributes",
  "tests check the exception, not the state left behind, and only for some of the invalid attributes",
  ["src/iidm/LoadAdder.cpp: add", "src/iidm/InjectionAdder.cpp: checkAndGetTerminal", "src/iidm/BusBreakerVoltageLevel.cpp: attach", "src/iidm/BusAdder.cpp: add", "src/iidm/SwitchAdder.cpp: add"])
p("C51", "Changing the connectable bus of a terminal",
  "In a bus-breaker voltage level, setConnectableBus moves the terminal to the given bus in the working variant and changes no other terminal and no other variant; the bus a terminal names lists the terminal.",
  "every reachable voltage level, terminal, bus and set of variants",
  "the loss shows only in another variant than the one of the call",
  ["src/iidm/BusTerminalViews.cpp: setConnectableBus", "src/iidm/BusBreakerVoltageLevel.cpp: attach, detach", "src/iidm/ConfiguredBus.cpp: addTerminal, removeTerminal", "src/iidm/BusTerminal.cpp: setConnectableBusId"])
p("C52", "Moving a network keeps its extensions",
  "Moving a Network object (move construction) gives a network with the same extensions, each attached to the new network.",
  "every history of extension additions and removals followed by a move",
  "no test moves a network that carries an extension; the property quantifies over all of them",
  ["src/iidm/Extendable.cpp: Extendable(Extendable&&)", "src/iidm/Extension.cpp: setExtendable", "src/iidm/Network.cpp: Network(Network&&)"])

p("C53", "Exported buses can be imported",
  "A network holding configured buses with properties and aliases is exported to a file that can be imported again, giving the same buses.",
  "every bus, every properties and aliases, every version",
  "existing tests have no bus with a property or an alias; the reader of a bus looks for the end of another element, so the effect depends on what follows it in the file",
  ["src/iidm/converter/xml/BusXml.cpp: readSubElements", "src/iidm/converter/xml/AbstractIdentifiableXml.hxx: read, write"])

p("C54", "Numbers survive the XML file",
  "A number written as an attribute by the XML export is read back by the import as the same number: doubles exactly (not only up to a rounding error), with infinities, the sign of zero and NaN (attribute left out), integers and booleans.",
  "every double, every int, long and unsigned long",
  "there are 2^64 doubles; that seventeen digits determine a double is a property of rounding, and the exceptions (results that strtod reports as out of range) are on values no test uses",
  ["include/powsybl/stdcxx/math.hpp: to_string", "src/xml/XmlStreamWriter.cpp: writeAttribute", "src/xml/XmlStreamReader.cpp: getAttributeValue, getOptionalAttributeValue"])

p("C55", "Topology traversal goes through what is within reach",
  "Terminal::traverse ends and asks the TopologyTraverser to go through exactly the terminals that can be reached from the start: through accepted switches and internal connections inside a voltage level, past accepted terminals, and from one terminal of a branch or three windings transformer to its others. No terminal is gone through twice, and the set does not depend on the addresses of the terminals.",
  "every network, every start, every (memoryless) answer of the traverser, every order of addresses",
  "the recursion alternates between depth-first search in a level and jumps between levels, with two sets shared by reference; which terminals are missed or repeated depends on how cycles of the network are entered",
  ["src/iidm/NodeBreakerVoltageLevel.cpp: traverse", "src/iidm/BusBreakerVoltageLevel.cpp: traverse", "src/iidm/VoltageLevel.cpp: addNextTerminals"])

p("C56", "Extensions survive the XML file",
  "Exporting a network with its extensions and importing the file gives the same network and, for each object, the same extensions: those asked for by the export and import options whose serializers are loaded, with equal content, and no other. An extension whose serializer is missing makes the export or import throw when the options say so; otherwise it is passed over. An export that succeeds can be imported.",
  "every network, every set of extensions of the library (17 kinds), every options, every set of loaded serializers on either side, anonymized or not",
  "seventeen serializers times six versions times the filters on both sides, in any combination on any number of objects, with names of objects and extensions that share a namespace",
  ["src/iidm/converter/xml/NetworkXml.cpp: writeExtensions, writeExtensionNamespaces, getExtensionsName, readExtensions", "src/iidm/extensions: *XmlSerializer.cpp", "extensions/entsoe/src, extensions/iidm/src, extensions/sld/src: *XmlSerializer.cpp"])

p("C57", "Nodes of a bus and equivalent terminals",
  "Networks::getNodesByBus gives, under the id of each bus of the bus view of a node/breaker voltage level, exactly the nodes of its electrical node, with or without equipment, and nothing else. Networks::getEquivalentTerminal gives a terminal met from a node through closed switches and internal connections without passing another terminal, and none exactly when there is none.",
  "every reachable voltage level, every node, every positions of the switches, every working variant",
  "the answers combine a graph search that stops at terminals with cached buses; whether a node is missed depends on the shape of the graph and on where the terminals are",
  ["src/iidm/util/Networks.cpp: getEquivalentTerminal, getNodesByBus", "include/powsybl/math/UndirectedGraph.hxx: traverse", "src/iidm/NodeBreakerVoltageLevelTopology.cpp: getBus"])

p("C58", "Slack terminals belong to one variant",
  "Setting, attaching or resetting the slack terminal of a voltage level (SlackTerminal::attach, reset, setTerminal) changes it in the working variant only; cloning a variant copies its slack terminals; the other variants and voltage levels keep theirs; after a reset the extension is present exactly when some variant has a slack terminal. attach chooses the first busbar section of the bus, else the first injection, else the first branch, else the first three-winding transformer.",
  "every history of variant operations and slack terminal operations, every number of variants and voltage levels, every bus",
  "the terminals live in arrays indexed by slots that are recycled, extended and trimmed; a test only sees some interleavings of clones, removals and resets",
  ["src/iidm/extensions/SlackTerminal.cpp", "src/iidm/extensions/SlackTerminalAdder.cpp", "src/iidm/util/TerminalFinder.cpp", "src/iidm/Extendable.cpp: addExtension"])

p("C59", "Voltages set on buses are the voltages read",
  "After setV(x) on a bus (also setAngle), getV answers x on it; the buses of the bus-breaker view inside a bus of the bus view answer the voltage set on it; the other buses answer what they answered before. The same holds for merged buses and the configured buses inside them. A negative voltage is refused by every bus and changes nothing.",
  "every reachable voltage level of both kinds, every bus of both views, every acceptable voltage, every state of the values",
  "the values are stored on the terminals (or on the configured buses) and a calculated bus reads one terminal found by a graph search when it has none; a test only sees some topologies",
  ["src/iidm/CalculatedBus.cpp", "src/iidm/MergedBus.cpp", "src/iidm/ConfiguredBus.cpp", "src/iidm/NodeTerminal.cpp"])

p("C60", "A voltage level exported at a coarser topology level and imported again is the same level, seen in that view",
  "Exporting a node-breaker voltage level at the BUS_BREAKER or BUS_BRANCH level and importing the result never throws, leaves the exported level unchanged, and gives a bus-breaker level that has one bus per bus of the corresponding view of the original, one switch per retained switch (bus-breaker level), with the same ids, ends and positions, in which every terminal is connected exactly when it had a bus in that view, and then to that bus, two buses being linked by closed switches exactly when their nodes were; an unconnected terminal gets the connectable bus of the original; the bus view of the level read has the buses of the bus view of the original; likewise for a bus-breaker level exported at the BUS_BRANCH level.",
  "for all topologies, switch positions, ids and equipments, after any sequence of edits and queries",
  "Tests compare a few small reference files; the agreement depends on the interplay of the lazily computed buses, the search for a connectable bus through the whole graph, the naming of the calculated buses and the checks of the adders, for graphs of any size.",
  ["src/iidm/converter/xml/VoltageLevelXml.cpp:160", "include/powsybl/iidm/converter/xml/AbstractConnectableXml.hxx:194", "src/iidm/NodeBreakerVoltageLevelTopology.cpp:157", "src/iidm/TerminalBuilder.cpp:25", "src/iidm/converter/xml/BusBreakerViewSwitchXml.cpp:46"])
p("C61", "Creating and removing equipments affects their own terminals only",
  "Creating a load, generator, line, transformer or any other equipment with terminals succeeds exactly when its id is new, the voltage levels exist (in the right substation for transformers), each side asks for a node of a node/breaker level or a bus of a bus/breaker level, and the nodes are free and distinct. The equipment then has its terminals attached at the places asked for and nothing else has changed. When the creation throws, the network is as before. Removing an equipment detaches its terminals, frees its id and changes nothing else; creating and removing gives the network back.",
  "for all networks reached by creations, failed or not, and removals of levels' contents, and all requests, with any number of nodes, buses and equipments",
  "tests create equipments on a handful of nodes and check one message per failing parameter; they do not look at the network after a failed creation nor remove equipments in all orders",
  ["src/iidm/LoadAdder.cpp:24", "src/iidm/LineAdder.cpp:26", "src/iidm/ThreeWindingsTransformerAdder.cpp:24", "src/iidm/NodeBreakerVoltageLevel.cpp:55", "src/iidm/NodeBreakerVoltageLevel.cpp:129", "src/iidm/BusBreakerVoltageLevel.cpp:60", "src/iidm/BusBreakerVoltageLevel.cpp:108", "src/iidm/Connectable.cpp:95", "src/iidm/TerminalBuilder.cpp:25"])

p("C62", "Measurements of an equipment stay consistent and are found by their id",
  "MeasurementAdder::add and DiscreteMeasurementAdder::add succeed exactly when the id is free, the type is given, the side or tap changer fits the equipment and a valid measurement has a value; the measurement added has what was given and is the one returned. In every history ids are unique, getMeasurement(id) finds the one, setters, putProperty, removeProperty and remove affect that measurement only, a valid measurement has a value, and getValueAsBoolean, getValueAsInt and getValueAsString answer the value for its type and throw otherwise. Such measurements come back equal from an export and import.",
  "all equipments, all adders, all histories of additions, removals and changes",
  "needs all interleavings of setters, additions and removals; tests check each call once with non-empty ids",
  ["extensions/iidm/src/MeasurementAdder.cpp:26-44", "extensions/iidm/src/Measurements.cpp:30-99", "extensions/iidm/src/Measurement.cpp:74-140", "extensions/iidm/src/MeasurementValidationUtil.cpp:26-45", "extensions/iidm/src/DiscreteMeasurementAdder.cpp:27-46", "extensions/iidm/src/DiscreteMeasurement.cpp:94-190", "extensions/iidm/src/DiscreteMeasurementValidationUtil.cpp:28-82"])
p("C63", "Regulated terminals exist and belong to the network",
  "A generator, a shunt compensator or a static var compensator regulates the terminal given to its adder or to setRegulatingTerminal, or its own terminal when none is given; a tap changer regulates the terminal it is given. A terminal of another network is refused and nothing changes. getRegulatingTerminal and getRegulationTerminal always return a terminal that exists, of an equipment of the same network, which changes only by calls on the equipment that regulates; written in an XML file by id and side it is read as the same terminal.",
  "all histories of networks being created and destroyed, of equipments being created and removed, of regulated terminals being set, in any number of networks",
  "The references are raw: whether one dangles depends on the whole history of both equipments, and tests only exercise the refusals they were written for.",
  ["src/iidm/GeneratorAdder.cpp:24-46", "src/iidm/Generator.cpp:157-165", "src/iidm/ShuntCompensatorAdder.cpp:23-43", "src/iidm/StaticVarCompensator.cpp:110-114", "src/iidm/ValidationUtils.cpp:249-344", "include/powsybl/iidm/TapChanger.hxx:184-191", "src/iidm/RatioTapChangerAdder.cpp:66-92", "src/iidm/Connectable.cpp:95-104", "src/iidm/converter/xml/TerminalRefXml.cpp:33-100"])
p("C64", "An export limited to the main component holds the main component",
  "With ExportOptions::setOnlyMainCc(true) the file holds exactly the buses, equipments, switches and HVDC lines of the main connected component; without it, everything.",
  "every network, every export option",
  "the component of a bus depends on the whole network; a test sees one network, most often with a single component",
  ["src/iidm/converter/BusFilter.cpp", "src/iidm/converter/xml/VoltageLevelXml.cpp", "src/iidm/converter/xml/NetworkXml.cpp", "src/iidm/converter/ExportOptions.cpp"])
p("C65", "The voltages of the buses survive the XML file",
  "Writing a node-breaker voltage level (version 1.1 or later) and reading it back gives the same terminals on the same nodes, the same connections, and the same V and angle on every bus of the bus view; the bus-breaker buses answer the same values too.",
  "every voltage level, every value of the terminals, every order of the elements",
  "the values are written per bus of the bus view, with its nodes, and put back through whichever node has a terminal; a test sees a few topologies",
  ["src/iidm/converter/xml/VoltageLevelXml.cpp", "src/iidm/util/Networks.cpp", "src/iidm/CalculatedBus.cpp", "src/iidm/NodeTerminal.cpp"])
p("C66", "The views of a network find a bus by its id",
  "network.getBusView().getBus(id) and network.getBusBreakerView().getBus(id) give the bus with this id in the current topology of the working variant, if there is one, and nothing otherwise; the bus given can be read.",
  "every history of queries, topology changes, creations and removals, in every variant",
  "the answers come from caches of the network that refer to buses owned by the caches of the levels; whether they are dropped together depends on the order of queries and changes",
  ["src/iidm/NetworkViews.cpp:30-44", "src/iidm/NetworkViews.cpp:88-102", "src/iidm/BusCache.cpp:26-35", "src/iidm/NetworkVariant.cpp:42-64", "src/iidm/NodeBreakerVoltageLevel.cpp:336-343", "src/iidm/BusBreakerVoltageLevel.cpp:283-289"])
p("C67", "A bus that was given lives until the topology of its level changes",
  "A calculated or merged bus given by a view stays valid, with the same contents, through every operation that does not change the topology of its voltage level in its variant; after such a change using it throws the exception \"Bus has been invalidated\".",
  "every history, every variant, every bus held by the user",
  "a use after free may go unnoticed in a test",
  ["src/iidm/CalculatedBus.cpp", "src/iidm/MergedBus.cpp", "src/iidm/NodeBreakerVoltageLevelTopology.cpp:199-206", "src/iidm/BusBreakerVoltageLevelTopology.cpp:60-68", "src/iidm/NodeBreakerVoltageLevel.cpp:129-144"])
p("C68", "A visitor sees every equipment of a bus or of a voltage level once",
  "Visiting the connected equipments of a bus, or its connected and connectable equipments, or the equipments of a voltage level, calls the visitor once for each terminal concerned and for no other, with the function of the kind of its equipment and the side of the terminal; a visitor of terminals receives those terminals; the network is not changed and what the visitor throws stops the visit.",
  "every reachable voltage level of both topologies, bus, visitor, table of equipments",
  "a terminal skipped, repeated or given with the wrong side shows only for some kinds of equipments and states of the switches",
  ["src/iidm/TopologyVisitor.cpp:41-102", "src/iidm/AbstractTerminalTopologyVisitor.cpp", "src/iidm/Bus.cpp:223-225", "src/iidm/ConfiguredBus.cpp:214-217", "src/iidm/MergedBus.cpp:185-190", "src/iidm/CalculatedBus.cpp:163-166", "src/iidm/VoltageLevel.cpp:270-272", "src/iidm/Branch.cpp:242-264", "src/iidm/ThreeWindingsTransformer.cpp:102-113"])
p("C69", "The registry of serializers keeps one usable serializer per extension",
  "Registering a serializer succeeds exactly when its extension has none, and then adds it and nothing else. loadExtensions throws exactly when an extension would get two serializers (or the path is not a directory); otherwise every extension of a new library of the directory gets the serializer of that library whatever the order of the entries, and loading again changes nothing. A serializer found under a name is for the extension of that name, is found for ever, and can be used until the end of the program, also after a call that threw.",
  "every history of registerExtension and loadExtensions, every directory, files that change between calls",
  "tests load one directory once; conflicts, orders of the directory and the unloading of a library after an exception are not exercised",
  ["src/iidm/ExtensionProviders.cpp:28-128", "include/powsybl/iidm/ExtensionProviders.hpp:26-64"])
p("C70", "The names of enumeration values are their identifiers and are read back",
  "For every enumeration of the library and of its extensions (24 of them), Enum::toString gives each enumerator its own text, which is its identifier, Enum::fromString reads that text back as that enumerator, refuses every other text, and toString refuses values that are no enumerators. Every country has its own name.",
  "every enumeration, every value of the underlying type, every text",
  "the tables of names are written apart from the enumerators; tests compare a few values with themselves, which a permuted table passes",
  ["include/powsybl/iidm/Enum.hxx:24-43", "src/iidm/Country.cpp:20-538", "src/iidm/HvdcConverterStation.cpp:53-59", "include/powsybl/iidm/HvdcConverterStation.hpp:25-28"])
p("C71", "A reference to a bus by id resolves to the bus the object is on",
  "Resolving an id (or an alias) at the bus breaker or bus branch level gives: nothing for an unknown id; for an injection, or a side of a branch, the bus its terminal is connected to at that level, or nothing when it is connected to none; for a configured bus, itself at the bus breaker level and the merged bus that contains it at the bus branch level. The node breaker level, a side on anything but a branch, and any other object without side are refused. Nothing but caches changes.",
  "every network, id, side and level, after any history of the voltage levels whose caches are up to date",
  "tests resolve a few ids of one network; a configured bus whose own terminals are all disconnected, or a terminal moved in another variant, is not among them",
  ["src/iidm/IdBasedBusRef.cpp:28-67", "src/iidm/BusRef.cpp:19-31", "src/iidm/BusTerminalViews.cpp:25-84", "src/iidm/NodeTerminalViews.cpp:23-65"])
p("C72", "The attributes of extensions are checked by their adders and setters",
  "The adder of an extension (HVDC angle droop, HVDC operator range, coordinated reactive control, voltage per reactive power control, phase angle clocks, merged Xnode, Xnode, active power control, busbar section position, load detail) succeeds exactly if no value without default is missing and every value is allowed, and the extension then has these values. Every extension holds allowed values at any time in every variant. A setter changes the value returned by its own getter and nothing else, or throws and changes nothing; a setter of a load detail changes the working variant only. The feeders of a position are a single one, or the first one, two or three of feeders 1 to 3.",
  "every extension kind, every argument (NaN and infinities included), every history of setters and of variant operations",
  "tests set a few values of each extension in one variant",
  ["extensions/iidm/src/HvdcAngleDroopActivePowerControl.cpp:23-85", "extensions/iidm/src/HvdcOperatorActivePowerRange.cpp:24-73", "extensions/iidm/src/VoltagePerReactivePowerControl.cpp:20-58", "extensions/entsoe/src/MergedXnode.cpp:23-147", "src/iidm/extensions/LoadDetail.cpp:23-116", "extensions/sld/src/ConnectablePosition.cpp:84-108"])
p("C73", "Characteristics of branches and state values are checked by their adders and setters",
  "The adder of a line, half line, two windings transformer, leg, dangling line or tap changer step succeeds exactly if every characteristic is given and is a number (the rated power may be left out, otherwise it is positive; g and b default to 0 on legs 2 and 3; a half line needs an id), and the object then has the values given. At any time and in every variant a branch holds such values, a bus voltage is undefined or not negative, and a shunt compensator or busbar section shows no active power. A setter changes the value of its own getter and nothing else, or throws and changes nothing; characteristics change in every variant, p0, q0, v, angle, p and q in the working variant only. The characteristics of a tie line and the flows of a busbar section cannot be set. The limits of min-max reactive limits are numbers in order. The star point voltage of a three windings transformer is the one set or that of leg 1.",
  "every kind of object, every argument (NaN and infinities included), every history of setters and of variant operations, every sequence of calls on the adder of three windings transformers",
  "tests try a few invalid values per class in one variant, and use each adder once",
  ["src/iidm/LineCharacteristics.cpp:21-77", "src/iidm/TwoWindingsTransformer.cpp:171-220", "src/iidm/ThreeWindingsTransformerLeg.cpp:23-178", "src/iidm/ThreeWindingsTransformerAdder.cpp:24-71", "src/iidm/DanglingLine.cpp:22-158", "src/iidm/ConfiguredBus.cpp:190-212", "src/iidm/Terminal.cpp:108-133", "include/powsybl/iidm/TapChangerStep.hxx:50-78"])
p("C74", "For each side and type the limits in force are the last ones added, with their present values",
  "After any history of adders and of setters of permanent limits, the getters of a branch side, leg or dangling line return, for each type (active power, apparent power, current), the limits of the last successful add for that side and type with the permanent limit last set on them, or nothing if there was no such add; they never throw. getOperationalLimits lists those present in the order of the types. A refused add leaves the limits in force. The overload checks of a branch use the limits in force of the side and type asked for and the value of that type; voltage limits are refused. The reactive limits of an equipment are always present, those of the last accepted add (at first from the lowest to the greatest double), and asking for the other kind throws. Limits obtained from an adder stay usable.",
  "every number of holders, every history of adds and setters of any length, every argument",
  "tests add limits once or twice on one side and read them back; stale references need a memory model",
  ["src/iidm/OperationalLimitsHolder.cpp:20-64", "include/powsybl/iidm/OperationalLimitsHolder.hxx:22-38", "src/iidm/Branch.cpp:44-329", "src/iidm/ReactiveLimitsHolder.cpp:17-35", "include/powsybl/iidm/ReactiveLimitsHolder.hxx:23-42", "src/iidm/CurrentLimitsAdder.cpp:21-25"])
p("C75", "Export and import options",
  "ExportOptions and ImportOptions built from properties hold, for every content of the properties, what each parameter asks for: a boolean is true exactly if the value under the first of its names present (or its default) is 'true' whatever the case; the topology level and the incompatibility behavior are the enumerator of that name, any other text being refused by an exception and nothing else; the extensions selected are the pieces of the text between commas and colons, or all extensions if the property is absent. Without properties the options are those of the default constructor and give the same XIIDM version. After any sequence of calls each option is the last one set, an extension is selected exactly if the list is empty or contains it, a version is accepted exactly for a selected extension that has none, never changes afterwards, and a refused call changes nothing. hasAtLeastOneExtension is true exactly if one of the given extensions is selected, for a non-empty list. Not true: that an empty text selects every extension, that spaces around names are ignored, that the version given for an extension that is not exported is ignored, that hasAtLeastOneExtension of no extension is false.",
  "for all properties (all histories of set, remove, clear), all options, all sequences of calls on them, all names",
  "the set of texts and call orders is unbounded; tests use a few well-formed parameters",
  ["src/iidm/converter/ExportOptions.cpp:39-195", "src/iidm/converter/ImportOptions.cpp:21-51", "src/iidm/converter/ConversionParameters.cpp:24-59", "src/iidm/converter/Parameter.cpp:20-62"])
p("C76", "Network files and their correspondence tables",
  "Network::writeXml(path) followed by Network::readXml(path) gives back the network, up to what the XIIDM version cannot carry: without anonymization if no correspondence table stands beside the file, with anonymization whatever was on the disk before if the identifiers have no semicolon and no line break. The table is the file in the same directory with the last extension replaced by csv. An export writes no other file, and without anonymization only the file asked for; it throws and touches nothing if the file cannot be opened. Not true: that an export can be read back whatever is on the disk (the table of an earlier anonymized export makes the import fail or read other identifiers), that files of the same name with other extensions are independent, that an export that throws leaves the previous file, that any file name can be used (extension csv).",
  "for all networks that NetXml can hold, all options and versions, all contents of the disk, all paths",
  "tests export once to a fresh file; the combinations of earlier files, options and names are unbounded",
  ["src/iidm/Network.cpp:48-70", "src/iidm/converter/xml/NetworkXml.cpp:202-282", "src/iidm/converter/xml/NetworkXml.cpp:284-346", "src/iidm/converter/SimpleAnonymizer.cpp:75-94"])
p("C77", "The boundary of a dangling line is the other end of its electrical model",
  "For every dangling line with a non-zero series impedance whose terminal has a P, a Q and a bus with a voltage above 0 and an angle, DanglingLine::getBoundary().getV(), getAngle(), getP() and getQ() are the voltage, the angle in (-180, 180] and the power entering the line at the far end in the one state that satisfies the equations of the line with half of its shunt admittance at each end. So if the boundary feeds a load p0 + j q0, getP() is -p0 and getQ() is -q0; the sum of the powers at the two ends is not negative when r and g are not; two dangling lines joined at their boundaries answer the same voltage and opposite powers, and a half of a tie line with the same parameters answers the same as the dangling line on either side. The four values are undefined together, exactly when one of the inputs is missing, the voltage is 0 or the impedance is 0.",
  "for all impedances, admittances, powers, voltages and angles",
  "A test computes one line with one state and compares decimals; the claim is an equation with a unique solution for a continuum of parameters.",
  ["src/iidm/DanglingLineBoundary.cpp:27-61", "src/iidm/Boundary.cpp:17-23", "src/iidm/util/SV.cpp:171-283"])
p("C78", "Every per-variant attribute of every class follows the variants",
  "For every network and every history of cloneVariant, removeVariant, setWorkingVariant, writes and creations of objects and parts, every attribute that has a value per variant, of every class (terminals, generators, loads, batteries, shunts, static var compensators, converter stations, HVDC lines, dangling lines and their generation, tap changers of two and three windings transformers, switches, configured buses, voltage levels, the network, LoadDetail extensions), reads as if every variant had its own complete copy of the network: a clone copies every attribute of every object and part, a removal or a write under one variant changes no attribute under another, and a part added while several variants exist has its value under all of them.",
  "for all networks (any number of objects, parts and extensions), all histories, all attributes",
  "A test clones variants of one kind of object and checks the attributes it knows; a forgotten vector in one of the four functions of one class only shows for that attribute, and only after the right sequence of clones and removals. The claim is that no vector of any class is forgotten, in any sequence.",
  ["src/iidm/VariantManager.cpp:42-129", "src/iidm/VariantManager.cpp:201-253", "src/iidm/Identifiable.cpp:75-97", "src/iidm/Connectable.cpp:22-51", "src/iidm/Terminal.cpp:33-55", "src/iidm/NodeTerminal.cpp:34-52", "src/iidm/BusTerminal.cpp:30-50", "src/iidm/ConfiguredBus.cpp:46-72", "src/iidm/ThreeWindingsTransformer.cpp:27-64", "include/powsybl/iidm/TapChanger.hxx:39-57", "include/powsybl/iidm/VariantArray.hxx:41-80"])
p("C79", "The current of a terminal and the overloads derived from it",
  "The active and reactive powers of a terminal are, in each variant, the last ones set there; a busbar section accepts none and a shunt compensator no active power. When they and the voltage are known, getI() is the current that the three phase law gives (apparent power in MVA = square root of 3 x voltage in kV x current in kA), so isOverloaded, checkPermanentLimit and getOverloadDuration compare the limits with the current that flows. checkPermanentLimit on apparent power compares the modulus of the complex power, and on active power does not depend on the direction of the flow.",
  "for all histories of setP, setQ, variant clones and removals; for all powers, voltages and limits",
  "The tests of getI use one voltage, chosen so that the formula of the code gives the number expected; they do not compare with the physical law. The overloads missed depend on real numbers, of which tests sample few.",
  ["src/iidm/Terminal.cpp:65-71", "src/iidm/Terminal.cpp:108-133", "src/iidm/Branch.cpp:232-240", "src/iidm/Branch.cpp:306-329", "src/iidm/util/LimitViolationUtils.cpp:20-45", "test/iidm/CurrentLimitsTest.cpp:338-340"])
p("C80", "Messages and loggers",
  "stdcxx::format replaces %1%, %2%, ... by its arguments whatever they contain, and each call in the code has as many arguments as its text asks for, so that it never throws. LoggerFactory::getLogger(name) gives the logger registered under the name or, failing that, under the nearest enclosing namespace, and otherwise one that discards everything. A message goes to that logger if it listens to the level, and enabling or disabling logs changes nothing else: no call of the API fails because of a logger.",
  "for all texts and arguments; for all registrations and names; for every formatting and logging call of the sources",
  "The tests run without a logger or with identifiers made of plain characters, and most of the texts belong to error paths that no test reaches.",
  ["include/powsybl/stdcxx/format.hxx:24-40", "include/powsybl/logging/Logger.hxx:19-52", "src/logging/LoggerFactory.cpp:16-51", "src/logging/ConsoleLogger.cpp:18-48", "src/iidm/IdBasedBusRef.cpp:63", "include/powsybl/iidm/OperationalLimitsHolder.hxx:31", "src/iidm/NodeBreakerVoltageLevelTopology.cpp:298", "include/powsybl/iidm/LoadingLimitsAdder.hxx:124"])
p("C81", "Typed lookups and collections agree",
  "For each kind X of object, getXs() of the network gives exactly the living objects that are X, each once, getXCount() is their number, and getX(name) gives the object with that id or alias if it is an X and throws otherwise. getConnectables<T>() of a voltage level gives exactly the equipments of type T that have a terminal in it, and getConnectable<T>(name) finds an equipment there exactly when it is among them. The transformers of a substation are those all terminals of which are in it. getSide(getTerminal(side)) is side, getSide refuses a foreign terminal, and getTerminal(voltage level) gives the terminal when exactly one is there. getCountries() gives the countries of the substations.",
  "for all networks built by any sequence of adders, aliases, removals and country changes; for all classes, names, levels and terminals",
  "A collection and a lookup by name are separate code paths over the class of the object; agreement for every class, alias and history of removals is not reached by examples on a fixed network.",
  ["src/iidm/Network.cpp:125-644", "include/powsybl/iidm/Network.hxx:28-70", "src/iidm/NetworkIndex.cpp:100-151", "include/powsybl/iidm/VoltageLevel.hxx:33-85", "src/iidm/Substation.cpp:60-102", "src/iidm/Branch.cpp:242-285", "src/iidm/ThreeWindingsTransformer.cpp:101-134"])
p("C82", "The names and values in the documents of each version",
  "A document written in a version of the format has only the elements and attributes that this version has, each inside the element where the version puts it; attributes that were renamed or added (set points of static var compensators, section counts and models of shunt compensators, rated powers, generation of dangling lines, power limits, aliases and their types, fictitious flags) appear exactly in their versions. Each name of the format is used by some network. Each object of a network exported without anonymization has an element, whose attributes and elements are the values of the object, each under its own name.",
  "for all networks, versions and export options",
  "A writer and a reader that agree on a wrong name pass each round trip test; tests compare with reference documents for a few networks and cannot exclude a foreign name in the others.",
  ["src/iidm/converter/xml/StaticVarCompensatorXml.cpp:37-88", "src/iidm/converter/xml/ShuntCompensatorXml.cpp:39-182", "src/iidm/converter/xml/IidmXmlUtil.cpp:44-156", "src/iidm/converter/xml/AbstractConnectableXml.hxx:42-202", "src/iidm/converter/xml/AbstractTransformerXml.hxx:44-265", "src/iidm/converter/xml/NetworkXml.cpp:284-346", "test/resources/V1_0"])
p("C83", "The names, namespaces and values of the extensions in the documents",
  "Each extension exported is in the element extension of its object, by its own name, and each of its values is under its own attribute (fixed and variable powers, indices, clocks, ranges, feeders, measurements with their properties, ...); its namespace is declared with the prefix and URI of the extension for the version of the document. Nothing else is under extension and no other namespace is declared. No two extensions share a prefix or a namespace, no two values of an extension share a name.",
  "for all networks, extensions of the 17 classes of the library, versions and export options",
  "A serializer whose reader and writer agree on a wrong name, or exchange two attributes, passes each round trip test; the reference documents of the tests have a few values each.",
  ["src/iidm/converter/xml/NetworkXml.cpp:61-200", "src/iidm/extensions/SlackTerminalXmlSerializer.cpp:29-70", "extensions/iidm/src/MeasurementsXmlSerializer.cpp:39-98", "extensions/iidm/src/DiscreteMeasurementsXmlSerializer.cpp:39-134", "extensions/iidm/src/HvdcOperatorActivePowerRangeXmlSerializer.cpp:32-46", "extensions/entsoe/src/MergedXnodeXmlSerializer.cpp:33-55", "extensions/sld/src/ConnectablePositionXmlSerializer.cpp:30-90"])
p("C84", "The views of a node/breaker voltage level show what was built",
  "After any history of additions and removals of switches, internal connections and terminals, variant operations and queries, the node/breaker view lists exactly the switches built, each with the two nodes given to its adder, exactly the internal connections built, the nodes in use (with the greatest of them as maximum node index) and for each node the terminal attached there; calls that threw changed nothing. The bus/breaker view lists exactly the switches that are retained in the working variant, throws for the others, and its buses at the ends of a switch are those of the nodes given. hasAttachedEquipment tells whether equipment is attached to a node.",
  "for all histories of calls made with a working variant set, all switches, nodes and variants",
  "Nodes and edges are recycled slots of a graph shared by all views and all variants; unit tests build one voltage level and read it, not the reads after arbitrary interleavings of additions and removals.",
  ["src/iidm/NodeBreakerVoltageLevelViews.cpp:24-324", "src/iidm/NodeBreakerVoltageLevel.cpp:228-328", "src/iidm/NodeBreakerVoltageLevelTopology.cpp:39-118"])
p("C85", "The bus/breaker view of a bus-breaker voltage level shows what was built",
  "After any history of additions and removals of buses, switches and terminals, variant operations and queries of merged buses, the bus/breaker view of a bus-breaker voltage level lists exactly the buses built and not removed, each once, and exactly the switches built and not removed, each once and counted; getBus and getSwitch find these and no others; getBus1 and getBus2 answer the two buses given to the adder of the switch, in that order, and throw for an unknown switch. A bus at an end of a switch cannot be removed: the call throws and the view is unchanged.",
  "for all histories of calls, switches changing while merged buses are cached included, in which merged buses are asked for only when they are numbered safely (C33), all buses, switches and variants",
  "Buses and switches live in recycled slots of a graph beside two indexes; unit tests read a voltage level built once, not the reads after arbitrary interleavings of additions, failed calls and removals.",
  ["src/iidm/BusBreakerVoltageLevelViews.cpp:27-104", "src/iidm/BusBreakerVoltageLevel.cpp:161-281", "src/iidm/BusBreakerVoltageLevel.cpp:299-368"])
p("C86", "The views of a network list what its voltage levels show",
  "Network::getBusBreakerView().getSwitches() lists exactly the switches its voltage levels show in their bus/breaker views (all the switches of a bus-breaker level; the switches retained in the working variant of a node-breaker level), each once, and getSwitchCount() is their number. getBuses() of the bus/breaker view and of the bus view lists exactly the buses that the topology of each level has in that view, each once, level by level in the order of getVoltageLevels(); reading them changes nothing but the caches of calculated buses. The buses of the bus view have distinct ids throughout the network.",
  "for all networks, all mixes of node-breaker and bus-breaker voltage levels, all histories of calls on each level (for buses: those of C31 and C33 for which cached buses are right, or any with nothing cached in the working variant), both views",
  "The listings concatenate lazily what levels of two kinds answer, with caches filled on the way; tests read a network of a few levels once, and cannot tell that ids never collide across levels.",
  ["src/iidm/NetworkViews.cpp:46-85", "src/iidm/NetworkViews.cpp:108-122"])
p("C87", "A bus lists the equipments connected to it",
  "Each getter of a bus (getBatteries, getDanglingLines, getGenerators, getLccConverterStations, getLines, getLoads, getShuntCompensators, getStaticVarCompensators, getThreeWindingsTransformers, getTwoWindingsTransformers, getVscConverterStations) lists exactly the equipments of that class with a terminal connected to the bus, tie lines being lines: once for each such terminal, so an injection once. Every equipment connected to the bus is listed by one getter and only one, except busbar sections, which none lists. Terminals disconnected from a configured bus and terminals whose equipment is gone are not listed. Reading the lists changes nothing.",
  "for all configured, merged and calculated buses, all histories of calls on their level, all classes of equipment and all getters",
  "The lists depend on the whole topology, the connections and the classes at run time; tests read the lists of a few buses with at most one equipment of each class.",
  ["src/iidm/Bus.cpp:36-91", "src/iidm/Bus.cpp:167-205", "include/powsybl/iidm/Terminal.hxx:19-28"])
out = os.path.join(os.path.dirname(os.path.dirname(os.path.abspath(__file__))), "properties.jsonl")
with open(out, "w") as f:
    for x in P: f.write(json.dumps(x) + "\n")
print(len(P), "properties")
