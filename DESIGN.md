# Formal model of powsybl-iidm4cpp in Rocq (Coq 8.16.1)

## Layout

* `rocq/theories/<Topic>.v` – the model (computable Gallina); every definition cites the C++ lines it models, and the head of the
  file lists what is simplified;
* `rocq/theories/<Topic>Spec.v` – the specification: what the English property talks about, stated without the helpers of the model;
* `rocq/theories/<Topic>Proofs.v` (and companions) – lemmas and invariants;
* `rocq/theories/<Topic>Props.v` – the property theorems `Cnn_…` only, `Print Assumptions` for each of them, and `Example`s that
  meet their hypotheses;
* `properties.jsonl` – the English properties (`tools/gen_properties.py`), `MANIFEST.json` – property -> theorems
  (`tools/gen_manifest.py`), `ASSUMPTIONS.md` – what `Print Assumptions` answers for each theorem (`tools/assumptions.py`);
* `seeded/LOG.jsonl` – the wrong programs tried on the theorems and the theorems that rejected them.

A theorem whose name ends in `_partial` proves a part of the property; `_refuted` means that the English claim is false of the faithful
model, with a witness. Where a property is refuted the partial theorems give the strongest condition found under which it holds.

## Conventions of the model

* **Result type** `result A := Ok a | Throw e | UB | OutOfFuel` (Base.v). A C++ exception is `Throw`; undefined behaviour (out-of-bounds
  `operator[]`, null or dangling dereference, invalidated iterator) is the distinct outcome `UB`. Stateful operations that can throw
  return the state too, so "a failing call changes nothing" is a theorem and not an artefact. `OutOfFuel` is the outcome of a fuelled
  recursion that is given too little fuel: each use comes with a theorem that excludes it (or gives the fuel that suffices).
* **Integers** `unsigned long`, `std::size_t` are `nat`, `long` is `Z`: no wrap around is modelled unless said otherwise.
* **Doubles** are `dbl := NaN | NInf | Fin q | PInf` (DblArith.v) with exact rationals: rounding and signed zero are not modelled there.
  Code which only compares doubles is modelled faithfully, since finite doubles are rationals. C41 uses Flocq's binary64 for
  the effect of rounding, C36 and C44 use the standard reals.
* **Object identity** (references, `shared_ptr`) is a key into a store; a destroyed object's key is absent from the store.
* **Containers**: `std::vector` = `list`, `std::set`/`std::map` = sorted lists when the order is observable and finite maps otherwise,
  `std::unordered_map` = finite map (the iteration order is not observable, or is a parameter).
* **std::sort** (unstable) is modelled by an arbitrary permutation sorted by the comparator when ties are observable.
* **Variants**: `Variants.v` models the manager and the arrays. The equipment models (`Equip.v`) hold one value per variant slot and are
  driven by the same operations (write, clone, remove, select); C08 is the theorem that relates arrays to one value per variant.

## Per property

| id | what is modelled | how it is proved |
|----|------------------|------------------|
| C01 | Graph.v: `UndirectedGraph` storage, vertex/edge vectors with holes, free lists | invariant + refinement to two finite maps, induction on operation lists |
| C02 | Graph.v: adjacency cache and its invalidations | cache-coherence invariant over all histories |
| C03 | GraphTraverse: `traverse` with fuel | soundness/completeness against inductive reachability; fuel bound; log of the visitor calls |
| C04 | GraphPaths: `findAllPaths` with fuel | soundness, completeness, NoDup, order, against an inductive simple-path predicate |
| C05 | GraphMore: `removeIsolatedVertices`, `removeAllVertices` | exact characterisation; second half refuted (null edge slots) |
| C06 | Components.v: `computeConnectedComponents`, the adjacency list built from the branches | DFS correctness, sort permutation, renumbering |
| C07-C10 | Variants.v: `VariantManager`, contexts, per-variant arrays | invariant over histories, refinement to a map variant -> values; atomicity refuted with witnesses |
| C11 | Variants.v: extend/reduce/allocate/delete of each kind of array | aligned-length invariant; `SlackTerminal` refuted |
| C12-C13 | NetIndex.v: `NetworkIndex` maps, aliases of `Identifiable` | refinement of every history to a set of named objects |
| C14 | NetIndex.v: move constructor of the index | ids kept; aliases refuted |
| C15-C18 | TapChanger.v, Equip.v: tap changers, adders, transformers | invariants; refutations with several variants and missing checks; exact partial conditions |
| C19, C49 | Setters.v: shunt models and counts | invariant; refuted with several variants; section setters always throw |
| C20 | Setters.v: setters and adders of generators, batteries, VSC/LCC stations, SVCs, HVDC lines, voltage levels, loads, dangling line generation, shunts | adders accept exactly the consistent values, setters keep them, in every variant and history |
| C21-C22 | Curve.v: reactive capability curves over `dbl` | case analysis, interpolation and Lipschitz lemmas |
| C23-C24 | Limits.v: limits adder, overload look-up | interval characterisation, refutations |
| C25 | Anonymizer.v: `SimpleAnonymizer` | injectivity of `getAlpha`, invariant on histories, CSV round trip |
| C26 | NetIndex.v: `getUniqueId` | pigeonhole termination, freshness, minimality |
| C27-C29 | Ranges.v: `TerminalFinder`, flattened ranges, `DistinctPredicate` | strict weak order, first maximum; equality with `concat`; second pass refuted |
| C30-C32 | NodeTopo.v: node-breaker voltage levels on top of Graph.v, bus caches, connect/disconnect | invariants over histories of whole voltage levels; cache refutations; NodeFreshProofs.v: the calls that leave no cache in the working variant |
| C33, C50, C51 | BusTopo.v: bus-breaker voltage levels, merged buses, terminals | invariants over histories; exact conditions, out-of-bounds and dangling witnesses; BusFresh*.v: the same for histories that change switches under cached merged buses, by a simulation with the level without caches |
| C34 | Hvdc.v: creation and removal of HVDC lines and stations with destroyed objects | invariants / refutations |
| C35 | Removal.v: `Substation::remove`, `VoltageLevel::remove`, `Connectable::remove`, with the buffer semantics of vector iterators | exact refusal; exact removal of an equipment (RemovalEq.v); complete removal for at most two voltage levels; refutations |
| C36 | Sv.v: complex arithmetic of `SV`, `LinkData` on the reals | field identities, uniqueness, involution |
| C37, C52 | Ext.v: the two maps of `Extendable`, the move constructor | invariant under functional naming, refutations otherwise |
| C38 | NetXml.v: writers and readers of whole networks, every equipment: objects, their typed fields, and their parts (limits, tap changers, reactive limits, regulating terminals, shunt models) | induction on the tree with a handler calculus (`eats`) over the event stream of Xml.v; what a version keeps is `degrade` in NetXmlSpec.v; the networks concerned are those of NetXmlShape.v (`net_valid`), stated without the tables of the converter |
| C39 | NetXml.v: versions, guards, namespaces | case analysis on versions; `net_supported` (when a throwing export succeeds), `readable`, `kept` in NetXmlSpec.v; concrete networks by the decision procedures of NetXmlDec.v |
| C40, C53 | NetXml.v: anonymization of the export, bus elements | mapping invariants, simulation under renaming; refutations |
| C41 | BusSum.v: `Bus::getP/getQ` parametric in the numbers | permutation invariance over exact numbers; Flocq witness for rounding |
| C42 | PropMap.v: properties map | history-based specification |
| C43 | Xml.v: `XmlStreamReader` over event streams | induction on trees; exact skipping condition; refutations |
| C44 | TieLine.v, TieBoundary.v: halves, sums, setters, boundaries | history-based specification, algebra on complex numbers |
| C45 | CompNet.v: components managers in a network mixing bus-breaker and node-breaker voltage levels, with variants | cache-coherence over whole histories; refutations |
| C46 | Threads.v: interleavings of manager operations, thread local index | isolation invariant; refutations |
| C47-C48 | Variants.v: move of the variant arrays, `forEachVariant` | proved with a condition; refuted otherwise |
| C54 | DoubleText.v: the texts of numbers (`%.17g`, `strtod`, `to_string`, `stoi`, ...) over Flocq's binary64 | error of the seventeen digits against half the distance to the neighbours; exact characterisation of the doubles that cannot be read |
| C55 | Traverse.v: `Terminal::traverse` in both kinds of voltage level over the graph model; the traverser is a function of what it is asked, the order of `TerminalSet` a parameter | induction on the terminals not yet traversed with the exact result of `UndirectedGraph::traverse` (C03); everything gone through by a call has its successors gone through when it returns; two refutations for bus/breaker levels |
| C56 | ExtXml.v: the extensions part of NetworkXml (filters, namespaces, missing serializers) and the 17 serializers of the library and of its extension libraries, over the document model of NetXml.v | each serializer: what it writes, its reader reads (under anonymization too); the events of a document with extensions are those without them, with the extensions inserted; the export condition by inversion; witnesses for what does not come back |
| C57 | NodeGroups.v: Networks::getEquivalentTerminal and getNodesByBus over the voltage levels of NodeTopo.v | the calls of the graph traversal (every edge from a visited vertex to one never entered is asked about: added to C03), induction on the list of nodes; bus of the equivalent terminal = bus of the node |
| C58 | Slack.v: SlackTerminal, its adder and TerminalFinder over the variant manager of Variants.v; the extensions are a list of arrays with the ids of their voltage levels | refinement: relation with a map (variant, voltage level) -> terminal kept by every step; the arrays of slack terminals are related to plain arrays so that the lemmas on cloneVariant of C08 apply; unused slots hold no terminal (needed by isEmpty); max_element with the comparator = first terminal of lowest rank |
| C59 | BusValues.v: getV, setV and findTerminal of CalculatedBus, getV and setV of MergedBus and ConfiguredBus, over the buses of NodeTopo.v and BusTopo.v; values of the working variant only | a traverser that stops at its first find ends in the same state as the one that keeps the first find and goes on (simulation of the two traversals); then the call log of C03 gives a nearest terminal, which lies in the electrical node of the bus; terminals of distinct buses are distinct |
| C60 | TopoExport.v: writeBusBreakerTopology, writeBusBranchTopology, writeNodeOrBus, getConnectableBus of nodes, getBus1/getBus2 of the bus-breaker view, readBusBreakerTopology, TerminalBuilder; the file is reduced to what it says of the topology of one level, no anonymization, no BusFilter with a set of buses | the export of a quiet state is a function of the graph and of the positions (the caches are complete, C57); the import is a fold that keeps an explicit description of the buses, switches and terminals built so far; joining the two descriptions gives the copy, and the merged-bus theorems of C33 its bus view |
| C61 | `EquipNet.v` (generators, shunt and static var compensators build their terminal before they enter the network, other injections after: two operations): levels of both kinds as node and bus tables with terminal addresses, equipments as lists of terminals; the adders of injections, busbar sections, branches and three-windings transformers step by step with `checkTerminal`, `attach`, `detach`, `Connectable::remove`. Invariant over all histories (terminals found on places are owned, addresses unique, bus lists without duplicates). Exact success condition and effect (`C61_create`), exact failures (`C61_fail`), ownership (`C61_owned`), removal and round trip for histories without trace (`_partial`), five refutations (ghost equipments). |
| C62 | `Measure.v`: both containers as lists of addressed records, the adders with their checks in order, setters, properties, removal by address, look up by id, getters of discrete values, and what the serializers write. `MeasureProofs.v`: invariant over all histories (addresses distinct, ids unique, sides, taps and tags consistent), exact effect of each call; the extension written is accepted by the `ext_ok` of C56 for careful histories, so C56 gives the round trip. Refuted: `add()` answers an earlier anonymous measurement; `setValid(true)`/`setValue(NaN)` unchecked, and the file is then refused; an empty text is refused by the reader; third side of a line; discrete adder without type reads an uninitialised member; an invalid discrete measurement without value is refused by `getValueType`. Not modelled: `getMeasurements(type)` is lazy and captures a reference to its argument (a range kept after the call with a temporary dangles); `cleanIfEmpty`. |
| C63 | `RegTerm.v` over `EquipNet.v`: several networks with numbers, references as (network, address), the adders and setters of generators, compensators and tap changers with their checks of the terminal, removal of equipments and of networks, `TerminalRefXml`. Invariants over all histories (holders exist, references of generators, compensators and phase tap changers are local); over right histories all references are live. Exact results, frame, XML; four refutations: removal leaves dangling references, ratio tap changer adder takes foreign terminals. Checks that do not look at the terminal are arguments. |
| C64 | Filter.v: BusFilter::create and test, the loops of the writers that ask it, over the networks of CompNet.v | the set of the filter is always empty; witness with two components; the tests of a filter that holds buses are stated apart (C64_kept, C64_kept_equipments_refuted) |
| C65 | CalcBusXml.v: the "bus" elements of nodeBreakerTopology (writeCalculatedBus, readCalculatedBus with its end task) over NodeTopo.v, NodeGroups.v and BusValues.v; the topology of the file as calls in any order (CalcBusXmlSpec.v) | induction on the calls (the topology built is a copy); the cache held at export time gives the elements; invariant of the end tasks on the values; witness for the bus-breaker buses |
| C66 | NetViews.v: the bus caches of the network per variant, the caches of the levels and the bus objects they own as numbered heap cells, invalidation, attach, silent switch changes, variants; the calculation of the buses is a parameter | invariant of every history (ownership, entries of the bus view cache) and of careful ones (the caches hold what would be calculated); general theorem and witness for the bus-breaker view |
| C67 | as C66; a reference is a heap cell and an id | each step keeps or destroys the cell; numbers are never used again |
| C68 | Visit.v: the dispatch of TopologyVisitor and of AbstractTerminalTopologyVisitor over a table of equipments, the terminals visited for configured, merged and calculated buses and for both kinds of levels (over BusTopo.v and NodeTopo.v); a visitor is any function on a state, it does not change the network | induction on the terminals; the invariants of C30, C31 and C33 give which terminals there are |
| C69 | ExtRegistry.v: registry, libraries and the mappings of their code (numbered handles), directories as lists of entries; the pattern and boost::dll are reduced to what they answer for each entry | invariant over histories (names are keys, mapping numbers below the counter), induction on the entries with the exact condition of success; general refutation (C69_dangling_refuted) |
| C70 | Enum.v: fromString and toString over any table; EnumTables.v: enumerators and tables of names of the 24 enumerations, transcribed by a script from the headers and the sources | the functions for any table without duplicate, the tables checked by computation in the kernel |
| C71 | BusRef.v: network = index (objects by class, aliases) and the bus-breaker and node-breaker levels of C30-C33; resolve, chooseBusByLevel, the views of terminals | composition of the results on the caches of the levels (C31, C33); induction over the terminals of a bus |
| C72 | ExtSetters.v: values of the attributes (shared or per variant), the checks, 28 setters, 11 adders, the check of feeders | the setter framework of C20 (Equip.v, SettersProofs.v) instantiated once for all the kinds; specification by the table of allowed values |
| C73 | Impedance.v: values shared or per variant, the checks, 45 setters, 9 adders, the adder of three windings transformers with its rated voltages, the initialisation order of Leg | the setter framework of C20 with a table of values demanded and kept; induction on the calls of the adder |
| C74 | LimitsHolder.v: the heap of limits objects, the ordered map of each holder, the three adders, setPermanentLimit, typed getters, Branch checks; the holder of reactive limits | invariant between the heap and the inductively defined limits in force; induction on the history |
| C75 | Options.v: parameters over the property map of PropMap.v, options records, calls | characterisation of the parameter loop, the split and the case-insensitive comparison; induction on the calls |
| C76 | Files.v: disk of documents and tables, writeXml, readXml over the writer and reader of NetXml.v, replace_extension | C38 and C40 round trips lifted to the disk; csv_path characterised against an inductive specification; counterexamples computed |
| C77 | DlBoundary.v: the four functions of the boundary, with the missing bus and undefined values, on SV and LinkData (Sv.v). | DlBoundaryProps.v: C77_state (the equations, unique), C77_load, C77_losses, C77_undefined, C77_half_line (by symmetry of the two-port), C77_joined, C77_unsplit_refuted. |
| C78 | VariantCode.v: the four functions of each of 29 classes as lists of statements (copies, resizes, clears, calls on parts), the vectors of each class from the headers, objects as trees of parts, and the manager over them | refinement of a specification where a variant id maps to its own list of objects (VariantCodeSpec.v); each class is checked to handle each of its vectors and parts exactly once in each function, and a run on an object is then related to the vectors of C08 one by one |
| C79 | Flows.v: set_p, set_q, term_i (getI), value_for_limit, the permanent and temporary checks and the overload functions, over the real numbers with undefined values | algebra from the three phase law stated in FlowsSpec.v; induction on the history for the powers |
| C80 | Messages.v: the parser of boost::format for %N% and %%, stdcxx::format, the three loggers, LoggerFactory; MsgSites.v: the texts of the sources (tools/gen_msgsites.py) | the formatter equals an inductive description of filled templates; the list of texts is checked by computation and lifted to all arguments; induction on the name for the lookup |
| C81 | Catalog.v: the class hierarchy, the adders and removals seen as index operations and attachment of terminals, the getters, counts and ranges, on the index of NetIndex.v | invariant between index, classes, terminals and levels kept by each call; then each lookup and range is characterised from it |
| C82 | NetXml.v (the writer of C38-C40) | each attribute written comes from the table of its class; the tables are checked for all classes and versions; structural induction over the network; a network with every attribute shows that no name of the format is superfluous; each position of the lists of values is compared with a column written apart (ColumnsSpec.v), for all classes, kinds of parts and versions, and the element of each object is followed through the document |
| C83 | ExtXml.v (the writer of C56) | tables compared position by position with the columns; the elements of each object followed through the document; the namespaces by induction over the names |
| C84 | NodeViews.v, on the voltage level of NodeTopo.v | simulation: a plan of what was built, kept beside the calls (NodeViewsSpec.v), describes the graph after every call (call_drawn), by induction over histories; every read is then computed from the plan |
| C85 | BusViews.v, on the voltage level of BusTopo.v | simulation: a plan of what was built, kept beside the calls (BusViewsSpec.v), describes the graph and both indexes after every call (call_weak, wired_weak), by induction over histories; held caches do not matter because a level without its caches behaves alike (BusViewsBlank.v); every read is then computed from the plan |
| C86 | NetList.v, over the levels of NodeTopo.v and BusTopo.v | by induction over the list of levels from the per-level theorems (C84, C85, C30, C33); ids of calculated and merged buses start with the id of their level, which is distinct |
| C87 | BusLists.v, over BusTopo.v and NodeTopo.v | C33 and C30 give the terminals of the bus, each once; filtering by class is filtering by the classes a getter is named after (case analysis), and those are disjoint |

## What is modelled and what is not

Modelled, function by function, in the files above: `math/UndirectedGraph`, `math/GraphUtil`, `iidm/VariantManager` and contexts,
`VariantArray`, `NetworkIndex`, `Identifiable` (aliases, properties), `Extendable`, the tap changers, shunt models, set point setters and adders
with their checks in `ValidationUtils`, reactive limits, loading limits, `TerminalFinder`, `stdcxx::range` flattening, `DistinctPredicate`, the
node-breaker and bus-breaker voltage levels with bus caches and terminals, components managers, HVDC lines and stations, substation and
voltage level removal, `SV`/`LinkData`, `Bus` sums, tie lines, the XML stream reader, the IIDM XML writer and reader with the serializers of extensions, the texts
of numbers, `Terminal::traverse`, `SimpleAnonymizer`.

Not modelled: the adders and setters of the attributes of extensions, serializers defined by users of the library, merging of networks, `NetworkFactory`s, logging, the text and
order of validation messages, libxml2 itself (well-formedness, escaping, encodings), file and stream errors, memory exhaustion, dynamic
loading of extension providers, geographical tags, fork-join of networks, time stamps (texts), `LoadFlow` computations.
Where a model leaves attributes out, the head of its file says which.

The correspondence between the C++ text and the Gallina model is by reading only: the sandbox cannot build the C++ code.

## Trusted base

* Coq 8.16.1's kernel (`coqc`; some `Example`s use `vm_compute`, hence the kernel's bytecode machine).
* The reading of the C++ code described above, in particular of the C++ standard library containers.
* `Print Assumptions`, per theorem: see `ASSUMPTIONS.md`. In short every theorem is closed under the global context except
  * `C36_*`, `C77_*`, the theorems of `C79` on real values, `C41_rounding_refuted`, `C44_boundaries`, `C54_double`, `C54_attribute`, `C54_subnormal_refuted`, `C54_text`, `C54_nearest`: `ClassicalDedekindReals.sig_forall_dec`, `ClassicalDedekindReals.sig_not_dec`,
    `Classical_Prop.classic`, `FunctionalExtensionality.functional_extensionality_dep` (axioms of the standard library's reals);
  * `C44_series_partial`, `C44_series_refuted`: `ClassicalDedekindReals.sig_forall_dec`,
    `FunctionalExtensionality.functional_extensionality_dep`.
* Loading the libraries also brings, in the environment but not in any theorem above, the opaque entries of the module types of
  `Coq.ssr.ssrunder` (`Under_rel.*`) and of `Coq.Reals.Rdefinitions` (`RbaseSymbolsImpl.*`, `RinvImpl.*`), which have definitions sealed
  by a signature.
* No axiom, `Admitted`, functor or module type is added; no kernel check is switched off.
