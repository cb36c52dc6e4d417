#!/usr/bin/env python3
"""Writes MANIFEST.json.  The theorem names are collected from the *Props.v files by their Cnn_ prefix;
the status and the note of each property are kept here."""
import glob, json, os, re
ROOT = os.path.dirname(os.path.dirname(os.path.abspath(__file__)))
STATUS = {
 "C01": ("proved", "refinement to two finite maps over every history; memory safety; stability; exact counts"),
 "C02": ("proved", "cache coherence over every history, self-loops counted twice"),
 "C03": ("proved", "exact reachability; log of the visitor calls"),
 "C04": ("proved", "soundness, completeness, NoDup and order, for every outcome of the unstable sort"),
 "C05": ("partial", "removeIsolatedVertices exact; 'removeAllVertices succeeds iff no edge' is refuted (null edge slots)"),
 "C06": ("proved", "totality, partition exactness, ordering and numbering for every outcome of the unstable sort; a three windings transformer links the buses of its connected legs pairwise (C06_three_windings)"),
 "C07": ("partial", "bookkeeping proved for every history with failing calls; slot existence proved when no multi-target clone fails, refuted otherwise"),
 "C08": ("proved", "refinement to one value list per variant id; clone calls with distinct targets that are new or overwritable, or one target"),
 "C09": ("proved", "removal exact in every safely reached state; refusal in every state"),
 "C10": ("partial", "refuted: a failing multi-target clone keeps earlier targets registered, later writes and removals are out of bounds; proved for one target; existing values kept"),
 "C11": ("partial", "proved for all kinds but SlackTerminal; refuted for SlackTerminal::reduceVariantArraySize"),
 "C12": ("proved", "refinement of every history to a plain set of named live objects; lookups and listings exact; no undefined behaviour"),
 "C13": ("proved", "acceptance, refusal (exact condition), no shadowing, removal, one alias per type, over every history"),
 "C14": ("partial", "ids and listings kept; refuted for aliases: the move constructor of NetworkIndex drops m_idByAlias"),
 "C15": ("partial", "range, current step and single-variant setLowTapPosition proved; refuted with several variants and with an unset working variant"),
 "C16": ("partial", "proved under conditions on setLoadTapChangingCapabilities and setRegulationTerminal; refuted without them; failing setters change nothing; deadband unconditional"),
 "C17": ("partial", "proved when setRegulating(true) finds no other regulating tap changer and adders run with one variant; refuted otherwise (no check in setRegulating)"),
 "C18": ("partial", "proved when setRegulating(true) is called on a configured tap changer; refuted otherwise (no check in setRegulating)"),
 "C19": ("partial", "range proved when setMaximumSectionCount suits the other variants; refuted otherwise (only the working variant is checked); section values of non linear models after any history"),
 "C20": ("partial", "adders accept exactly the consistent values, setters exact, for generators, batteries, VSC and LCC stations, SVCs, HVDC lines, voltage levels, loads and shunts; dangling line generation proved for finite limits, refuted for an infinite limit with the other undefined"),
 "C21": ("partial", "exact values at, outside and between points, total, Lipschitz, bounds in order for finite curves; refuted for infinite bounds: interpolation is undefined"),
 "C22": ("partial", "accepted curves have two or more points with distinct defined powers; order of the bounds refuted (check commented out in the adder)"),
 "C23": ("partial", "exact report for all limits, cover and antitone duration below the last limit; refuted above it: nothing is reported and the duration becomes unlimited"),
 "C24": ("partial", "names, order, exact contents proved; refuted: a second limit with the same duration is dropped although the call succeeds"),
 "C25": ("partial", "injective, stable and reversible for any sequence of strings of any length; file round trip for strings without separators; refuted with ';' and after reading an arbitrary mapping"),
 "C26": ("proved", "termination by pigeonhole over any finite set of names; freshness, minimality"),
 "C27": ("proved", "every rule list and every range; with the default rules too"),
 "C28": ("partial", "iteration is the concatenation and never undefined; refuted for comparing iterators: only the outer positions are compared"),
 "C29": ("partial", "first pass exact for every substation; refuted for later passes, shown to give the first element only"),
 "C30": ("proved", "exact groups, names and terminals in every state of every history asked without cache; getBuses exact (C30_buses, C30_uncached_buses)"),
 "C31": ("partial", "proved for node-breaker and bus-breaker (C33_merged_partial) histories that change switches while no cache is held, and memory safety for every node-breaker history; after any history, stale caches included, a call that moves a switch in the working variant (setOpen, setRetained, connect, disconnect), changes internal connections or terminals, and the clone of a variant, make the answers right again (C31_refreshed, C31_connect_refreshed, C31_clone_refreshed); refuted for removeSwitch, addSwitch, internal connections across variants, attach without working variant"),
 "C32": ("partial", "only breakers move, exact shortest route, disconnect proved; refuted: connect through an open load break switch, isConnected after disconnect, disconnect answering false after opening breakers"),
 "C33": ("partial", "groups, members, terminals, ids and memory safety proved for the histories that change switches while no merged bus is cached and keep the first vertex number below the vertex count (the exact condition); for the histories that also change switches while merged buses are cached, the same holds of every variant without cached merged buses, in particular after a switch moves or a terminal is connected or disconnected (C33_uncached_*, C33_refreshed); refuted: out-of-bounds read after removing the first bus, removeAllBuses destroying the buses and throwing, dangling bus in a cached merged bus"),
 "C50": ("partial", "exact effect of creating an injection on an existing bus of a bus-breaker voltage level, whatever the caches of merged buses hold; refuted: creation on an unknown bus throws and leaves the equipment in the network"),
 "C51": ("partial", "exact effect in every variant, and consistency of terminals and buses, whatever the caches of merged buses hold; refuted for the other variants: the terminal moves there too and loses its connectable bus id"),
 "C34": ("partial", "Hvdc.v models line and station creation and removal with destroyed objects as undefined behaviour. Refuted in general (C34_shared_station_refuted, C34_dangling_line_refuted, C34_same_station_refuted: HvdcLineAdder does not check that the stations are distinct and free). Proved: for histories that only connect free distinct stations the answers always agree and every operation has the specified effect; for all histories a station that answers a line cannot be removed and its answer never dangles. Aliases and variants are not in this model."),
 "C35": ("partial", "removal of one equipment, complete and nothing else (C35_equipment, C35_station); the check refuses exactly the substations linked to another and changes nothing; complete removal and nothing else for at most two node-breaker voltage levels without internal connections (buffer semantics of the vector iterators); refuted: three voltage levels or more read a destroyed object, the iterator is invalidated by one erase under the standard, bus-breaker voltage levels with an equipment, internal connections (throws half-way)"),
 "C36": ("proved", "exact real arithmetic (standard library reals and their axioms); the angle comes back exactly when it is in (-180, 180], up to whole turns otherwise; a zero voltage at the other side or a zero impedance gives a division by zero, stated as such"),
 "C37": ("partial", "proved when every extension type has its own name and the extensions are made for the object; memory safety proved whenever the name determines the type; refuted otherwise (dangling reference by type, first added found by type) and for a failing addition, which loses the previous extension"),
 "C52": ("partial", "an object without extensions can be moved; refuted otherwise: the move constructor always ends the program"),
 "C38": ("partial", "proved for whole networks with every equipment of the library (substations, both topologies, switches, two- and three-winding transformers with tap changers, shunts linear and not, reactive limits, current limits, regulating terminals, lines, tie lines, HVDC lines; fields as texts), every version and mode, up to what the version cannot carry, which is nothing for the objects of the network in 1.4 and 1.5; extensions are C56; export filters accept everything (C64)"),
 "C39": ("partial", "order, guards, namespaces and partition of the versions proved; an export that should throw does so exactly on what the version does not support by the rules of the writers, and what it then writes is read back; refuted: ten kinds of values dropped or altered silently by an export that should throw, and with the log-only mode a file that cannot be read"),
 "C40": ("partial", "successful anonymized exports are read back with their mapping file; the file depends only on which identifiers are equal (converter stations of HVDC lines, network identifier, properties and alias types excepted); refuted: station identifiers leak, networks with bus/breaker switches cannot be exported anonymized"),
 "C53": ("partial", "proved for buses without properties and aliases (C38_roundtrip); refuted otherwise, in general (any following element) and by a whole network in every version"),
 "C54": ("partial", "proved for every double that is not subnormal, infinities, signed zeros and NaN included, and for every int, long and unsigned long; refuted for every subnormal number: reading it throws (glibc); the words true, nan and inf are read in any case (C54_bool_words, C54_double_words)"),
 "C55": ("partial", "termination, soundness for every network; exactness when no switch of a bus/breaker level is accepted; exactly once in node/breaker networks; refuted in bus/breaker levels: only the first terminal of another bus is gone through, and terminals of the same bus can be gone through twice"),
 "C56": ("partial", "round trip, exact set of extensions that come back, and exact condition for the export to succeed, proved for every network, options and loaded serializers; refuted: extensions of the network itself are lost silently, the names of the lines of a merged node are lost, slack terminals cannot be exported before 1.3, and five kinds of contents that the library holds are exported but refused at import"),
 "C57": ("partial", "equivalent terminals exact after any history; nodes by bus exact for the histories that change switches while no cache is held (as C31); refuted otherwise: a node cut off by removeSwitch is still listed"),
 "C58": ("partial", "refinement of a per-variant map for every history where removeVariant does not trim the arrays to the wrong size; refuted otherwise (undefined behaviour), refuted for the adder (drops the other variants) and for the removal of the last variant with a slack terminal (empty extension stays)"),
 "C59": ("partial", "proved for every bus of the bus view (and every bus-breaker bus inside it, with or without equipment), every bus-breaker bus with equipment, every merged bus (also after any history when the working variant holds no cached merged buses: C59_uncached_merged); refuted for bus-breaker buses without equipment (the voltage is lost, the neighbour's is answered) and from the inside to the outside; a negative voltage is refused and changes nothing"),
 "C60": ("partial", "proved for the histories of C31, new ids and levels with at least one bus: import never throws, the level read is a copy of the view exported, its bus view has the electrical nodes that hold a branch; refuted without the conditions: a switch named like a bus, or a level whose terminals find no bus, makes a file that is refused; the bus view is not kept (a busbar section with loads only is a bus before and none after, a line alone the other way round); a bus-breaker bus without branch is exported without connectable bus and refused"),
 "C61": ("partial", "creation and removal of equipments with one, two and three terminals in networks with levels of both kinds: a creation succeeds exactly when its request is right, nodes free and distinct, with a working variant, and then adds the equipment and nothing else; a creation that throws changes nothing or leaves the equipment, and when is exact; in all histories terminals on nodes and buses belong to equipments of the network, and switches and internal connections have their ends in their level (C61_link_ends), kept by creations and removals of equipments (C61_links_kept); partial: removal and attachment are proved for histories where failed creations leave no trace, refuted otherwise (ghost equipment on an occupied node, whose removal detaches another equipment, which can then not be removed; injection without terminal; half attached line)"),
 "C62": ("partial", "measurements and discrete measurements in memory: what an adder accepts and adds is exact, ids are unique and found in all histories, setters, properties and removal change one measurement only, sides, types and tap changers fit the equipment, the getter of the type of the value answers it; measurements of careful histories come back from an export (with C56); partial: add() answers the new measurement only with an id or without earlier anonymous one (refuted otherwise), valid measurements have values only with careful setters (refuted otherwise, such a network cannot be read back); also refuted: a line may have a measurement of its third side, a discrete adder without type is undefined, a discrete measurement without value cannot be added"),
 "C63": ("partial", "regulated terminals in any number of networks: what the adders and setters accept and store is exact (C63_create, C63_set, C63_tap_add, C63_tap_set), references change by calls on their holder only, generators, compensators and phase tap changers refer to terminals of their own network in every history, terminals survive the XML file; partial: that references never dangle is proved for histories that remove no equipment others refer to, and give ratio tap changers no terminal of another network; both are refuted otherwise (C63_dangling_refuted: removal leaves dangling references; C63_foreign_refuted, C63_xml_refuted, C63_network_refuted: the adder of ratio tap changers takes a terminal of another network)"),
 "C64": ("partial", "proved without the option: everything is written; refuted with it: the filter is never filled, so buses and equipments outside of the main component are written; of a filter that would hold buses: its tests of buses and switches are right (C64_kept), its test of equipments is the wrong way round (C64_kept_equipments_refuted)"),
 "C65": ("partial", "proved for every voltage level reached without stale caches (as C31), every value and every order of the elements: the topology read is the one written, every bus of the bus view answers the same V and angle, the bus-breaker buses inside it answer these values; elements without bus are skipped, negative voltages refused; refuted: values of bus-breaker buses that differ from those of the bus view, or outside it, are lost"),
 "C66": ("partial", "proved for every history: the bus view never gives a dangling bus and, when switches change without held cache (as C31), gives exactly the bus of the current topology; configured buses are found; the bus-breaker view is right as long as no topology changes after a search; refuted: after a change it gives a destroyed bus (BusBreakerView::invalidateCache resets the cache of the bus view)"),
 "C67": ("partial", "proved for every history: a bus given is the bus of a level in the working variant, stays valid with the same contents until its level changes in its variant or the variant is overwritten or removed, and is then destroyed for good; what fails: using it then is undefined behaviour, not an exception"),
 "C68": ("partial", "proved for any visitor: lists of terminals, visitors of terminals, configured buses and whole levels; merged and calculated buses in the histories for which their caches are right (C31, C33), or after any history when the working variant holds no cache (C68_uncached_*); what fails: a calculated bus does not visit the equipments that are only connectable to it (C68_connectable_refuted), a configured bus does"),
 "C69": ("partial", "registration, success and effect of a load, independence of the order, idempotence and persistence proved for every history; use proved when no load met a conflict; refuted otherwise, in general: after a conflict in the middle of a library the serializers already registered stay while their code is unloaded, and even the end of the program is undefined behaviour"),
 "C70": ("partial", "bijection between enumerators and texts proved for all the enumerations; texts are the identifiers for all but HvdcConverterStation::HvdcType, whose two names are exchanged (refuted); names of countries distinct"),
 "C71": ("partial", "proved for the histories of C31 and C33; refuted for a configured bus of the bus view without connected terminal of its own (resolves to nothing), and for a terminal whose connectable bus was changed in another variant (throws)"),
 "C72": ("proved", ""),
 "C73": ("partial", "False of the code in three places: the setters of tap changer steps accept what the step adder refuses (C73_step_refuted); an adder of three windings transformers used a second time keeps the star point voltage of the first use (C73_ratedU0_refuted; C73_ratedU0_partial is the first use); the text given to the limits holder of a leg is made of the number of the leg before it is initialised (C73_leg_attribute_refuted)."),
 "C74": ("partial", "The last sentence is false: adding limits of the same type on the same side deletes the previous ones, so that references to them dangle (C74_dangling_refuted); C74_permanent says exactly when, and C74_proper that histories using only limits in force meet no undefined behaviour."),
 "C75": ("partial", "The four claims that do not hold are refuted: C75_empty_list_refuted, C75_spaces_refuted, C75_ignored_refuted, C75_has_one_refuted. readDoubleParameter is not modelled (no parameter is a double); case is compared as in the classic locale."),
 "C76": ("partial", "The claims that do not hold are refuted: C76_stale_refuted, C76_renamed_refuted, C76_shared_refuted, C76_failed_refuted, C76_self_refuted. Documents without extensions; the content of an interrupted file is not described, only that it cannot be read."),
 "C77": ("proved", "In exact real arithmetic, like C36: an undefined value is None and rounding is not modelled. C77_unsplit_refuted: SV::otherSide(danglingLine) without its second argument puts all the admittance at the terminal and answers another voltage than the boundary."),
 "C78": ("proved", "Parts are added but not removed or replaced. cloneVariant calls as in C08 (at most one target, or distinct targets that are new or may be overwritten). C78_slack_refuted: with a SlackTerminal extension the claim is false (see C11)."),
 "C79": ("partial", "The current is wrong: getI multiplies by the voltage where it should divide (C79_current_refuted: 160 A answered for 1000 A at 400 kV). C79_current_partial: the answer is the current times the square of the voltage in MV, right at 1000 kV or without current only; C79_overload_partial, C79_missed_refuted, C79_invented_refuted, C79_duration_refuted: what isOverloaded and getOverloadDuration then report. C79_shunt_refuted: the current of a shunt compensator is never defined. C79_direction_refuted: a limit on the active power is never reached by a negative flow. The histories of the powers, the definedness of the current and the apparent power are proved in full."),
 "C80": ("partial", "C80_sites_refuted: four calls have a text that does not fit their arguments and throw an exception of boost::format instead of theirs. C80_log_refuted: where the text is formatted before it is given to the logger it is formatted twice, and a % in an identifier makes the call throw only when the level is listened to. The lookup, the registration, the records, the other 287 formatting calls and the logging calls with arguments without % are proved. The directives of boost::format other than %N% and %% are not modelled; no text of the code uses one."),
 "C81": ("partial", "Proved: the collections, counts and lookups of the network for its 19 getters, the connectables of network and levels, the transformers of a substation, the sides, the countries. Partial: getTerminal(voltage level) of a branch compares ids only, so an alias by which network.getVoltageLevel and the adder of the line find the level is refused (C81_terminal_alias_refuted). Histories here do not remove voltage levels or substations (that is C35)."),
 "C82": ("partial", "Proved against a table of the format written apart from the tables of the converter, and checked against the reference documents of the tests. Partial: an export that only logs errors writes in version 1.0 elements that 1.0 does not have, and aliases of the network before 1.3 (C82_logged_refuted); the other documents conform. That each value is under its own name is stated with columns written apart (ColumnsSpec.v), without anonymization. Extensions, calculated buses and the xnode flows of tie lines are not in the model of C38."),
 "C83": ("proved", "Against columns and namespaces written apart from the tables of the serializers and checked against the reference documents of the tests (C83_attested). Without anonymization, for extensions that the library accepts (exts_ok of C56)."),
 "C84": ("partial", "hasAttachedEquipment answers whether the node exists, not whether equipment is attached (C84_has_equipment_refuted, C84_has_equipment_partial). Without a working variant addInternalConnection throws after adding the connection (C84_unset_refuted). The buses at the ends of a switch are right for the histories of C31. Lazy ranges are read as the lists they yield."),
 "C85": ("partial", "getBus of a view that is not const finds the buses of other voltage levels too (C85_other_level_refuted, C85_mutable_partial). Histories: merged buses are asked for only when well numbered (C33); removeAllBuses after switches were removed one by one throws having destroyed the buses, which getBuses then reads (C85_remove_all_buses_refuted). The terminals of a bus are in C50 and C51. Lazy ranges are read as the lists they yield."),
 "C86": ("partial", "Distinct ids hold for the bus view (C86_bus_view_ids) but not for the bus/breaker view: a configured bus may have been given the id of a calculated bus of another level (C86_bus_breaker_view_ids_refuted). Lazy ranges are read to their end. A working variant is set. Buses are the ids listed; what each contains is in C30, C33 and C85."),
 "C87": ("partial", "\"Once\" is per terminal: a line with both ends on the bus is listed twice by getLines (C87_twice_refuted). Merged and calculated buses: for the histories of C33 and C31 for which cached buses are right, or after any history when the working variant holds no cache (C87_uncached_*), and the bus just obtained. Lazy ranges are read to their end; an equipment is its id with its class."),
 "C41": ("partial", "proved for every kind of bus and every list of terminals over exact arithmetic with infinities, order included; refuted: terminals without any defined value give 0, not NaN; IEEE rounding makes the answer depend on the order (Flocq binary64 witness)"),
 "C42": ("proved", "history-based specification, any sequence of set/remove/clear; iteration in byte order of the keys"),
 "C44": ("proved", "sums, defined values and throwing setters for every history of the adders and of the halves, with any addition; in addition the sums are shown to be the two halves in series when there is no shunt at the boundary (refuted otherwise) and the two boundaries to agree"),
 "C43": ("partial", "proved for every document when the handler reads each child to its end (the nested use of the library: C43_nested gives back every document); skipping characterised exactly: right iff no non-empty element inside has the same name; refuted otherwise"),
 "C46": ("partial", "Networks with several threads as interleavings of whole operations of the manager (they hold its mutex), the thread-local index being one value per thread for all networks. Proved for every number of threads and networks and every interleaving when each thread works on one network and no variant is removed while another thread has it selected; refuted for a thread using two networks, for a variant removed (undefined behaviour) or recycled (wrong variant) while another thread has it selected, and for a network closed and opened again."),
 "C45": ("partial", "Whole history of a network mixing bus-breaker and node-breaker voltage levels, with several variants: the component of a configured bus, of a calculated bus, of a terminal, and the buses and size of a component are those of the current topology, never an error. Missing, because false and refuted: HVDC lines added or removed after the connected components were computed, closed switches added or removed after any computation, internal connections added or removed while another variant holds a computation (no invalidation in the code)."),
 "C47": ("partial", "proved when no slot is unused; refuted otherwise (null dereference in the VariantArray move)"),
 "C49": ("partial", "refuted: the setters throw in every reachable state (nothing attaches the sections); shown that they leave the state unchanged"),
 "C48": ("partial", "proved when a working variant is set; refuted when it is unset: the call throws"),
}
thms = {}
for f in sorted(glob.glob(os.path.join(ROOT, "rocq/theories/*Props.v"))):
    for m in re.finditer(r"^(?:Theorem|Corollary)\s+((C\d\d)_\w+)", open(f).read(), re.M):
        thms.setdefault(m.group(2), []).append(m.group(1))
ids = [json.loads(l)["id"] for l in open(os.path.join(ROOT, "properties.jsonl"))]
claims = []
for i in ids:
    if i in STATUS and (i in thms or STATUS[i][0] == "not_applicable"):
        claims.append({"property": i, "status": STATUS[i][0], "theorems": thms.get(i, []), "note": STATUS[i][1]})
missing = [i for i in ids if i not in STATUS]
extra = [i for i in thms if i not in STATUS]
json.dump({"claims": claims}, open(os.path.join(ROOT, "MANIFEST.json"), "w"), indent=1)
print(len(claims), "claims,", sum(len(c["theorems"]) for c in claims), "theorems; no status:", missing, "theorems without status:", extra)
