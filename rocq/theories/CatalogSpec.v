(** Specification of the typed lookups and collections: what the objects of a network are and where their terminals are. *)
From stdpp Require Export gmap relations.
From Verif Require Export Base Catalog.

(** [c] is [t] or derives from it. *)
Definition kind_of (c t : cls) : Prop := rtc (fun x y => y ∈ bases x) c t.
(** The classes of which there are objects. *)
Definition concrete (c : cls) : Prop :=
  c ∉ [CIdentifiable; CContainer; CVoltageLevel; CBus; CConnectable; CInjection; CHvdcConverterStation; CBranch].
(** [p] is a living object of class [c] with the id [s]. *)
Definition object (st : cat) (p : nat) (c : cls) (s : string) : Prop :=
  exists o, ix_heap (c_ix st) !! p = Some o /\ o_type o = cls_id c /\ o_id o = s.
(** [p] is an instance of [t]. *)
Definition is_a (st : cat) (t : cls) (p : nat) : Prop := exists c s, object st p c s /\ kind_of c t.
(** [s] is the id or an alias of [p]. *)
Definition name_of (st : cat) (s : string) (p : nat) : Prop :=
  exists o, ix_heap (c_ix st) !! p = Some o /\ (o_id o = s \/ s ∈ o_aliases o).
(** The terminal [k] of the equipment [p] is in the voltage level [v]. *)
Definition terminal_in (st : cat) (p k v : nat) : Prop := exists l, c_terms st !! p = Some l /\ l !! k = Some v.
Definition in_level (st : cat) (p v : nat) : Prop := exists k, terminal_in st p k v.
(** The number of terminals of an equipment of class [c]. *)
Definition arity (c : cls) : nat :=
  match c with CLine | CTieLine | CTwoWindingsTransformer => 2 | CThreeWindingsTransformer => 3 | _ => 1 end.
(** The class announced by the name of a getter: getBatteries gives instances of Battery, and so on. *)
Definition announced (g : getter) : cls :=
  match g with
  | GBattery => CBattery | GBranch => CBranch | GBusbarSection => CBusbarSection | GDanglingLine => CDanglingLine | GGenerator => CGenerator
  | GHvdcConverterStation => CHvdcConverterStation | GHvdcLine => CHvdcLine | GIdentifiable => CIdentifiable | GLccConverterStation => CLccConverterStation
  | GLine => CLine | GLoad => CLoad | GShuntCompensator => CShuntCompensator | GStaticVarCompensator => CStaticVarCompensator | GSubstation => CSubstation
  | GSwitch => CSwitch | GThreeWindingsTransformer => CThreeWindingsTransformer | GTwoWindingsTransformer => CTwoWindingsTransformer
  | GVoltageLevel => CVoltageLevel | GVscConverterStation => CVscConverterStation
  end.
(** The calls that make sense: the references given are to living objects of the right class. *)
Definition cop_ok (st : cat) (o : cop) : Prop :=
  match o with
  | QSubstation _ _ | QLine _ _ _ _ _ => True
  | QCountry s _ | QLevel s _ _ _ | QTwo s _ _ _ _ | QThree s _ _ _ _ _ => is_a st CSubstation s
  | QInjection c v _ _ => kind_of c CInjection /\ concrete c /\ is_a st CVoltageLevel v
  | QOther c _ _ => c ∈ [CConfiguredBus; CSwitch; CHvdcLine]
  | QRemove p => is_a st CConnectable p \/ is_a st CSwitch p \/ is_a st CHvdcLine p
  | QAlias p _ _ _ | QUnalias p _ => is_a st CIdentifiable p
  end.
Inductive creach : cat -> Prop :=
| creach_init id : id <> "" -> creach (cat_init id)
| creach_step st o : creach st -> cop_ok st o -> creach (cstep st o).2.
