(** Measurements and discrete measurements of an equipment, in memory (extensions/iidm/src/Measurements.cpp, Measurement.cpp,
    MeasurementAdder.cpp, MeasurementValidationUtil.cpp and the same files for discrete measurements).

    Simplifications: numbers are texts (as in ExtXml.v), NaN is [None]; the enumerations are their values; both containers are one
    definition with the data as parameter, as their code is the same. *)
From stdpp Require Export pretty.
From Verif Require Export ExtXml.

(** ** The containers *)
(** A measurement: its address, its id ("" when there is none), its properties, its data. *)
Record item (A : Type) := mkItem { i_addr : nat; i_id : string; i_props : gmap string string; i_data : A }.
Arguments mkItem {A}. Arguments i_addr {A}. Arguments i_id {A}. Arguments i_props {A}. Arguments i_data {A}.
(** Measurements.hpp: m_measurements; the equipment; the next address. *)
Record items (A : Type) := mkItems { c_cls : cls; c_items : list (item A); c_next : nat }.
Arguments mkItems {A}. Arguments c_cls {A}. Arguments c_items {A}. Arguments c_next {A}.
Section containers.
Context {A : Type}.
Implicit Types (c : items A) (i : item A).
(** getMeasurement: Measurements.cpp:46-55; getDiscreteMeasurement: DiscreteMeasurements.cpp:47-56. *)
Definition find_id c (id : string) : option (item A) := snd <$> list_find (fun i => i_id i = id) (c_items c).
(** checkId: MeasurementValidationUtil.cpp:26-30, DiscreteMeasurementValidationUtil.cpp:28-32. *)
Definition id_free c (id : string) : bool := String.eqb id "" || bool_decide (find_id c id = None).
(** The end of the adders: MeasurementAdder.cpp:33-35, DiscreteMeasurementAdder.cpp:33-37: the answer is the one found under the id. *)
Definition put_item c (id : string) (ps : gmap string string) (a : A) : result nat * items A :=
  let c' := mkItems (c_cls c) (c_items c ++ [mkItem (c_next c) id ps a]) (S (c_next c)) in
  (match find_id c' id with Some i => Ok (i_addr i) | None => UB end, c').
(** remove: Measurements.cpp:91-99, DiscreteMeasurements.cpp:96-104: by address. *)
Fixpoint erase (k : nat) (l : list (item A)) : list (item A) :=
  match l with [] => [] | i :: l' => if i_addr i =? k then l' else i :: erase k l' end.
Definition remove_item c (k : nat) : items A := mkItems (c_cls c) (erase k (c_items c)) (c_next c).
(** A call on the measurement at address [k]: undefined when it is no longer there. *)
Definition item_at c (k : nat) : option (item A) := snd <$> list_find (fun i => i_addr i = k) (c_items c).
Definition on_item c (k : nat) (f : item A -> result (item A)) : result unit * items A :=
  match item_at c k with
  | None => (UB, c)
  | Some i =>
    match f i with
    | Ok i' => (Ok tt, mkItems (c_cls c) ((fun j => if i_addr j =? k then i' else j) <$> c_items c) (c_next c))
    | Throw m => (Throw m, c)
    | UB => (UB, c)
    | OutOfFuel => (OutOfFuel, c)
    end
  end.
(** putProperty, removeProperty, getProperty, getPropertyNames: Measurement.cpp:107-113, 119-122, 78-85, DiscreteMeasurement.cpp:144-150, 156-159,
    98-105. *)
Definition put_property (n x : string) i : result (item A) :=
  if String.eqb n "" then Throw "Unexpected empty property name" else Ok (mkItem (i_addr i) (i_id i) (<[n := x]> (i_props i)) (i_data i)).
Definition remove_property (n : string) i : result (item A) := Ok (mkItem (i_addr i) (i_id i) (delete n (i_props i)) (i_data i)).
Definition get_property i (n : string) : string := default "" (i_props i !! n).
Definition set_data (f : A -> result A) i : result (item A) := let! a := f (i_data i) in Ok (mkItem (i_addr i) (i_id i) (i_props i) a).
End containers.
(** The properties given to an adder: MeasurementAdder.cpp:38-44: putProperty throws on an empty name. *)
Fixpoint adder_props (l : list (string * string)) (ps : gmap string string) : result (gmap string string) :=
  match l with
  | [] => Ok ps
  | (n, x) :: l' => if String.eqb n "" then Throw "Unexpected empty property name" else adder_props l' (<[n := x]> ps)
  end.

(** ** Measurements *)
Inductive mtype := MAngle | MActive | MApparent | MReactive | MCurrent | MVoltage | MFrequency | MOther.
Inductive mside := SOne | STwo | SThree.
#[global] Instance mtype_eq : EqDecision mtype. Proof. solve_decision. Defined.
#[global] Instance mside_eq : EqDecision mside. Proof. solve_decision. Defined.
Record meas := mkMeas { m_type : mtype; m_side : option mside; m_value : option string; m_std : option string; m_valid : bool }.
(** MeasurementAdder.hpp: the members; by default no type, NaN, valid, no side. *)
Record madder := mkMAdder { ma_id : string; ma_props : list (string * string); ma_type : option mtype; ma_side : option mside; ma_value : option string; ma_std : option string; ma_valid : bool }.
(** checkValue, checkSide: MeasurementValidationUtil.cpp:32-46; getExtendable<Connectable>: Extension.hxx:32-37. *)
Definition check_value (x : option string) (valid : bool) : result unit :=
  if bool_decide (x = None) && valid then Throw "Valid measurement can not have an undefined value" else Ok tt.
Definition check_side (k : cls) (ty : mtype) (s : option mside) : result unit :=
  if negb (is_connectable k) then Throw "Unexpected extendable type"
  else if bool_decide (s <> None) && is_injection k then Throw "Inconsistent side for measurement of injection"
  else if bool_decide (s = None) && negb (bool_decide (ty = MOther)) && negb (is_injection k) then Throw "Inconsistent null side for measurement of branch or three windings transformer"
  else Ok tt.
(** MeasurementAdder::add: MeasurementAdder.cpp:26-36. *)
Definition m_add (c : items meas) (a : madder) : result nat * items meas :=
  match (let! ps := adder_props (ma_props a) ∅ in
         let! _ := (if id_free c (ma_id a) then Ok tt else Throw "There is already a measurement with ID") in
         match ma_type a with
         | None => Throw "Measurement type can not be null"
         | Some ty =>
           let! _ := check_value (ma_value a) (ma_valid a) in
           let! _ := check_side (c_cls c) ty (ma_side a) in
           Ok (ps, mkMeas ty (ma_side a) (ma_value a) (ma_std a) (ma_valid a))
         end) with
  | Ok (ps, m) => put_item c (ma_id a) ps m
  | Throw e => (Throw e, c)
  | UB => (UB, c)
  | OutOfFuel => (OutOfFuel, c)
  end.
(** setStandardDeviation, setValid, setValue: Measurement.cpp:124-140: no check. *)
Definition m_set_value (x : option string) (m : meas) : result meas := Ok (mkMeas (m_type m) (m_side m) x (m_std m) (m_valid m)).
Definition m_set_std (x : option string) (m : meas) : result meas := Ok (mkMeas (m_type m) (m_side m) (m_value m) x (m_valid m)).
Definition m_set_valid (b : bool) (m : meas) : result meas := Ok (mkMeas (m_type m) (m_side m) (m_value m) (m_std m) b).
(** getMeasurements(type): Measurements.cpp:61-75, DiscreteMeasurements.cpp:66-80. The range is evaluated here within the call: in the code it is lazy and keeps a
    reference to the argument, so it must not be read after a temporary argument is gone. *)
Definition m_by_type (c : items meas) (ty : mtype) : list (item meas) := filter (fun i => m_type (i_data i) = ty) (c_items c).

Inductive mop :=
| MAdd (a : madder) | MRemove (k : nat) | MSetValue (k : nat) (x : option string) | MSetStd (k : nat) (x : option string) | MSetValid (k : nat) (b : bool)
| MPut (k : nat) (n x : string) | MDrop (k : nat) (n : string).
Definition forget {B : Type} {A : Type} (r : result B * items A) : result unit * items A :=
  (match r.1 with Ok _ => Ok tt | Throw m => Throw m | UB => UB | OutOfFuel => OutOfFuel end, r.2).
Definition mstep (o : mop) (c : items meas) : result unit * items meas :=
  match o with
  | MAdd a => forget (m_add c a)
  | MRemove k => (if bool_decide (item_at c k = None) then UB else Ok tt, remove_item c k)
  | MSetValue k x => on_item c k (set_data (m_set_value x))
  | MSetStd k x => on_item c k (set_data (m_set_std x))
  | MSetValid k b => on_item c k (set_data (m_set_valid b))
  | MPut k n x => on_item c k (put_property n x)
  | MDrop k n => on_item c k (remove_property n)
  end.

(** ** Discrete measurements *)
Inductive dtype := DTap | DSwitch | DSection | DOther.
Inductive dtap := TRatio | TPhase | TRatio1 | TPhase1 | TRatio2 | TPhase2 | TRatio3 | TPhase3.
Inductive vtype := TBool | TInt | TText.
Inductive dval := DBool (b : bool) | DInt (z : Z) | DText (s : string).
#[global] Instance dtype_eq : EqDecision dtype. Proof. solve_decision. Defined.
#[global] Instance dtap_eq : EqDecision dtap. Proof. solve_decision. Defined.
#[global] Instance vtype_eq : EqDecision vtype. Proof. solve_decision. Defined.
(** DiscreteMeasurement.hpp: the type of the value and the value are two members. *)
Record dmeas := mkD { d_type : dtype; d_tap : option dtap; d_vtype : vtype; d_value : option dval; d_valid : bool }.
(** DiscreteMeasurementAdder.hpp: m_type has no initial value; the value is an empty boost::any. *)
Record dadder := mkDAdder { da_id : string; da_props : list (string * string); da_type : option dtype; da_tap : option dtap; da_value : option dval; da_valid : bool }.
(** checkTapChanger, checkType, checkValue, getValueType: DiscreteMeasurementValidationUtil.cpp:34-82. *)
Definition d_check_type (k : cls) (ty : dtype) : result unit :=
  if bool_decide (ty = DSwitch) && negb (is_switch k) then Throw "SWITCH_POSITION discrete not linked to a switch"
  else if bool_decide (ty = DTap) && negb (is_transformer k) then Throw "TAP_POSITION discrete not linked to a transformer" else Ok tt.
Definition d_check_tap (k : cls) (ty : dtype) (t : option dtap) : result unit :=
  match t with
  | None => if bool_decide (ty = DTap) then Throw "The measured tap changer must be specified" else Ok tt
  | Some p =>
    if negb (is_transformer k) then Throw "A tap changer is specified when the measured equipment is not a tap changer"
    else if bool_decide (k = CTwoWt) && negb (bool_decide (p = TRatio)) && negb (bool_decide (p = TPhase)) then Throw "A non existent tap changer place has been specified"
    else if bool_decide (k = CThreeWt) && (bool_decide (p = TRatio) || bool_decide (p = TPhase)) then Throw "Side is not specified for the measured tap changer"
    else Ok tt
  end.
Definition d_check_value (x : option dval) (valid : bool) : result unit :=
  if bool_decide (is_Some x) then Ok tt else if valid then Throw "A valid discrete measurement can not have an undefined value" else Ok tt.
Definition value_type (x : option dval) : result vtype :=
  match x with Some (DText _) => Ok TText | Some (DInt _) => Ok TInt | Some (DBool _) => Ok TBool | None => Throw "Unsupported value type for discrete measurement" end.
(** DiscreteMeasurementAdder::add: DiscreteMeasurementAdder.cpp:27-38. *)
Definition d_add (c : items dmeas) (a : dadder) : result nat * items dmeas :=
  match (let! ps := adder_props (da_props a) ∅ in
         let! _ := (if id_free c (da_id a) then Ok tt else Throw "There is already a discrete measurement with ID") in
         match da_type a with
         | None => UB
         | Some ty =>
           let! _ := d_check_type (c_cls c) ty in
           let! _ := d_check_tap (c_cls c) ty (da_tap a) in
           let! _ := d_check_value (da_value a) (da_valid a) in
           let! vt := value_type (da_value a) in
           Ok (ps, mkD ty (da_tap a) vt (da_value a) (da_valid a))
         end) with
  | Ok (ps, m) => put_item c (da_id a) ps m
  | Throw e => (Throw e, c)
  | UB => (UB, c)
  | OutOfFuel => (OutOfFuel, c)
  end.
(** setValid, setValue: DiscreteMeasurement.cpp:161-190. *)
Definition d_set_valid (b : bool) (m : dmeas) : result dmeas := Ok (mkD (d_type m) (d_tap m) (d_vtype m) (d_value m) b).
Definition d_set_value (x : dval) (m : dmeas) : result dmeas :=
  match x with
  | DText s => let! _ := d_check_value (Some x) (d_valid m) in Ok (mkD (d_type m) (d_tap m) TText (Some x) (d_valid m))
  | DBool _ => Ok (mkD (d_type m) (d_tap m) TBool (Some x) (d_valid m))
  | DInt _ => Ok (mkD (d_type m) (d_tap m) TInt (Some x) (d_valid m))
  end.
(** getValueAsBoolean, getValueAsInt, getValueAsString: DiscreteMeasurement.cpp:115-134; any_cast of another type throws. *)
Definition as_bool (m : dmeas) : result bool :=
  if bool_decide (d_vtype m = TBool) then match d_value m with Some (DBool b) => Ok b | _ => Throw "bad_any_cast" end else Throw "Value type is not BOOLEAN".
Definition as_int (m : dmeas) : result Z :=
  if bool_decide (d_vtype m = TInt) then match d_value m with Some (DInt z) => Ok z | _ => Throw "bad_any_cast" end else Throw "Value type is not INT".
Definition as_text (m : dmeas) : result string :=
  if bool_decide (d_vtype m = TText) then match d_value m with Some (DText s) => Ok s | _ => Throw "bad_any_cast" end else Throw "Value type is not STRING".
Definition d_by_type (c : items dmeas) (ty : dtype) : list (item dmeas) := filter (fun i => d_type (i_data i) = ty) (c_items c).
Inductive dop :=
| DAdd (a : dadder) | DRemove (k : nat) | DSetValue (k : nat) (x : dval) | DSetValid (k : nat) (b : bool) | DPut (k : nat) (n x : string) | DDrop (k : nat) (n : string).
Definition dstep (o : dop) (c : items dmeas) : result unit * items dmeas :=
  match o with
  | DAdd a => forget (d_add c a)
  | DRemove k => (if bool_decide (item_at c k = None) then UB else Ok tt, remove_item c k)
  | DSetValue k x => on_item c k (set_data (d_set_value x))
  | DSetValid k b => on_item c k (set_data (d_set_valid b))
  | DPut k n x => on_item c k (put_property n x)
  | DDrop k n => on_item c k (remove_property n)
  end.

(** ** What is written: MeasurementsXmlSerializer.cpp:75-98, DiscreteMeasurementsXmlSerializer.cpp:94-134; the names: Measurement.cpp:22-44,
    DiscreteMeasurement.cpp:25-58 *)
Definition mtype_name (t : mtype) : string :=
  match t with MAngle => "ANGLE" | MActive => "ACTIVE_POWER" | MApparent => "APPARENT_POWER" | MReactive => "REACTIVE_POWER" | MCurrent => "CURRENT" | MVoltage => "VOLTAGE" | MFrequency => "FREQUENCY"
             | MOther => "OTHER" end.
Definition mside_name (s : option mside) : string := match s with None => "" | Some SOne => "ONE" | Some STwo => "TWO" | Some SThree => "THREE" end.
Definition dtype_name (t : dtype) : string := match t with DTap => "TAP_POSITION" | DSwitch => "SWITCH_POSITION" | DSection => "SHUNT_COMPENSATOR_SECTION" | DOther => "OTHER" end.
Definition dtap_name (t : option dtap) : string :=
  match t with
  | None => "" | Some TRatio => "RATIO_TAP_CHANGER" | Some TPhase => "PHASE_TAP_CHANGER" | Some TRatio1 => "RATIO_TAP_CHANGER_1" | Some TPhase1 => "PHASE_TAP_CHANGER_1"
  | Some TRatio2 => "RATIO_TAP_CHANGER_2" | Some TPhase2 => "PHASE_TAP_CHANGER_2" | Some TRatio3 => "RATIO_TAP_CHANGER_3" | Some TPhase3 => "PHASE_TAP_CHANGER_3"
  end.
Definition vtype_name (t : vtype) : string := match t with TBool => "BOOLEAN" | TInt => "INT" | TText => "STRING" end.
Definition m_child (i : item meas) : child :=
  let m := i_data i in
  Child "measurement" [VText (i_id i); VText (mtype_name (m_type m)); VText (mside_name (m_side m)); VNum (m_value m); VNum (m_std m); VBool (m_valid m)] (i_props i).
(** The value: through the getters, which may throw. *)
Definition value_written (m : dmeas) : result string :=
  match d_vtype m with
  | TBool => let! b := as_bool m in Ok (bool_text b)
  | TInt => let! z := as_int m in Ok (pretty z)
  | TText => as_text m
  end.
Definition d_child (i : item dmeas) : result child :=
  let m := i_data i in
  let! x := value_written m in
  Ok (Child "discreteMeasurement" [VText (i_id i); VText (dtype_name (d_type m)); VText (dtap_name (d_tap m)); VText (vtype_name (d_vtype m)); VText x; VBool (d_valid m)] (i_props i)).
Definition m_ext (c : items meas) : ext := Ext KMeasurements [] "" (m_child <$> c_items c).
Fixpoint d_children (l : list (item dmeas)) : result (list child) :=
  match l with [] => Ok [] | i :: l' => let! x := d_child i in let! xs := d_children l' in Ok (x :: xs) end.
Definition d_ext (c : items dmeas) : result ext := let! cs := d_children (c_items c) in Ok (Ext KDiscrete [] "" cs).
