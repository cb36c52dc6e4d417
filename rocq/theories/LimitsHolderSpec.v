(** The limits of a branch, without objects: for each side and type, the limits in force. *)
From Verif Require Export LimitsHolder.

(** When an adder accepts its values. *)
Definition acceptable (l : limits) : Prop := (l_perm l = NaN \/ positive (l_perm l)) /\ NoDup (map tl_name (l_temp l)).
(** The limits in force after a history, newest operation first; [n]: the number of holders.  Each is numbered by the successful add that
    created it: the first one is number 0. *)
Inductive in_force (n : nat) : list lhop -> nat -> atype -> nat -> limits -> Prop :=
(** just added *)
| if_new ops h t l k : acceptable l -> 1 <= h <= n -> created n ops k -> in_force n (HAdd h t l :: ops) h t k l
(** not replaced by an add for the same holder and type *)
| if_kept ops h t k l h' t' l' : in_force n ops h t k l -> (h', t') <> (h, t) \/ ~ acceptable l' -> in_force n (HAdd h' t' l' :: ops) h t k l
(** the permanent limit set, or a refused value, or set on other limits *)
| if_set ops h t k l x : in_force n ops h t k l -> x = NaN \/ positive x -> in_force n (HPermanent k x :: ops) h t k (mkL x (l_temp l))
| if_other ops h t k l a x : in_force n ops h t k l -> a <> k \/ ~ (x = NaN \/ positive x) -> in_force n (HPermanent a x :: ops) h t k l
(** The number of limits created so far. *)
with created (n : nat) : list lhop -> nat -> Prop :=
| cr_nil : created n [] 0
| cr_add ops h t l k : created n ops k -> acceptable l -> 1 <= h <= n -> created n (HAdd h t l :: ops) (S k)
| cr_no ops h t l k : created n ops k -> ~ (acceptable l /\ 1 <= h <= n) -> created n (HAdd h t l :: ops) k
| cr_set ops a x k : created n ops k -> created n (HPermanent a x :: ops) k.
(** The operations are on holders that exist. *)
Definition on_holders (n : nat) (o : lhop) : Prop := match o with HAdd h _ _ => 1 <= h <= n | _ => True end.
(** A history that uses limits only while they are in force. *)
Inductive proper (n : nat) : list lhop -> Prop :=
| pr_nil : proper n []
| pr_add ops h t l : proper n ops -> 1 <= h <= n -> proper n (HAdd h t l :: ops)
| pr_set ops a x h t l : proper n ops -> in_force n ops h t a l -> proper n (HPermanent a x :: ops).

(** The reactive limits in force: those of the last add accepted, newest operation first. *)
Definition accepts (o : rhop) : Prop := match o with RAddMinMax a b => ele a b | RAddCurve c => 2 <= length c end.
Definition produced (o : rhop) : robj := match o with RAddMinMax a b => RMinMax a b | RAddCurve c => RCurve c end.
Inductive reactive : list rhop -> robj -> Prop :=
| re_default : reactive [] (RMinMax dbl_lowest dbl_max)
| re_new o ops : accepts o -> reactive (o :: ops) (produced o)
| re_kept o ops x : ~ accepts o -> reactive ops x -> reactive (o :: ops) x.
