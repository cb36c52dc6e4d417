(** Specification: the value of each parameter of each half from the history of the calls. *)
From Verif Require Export TieLine.

#[global] Instance tside_dec : EqDecision tside. Proof. solve_decision. Defined.
#[global] Instance param_dec : EqDecision param. Proof. solve_decision. Defined.
Section num.
  Context {A : Type} (nan : A) (isnan : A -> bool).
  (** The value a half line adder holds. *)
  Fixpoint adder_value (h : list (aop A)) (s : tside) (p : param) : A :=
    match h with
    | [] => nan
    | ANew s' :: h' => if bool_decide (s = s') then nan else adder_value h' s p
    | ASet s' p' v :: h' => if bool_decide (s = s' /\ p = p') then v else adder_value h' s p
    | _ :: h' => adder_value h' s p
    end.
  Fixpoint adder_id (h : list (aop A)) (s : tside) : string :=
    match h with
    | [] => ""
    | ANew s' :: h' => if bool_decide (s = s') then "" else adder_id h' s
    | AId s' id :: h' => if bool_decide (s = s') then id else adder_id h' s
    | _ :: h' => adder_id h' s
    end.
  (** add() of a half is accepted when the identifier and the six values are set. *)
  Definition accepted (h : list (aop A)) (s : tside) : Prop := adder_id h s <> "" /\ forall p, isnan (adder_value h s p) = false.
  Definition accepted_dec h s : Decision (accepted h s).
  Proof.
    unfold accepted. apply and_dec; [apply _|].
    destruct (decide (Forall (fun p => isnan (adder_value h s p) = false) [PR; PX; PG1; PB1; PG2; PB2])) as [F|F].
    - left. rewrite Forall_forall in F. intros p. apply F. destruct p; rewrite !elem_of_cons; tauto.
    - right. intros H. apply F, Forall_forall. intros p _. apply H.
  Defined.
  #[global] Existing Instance accepted_dec.
  (** The history at the last accepted add() of half [s]. *)
  Fixpoint last_add (h : list (aop A)) (s : tside) : option (list (aop A)) :=
    match h with
    | [] => None
    | AAdd s' :: h' => if bool_decide (s = s' /\ accepted h' s) then Some h' else last_add h' s
    | _ :: h' => last_add h' s
    end.
  Fixpoint last_xnode (h : list (aop A)) : string := match h with [] => "" | AXnode c :: _ => c | _ :: h' => last_xnode h' end.
  (** The last defined value given to a parameter of a half of the tie line, the value of the adder to begin with. *)
  Fixpoint half_value (k : list (top A)) (s : tside) (p : param) (initial : A) : A :=
    match k with
    | [] => initial
    | HSet s' p' v :: k' => if bool_decide (s = s' /\ p = p' /\ isnan v = false) then v else half_value k' s p initial
    | TSet _ _ :: k' => half_value k' s p initial
    end.
End num.
