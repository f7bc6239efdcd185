(* Specification of the JMS symmetry relations, independent of the code. *)
From Coq Require Import List Bool ZArith QArith Arith Lia String.
From Verif Require Import PyBase Num SymModel SymClass SymSpec EftModel EftSpec JmsModel.
Import ListNotations.

(* a basis whose operators have the classes of the table C_symm_keys *)
Definition table_agrees (sp : list opspec) : Prop :=
  forall n c s c', In (n, (c, s)) sp -> In c' [Cl4; Cl41; Cl5; Cl71] ->
    (In n (dgetd jms_symm_keys c' []) <-> c = c').

(* the symmetry of the class c sends the coefficient v at I to the coefficient w at J *)
Definition carries {K : StarField} (c : cls) (I : idx) (v : K) (J : idx) (w : K) : Prop :=
  (J = I /\ w = v) \/
  ((c = Cl4 \/ c = Cl41) /\ In J (plain_orbit c I) /\ w = v) \/
  (c = Cl71 /\ In J (plain_orbit c I) /\ J <> I /\ w = (- v)%K) \/
  ((c = Cl4 \/ c = Cl5) /\ In J (conj_orbit c I) /\ w = (v^*)%K).
(* antisymmetric coefficients with equal first indices do not exist *)
Definition exists_at (c : cls) (I : idx) : Prop :=
  c = Cl71 -> match I with i :: j :: _ => i <> j | _ => True end.
