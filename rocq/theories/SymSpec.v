(* Specification of the flavour symmetries, independent of the tables in the code. *)
From Coq Require Import List Bool ZArith QArith Arith Lia.
From Verif Require Import PyBase Num SymModel SymClass.
Import ListNotations.

Section Spec.
Context {K : StarField}.
Local Open Scope K_scope.
Notation arr := (idx -> K).

Definition lt3 (i : nat) : Prop := (i < 3)%nat.
Definition indices (c : cls) : list idx :=
  match c with
  | Cl0 => [[]]
  | Cl1 | Cl2 | Cl9 => flat_map (fun i => map (fun j => [i;j]) [0;1;2]%nat) [0;1;2]%nat
  | _ => flat_map (fun i => flat_map (fun j => flat_map (fun k => map (fun l => [i;j;k;l])
           [0;1;2]%nat) [0;1;2]%nat) [0;1;2]%nat) [0;1;2]%nat
  end.

(* the index relations of the operators *)
Definition hermitian_2 (a : arr) := forall i j, lt3 i -> lt3 j -> a [j;i] = (a [i;j])^*.
Definition symmetric_2 (a : arr) := forall i j, lt3 i -> lt3 j -> a [j;i] = a [i;j].
Definition hermitian_4 (a : arr) := forall i j k l, lt3 i -> lt3 j -> lt3 k -> lt3 l ->
  a [j;i;l;k] = (a [i;j;k;l])^*.
Definition exchange (a : arr) := forall i j k l, lt3 i -> lt3 j -> lt3 k -> lt3 l ->
  a [k;l;i;j] = a [i;j;k;l].
Definition fierz (a : arr) := forall i j k l, lt3 i -> lt3 j -> lt3 k -> lt3 l ->
  a [i;l;k;j] = a [i;j;k;l].
Definition symmetric_12 (a : arr) := forall i j k l, lt3 i -> lt3 j -> lt3 k -> lt3 l ->
  a [j;i;k;l] = a [i;j;k;l].
Definition antisymmetric_12 (a : arr) := forall i j k l, lt3 i -> lt3 j -> lt3 k -> lt3 l ->
  a [j;i;k;l] = - a [i;j;k;l].
(* Q_prst + Q_rpst = Q_sprt + Q_srpt for the operator qqql *)
Definition qqql_relation (a : arr) := forall p r s t, lt3 p -> lt3 r -> lt3 s -> lt3 t ->
  a [p;r;s;t] + a [r;p;s;t] = a [s;p;r;t] + a [s;r;p;t].

Definition has_symmetry (c : cls) (a : arr) : Prop :=
  match c with
  | Cl0 => kreal (a [])
  | Cl1 | Cl3 => True
  | Cl2 => hermitian_2 a
  | Cl9 => symmetric_2 a
  | Cl4 => hermitian_4 a /\ exchange a
  | Cl41 => exchange a
  | Cl5 => hermitian_4 a
  | Cl6 => hermitian_4 a /\ exchange a /\ fierz a
  | Cl7 => symmetric_12 a
  | Cl71 => antisymmetric_12 a
  | Cl8 => qqql_relation a
  end.
End Spec.

(* the entries related to I by the symmetry, without and with conjugation *)
Definition plain_orbit (c : cls) (I : idx) : list idx :=
  match c, I with
  | (Cl4 | Cl41), [i;j;k;l] => [[i;j;k;l]; [k;l;i;j]]
  | Cl6, [i;j;k;l] => [[i;j;k;l]; [k;l;i;j]; [i;l;k;j]; [k;j;i;l]]
  | (Cl7 | Cl71), [i;j;k;l] => [[i;j;k;l]; [j;i;k;l]]
  | Cl9, [i;j] => [[i;j]; [j;i]]
  | _, _ => [I]
  end.
Definition conj_orbit (c : cls) (I : idx) : list idx :=
  match c, I with
  | Cl0, [] => [[]]
  | Cl2, [i;j] => [[j;i]]
  | Cl4, [i;j;k;l] => [[j;i;l;k]; [l;k;j;i]]
  | Cl5, [i;j;k;l] => [[j;i;l;k]]
  | Cl6, [i;j;k;l] => [[j;i;l;k]; [l;k;j;i]; [l;i;j;k]; [j;k;l;i]]
  | _, _ => []
  end.
Fixpoint lexleb (a b : idx) : bool :=
  match a, b with
  | [], _ => true
  | x :: a', y :: b' => (x <? y) || (x =? y) && lexleb a' b'
  | _ :: _, [] => false
  end%nat.
(* The entries of the non-redundant basis: the lexicographically first of the
   entries related to each other.  Antisymmetric entries with equal indices do not
   exist; the relations of class 8 are not orbits, there the basis is listed
   (first three indices, any fourth). *)
Definition nonredundant (c : cls) (I : idx) : bool :=
  match c with
  | Cl71 => match I with i :: j :: _ => (i <? j)%nat | _ => false end
  | Cl8 => kmem (firstn 3 I)
     [[0;0;0];[0;0;1];[0;0;2];[0;1;0];[0;1;1];[0;1;2];[0;2;0];[0;2;1];[0;2;2];
      [1;0;1];[1;0;2];[1;1;1];[1;1;2];[1;2;0];[1;2;1];[1;2;2];[2;0;2];[2;1;2];[2;2;2]]%nat
  | _ => forallb (lexleb I) (plain_orbit c I ++ conj_orbit c I)
  end.
(* entries equal to their own conjugate *)
Definition real_entry (c : cls) (I : idx) : bool := kmem I (conj_orbit c I).
