(* Specification of the operators of WET that violate baryon number, and of their Lagrangian.  Written from the
   conventions of the basis WET/JMS: eps_ijk (psi1_i C P_x psi2_j)(psi3_k C P_y psi4), with three quarks and a lepton, and
   psi C psi' = psi^T C psi' with the charge conjugation matrix C. *)
From Coq Require Import List Bool ZArith QArith String.
From Verif Require Import PyBase Num TreeSpec AdmData FermiSpec GammaSpec.
From Verif Require NpModel.
Import ListNotations.
Local Open Scope string_scope.
Local Open Scope list_scope.

Inductive bop := Bop (x y : chir) (f1 f2 f3 f4 : ferm).
(* C = i gamma^2 gamma^0 *)
Definition charge_conj : mat := of_fun (fun a b => gzmul Ii (ent (mmulM (gam 2) (gam 0)) a b)).
Definition cbilin (x : chir) : mat := mmulM charge_conj (cmat x).
Definition eps (i j k : colr) : Z :=
  match i, j, k with
  | C0, C1, C2 | C1, C2, C0 | C2, C0, C1 => 1
  | C0, C2, C1 | C2, C1, C0 | C1, C0, C2 => -1
  | _, _, _ => 0
  end%Z.
Definition bspin (x y : chir) (s : (spin * spin) * (spin * spin)) : gz := match s with ((a, b), (c, e)) => gzmul (ent (cbilin x) a b) (ent (cbilin y) c e) end.
(* the lepton has no colour: its index is C0 *)
Definition bcol (t : (colr * colr) * (colr * colr)) : Q := match t with ((i, j), (k, l)) => inject_Z (eps i j k) * delta l C0 end%Q.
Definition bnv_poly (o : bop) : poly :=
  match o with Bop x y f1 f2 f3 f4 =>
    map (fun st => let z := bspin x y (fst st) in let q := bcol (snd st) in
      match fst st, snd st with ((a, b), (c, e)), ((i, j), (k, l)) =>
        (inject_Z (fst z) * q, inject_Z (snd z) * q, (NoB, [cp false f1 a i; cp false f2 b j; cp false f3 c k; cp false f4 e l])) end)%Q
      (prodl (quads spins) (quads colrs))
  end.
(* the operator of a coefficient: the names and the fields are those of TreeSpec.jms_fields; the two fields of a bilinear
   have the same chirality *)
Definition bnv_op (k : string) : option bop :=
  match String.index 0 "_" k with
  | None => None
  | Some n =>
      match dget jms_fields (substring 0 n k), gens_of (substring (n + 1) (String.length k - n - 1) k) with
      | Some [(a, false); (b, false); (c, false); (d, false)], Some [g1; g2; g3; g4] =>
          Some (Bop (snd (wfield a)) (snd (wfield c)) (fst (wfield a), g1) (fst (wfield b), g2) (fst (wfield c), g3) (fst (wfield d), g4))
      | _, _ => None
      end
  end.
Definition bnv_fields (o : bop) : list ferm := match o with Bop _ _ f1 f2 f3 f4 => [f1; f2; f3; f4] end.
(* the classes of sectors whose operators violate baryon number *)
Definition bnv_classes : list string := ["uddnu"; "udsnu"; "uude"; "ucde"].
Section L.
Context {K : StarField}.
Local Open Scope K_scope.
(* sum_i C_i O_i + h.c.; F: what is done to the operators *)
Definition bnv_lagrangian (F : poly -> poly) (ks : list string) (C : nat -> K) (m : mon) : K :=
  NpModel.ksum (map (fun i => match bnv_op (nth i ks "") with
    | Some o => C i * coefficient (F (bnv_poly o)) m + (C i)^* * coefficient (F (hc (bnv_poly o))) m
    | None => 0
    end) (seq 0 (List.length ks))).
(* A^T C *)
Definition transposed (n : nat) (A : nat -> nat -> K) (C : nat -> K) (i : nat) : K := NpModel.ksum (map (fun j => A j i * C j) (seq 0 n)).
End L.
