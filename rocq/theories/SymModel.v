(* Flavour symmetrization of coefficient arrays: EFTutil in wilson/util/common.py.

   An array is a function from index lists to values; [a[0,1]] is (a [0;1]).
   The in-place statements of the symmetrize_N functions are the data of
   SymTables.v, interpreted here over any type of values with the four operations
   used (record valg): complex numbers for the model, symbolic linear forms for the
   proofs. *)
From Coq Require Import List Bool ZArith QArith Arith Lia.
From Verif Require Import PyBase Num Lin.
Import ListNotations.

Definition idx := list nat.

Inductive asgn :=
| SetRe (i : idx) (rhs : list (Q * idx))     (* a.real[i] = sum of q * a.real[j] *)
| SetIm (i : idx) (rhs : list (Q * idx))     (* a.imag[i] = sum of q * a.imag[j]; 0 if empty *)
| SetLin (i : idx) (rhs : list (Q * idx))    (* a[i] = sum of q * a[j] *)
| SetConj (i j : idx).                       (* a[i] = a[j].conj() *)

Record valg (V : Type) := {
  v_lin : list (Q * V) -> V;
  v_setre : V -> list (Q * V) -> V;    (* new value with real part replaced *)
  v_setim : V -> list (Q * V) -> V;
  v_conj : V -> V }.
Arguments v_lin {V}. Arguments v_setre {V}. Arguments v_setim {V}. Arguments v_conj {V}.

Section Exec.
Context {V : Type} (A : valg V).
Definition upd (a : idx -> V) (i : idx) (v : V) : idx -> V := fun j => if keqb j i then v else a j.
Definition reads (src : idx -> V) (rhs : list (Q * idx)) : list (Q * V) :=
  map (fun x => (fst x, src (snd x))) rhs.
(* one statement; src is the array the right-hand side reads *)
Definition exec1 (src a : idx -> V) (s : asgn) : idx -> V :=
  match s with
  | SetRe i rhs => upd a i (v_setre A (a i) (reads src rhs))
  | SetIm i rhs => upd a i (v_setim A (a i) (reads src rhs))
  | SetLin i rhs => upd a i (v_lin A (reads src rhs))
  | SetConj i j => upd a i (v_conj A (src j))
  end.
(* symmetrize_N: a is a copy of b, statements read and write a *)
Definition exec (p : list asgn) (b : idx -> V) : idx -> V := fold_left (fun a s => exec1 a a s) p b.
(* scale_8, unscale_8: statements read b and write a *)
Definition exec_from (p : list asgn) (b : idx -> V) : idx -> V := fold_left (fun a s => exec1 b a s) p b.
End Exec.

(* number of distinct elements: len({...}) *)
Definition count_distinct (l : list idx) : nat :=
  List.length (fold_right (fun x r => if kmem x r then r else x :: r) [] l).
(* _get_scale_dict, common.py:176-209 *)
Definition d_4 (I : idx) : nat :=
  match I with [i;j;k;l] => count_distinct [[i;j;k;l]; [k;l;i;j]] | _ => 1 end.
Definition d_6 (I : idx) : nat :=
  match I with [i;j;k;l] => count_distinct [[i;j;k;l]; [k;l;i;j]; [k;j;i;l]; [i;l;k;j]] | _ => 1 end.
Definition d_7 (I : idx) : nat :=
  match I with [i;j;k;l] => count_distinct [[i;j;k;l]; [j;i;k;l]] | _ => 1 end.

(* complex numbers *)
Section KAlg.
Context {K : StarField}.
Local Open Scope K_scope.
Definition ksum (l : list (Q * K)) : K := fold_right (fun x r => kQ (fst x) * snd x + r) 0 l.
Definition k_alg : valg K := {|
  v_lin := ksum;
  v_setre z l := ksum (map (fun x => (fst x, kre (snd x))) l) + ki * kim z;
  v_setim z l := kre z + ki * ksum (map (fun x => (fst x, kim (snd x))) l);
  v_conj := kconj |}.
End KAlg.
