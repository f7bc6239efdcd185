(* The per-class dispatch of EFTutil.symmetrize, symmetrize_nonred and unscale_dict
   (wilson/util/common.py:890-976) on a single coefficient array. *)
From Coq Require Import List Bool ZArith QArith Arith Lia String.
From Verif Require Import PyBase Num Lin SymModel SymTables.
Import ListNotations.

(* symmetry classes, _symmetry_class_defintions, common.py:13-66 *)
Inductive cls := Cl0 | Cl1 | Cl2 | Cl3 | Cl4 | Cl41 | Cl5 | Cl6 | Cl7 | Cl71 | Cl8 | Cl9.

Section Ops.
Context {V : Type} (A : valg V).
Definition mulq (q : Q) (v : V) : V := v_lin A [(q, v)].
Definition times (d : idx -> nat) (a : idx -> V) : idx -> V := fun I => mulq (Z.of_nat (d I) # 1) (a I).
Definition divided (a : idx -> V) (d : idx -> nat) : idx -> V := fun I => mulq (1 # Pos.of_nat (d I)) (a I).
(* v.real of a number, which is the array entry with no index *)
Definition real_part (a : idx -> V) : idx -> V := upd a [] (v_setim A (a []) []).

(* EFTutil.symmetrize, common.py:899-935, one array *)
Definition symmetrize (c : cls) (a : idx -> V) : idx -> V :=
  match c with
  | Cl0 => real_part a
  | Cl1 | Cl3 => a
  | Cl2 => exec A symmetrize_2 a
  | Cl4 => exec A symmetrize_4 a
  | Cl41 => exec A symmetrize_41 a
  | Cl5 => exec A symmetrize_5 a
  | Cl6 => exec A symmetrize_6 a
  | Cl7 => exec A symmetrize_7 a
  | Cl71 => exec A symmetrize_71 a
  | Cl8 => exec A symmetrize_8 a
  | Cl9 => exec A symmetrize_9 a
  end.
(* EFTutil.symmetrize_nonred, common.py:937-978, one array *)
Definition symmetrize_nonred (c : cls) (a : idx -> V) : idx -> V :=
  match c with
  | Cl0 => real_part a
  | Cl1 | Cl3 => a
  | Cl2 => exec A symmetrize_2 a
  | Cl4 => divided (exec A symmetrize_4 a) d_4
  | Cl41 => divided (exec A symmetrize_41 a) d_4
  | Cl5 => exec A symmetrize_5 a
  | Cl6 => divided (exec A symmetrize_6 a) d_6
  | Cl7 => divided (exec A symmetrize_7 a) d_7
  | Cl71 => divided (exec A symmetrize_71 a) d_7
  | Cl8 => exec A symmetrize_8 (exec_from A scale_8 a)
  | Cl9 => exec A symmetrize_9 a
  end.
(* EFTutil.unscale_dict with the factors of _get_scale_dict,
   common.py:890-897 and 176-216, one array *)
Definition unscale (c : cls) (a : idx -> V) : idx -> V :=
  match c with
  | Cl4 | Cl41 => times d_4 a
  | Cl6 => times d_6 a
  | Cl7 | Cl71 => times d_7 a
  | Cl8 => exec_from A unscale_8 a
  | _ => a
  end.
End Ops.

(* _symmetry_class_defintions, common.py:12-66: labels of the non-redundant
   two-flavour basis, with the flag "real", of each class *)
Definition class_definitions : list (list (string * bool) * cls) :=
  [([], Cl0);
   ([("11", false); ("12", false); ("21", false); ("22", false)], Cl1);
   ([("11", true); ("12", false); ("22", true)], Cl2);
   ([("11", false); ("12", false); ("22", false)], Cl9);
   ([("1111", true); ("1112", false); ("1122", true); ("1212", false); ("1221", true); ("1222", false); ("2222", true)], Cl4);
   ([("1111", false); ("1112", false); ("1121", false); ("1122", false); ("1212", false); ("1221", false); ("1222", false); ("2121", false); ("2122", false); ("2222", false)], Cl41);
   ([("1111", true); ("1112", false); ("1122", true); ("1211", false); ("1212", false); ("1221", false); ("1222", false); ("2211", true); ("2212", false); ("2222", true)], Cl5);
   ([("1111", true); ("1112", false); ("1122", true); ("1212", false); ("1222", false); ("2222", true)], Cl6);
   ([("1111", false); ("1112", false); ("1121", false); ("1122", false); ("1211", false); ("1212", false); ("1221", false); ("1222", false); ("2111", false); ("2112", false); ("2121", false); ("2122", false); ("2211", false); ("2212", false); ("2221", false); ("2222", false)], Cl3);
   ([("1111", false); ("1112", false); ("1121", false); ("1122", false); ("1211", false); ("1212", false); ("1221", false); ("1222", false); ("2211", false); ("2212", false); ("2221", false); ("2222", false)], Cl7);
   ([("1211", false); ("1212", false); ("1221", false); ("1222", false)], Cl71);
   ([("1111", false); ("1112", false); ("1121", false); ("1122", false); ("1211", false); ("1212", false); ("1221", false); ("1222", false); ("2121", false); ("2122", false); ("2221", false); ("2222", false)], Cl8)]%string.
