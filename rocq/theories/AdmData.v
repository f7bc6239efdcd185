(* GENERATED by tools/gen_adm.py; do not edit.
   Data of wilson/run/wet: the anomalous dimension matrices of adm.py, the table `classes`
   of definitions.py and the table data/run_wet_definitions_coeffs.json (definitions.py:33-35).
   An entry of a matrix is the expression written in the source; entries that are the
   literal 0 are left out, so a row is a list of (column, expression). *)
From Coq Require Import List ZArith String.
Import ListNotations.
Local Open Scope string_scope.
Local Open Scope Z_scope.

(* the mass arguments of the functions in adm.py *)
Inductive mvar := Mu | Md | Ms | Mc | Mb | Me | Mmu | Mtau.
(* the expressions in adm.py: integer literals, decimal literals (n / d in lowest terms), 1j, masses, b0g, -x, x + y, x * y, x / y *)
Inductive aexp :=
| N (n : Z) | Dec (n : Z) (d : positive) | AJ | V (v : mvar) | B0
| Neg (a : aexp) | Add (a b : aexp) | Mul (a b : aexp) | Div (a b : aexp).
Definition arow := list (nat * aexp).
Definition amat := list arow.

(* adm.py:16-25 *)
Definition adm_e_I : amat := [
  [(0%nat, Div (N 4) (N 27)); (2%nat, Div (N 32) (N 9))];
  [(1%nat, Div (N 4) (N 27)); (3%nat, Div (N 32) (N 9))];
  [(0%nat, Div (N 64) (N 81)); (2%nat, Div (Neg (N 28)) (N 27))];
  [(1%nat, Div (N 64) (N 81)); (3%nat, Div (Neg (N 28)) (N 27))];
  [(4%nat, Div (Neg (N 4)) (N 3))];
  [(5%nat, Div (Neg (N 4)) (N 3))];
  [(6%nat, Div (N 4) (N 3))];
  [(7%nat, Div (N 4) (N 3))]].

(* adm.py:27-36 *)
Definition adm_s_I : amat := [
  [(0%nat, Div (Neg (N 80)) (N 9)); (2%nat, Div (N 8) (N 3))];
  [(1%nat, Div (Neg (N 80)) (N 9)); (3%nat, Div (N 8) (N 3))];
  [(0%nat, Div (N 160) (N 27)); (2%nat, Div (N 92) (N 9))];
  [(1%nat, Div (N 160) (N 27)); (3%nat, Div (N 92) (N 9))];
  [(5%nat, Neg (N 12))];
  [(4%nat, Div (Neg (N 8)) (N 3)); (5%nat, Neg (N 14))];
  [(6%nat, N 4)];
  [(7%nat, N 4)]].

(* adm.py:38-44 *)
Definition adm_e_Ie : amat := [
  [(0%nat, N 12)];
  [(1%nat, N 12)];
  [(2%nat, N 12)];
  [(3%nat, Neg (N 12))];
  [(4%nat, N 12)]].

(* adm.py:46-52 *)
Definition adm_s_Ie : amat := [
  [];
  [];
  [];
  [];
  []].

(* adm.py:54-63 *)
Definition adm_e_Iu : amat := [
  [(0%nat, Div (N 16) (N 27)); (2%nat, Div (N 128) (N 9))];
  [(1%nat, Div (N 16) (N 27)); (3%nat, Div (N 128) (N 9))];
  [(0%nat, Div (N 256) (N 81)); (2%nat, Div (Neg (N 112)) (N 27))];
  [(1%nat, Div (N 256) (N 81)); (3%nat, Div (Neg (N 112)) (N 27))];
  [(4%nat, Div (Neg (N 16)) (N 3))];
  [(5%nat, Div (Neg (N 16)) (N 3))];
  [(6%nat, Div (N 16) (N 3))];
  [(7%nat, Div (N 16) (N 3))]].

(* adm.py:65-74 *)
Definition adm_s_Iu : amat := [
  [(0%nat, Div (Neg (N 80)) (N 9)); (2%nat, Div (N 8) (N 3))];
  [(1%nat, Div (Neg (N 80)) (N 9)); (3%nat, Div (N 8) (N 3))];
  [(0%nat, Div (N 160) (N 27)); (2%nat, Div (N 92) (N 9))];
  [(1%nat, Div (N 160) (N 27)); (3%nat, Div (N 92) (N 9))];
  [(5%nat, Neg (N 12))];
  [(4%nat, Div (Neg (N 8)) (N 3)); (5%nat, Neg (N 14))];
  [(6%nat, N 4)];
  [(7%nat, N 4)]].

(* adm.py:76-92 *)
Definition adm_e_II : amat := [
  [(0%nat, Div (N 4) (N 3))];
  [(1%nat, Div (N 4) (N 3))];
  [(2%nat, Div (N 4) (N 3))];
  [(3%nat, Div (N 4) (N 3)); (6%nat, Div (N 1) (N 6))];
  [(4%nat, Div (N 4) (N 3)); (7%nat, Div (N 1) (N 6))];
  [(5%nat, Div (N 4) (N 3)); (8%nat, Div (N 1) (N 6))];
  [(3%nat, N 8); (6%nat, Div (Neg (N 40)) (N 9))];
  [(4%nat, N 8); (7%nat, Div (Neg (N 40)) (N 9))];
  [(5%nat, N 8); (8%nat, Div (Neg (N 40)) (N 9))];
  [(9%nat, Neg (N 4))];
  [(10%nat, Neg (N 4))];
  [(11%nat, Neg (N 4))];
  [(12%nat, Neg (N 2))];
  [(13%nat, Neg (N 2))];
  [(14%nat, Neg (N 2))]].

(* adm.py:94-110 *)
Definition adm_s_II : amat := [
  [(0%nat, Neg (N 8))];
  [(1%nat, Neg (N 8))];
  [(2%nat, Neg (N 8))];
  [(3%nat, Neg (N 8))];
  [(4%nat, Neg (N 8))];
  [(5%nat, Neg (N 8))];
  [(6%nat, Div (N 8) (N 3))];
  [(7%nat, Div (N 8) (N 3))];
  [(8%nat, Div (N 8) (N 3))];
  [];
  [];
  [];
  [];
  [];
  []].

(* adm.py:112-133 *)
Definition adm_e_III : amat := [
  [(0%nat, Div (Neg (N 46)) (N 9)); (2%nat, Div (Neg (N 32)) (N 27)); (6%nat, Div (Neg (N 64)) (N 9))];
  [(1%nat, Div (Neg (N 46)) (N 9)); (3%nat, Div (Neg (N 32)) (N 27)); (7%nat, Div (Neg (N 64)) (N 9))];
  [(0%nat, Div (N 4) (N 27)); (2%nat, Div (N 26) (N 9)); (4%nat, Div (N 8) (N 9))];
  [(1%nat, Div (N 4) (N 27)); (3%nat, Div (N 26) (N 9)); (5%nat, Div (N 8) (N 9))];
  [(2%nat, Div (Neg (N 128)) (N 81)); (4%nat, Div (Neg (N 46)) (N 9)); (6%nat, Div (N 32) (N 27))];
  [(3%nat, Div (Neg (N 128)) (N 81)); (5%nat, Div (Neg (N 46)) (N 9)); (7%nat, Div (N 32) (N 27))];
  [(0%nat, Div (N 16) (N 81)); (4%nat, Div (Neg (N 4)) (N 27)); (6%nat, Div (N 26) (N 9))];
  [(1%nat, Div (N 16) (N 81)); (5%nat, Div (Neg (N 4)) (N 27)); (7%nat, Div (N 26) (N 9))];
  [(8%nat, Div (N 8) (N 3))];
  [(9%nat, Div (Neg (N 8)) (N 3))];
  [(10%nat, Div (N 8) (N 3))];
  [(11%nat, Div (Neg (N 8)) (N 3))];
  [(12%nat, Div (Neg (N 10)) (N 3))];
  [(13%nat, Div (Neg (N 10)) (N 3))];
  [(14%nat, Div (N 8) (N 3))];
  [(15%nat, Div (Neg (N 8)) (N 3))];
  [(16%nat, Div (N 8) (N 3))];
  [(17%nat, Div (Neg (N 8)) (N 3))];
  [(18%nat, Div (Neg (N 10)) (N 3))];
  [(19%nat, Div (Neg (N 10)) (N 3))]].

(* adm.py:135-156 *)
Definition adm_s_III : amat := [
  [(0%nat, Neg (N 16)); (2%nat, Div (N 64) (N 9)); (4%nat, N 8); (6%nat, Div (Neg (N 16)) (N 3))];
  [(1%nat, Neg (N 16)); (3%nat, Div (N 64) (N 9)); (5%nat, N 8); (7%nat, Div (Neg (N 16)) (N 3))];
  [(0%nat, Div (N 64) (N 9)); (2%nat, Neg (N 16)); (4%nat, Div (Neg (N 16)) (N 3)); (6%nat, N 8)];
  [(1%nat, Div (N 64) (N 9)); (3%nat, Neg (N 16)); (5%nat, Div (Neg (N 16)) (N 3)); (7%nat, N 8)];
  [(0%nat, Div (N 16) (N 9)); (2%nat, Div (N 112) (N 27)); (4%nat, Div (N 16) (N 3)); (6%nat, Div (N 44) (N 9))];
  [(1%nat, Div (N 16) (N 9)); (3%nat, Div (N 112) (N 27)); (5%nat, Div (N 16) (N 3)); (7%nat, Div (N 44) (N 9))];
  [(0%nat, Div (N 112) (N 27)); (2%nat, Div (N 16) (N 9)); (4%nat, Div (N 44) (N 9)); (6%nat, Div (N 16) (N 3))];
  [(1%nat, Div (N 112) (N 27)); (3%nat, Div (N 16) (N 9)); (5%nat, Div (N 44) (N 9)); (7%nat, Div (N 16) (N 3))];
  [(14%nat, Neg (N 12))];
  [(15%nat, N 12)];
  [(16%nat, Neg (N 12))];
  [(17%nat, N 12)];
  [(18%nat, Neg (N 12))];
  [(19%nat, Neg (N 12))];
  [(8%nat, Div (Neg (N 8)) (N 3)); (14%nat, Neg (N 14))];
  [(9%nat, Div (N 8) (N 3)); (15%nat, Neg (N 4))];
  [(10%nat, Div (Neg (N 8)) (N 3)); (16%nat, Neg (N 14))];
  [(11%nat, Div (N 8) (N 3)); (17%nat, Neg (N 4))];
  [(12%nat, Div (Neg (N 8)) (N 3)); (18%nat, Neg (N 14))];
  [(13%nat, Div (Neg (N 8)) (N 3)); (19%nat, Neg (N 14))]].

(* adm.py:158-169 *)
Definition adm_e_IV : amat := [
  [(0%nat, Div (N 4) (N 27)); (2%nat, Div (N 32) (N 9))];
  [(1%nat, Div (N 4) (N 27)); (3%nat, Div (N 32) (N 9))];
  [(0%nat, Div (N 64) (N 81)); (2%nat, Div (Neg (N 28)) (N 27))];
  [(1%nat, Div (N 64) (N 81)); (3%nat, Div (Neg (N 28)) (N 27))];
  [(4%nat, Div (Neg (N 4)) (N 3))];
  [(5%nat, Div (Neg (N 4)) (N 3))];
  [(6%nat, Div (Neg (N 4)) (N 3))];
  [(7%nat, Div (Neg (N 4)) (N 3))];
  [(8%nat, Div (N 4) (N 3))];
  [(9%nat, Div (N 4) (N 3))]].

(* adm.py:171-182 *)
Definition adm_s_IV : amat := [
  [(0%nat, Div (Neg (N 80)) (N 9)); (2%nat, Div (N 8) (N 3))];
  [(1%nat, Div (Neg (N 80)) (N 9)); (3%nat, Div (N 8) (N 3))];
  [(0%nat, Div (N 160) (N 27)); (2%nat, Div (N 92) (N 9))];
  [(1%nat, Div (N 160) (N 27)); (3%nat, Div (N 92) (N 9))];
  [(6%nat, Neg (N 12))];
  [(7%nat, Neg (N 12))];
  [(4%nat, Div (Neg (N 8)) (N 3)); (6%nat, Neg (N 14))];
  [(5%nat, Div (Neg (N 8)) (N 3)); (7%nat, Neg (N 14))];
  [(8%nat, N 4)];
  [(9%nat, N 4)]].

(* adm.py:184-195 *)
Definition adm_e_Vb : amat := [
  [(0%nat, Div (Neg (N 20)) (N 3))];
  [(1%nat, Div (Neg (N 20)) (N 3))];
  [(2%nat, Div (Neg (N 20)) (N 3)); (4%nat, Div (Neg (N 2)) (N 3))];
  [(3%nat, Div (Neg (N 20)) (N 3)); (5%nat, Div (Neg (N 2)) (N 3))];
  [(2%nat, Neg (N 32)); (4%nat, Div (N 20) (N 9))];
  [(3%nat, Neg (N 32)); (5%nat, Div (N 20) (N 9))];
  [(6%nat, Neg (N 4))];
  [(7%nat, N 4)];
  [(8%nat, Neg (N 4))];
  [(9%nat, N 4)]].

(* adm.py:197-208 *)
Definition adm_s_Vb : amat := [
  [(0%nat, Neg (N 8))];
  [(1%nat, Neg (N 8))];
  [(2%nat, Neg (N 8))];
  [(3%nat, Neg (N 8))];
  [(4%nat, Div (N 8) (N 3))];
  [(5%nat, Div (N 8) (N 3))];
  [];
  [];
  [];
  []].

(* adm.py:210-221 *)
Definition adm_e_Vb_c : amat := [
  [(0%nat, Div (Neg (N 26)) (N 3))];
  [(1%nat, Div (Neg (N 26)) (N 3))];
  [(2%nat, Div (Neg (N 26)) (N 3)); (4%nat, Div (N 4) (N 3))];
  [(3%nat, Div (Neg (N 26)) (N 3)); (5%nat, Div (N 4) (N 3))];
  [(2%nat, N 64); (4%nat, Div (N 26) (N 9))];
  [(3%nat, N 64); (5%nat, Div (N 26) (N 9))];
  [(6%nat, Neg (N 8))];
  [(7%nat, N 8)];
  [(8%nat, Neg (N 8))];
  [(9%nat, N 8)]].

(* adm.py:223-234 *)
Definition adm_s_Vb_c : amat := [
  [(0%nat, Neg (N 8))];
  [(1%nat, Neg (N 8))];
  [(2%nat, Neg (N 8))];
  [(3%nat, Neg (N 8))];
  [(4%nat, Div (N 8) (N 3))];
  [(5%nat, Div (N 8) (N 3))];
  [];
  [];
  [];
  []].

(* adm.py:236-243 *)
Definition adm_e_IVe : amat := [
  [(0%nat, N 12)];
  [(1%nat, N 12)];
  [(2%nat, N 12)];
  [(3%nat, Neg (N 12))];
  [(4%nat, Neg (N 12))];
  [(5%nat, N 12)]].

(* adm.py:245-252 *)
Definition adm_s_IVe : amat := [
  [];
  [];
  [];
  [];
  [];
  []].

(* adm.py:254-273 *)
Definition adm_e_inv : amat := [
  [];
  [];
  [];
  [];
  [];
  [];
  [];
  [];
  [];
  [];
  [];
  [];
  [];
  [];
  [];
  [];
  [];
  []].

(* adm.py:275-294 *)
Definition adm_s_inv : amat := [
  [];
  [];
  [];
  [];
  [];
  [];
  [];
  [];
  [];
  [];
  [];
  [];
  [];
  [];
  [];
  [];
  [];
  []].

(* adm.py:296-411 *)
Definition adm_e_cu : amat := [
  [(0%nat, Div (Neg (N 46)) (N 9)); (6%nat, Div (Neg (N 32)) (N 27)); (22%nat, Div (Neg (N 64)) (N 9))];
  [(1%nat, Div (Neg (N 46)) (N 9)); (7%nat, Div (Neg (N 32)) (N 27)); (23%nat, Div (Neg (N 64)) (N 9))];
  [(2%nat, Div (Neg (N 46)) (N 9)); (8%nat, Div (Neg (N 32)) (N 27)); (24%nat, Div (Neg (N 64)) (N 9))];
  [(3%nat, Div (Neg (N 46)) (N 9)); (9%nat, Div (Neg (N 32)) (N 27)); (25%nat, Div (Neg (N 64)) (N 9))];
  [(4%nat, Div (Neg (N 46)) (N 9)); (10%nat, Div (Neg (N 32)) (N 27)); (26%nat, Div (Neg (N 64)) (N 9))];
  [(5%nat, Div (Neg (N 46)) (N 9)); (11%nat, Div (Neg (N 32)) (N 27)); (27%nat, Div (Neg (N 64)) (N 9))];
  [(0%nat, Div (N 4) (N 27)); (6%nat, Div (N 26) (N 9)); (16%nat, Div (N 8) (N 9))];
  [(1%nat, Div (N 4) (N 27)); (7%nat, Div (N 26) (N 9)); (17%nat, Div (N 8) (N 9))];
  [(2%nat, Div (N 4) (N 27)); (8%nat, Div (N 26) (N 9)); (18%nat, Div (N 8) (N 9))];
  [(3%nat, Div (N 4) (N 27)); (9%nat, Div (N 26) (N 9)); (19%nat, Div (N 8) (N 9))];
  [(4%nat, Div (N 4) (N 27)); (10%nat, Div (N 26) (N 9)); (20%nat, Div (N 8) (N 9))];
  [(5%nat, Div (N 4) (N 27)); (11%nat, Div (N 26) (N 9)); (21%nat, Div (N 8) (N 9))];
  [(12%nat, Div (N 16) (N 27)); (28%nat, Div (N 128) (N 9))];
  [(13%nat, Div (N 16) (N 27)); (29%nat, Div (N 128) (N 9))];
  [(14%nat, Div (N 16) (N 27)); (30%nat, Div (N 128) (N 9))];
  [(15%nat, Div (N 16) (N 27)); (31%nat, Div (N 128) (N 9))];
  [(6%nat, Div (Neg (N 128)) (N 81)); (16%nat, Div (Neg (N 46)) (N 9)); (22%nat, Div (N 32) (N 27))];
  [(7%nat, Div (Neg (N 128)) (N 81)); (17%nat, Div (Neg (N 46)) (N 9)); (23%nat, Div (N 32) (N 27))];
  [(8%nat, Div (Neg (N 128)) (N 81)); (18%nat, Div (Neg (N 46)) (N 9)); (24%nat, Div (N 32) (N 27))];
  [(9%nat, Div (Neg (N 128)) (N 81)); (19%nat, Div (Neg (N 46)) (N 9)); (25%nat, Div (N 32) (N 27))];
  [(10%nat, Div (Neg (N 128)) (N 81)); (20%nat, Div (Neg (N 46)) (N 9)); (26%nat, Div (N 32) (N 27))];
  [(11%nat, Div (Neg (N 128)) (N 81)); (21%nat, Div (Neg (N 46)) (N 9)); (27%nat, Div (N 32) (N 27))];
  [(0%nat, Div (N 16) (N 81)); (16%nat, Div (Neg (N 4)) (N 27)); (22%nat, Div (N 26) (N 9))];
  [(1%nat, Div (N 16) (N 81)); (17%nat, Div (Neg (N 4)) (N 27)); (23%nat, Div (N 26) (N 9))];
  [(2%nat, Div (N 16) (N 81)); (18%nat, Div (Neg (N 4)) (N 27)); (24%nat, Div (N 26) (N 9))];
  [(3%nat, Div (N 16) (N 81)); (19%nat, Div (Neg (N 4)) (N 27)); (25%nat, Div (N 26) (N 9))];
  [(4%nat, Div (N 16) (N 81)); (20%nat, Div (Neg (N 4)) (N 27)); (26%nat, Div (N 26) (N 9))];
  [(5%nat, Div (N 16) (N 81)); (21%nat, Div (Neg (N 4)) (N 27)); (27%nat, Div (N 26) (N 9))];
  [(12%nat, Div (N 256) (N 81)); (28%nat, Div (Neg (N 112)) (N 27))];
  [(13%nat, Div (N 256) (N 81)); (29%nat, Div (Neg (N 112)) (N 27))];
  [(14%nat, Div (N 256) (N 81)); (30%nat, Div (Neg (N 112)) (N 27))];
  [(15%nat, Div (N 256) (N 81)); (31%nat, Div (Neg (N 112)) (N 27))];
  [(32%nat, Div (Neg (N 26)) (N 3))];
  [(33%nat, Div (Neg (N 26)) (N 3))];
  [(34%nat, Div (Neg (N 26)) (N 3))];
  [(35%nat, Div (Neg (N 26)) (N 3))];
  [(36%nat, Div (Neg (N 26)) (N 3))];
  [(37%nat, Div (Neg (N 26)) (N 3))];
  [(38%nat, Div (Neg (N 26)) (N 3)); (44%nat, Div (N 4) (N 3))];
  [(39%nat, Div (Neg (N 26)) (N 3)); (45%nat, Div (N 4) (N 3))];
  [(40%nat, Div (Neg (N 26)) (N 3)); (46%nat, Div (N 4) (N 3))];
  [(41%nat, Div (Neg (N 26)) (N 3)); (47%nat, Div (N 4) (N 3))];
  [(42%nat, Div (Neg (N 26)) (N 3)); (48%nat, Div (N 4) (N 3))];
  [(43%nat, Div (Neg (N 26)) (N 3)); (49%nat, Div (N 4) (N 3))];
  [(38%nat, N 64); (44%nat, Div (N 26) (N 9))];
  [(39%nat, N 64); (45%nat, Div (N 26) (N 9))];
  [(40%nat, N 64); (46%nat, Div (N 26) (N 9))];
  [(41%nat, N 64); (47%nat, Div (N 26) (N 9))];
  [(42%nat, N 64); (48%nat, Div (N 26) (N 9))];
  [(43%nat, N 64); (49%nat, Div (N 26) (N 9))];
  [(50%nat, Div (N 28) (N 9)); (51%nat, Div (N 4) (N 9)); (52%nat, Div (N 4) (N 9)); (59%nat, Div (N 4) (N 9)); (60%nat, Div (N 4) (N 9)); (61%nat, Div (N 4) (N 9)); (68%nat, Div (Neg (N 8)) (N 9)); (71%nat, Div (Neg (N 8)) (N 9)); (97%nat, Div (N 4) (N 3)); (98%nat, Div (N 4) (N 3)); (99%nat, Div (N 4) (N 3)); (100%nat, Div (N 4) (N 3)); (101%nat, Div (N 4) (N 3)); (102%nat, Div (N 4) (N 3)); (108%nat, Div (Neg (N 8)) (N 9)); (109%nat, Div (Neg (N 8)) (N 9))];
  [(50%nat, Div (N 4) (N 9)); (51%nat, Div (N 28) (N 9)); (52%nat, Div (N 4) (N 9)); (59%nat, Div (N 4) (N 9)); (60%nat, Div (N 4) (N 9)); (61%nat, Div (N 4) (N 9)); (68%nat, Div (Neg (N 8)) (N 9)); (71%nat, Div (Neg (N 8)) (N 9)); (97%nat, Div (N 4) (N 3)); (98%nat, Div (N 4) (N 3)); (99%nat, Div (N 4) (N 3)); (100%nat, Div (N 4) (N 3)); (101%nat, Div (N 4) (N 3)); (102%nat, Div (N 4) (N 3)); (108%nat, Div (Neg (N 8)) (N 9)); (109%nat, Div (Neg (N 8)) (N 9))];
  [(50%nat, Div (N 4) (N 9)); (51%nat, Div (N 4) (N 9)); (52%nat, Div (N 28) (N 9)); (59%nat, Div (N 4) (N 9)); (60%nat, Div (N 4) (N 9)); (61%nat, Div (N 4) (N 9)); (68%nat, Div (Neg (N 8)) (N 9)); (71%nat, Div (Neg (N 8)) (N 9)); (97%nat, Div (N 4) (N 3)); (98%nat, Div (N 4) (N 3)); (99%nat, Div (N 4) (N 3)); (100%nat, Div (N 4) (N 3)); (101%nat, Div (N 4) (N 3)); (102%nat, Div (N 4) (N 3)); (108%nat, Div (Neg (N 8)) (N 9)); (109%nat, Div (Neg (N 8)) (N 9))];
  [(53%nat, Div (Neg (N 20)) (N 9)); (54%nat, Div (N 4) (N 9)); (55%nat, Div (N 4) (N 9)); (56%nat, Div (N 4) (N 9)); (57%nat, Div (N 4) (N 9)); (58%nat, Div (N 4) (N 9)); (69%nat, Div (Neg (N 8)) (N 9)); (70%nat, Div (Neg (N 8)) (N 9)); (94%nat, Div (N 4) (N 3)); (95%nat, Div (N 4) (N 3)); (96%nat, Div (N 4) (N 3)); (103%nat, Div (N 4) (N 3)); (104%nat, Div (N 4) (N 3)); (105%nat, Div (N 4) (N 3)); (106%nat, Div (Neg (N 8)) (N 9)); (107%nat, Div (Neg (N 8)) (N 9))];
  [(53%nat, Div (N 4) (N 9)); (54%nat, Div (Neg (N 20)) (N 9)); (55%nat, Div (N 4) (N 9)); (56%nat, Div (N 4) (N 9)); (57%nat, Div (N 4) (N 9)); (58%nat, Div (N 4) (N 9)); (69%nat, Div (Neg (N 8)) (N 9)); (70%nat, Div (Neg (N 8)) (N 9)); (94%nat, Div (N 4) (N 3)); (95%nat, Div (N 4) (N 3)); (96%nat, Div (N 4) (N 3)); (103%nat, Div (N 4) (N 3)); (104%nat, Div (N 4) (N 3)); (105%nat, Div (N 4) (N 3)); (106%nat, Div (Neg (N 8)) (N 9)); (107%nat, Div (Neg (N 8)) (N 9))];
  [(53%nat, Div (N 4) (N 9)); (54%nat, Div (N 4) (N 9)); (55%nat, Div (Neg (N 20)) (N 9)); (56%nat, Div (N 4) (N 9)); (57%nat, Div (N 4) (N 9)); (58%nat, Div (N 4) (N 9)); (69%nat, Div (Neg (N 8)) (N 9)); (70%nat, Div (Neg (N 8)) (N 9)); (94%nat, Div (N 4) (N 3)); (95%nat, Div (N 4) (N 3)); (96%nat, Div (N 4) (N 3)); (103%nat, Div (N 4) (N 3)); (104%nat, Div (N 4) (N 3)); (105%nat, Div (N 4) (N 3)); (106%nat, Div (Neg (N 8)) (N 9)); (107%nat, Div (Neg (N 8)) (N 9))];
  [(53%nat, Div (N 4) (N 9)); (54%nat, Div (N 4) (N 9)); (55%nat, Div (N 4) (N 9)); (56%nat, Div (N 28) (N 9)); (57%nat, Div (N 4) (N 9)); (58%nat, Div (N 4) (N 9)); (69%nat, Div (Neg (N 8)) (N 9)); (70%nat, Div (Neg (N 8)) (N 9)); (94%nat, Div (N 4) (N 3)); (95%nat, Div (N 4) (N 3)); (96%nat, Div (N 4) (N 3)); (103%nat, Div (N 4) (N 3)); (104%nat, Div (N 4) (N 3)); (105%nat, Div (N 4) (N 3)); (106%nat, Div (Neg (N 8)) (N 9)); (107%nat, Div (Neg (N 8)) (N 9))];
  [(53%nat, Div (N 4) (N 9)); (54%nat, Div (N 4) (N 9)); (55%nat, Div (N 4) (N 9)); (56%nat, Div (N 4) (N 9)); (57%nat, Div (N 28) (N 9)); (58%nat, Div (N 4) (N 9)); (69%nat, Div (Neg (N 8)) (N 9)); (70%nat, Div (Neg (N 8)) (N 9)); (94%nat, Div (N 4) (N 3)); (95%nat, Div (N 4) (N 3)); (96%nat, Div (N 4) (N 3)); (103%nat, Div (N 4) (N 3)); (104%nat, Div (N 4) (N 3)); (105%nat, Div (N 4) (N 3)); (106%nat, Div (Neg (N 8)) (N 9)); (107%nat, Div (Neg (N 8)) (N 9))];
  [(53%nat, Div (N 4) (N 9)); (54%nat, Div (N 4) (N 9)); (55%nat, Div (N 4) (N 9)); (56%nat, Div (N 4) (N 9)); (57%nat, Div (N 4) (N 9)); (58%nat, Div (N 28) (N 9)); (69%nat, Div (Neg (N 8)) (N 9)); (70%nat, Div (Neg (N 8)) (N 9)); (94%nat, Div (N 4) (N 3)); (95%nat, Div (N 4) (N 3)); (96%nat, Div (N 4) (N 3)); (103%nat, Div (N 4) (N 3)); (104%nat, Div (N 4) (N 3)); (105%nat, Div (N 4) (N 3)); (106%nat, Div (Neg (N 8)) (N 9)); (107%nat, Div (Neg (N 8)) (N 9))];
  [(50%nat, Div (N 4) (N 9)); (51%nat, Div (N 4) (N 9)); (52%nat, Div (N 4) (N 9)); (59%nat, Div (Neg (N 20)) (N 9)); (60%nat, Div (N 4) (N 9)); (61%nat, Div (N 4) (N 9)); (68%nat, Div (Neg (N 8)) (N 9)); (71%nat, Div (Neg (N 8)) (N 9)); (97%nat, Div (N 4) (N 3)); (98%nat, Div (N 4) (N 3)); (99%nat, Div (N 4) (N 3)); (100%nat, Div (N 4) (N 3)); (101%nat, Div (N 4) (N 3)); (102%nat, Div (N 4) (N 3)); (108%nat, Div (Neg (N 8)) (N 9)); (109%nat, Div (Neg (N 8)) (N 9))];
  [(50%nat, Div (N 4) (N 9)); (51%nat, Div (N 4) (N 9)); (52%nat, Div (N 4) (N 9)); (59%nat, Div (N 4) (N 9)); (60%nat, Div (Neg (N 20)) (N 9)); (61%nat, Div (N 4) (N 9)); (68%nat, Div (Neg (N 8)) (N 9)); (71%nat, Div (Neg (N 8)) (N 9)); (97%nat, Div (N 4) (N 3)); (98%nat, Div (N 4) (N 3)); (99%nat, Div (N 4) (N 3)); (100%nat, Div (N 4) (N 3)); (101%nat, Div (N 4) (N 3)); (102%nat, Div (N 4) (N 3)); (108%nat, Div (Neg (N 8)) (N 9)); (109%nat, Div (Neg (N 8)) (N 9))];
  [(50%nat, Div (N 4) (N 9)); (51%nat, Div (N 4) (N 9)); (52%nat, Div (N 4) (N 9)); (59%nat, Div (N 4) (N 9)); (60%nat, Div (N 4) (N 9)); (61%nat, Div (Neg (N 20)) (N 9)); (68%nat, Div (Neg (N 8)) (N 9)); (71%nat, Div (Neg (N 8)) (N 9)); (97%nat, Div (N 4) (N 3)); (98%nat, Div (N 4) (N 3)); (99%nat, Div (N 4) (N 3)); (100%nat, Div (N 4) (N 3)); (101%nat, Div (N 4) (N 3)); (102%nat, Div (N 4) (N 3)); (108%nat, Div (Neg (N 8)) (N 9)); (109%nat, Div (Neg (N 8)) (N 9))];
  [(62%nat, Div (Neg (N 10)) (N 3))];
  [(63%nat, Div (Neg (N 10)) (N 3))];
  [(64%nat, Div (Neg (N 10)) (N 3))];
  [(65%nat, Div (Neg (N 10)) (N 3))];
  [(66%nat, Div (Neg (N 10)) (N 3))];
  [(67%nat, Div (Neg (N 10)) (N 3))];
  [(50%nat, Div (Neg (N 8)) (N 9)); (51%nat, Div (Neg (N 8)) (N 9)); (52%nat, Div (Neg (N 8)) (N 9)); (59%nat, Div (Neg (N 8)) (N 9)); (60%nat, Div (Neg (N 8)) (N 9)); (61%nat, Div (Neg (N 8)) (N 9)); (68%nat, Div (Neg (N 32)) (N 9)); (71%nat, Div (N 16) (N 9)); (97%nat, Div (Neg (N 8)) (N 3)); (98%nat, Div (Neg (N 8)) (N 3)); (99%nat, Div (Neg (N 8)) (N 3)); (100%nat, Div (Neg (N 8)) (N 3)); (101%nat, Div (Neg (N 8)) (N 3)); (102%nat, Div (Neg (N 8)) (N 3)); (108%nat, Div (N 16) (N 9)); (109%nat, Div (N 16) (N 9))];
  [(53%nat, Div (Neg (N 8)) (N 9)); (54%nat, Div (Neg (N 8)) (N 9)); (55%nat, Div (Neg (N 8)) (N 9)); (56%nat, Div (Neg (N 8)) (N 9)); (57%nat, Div (Neg (N 8)) (N 9)); (58%nat, Div (Neg (N 8)) (N 9)); (69%nat, Div (Neg (N 32)) (N 9)); (70%nat, Div (N 16) (N 9)); (94%nat, Div (Neg (N 8)) (N 3)); (95%nat, Div (Neg (N 8)) (N 3)); (96%nat, Div (Neg (N 8)) (N 3)); (103%nat, Div (Neg (N 8)) (N 3)); (104%nat, Div (Neg (N 8)) (N 3)); (105%nat, Div (Neg (N 8)) (N 3)); (106%nat, Div (N 16) (N 9)); (107%nat, Div (N 16) (N 9))];
  [(53%nat, Div (Neg (N 8)) (N 9)); (54%nat, Div (Neg (N 8)) (N 9)); (55%nat, Div (Neg (N 8)) (N 9)); (56%nat, Div (Neg (N 8)) (N 9)); (57%nat, Div (Neg (N 8)) (N 9)); (58%nat, Div (Neg (N 8)) (N 9)); (69%nat, Div (N 16) (N 9)); (70%nat, Div (Neg (N 32)) (N 9)); (94%nat, Div (Neg (N 8)) (N 3)); (95%nat, Div (Neg (N 8)) (N 3)); (96%nat, Div (Neg (N 8)) (N 3)); (103%nat, Div (Neg (N 8)) (N 3)); (104%nat, Div (Neg (N 8)) (N 3)); (105%nat, Div (Neg (N 8)) (N 3)); (106%nat, Div (N 16) (N 9)); (107%nat, Div (N 16) (N 9))];
  [(50%nat, Div (Neg (N 8)) (N 9)); (51%nat, Div (Neg (N 8)) (N 9)); (52%nat, Div (Neg (N 8)) (N 9)); (59%nat, Div (Neg (N 8)) (N 9)); (60%nat, Div (Neg (N 8)) (N 9)); (61%nat, Div (Neg (N 8)) (N 9)); (68%nat, Div (N 16) (N 9)); (71%nat, Div (Neg (N 32)) (N 9)); (97%nat, Div (Neg (N 8)) (N 3)); (98%nat, Div (Neg (N 8)) (N 3)); (99%nat, Div (Neg (N 8)) (N 3)); (100%nat, Div (Neg (N 8)) (N 3)); (101%nat, Div (Neg (N 8)) (N 3)); (102%nat, Div (Neg (N 8)) (N 3)); (108%nat, Div (N 16) (N 9)); (109%nat, Div (N 16) (N 9))];
  [(72%nat, Div (N 8) (N 3))];
  [(73%nat, Div (N 8) (N 3))];
  [(74%nat, Div (N 8) (N 3))];
  [(75%nat, Div (Neg (N 8)) (N 3))];
  [(76%nat, Div (Neg (N 8)) (N 3))];
  [(77%nat, Div (Neg (N 8)) (N 3))];
  [(78%nat, Div (N 8) (N 3))];
  [(79%nat, Div (N 8) (N 3))];
  [(80%nat, Div (N 8) (N 3))];
  [(81%nat, Div (Neg (N 8)) (N 3))];
  [(82%nat, Div (Neg (N 8)) (N 3))];
  [(83%nat, Div (Neg (N 8)) (N 3))];
  [(84%nat, Div (Neg (N 10)) (N 3))];
  [(85%nat, Div (Neg (N 10)) (N 3))];
  [(86%nat, Div (Neg (N 10)) (N 3))];
  [(87%nat, Div (Neg (N 10)) (N 3))];
  [(88%nat, Div (Neg (N 10)) (N 3))];
  [(89%nat, Div (Neg (N 10)) (N 3))];
  [(90%nat, Div (Neg (N 16)) (N 3))];
  [(91%nat, Div (Neg (N 16)) (N 3))];
  [(92%nat, Div (Neg (N 16)) (N 3))];
  [(93%nat, Div (Neg (N 16)) (N 3))];
  [(53%nat, Div (N 4) (N 9)); (54%nat, Div (N 4) (N 9)); (55%nat, Div (N 4) (N 9)); (56%nat, Div (N 4) (N 9)); (57%nat, Div (N 4) (N 9)); (58%nat, Div (N 4) (N 9)); (69%nat, Div (Neg (N 8)) (N 9)); (70%nat, Div (Neg (N 8)) (N 9)); (94%nat, Div (Neg (N 20)) (N 3)); (95%nat, Div (N 4) (N 3)); (96%nat, Div (N 4) (N 3)); (103%nat, Div (N 4) (N 3)); (104%nat, Div (N 4) (N 3)); (105%nat, Div (N 4) (N 3)); (106%nat, Div (Neg (N 8)) (N 9)); (107%nat, Div (Neg (N 8)) (N 9))];
  [(53%nat, Div (N 4) (N 9)); (54%nat, Div (N 4) (N 9)); (55%nat, Div (N 4) (N 9)); (56%nat, Div (N 4) (N 9)); (57%nat, Div (N 4) (N 9)); (58%nat, Div (N 4) (N 9)); (69%nat, Div (Neg (N 8)) (N 9)); (70%nat, Div (Neg (N 8)) (N 9)); (94%nat, Div (N 4) (N 3)); (95%nat, Div (Neg (N 20)) (N 3)); (96%nat, Div (N 4) (N 3)); (103%nat, Div (N 4) (N 3)); (104%nat, Div (N 4) (N 3)); (105%nat, Div (N 4) (N 3)); (106%nat, Div (Neg (N 8)) (N 9)); (107%nat, Div (Neg (N 8)) (N 9))];
  [(53%nat, Div (N 4) (N 9)); (54%nat, Div (N 4) (N 9)); (55%nat, Div (N 4) (N 9)); (56%nat, Div (N 4) (N 9)); (57%nat, Div (N 4) (N 9)); (58%nat, Div (N 4) (N 9)); (69%nat, Div (Neg (N 8)) (N 9)); (70%nat, Div (Neg (N 8)) (N 9)); (94%nat, Div (N 4) (N 3)); (95%nat, Div (N 4) (N 3)); (96%nat, Div (Neg (N 20)) (N 3)); (103%nat, Div (N 4) (N 3)); (104%nat, Div (N 4) (N 3)); (105%nat, Div (N 4) (N 3)); (106%nat, Div (Neg (N 8)) (N 9)); (107%nat, Div (Neg (N 8)) (N 9))];
  [(50%nat, Div (N 4) (N 9)); (51%nat, Div (N 4) (N 9)); (52%nat, Div (N 4) (N 9)); (59%nat, Div (N 4) (N 9)); (60%nat, Div (N 4) (N 9)); (61%nat, Div (N 4) (N 9)); (68%nat, Div (Neg (N 8)) (N 9)); (71%nat, Div (Neg (N 8)) (N 9)); (97%nat, Div (N 28) (N 3)); (98%nat, Div (N 4) (N 3)); (99%nat, Div (N 4) (N 3)); (100%nat, Div (N 4) (N 3)); (101%nat, Div (N 4) (N 3)); (102%nat, Div (N 4) (N 3)); (108%nat, Div (Neg (N 8)) (N 9)); (109%nat, Div (Neg (N 8)) (N 9))];
  [(50%nat, Div (N 4) (N 9)); (51%nat, Div (N 4) (N 9)); (52%nat, Div (N 4) (N 9)); (59%nat, Div (N 4) (N 9)); (60%nat, Div (N 4) (N 9)); (61%nat, Div (N 4) (N 9)); (68%nat, Div (Neg (N 8)) (N 9)); (71%nat, Div (Neg (N 8)) (N 9)); (97%nat, Div (N 4) (N 3)); (98%nat, Div (N 28) (N 3)); (99%nat, Div (N 4) (N 3)); (100%nat, Div (N 4) (N 3)); (101%nat, Div (N 4) (N 3)); (102%nat, Div (N 4) (N 3)); (108%nat, Div (Neg (N 8)) (N 9)); (109%nat, Div (Neg (N 8)) (N 9))];
  [(50%nat, Div (N 4) (N 9)); (51%nat, Div (N 4) (N 9)); (52%nat, Div (N 4) (N 9)); (59%nat, Div (N 4) (N 9)); (60%nat, Div (N 4) (N 9)); (61%nat, Div (N 4) (N 9)); (68%nat, Div (Neg (N 8)) (N 9)); (71%nat, Div (Neg (N 8)) (N 9)); (97%nat, Div (N 4) (N 3)); (98%nat, Div (N 4) (N 3)); (99%nat, Div (N 28) (N 3)); (100%nat, Div (N 4) (N 3)); (101%nat, Div (N 4) (N 3)); (102%nat, Div (N 4) (N 3)); (108%nat, Div (Neg (N 8)) (N 9)); (109%nat, Div (Neg (N 8)) (N 9))];
  [(50%nat, Div (N 4) (N 9)); (51%nat, Div (N 4) (N 9)); (52%nat, Div (N 4) (N 9)); (59%nat, Div (N 4) (N 9)); (60%nat, Div (N 4) (N 9)); (61%nat, Div (N 4) (N 9)); (68%nat, Div (Neg (N 8)) (N 9)); (71%nat, Div (Neg (N 8)) (N 9)); (97%nat, Div (N 4) (N 3)); (98%nat, Div (N 4) (N 3)); (99%nat, Div (N 4) (N 3)); (100%nat, Div (Neg (N 20)) (N 3)); (101%nat, Div (N 4) (N 3)); (102%nat, Div (N 4) (N 3)); (108%nat, Div (Neg (N 8)) (N 9)); (109%nat, Div (Neg (N 8)) (N 9))];
  [(50%nat, Div (N 4) (N 9)); (51%nat, Div (N 4) (N 9)); (52%nat, Div (N 4) (N 9)); (59%nat, Div (N 4) (N 9)); (60%nat, Div (N 4) (N 9)); (61%nat, Div (N 4) (N 9)); (68%nat, Div (Neg (N 8)) (N 9)); (71%nat, Div (Neg (N 8)) (N 9)); (97%nat, Div (N 4) (N 3)); (98%nat, Div (N 4) (N 3)); (99%nat, Div (N 4) (N 3)); (100%nat, Div (N 4) (N 3)); (101%nat, Div (Neg (N 20)) (N 3)); (102%nat, Div (N 4) (N 3)); (108%nat, Div (Neg (N 8)) (N 9)); (109%nat, Div (Neg (N 8)) (N 9))];
  [(50%nat, Div (N 4) (N 9)); (51%nat, Div (N 4) (N 9)); (52%nat, Div (N 4) (N 9)); (59%nat, Div (N 4) (N 9)); (60%nat, Div (N 4) (N 9)); (61%nat, Div (N 4) (N 9)); (68%nat, Div (Neg (N 8)) (N 9)); (71%nat, Div (Neg (N 8)) (N 9)); (97%nat, Div (N 4) (N 3)); (98%nat, Div (N 4) (N 3)); (99%nat, Div (N 4) (N 3)); (100%nat, Div (N 4) (N 3)); (101%nat, Div (N 4) (N 3)); (102%nat, Div (Neg (N 20)) (N 3)); (108%nat, Div (Neg (N 8)) (N 9)); (109%nat, Div (Neg (N 8)) (N 9))];
  [(53%nat, Div (N 4) (N 9)); (54%nat, Div (N 4) (N 9)); (55%nat, Div (N 4) (N 9)); (56%nat, Div (N 4) (N 9)); (57%nat, Div (N 4) (N 9)); (58%nat, Div (N 4) (N 9)); (69%nat, Div (Neg (N 8)) (N 9)); (70%nat, Div (Neg (N 8)) (N 9)); (94%nat, Div (N 4) (N 3)); (95%nat, Div (N 4) (N 3)); (96%nat, Div (N 4) (N 3)); (103%nat, Div (N 28) (N 3)); (104%nat, Div (N 4) (N 3)); (105%nat, Div (N 4) (N 3)); (106%nat, Div (Neg (N 8)) (N 9)); (107%nat, Div (Neg (N 8)) (N 9))];
  [(53%nat, Div (N 4) (N 9)); (54%nat, Div (N 4) (N 9)); (55%nat, Div (N 4) (N 9)); (56%nat, Div (N 4) (N 9)); (57%nat, Div (N 4) (N 9)); (58%nat, Div (N 4) (N 9)); (69%nat, Div (Neg (N 8)) (N 9)); (70%nat, Div (Neg (N 8)) (N 9)); (94%nat, Div (N 4) (N 3)); (95%nat, Div (N 4) (N 3)); (96%nat, Div (N 4) (N 3)); (103%nat, Div (N 4) (N 3)); (104%nat, Div (N 28) (N 3)); (105%nat, Div (N 4) (N 3)); (106%nat, Div (Neg (N 8)) (N 9)); (107%nat, Div (Neg (N 8)) (N 9))];
  [(53%nat, Div (N 4) (N 9)); (54%nat, Div (N 4) (N 9)); (55%nat, Div (N 4) (N 9)); (56%nat, Div (N 4) (N 9)); (57%nat, Div (N 4) (N 9)); (58%nat, Div (N 4) (N 9)); (69%nat, Div (Neg (N 8)) (N 9)); (70%nat, Div (Neg (N 8)) (N 9)); (94%nat, Div (N 4) (N 3)); (95%nat, Div (N 4) (N 3)); (96%nat, Div (N 4) (N 3)); (103%nat, Div (N 4) (N 3)); (104%nat, Div (N 4) (N 3)); (105%nat, Div (N 28) (N 3)); (106%nat, Div (Neg (N 8)) (N 9)); (107%nat, Div (Neg (N 8)) (N 9))];
  [(53%nat, Div (Neg (N 32)) (N 27)); (54%nat, Div (Neg (N 32)) (N 27)); (55%nat, Div (Neg (N 32)) (N 27)); (56%nat, Div (Neg (N 32)) (N 27)); (57%nat, Div (Neg (N 32)) (N 27)); (58%nat, Div (Neg (N 32)) (N 27)); (69%nat, Div (N 64) (N 27)); (70%nat, Div (N 64) (N 27)); (94%nat, Div (Neg (N 32)) (N 9)); (95%nat, Div (Neg (N 32)) (N 9)); (96%nat, Div (Neg (N 32)) (N 9)); (103%nat, Div (Neg (N 32)) (N 9)); (104%nat, Div (Neg (N 32)) (N 9)); (105%nat, Div (Neg (N 32)) (N 9)); (106%nat, Div (N 208) (N 27)); (107%nat, Div (N 64) (N 27))];
  [(53%nat, Div (Neg (N 32)) (N 27)); (54%nat, Div (Neg (N 32)) (N 27)); (55%nat, Div (Neg (N 32)) (N 27)); (56%nat, Div (Neg (N 32)) (N 27)); (57%nat, Div (Neg (N 32)) (N 27)); (58%nat, Div (Neg (N 32)) (N 27)); (69%nat, Div (N 64) (N 27)); (70%nat, Div (N 64) (N 27)); (94%nat, Div (Neg (N 32)) (N 9)); (95%nat, Div (Neg (N 32)) (N 9)); (96%nat, Div (Neg (N 32)) (N 9)); (103%nat, Div (Neg (N 32)) (N 9)); (104%nat, Div (Neg (N 32)) (N 9)); (105%nat, Div (Neg (N 32)) (N 9)); (106%nat, Div (N 64) (N 27)); (107%nat, Div (N 208) (N 27))];
  [(50%nat, Div (Neg (N 32)) (N 27)); (51%nat, Div (Neg (N 32)) (N 27)); (52%nat, Div (Neg (N 32)) (N 27)); (59%nat, Div (Neg (N 32)) (N 27)); (60%nat, Div (Neg (N 32)) (N 27)); (61%nat, Div (Neg (N 32)) (N 27)); (68%nat, Div (N 64) (N 27)); (71%nat, Div (N 64) (N 27)); (97%nat, Div (Neg (N 32)) (N 9)); (98%nat, Div (Neg (N 32)) (N 9)); (99%nat, Div (Neg (N 32)) (N 9)); (100%nat, Div (Neg (N 32)) (N 9)); (101%nat, Div (Neg (N 32)) (N 9)); (102%nat, Div (Neg (N 32)) (N 9)); (108%nat, Div (N 208) (N 27)); (109%nat, Div (N 64) (N 27))];
  [(50%nat, Div (Neg (N 32)) (N 27)); (51%nat, Div (Neg (N 32)) (N 27)); (52%nat, Div (Neg (N 32)) (N 27)); (59%nat, Div (Neg (N 32)) (N 27)); (60%nat, Div (Neg (N 32)) (N 27)); (61%nat, Div (Neg (N 32)) (N 27)); (68%nat, Div (N 64) (N 27)); (71%nat, Div (N 64) (N 27)); (97%nat, Div (Neg (N 32)) (N 9)); (98%nat, Div (Neg (N 32)) (N 9)); (99%nat, Div (Neg (N 32)) (N 9)); (100%nat, Div (Neg (N 32)) (N 9)); (101%nat, Div (Neg (N 32)) (N 9)); (102%nat, Div (Neg (N 32)) (N 9)); (108%nat, Div (N 64) (N 27)); (109%nat, Div (N 208) (N 27))];
  [(110%nat, Div (N 32) (N 9))];
  [(111%nat, Div (N 32) (N 9))];
  [(110%nat, Div (N 16) (N 3)); (112%nat, Dec 711111111111111 100000000000000)];
  [(111%nat, Div (N 16) (N 3)); (113%nat, Dec 711111111111111 100000000000000)]].

(* adm.py:413-529 *)
Definition adm_s_cu : amat := [
  [(0%nat, Neg (N 16)); (6%nat, Div (N 64) (N 9)); (16%nat, N 8); (22%nat, Div (Neg (N 16)) (N 3))];
  [(1%nat, Neg (N 16)); (7%nat, Div (N 64) (N 9)); (17%nat, N 8); (23%nat, Div (Neg (N 16)) (N 3))];
  [(2%nat, Neg (N 16)); (8%nat, Div (N 64) (N 9)); (18%nat, N 8); (24%nat, Div (Neg (N 16)) (N 3))];
  [(3%nat, Neg (N 16)); (9%nat, Div (N 64) (N 9)); (19%nat, N 8); (25%nat, Div (Neg (N 16)) (N 3))];
  [(4%nat, Neg (N 16)); (10%nat, Div (N 64) (N 9)); (20%nat, N 8); (26%nat, Div (Neg (N 16)) (N 3))];
  [(5%nat, Neg (N 16)); (11%nat, Div (N 64) (N 9)); (21%nat, N 8); (27%nat, Div (Neg (N 16)) (N 3))];
  [(0%nat, Div (N 64) (N 9)); (6%nat, Neg (N 16)); (16%nat, Div (Neg (N 16)) (N 3)); (22%nat, N 8); (110%nat, Div (V Md) (V Mc)); (112%nat, Div (Neg (V Md)) (Mul (N 3) (V Mc)))];
  [(1%nat, Div (N 64) (N 9)); (7%nat, Neg (N 16)); (17%nat, Div (Neg (N 16)) (N 3)); (23%nat, N 8); (110%nat, Div (V Ms) (V Mc)); (112%nat, Div (Neg (V Ms)) (Mul (N 3) (V Mc)))];
  [(2%nat, Div (N 64) (N 9)); (8%nat, Neg (N 16)); (18%nat, Div (Neg (N 16)) (N 3)); (24%nat, N 8); (110%nat, Div (V Mb) (V Mc)); (112%nat, Div (Neg (V Mb)) (Mul (N 3) (V Mc)))];
  [(3%nat, Div (N 64) (N 9)); (9%nat, Neg (N 16)); (19%nat, Div (Neg (N 16)) (N 3)); (25%nat, N 8); (111%nat, Div (V Md) (V Mc)); (113%nat, Div (Neg (V Md)) (Mul (N 3) (V Mc)))];
  [(4%nat, Div (N 64) (N 9)); (10%nat, Neg (N 16)); (20%nat, Div (Neg (N 16)) (N 3)); (26%nat, N 8); (111%nat, Div (V Ms) (V Mc)); (113%nat, Div (Neg (V Ms)) (Mul (N 3) (V Mc)))];
  [(5%nat, Div (N 64) (N 9)); (11%nat, Neg (N 16)); (21%nat, Div (Neg (N 16)) (N 3)); (27%nat, N 8); (111%nat, Div (V Mb) (V Mc)); (113%nat, Div (Neg (V Mb)) (Mul (N 3) (V Mc)))];
  [(12%nat, Div (Neg (N 80)) (N 9)); (28%nat, Div (N 8) (N 3)); (110%nat, Div (V Mu) (V Mc)); (112%nat, Div (Mul (N 2) (V Mu)) (Mul (N 3) (V Mc)))];
  [(13%nat, Div (Neg (N 80)) (N 9)); (29%nat, Div (N 8) (N 3)); (111%nat, Div (V Mu) (V Mc)); (113%nat, Div (Mul (N 2) (V Mu)) (Mul (N 3) (V Mc)))];
  [(14%nat, Div (Neg (N 80)) (N 9)); (30%nat, Div (N 8) (N 3)); (110%nat, N 1); (112%nat, Div (N 2) (N 3))];
  [(15%nat, Div (Neg (N 80)) (N 9)); (31%nat, Div (N 8) (N 3)); (111%nat, N 1); (113%nat, Div (N 2) (N 3))];
  [(0%nat, Div (N 16) (N 9)); (6%nat, Div (N 112) (N 27)); (16%nat, Div (N 16) (N 3)); (22%nat, Div (N 44) (N 9))];
  [(1%nat, Div (N 16) (N 9)); (7%nat, Div (N 112) (N 27)); (17%nat, Div (N 16) (N 3)); (23%nat, Div (N 44) (N 9))];
  [(2%nat, Div (N 16) (N 9)); (8%nat, Div (N 112) (N 27)); (18%nat, Div (N 16) (N 3)); (24%nat, Div (N 44) (N 9))];
  [(3%nat, Div (N 16) (N 9)); (9%nat, Div (N 112) (N 27)); (19%nat, Div (N 16) (N 3)); (25%nat, Div (N 44) (N 9))];
  [(4%nat, Div (N 16) (N 9)); (10%nat, Div (N 112) (N 27)); (20%nat, Div (N 16) (N 3)); (26%nat, Div (N 44) (N 9))];
  [(5%nat, Div (N 16) (N 9)); (11%nat, Div (N 112) (N 27)); (21%nat, Div (N 16) (N 3)); (27%nat, Div (N 44) (N 9))];
  [(0%nat, Div (N 112) (N 27)); (6%nat, Div (N 16) (N 9)); (16%nat, Div (N 44) (N 9)); (22%nat, Div (N 16) (N 3)); (110%nat, Div (Neg (V Md)) (Mul (N 6) (V Mc))); (112%nat, Div (Mul (Neg (N 4)) (V Md)) (Mul (N 9) (V Mc)))];
  [(1%nat, Div (N 112) (N 27)); (7%nat, Div (N 16) (N 9)); (17%nat, Div (N 44) (N 9)); (23%nat, Div (N 16) (N 3)); (110%nat, Div (Neg (V Ms)) (Mul (N 6) (V Mc))); (112%nat, Div (Mul (Neg (N 4)) (V Ms)) (Mul (N 9) (V Mc)))];
  [(2%nat, Div (N 112) (N 27)); (8%nat, Div (N 16) (N 9)); (18%nat, Div (N 44) (N 9)); (24%nat, Div (N 16) (N 3)); (110%nat, Div (Neg (V Mb)) (Mul (N 6) (V Mc))); (112%nat, Div (Mul (Neg (N 4)) (V Mb)) (Mul (N 9) (V Mc)))];
  [(3%nat, Div (N 112) (N 27)); (9%nat, Div (N 16) (N 9)); (19%nat, Div (N 44) (N 9)); (25%nat, Div (N 16) (N 3)); (111%nat, Div (Neg (V Md)) (Mul (N 6) (V Mc))); (113%nat, Div (Mul (Neg (N 4)) (V Md)) (Mul (N 9) (V Mc)))];
  [(4%nat, Div (N 112) (N 27)); (10%nat, Div (N 16) (N 9)); (20%nat, Div (N 44) (N 9)); (26%nat, Div (N 16) (N 3)); (111%nat, Div (Neg (V Ms)) (Mul (N 6) (V Mc))); (113%nat, Div (Mul (Neg (N 4)) (V Ms)) (Mul (N 9) (V Mc)))];
  [(5%nat, Div (N 112) (N 27)); (11%nat, Div (N 16) (N 9)); (21%nat, Div (N 44) (N 9)); (27%nat, Div (N 16) (N 3)); (111%nat, Div (Neg (V Mb)) (Mul (N 6) (V Mc))); (113%nat, Div (Mul (Neg (N 4)) (V Mb)) (Mul (N 9) (V Mc)))];
  [(12%nat, Div (N 160) (N 27)); (28%nat, Div (N 92) (N 9)); (110%nat, Div (Neg (V Mu)) (Mul (N 6) (V Mc))); (112%nat, Div (Mul (N 8) (V Mu)) (Mul (N 9) (V Mc)))];
  [(13%nat, Div (N 160) (N 27)); (29%nat, Div (N 92) (N 9)); (111%nat, Div (Neg (V Mu)) (Mul (N 6) (V Mc))); (113%nat, Div (Mul (N 8) (V Mu)) (Mul (N 9) (V Mc)))];
  [(14%nat, Div (N 160) (N 27)); (30%nat, Div (N 92) (N 9)); (110%nat, Div (Neg (N 1)) (N 6)); (112%nat, Div (N 8) (N 9))];
  [(15%nat, Div (N 160) (N 27)); (31%nat, Div (N 92) (N 9)); (111%nat, Div (Neg (N 1)) (N 6)); (113%nat, Div (N 8) (N 9))];
  [(32%nat, Neg (N 8))];
  [(33%nat, Neg (N 8))];
  [(34%nat, Neg (N 8))];
  [(35%nat, Neg (N 8))];
  [(36%nat, Neg (N 8))];
  [(37%nat, Neg (N 8))];
  [(38%nat, Neg (N 8))];
  [(39%nat, Neg (N 8))];
  [(40%nat, Neg (N 8))];
  [(41%nat, Neg (N 8))];
  [(42%nat, Neg (N 8))];
  [(43%nat, Neg (N 8))];
  [(44%nat, Div (N 8) (N 3)); (112%nat, Div (Mul (N 8) (V Me)) (V Mc))];
  [(45%nat, Div (N 8) (N 3)); (113%nat, Div (Mul (N 8) (V Me)) (V Mc))];
  [(46%nat, Div (N 8) (N 3)); (112%nat, Div (Mul (N 8) (V Mmu)) (V Mc))];
  [(47%nat, Div (N 8) (N 3)); (113%nat, Div (Mul (N 8) (V Mmu)) (V Mc))];
  [(48%nat, Div (N 8) (N 3)); (112%nat, Div (Mul (N 8) (V Mtau)) (V Mc))];
  [(49%nat, Div (N 8) (N 3)); (113%nat, Div (Mul (N 8) (V Mtau)) (V Mc))];
  [(72%nat, Neg (N 12))];
  [(73%nat, Neg (N 12))];
  [(74%nat, Neg (N 12))];
  [(75%nat, N 12)];
  [(76%nat, N 12)];
  [(77%nat, N 12)];
  [(78%nat, Neg (N 12))];
  [(79%nat, Neg (N 12))];
  [(80%nat, Neg (N 12))];
  [(81%nat, N 12)];
  [(82%nat, N 12)];
  [(83%nat, N 12)];
  [(84%nat, Neg (N 12))];
  [(85%nat, Neg (N 12))];
  [(86%nat, Neg (N 12))];
  [(87%nat, Neg (N 12))];
  [(88%nat, Neg (N 12))];
  [(89%nat, Neg (N 12))];
  [(90%nat, Neg (N 12))];
  [(91%nat, Neg (N 12))];
  [(92%nat, Neg (N 12))];
  [(93%nat, Neg (N 12))];
  [(50%nat, Div (Neg (N 8)) (N 3)); (72%nat, Div (Neg (N 40)) (N 3)); (73%nat, Div (N 2) (N 3)); (74%nat, Div (N 2) (N 3)); (81%nat, Div (N 2) (N 3)); (82%nat, Div (N 2) (N 3)); (83%nat, Div (N 2) (N 3)); (90%nat, Div (N 2) (N 3)); (93%nat, Div (N 2) (N 3)); (108%nat, Div (N 2) (N 9)); (109%nat, Div (N 2) (N 9))];
  [(51%nat, Div (Neg (N 8)) (N 3)); (72%nat, Div (N 2) (N 3)); (73%nat, Div (Neg (N 40)) (N 3)); (74%nat, Div (N 2) (N 3)); (81%nat, Div (N 2) (N 3)); (82%nat, Div (N 2) (N 3)); (83%nat, Div (N 2) (N 3)); (90%nat, Div (N 2) (N 3)); (93%nat, Div (N 2) (N 3)); (108%nat, Div (N 2) (N 9)); (109%nat, Div (N 2) (N 9))];
  [(52%nat, Div (Neg (N 8)) (N 3)); (72%nat, Div (N 2) (N 3)); (73%nat, Div (N 2) (N 3)); (74%nat, Div (Neg (N 40)) (N 3)); (81%nat, Div (N 2) (N 3)); (82%nat, Div (N 2) (N 3)); (83%nat, Div (N 2) (N 3)); (90%nat, Div (N 2) (N 3)); (93%nat, Div (N 2) (N 3)); (108%nat, Div (N 2) (N 9)); (109%nat, Div (N 2) (N 9))];
  [(53%nat, Div (N 8) (N 3)); (75%nat, Div (Neg (N 10)) (N 3)); (76%nat, Div (N 2) (N 3)); (77%nat, Div (N 2) (N 3)); (78%nat, Div (N 2) (N 3)); (79%nat, Div (N 2) (N 3)); (80%nat, Div (N 2) (N 3)); (91%nat, Div (N 2) (N 3)); (92%nat, Div (N 2) (N 3)); (106%nat, Div (N 2) (N 9)); (107%nat, Div (N 2) (N 9))];
  [(54%nat, Div (N 8) (N 3)); (75%nat, Div (N 2) (N 3)); (76%nat, Div (Neg (N 10)) (N 3)); (77%nat, Div (N 2) (N 3)); (78%nat, Div (N 2) (N 3)); (79%nat, Div (N 2) (N 3)); (80%nat, Div (N 2) (N 3)); (91%nat, Div (N 2) (N 3)); (92%nat, Div (N 2) (N 3)); (106%nat, Div (N 2) (N 9)); (107%nat, Div (N 2) (N 9))];
  [(55%nat, Div (N 8) (N 3)); (75%nat, Div (N 2) (N 3)); (76%nat, Div (N 2) (N 3)); (77%nat, Div (Neg (N 10)) (N 3)); (78%nat, Div (N 2) (N 3)); (79%nat, Div (N 2) (N 3)); (80%nat, Div (N 2) (N 3)); (91%nat, Div (N 2) (N 3)); (92%nat, Div (N 2) (N 3)); (106%nat, Div (N 2) (N 9)); (107%nat, Div (N 2) (N 9))];
  [(56%nat, Div (Neg (N 8)) (N 3)); (75%nat, Div (N 2) (N 3)); (76%nat, Div (N 2) (N 3)); (77%nat, Div (N 2) (N 3)); (78%nat, Div (Neg (N 40)) (N 3)); (79%nat, Div (N 2) (N 3)); (80%nat, Div (N 2) (N 3)); (91%nat, Div (N 2) (N 3)); (92%nat, Div (N 2) (N 3)); (106%nat, Div (N 2) (N 9)); (107%nat, Div (N 2) (N 9))];
  [(57%nat, Div (Neg (N 8)) (N 3)); (75%nat, Div (N 2) (N 3)); (76%nat, Div (N 2) (N 3)); (77%nat, Div (N 2) (N 3)); (78%nat, Div (N 2) (N 3)); (79%nat, Div (Neg (N 40)) (N 3)); (80%nat, Div (N 2) (N 3)); (91%nat, Div (N 2) (N 3)); (92%nat, Div (N 2) (N 3)); (106%nat, Div (N 2) (N 9)); (107%nat, Div (N 2) (N 9))];
  [(58%nat, Div (Neg (N 8)) (N 3)); (75%nat, Div (N 2) (N 3)); (76%nat, Div (N 2) (N 3)); (77%nat, Div (N 2) (N 3)); (78%nat, Div (N 2) (N 3)); (79%nat, Div (N 2) (N 3)); (80%nat, Div (Neg (N 40)) (N 3)); (91%nat, Div (N 2) (N 3)); (92%nat, Div (N 2) (N 3)); (106%nat, Div (N 2) (N 9)); (107%nat, Div (N 2) (N 9))];
  [(59%nat, Div (N 8) (N 3)); (72%nat, Div (N 2) (N 3)); (73%nat, Div (N 2) (N 3)); (74%nat, Div (N 2) (N 3)); (81%nat, Div (Neg (N 10)) (N 3)); (82%nat, Div (N 2) (N 3)); (83%nat, Div (N 2) (N 3)); (90%nat, Div (N 2) (N 3)); (93%nat, Div (N 2) (N 3)); (108%nat, Div (N 2) (N 9)); (109%nat, Div (N 2) (N 9))];
  [(60%nat, Div (N 8) (N 3)); (72%nat, Div (N 2) (N 3)); (73%nat, Div (N 2) (N 3)); (74%nat, Div (N 2) (N 3)); (81%nat, Div (N 2) (N 3)); (82%nat, Div (Neg (N 10)) (N 3)); (83%nat, Div (N 2) (N 3)); (90%nat, Div (N 2) (N 3)); (93%nat, Div (N 2) (N 3)); (108%nat, Div (N 2) (N 9)); (109%nat, Div (N 2) (N 9))];
  [(61%nat, Div (N 8) (N 3)); (72%nat, Div (N 2) (N 3)); (73%nat, Div (N 2) (N 3)); (74%nat, Div (N 2) (N 3)); (81%nat, Div (N 2) (N 3)); (82%nat, Div (N 2) (N 3)); (83%nat, Div (Neg (N 10)) (N 3)); (90%nat, Div (N 2) (N 3)); (93%nat, Div (N 2) (N 3)); (108%nat, Div (N 2) (N 9)); (109%nat, Div (N 2) (N 9))];
  [(62%nat, Div (Neg (N 8)) (N 3)); (84%nat, Neg (N 14))];
  [(63%nat, Div (Neg (N 8)) (N 3)); (85%nat, Neg (N 14))];
  [(64%nat, Div (Neg (N 8)) (N 3)); (86%nat, Neg (N 14))];
  [(65%nat, Div (Neg (N 8)) (N 3)); (87%nat, Neg (N 14))];
  [(66%nat, Div (Neg (N 8)) (N 3)); (88%nat, Neg (N 14))];
  [(67%nat, Div (Neg (N 8)) (N 3)); (89%nat, Neg (N 14))];
  [(68%nat, Div (Neg (N 8)) (N 3)); (72%nat, Div (N 2) (N 3)); (73%nat, Div (N 2) (N 3)); (74%nat, Div (N 2) (N 3)); (81%nat, Div (N 2) (N 3)); (82%nat, Div (N 2) (N 3)); (83%nat, Div (N 2) (N 3)); (90%nat, Div (Neg (N 40)) (N 3)); (93%nat, Div (N 2) (N 3)); (108%nat, Div (N 2) (N 9)); (109%nat, Div (N 2) (N 9))];
  [(69%nat, Div (Neg (N 8)) (N 3)); (75%nat, Div (N 2) (N 3)); (76%nat, Div (N 2) (N 3)); (77%nat, Div (N 2) (N 3)); (78%nat, Div (N 2) (N 3)); (79%nat, Div (N 2) (N 3)); (80%nat, Div (N 2) (N 3)); (91%nat, Div (Neg (N 40)) (N 3)); (92%nat, Div (N 2) (N 3)); (106%nat, Div (N 2) (N 9)); (107%nat, Div (N 2) (N 9))];
  [(70%nat, Div (Neg (N 8)) (N 3)); (75%nat, Div (N 2) (N 3)); (76%nat, Div (N 2) (N 3)); (77%nat, Div (N 2) (N 3)); (78%nat, Div (N 2) (N 3)); (79%nat, Div (N 2) (N 3)); (80%nat, Div (N 2) (N 3)); (91%nat, Div (N 2) (N 3)); (92%nat, Div (Neg (N 40)) (N 3)); (106%nat, Div (N 2) (N 9)); (107%nat, Div (N 2) (N 9))];
  [(71%nat, Div (Neg (N 8)) (N 3)); (72%nat, Div (N 2) (N 3)); (73%nat, Div (N 2) (N 3)); (74%nat, Div (N 2) (N 3)); (81%nat, Div (N 2) (N 3)); (82%nat, Div (N 2) (N 3)); (83%nat, Div (N 2) (N 3)); (90%nat, Div (N 2) (N 3)); (93%nat, Div (Neg (N 40)) (N 3)); (108%nat, Div (N 2) (N 9)); (109%nat, Div (N 2) (N 9))];
  [];
  [];
  [];
  [];
  [];
  [];
  [];
  [];
  [];
  [];
  [];
  [];
  [(75%nat, Div (N 4) (N 3)); (76%nat, Div (N 4) (N 3)); (77%nat, Div (N 4) (N 3)); (78%nat, Div (N 4) (N 3)); (79%nat, Div (N 4) (N 3)); (80%nat, Div (N 4) (N 3)); (91%nat, Div (N 4) (N 3)); (92%nat, Div (N 4) (N 3)); (106%nat, Div (N 40) (N 9)); (107%nat, Div (N 4) (N 9))];
  [(75%nat, Div (N 4) (N 3)); (76%nat, Div (N 4) (N 3)); (77%nat, Div (N 4) (N 3)); (78%nat, Div (N 4) (N 3)); (79%nat, Div (N 4) (N 3)); (80%nat, Div (N 4) (N 3)); (91%nat, Div (N 4) (N 3)); (92%nat, Div (N 4) (N 3)); (106%nat, Div (N 4) (N 9)); (107%nat, Div (N 40) (N 9))];
  [(72%nat, Div (N 4) (N 3)); (73%nat, Div (N 4) (N 3)); (74%nat, Div (N 4) (N 3)); (81%nat, Div (N 4) (N 3)); (82%nat, Div (N 4) (N 3)); (83%nat, Div (N 4) (N 3)); (90%nat, Div (N 4) (N 3)); (93%nat, Div (N 4) (N 3)); (108%nat, Div (N 40) (N 9)); (109%nat, Div (N 4) (N 9))];
  [(72%nat, Div (N 4) (N 3)); (73%nat, Div (N 4) (N 3)); (74%nat, Div (N 4) (N 3)); (81%nat, Div (N 4) (N 3)); (82%nat, Div (N 4) (N 3)); (83%nat, Div (N 4) (N 3)); (90%nat, Div (N 4) (N 3)); (93%nat, Div (N 4) (N 3)); (108%nat, Div (N 4) (N 9)); (109%nat, Div (N 40) (N 9))];
  [(110%nat, Add (Mul (Neg (N 2)) B0) (Div (N 28) (N 3))); (112%nat, Div (N 64) (N 9))];
  [(111%nat, Add (Mul (Neg (N 2)) B0) (Div (N 28) (N 3))); (113%nat, Div (N 64) (N 9))];
  [(112%nat, Add (Mul (Neg (N 2)) B0) (Div (N 32) (N 3)))];
  [(113%nat, Add (Mul (Neg (N 2)) B0) (Div (N 32) (N 3)))]].

(* adm.py:531-646 *)
Definition adm_e_db : amat := [
  [(0%nat, Div (N 4) (N 27)); (16%nat, Div (N 32) (N 9))];
  [(1%nat, Div (N 4) (N 27)); (17%nat, Div (N 32) (N 9))];
  [(2%nat, Div (Neg (N 4)) (N 9)); (3%nat, Div (N 16) (N 27)); (19%nat, Div (N 32) (N 9))];
  [(2%nat, Div (N 16) (N 27)); (3%nat, Div (Neg (N 4)) (N 9)); (18%nat, Div (N 32) (N 9))];
  [(4%nat, Div (N 4) (N 27)); (20%nat, Div (N 32) (N 9))];
  [(5%nat, Div (Neg (N 4)) (N 9)); (6%nat, Div (N 16) (N 27)); (22%nat, Div (N 32) (N 9))];
  [(5%nat, Div (N 16) (N 27)); (6%nat, Div (Neg (N 4)) (N 9)); (21%nat, Div (N 32) (N 9))];
  [(7%nat, Div (N 4) (N 27)); (23%nat, Div (N 32) (N 9))];
  [(8%nat, Div (Neg (N 46)) (N 9)); (13%nat, Div (Neg (N 32)) (N 27)); (29%nat, Div (Neg (N 64)) (N 9))];
  [(9%nat, Div (Neg (N 46)) (N 9)); (12%nat, Div (Neg (N 32)) (N 27)); (28%nat, Div (Neg (N 64)) (N 9))];
  [(10%nat, Div (Neg (N 46)) (N 9)); (15%nat, Div (Neg (N 32)) (N 27)); (31%nat, Div (Neg (N 64)) (N 9))];
  [(11%nat, Div (Neg (N 46)) (N 9)); (14%nat, Div (Neg (N 32)) (N 27)); (30%nat, Div (Neg (N 64)) (N 9))];
  [(9%nat, Div (N 4) (N 27)); (12%nat, Div (N 26) (N 9)); (25%nat, Div (N 8) (N 9))];
  [(8%nat, Div (N 4) (N 27)); (13%nat, Div (N 26) (N 9)); (24%nat, Div (N 8) (N 9))];
  [(11%nat, Div (N 4) (N 27)); (14%nat, Div (N 26) (N 9)); (27%nat, Div (N 8) (N 9))];
  [(10%nat, Div (N 4) (N 27)); (15%nat, Div (N 26) (N 9)); (26%nat, Div (N 8) (N 9))];
  [(0%nat, Div (N 64) (N 81)); (16%nat, Div (Neg (N 28)) (N 27))];
  [(1%nat, Div (N 64) (N 81)); (17%nat, Div (Neg (N 28)) (N 27))];
  [(3%nat, Div (N 64) (N 81)); (18%nat, Div (Neg (N 4)) (N 9)); (19%nat, Div (Neg (N 16)) (N 27))];
  [(2%nat, Div (N 64) (N 81)); (18%nat, Div (Neg (N 16)) (N 27)); (19%nat, Div (Neg (N 4)) (N 9))];
  [(4%nat, Div (N 64) (N 81)); (20%nat, Div (Neg (N 28)) (N 27))];
  [(6%nat, Div (N 64) (N 81)); (21%nat, Div (Neg (N 4)) (N 9)); (22%nat, Div (Neg (N 16)) (N 27))];
  [(5%nat, Div (N 64) (N 81)); (21%nat, Div (Neg (N 16)) (N 27)); (22%nat, Div (Neg (N 4)) (N 9))];
  [(7%nat, Div (N 64) (N 81)); (23%nat, Div (Neg (N 28)) (N 27))];
  [(13%nat, Div (Neg (N 128)) (N 81)); (24%nat, Div (Neg (N 46)) (N 9)); (29%nat, Div (N 32) (N 27))];
  [(12%nat, Div (Neg (N 128)) (N 81)); (25%nat, Div (Neg (N 46)) (N 9)); (28%nat, Div (N 32) (N 27))];
  [(15%nat, Div (Neg (N 128)) (N 81)); (26%nat, Div (Neg (N 46)) (N 9)); (31%nat, Div (N 32) (N 27))];
  [(14%nat, Div (Neg (N 128)) (N 81)); (27%nat, Div (Neg (N 46)) (N 9)); (30%nat, Div (N 32) (N 27))];
  [(9%nat, Div (N 16) (N 81)); (25%nat, Div (Neg (N 4)) (N 27)); (28%nat, Div (N 26) (N 9))];
  [(8%nat, Div (N 16) (N 81)); (24%nat, Div (Neg (N 4)) (N 27)); (29%nat, Div (N 26) (N 9))];
  [(11%nat, Div (N 16) (N 81)); (27%nat, Div (Neg (N 4)) (N 27)); (30%nat, Div (N 26) (N 9))];
  [(10%nat, Div (N 16) (N 81)); (26%nat, Div (Neg (N 4)) (N 27)); (31%nat, Div (N 26) (N 9))];
  [(32%nat, Div (Neg (N 20)) (N 3))];
  [(33%nat, Div (Neg (N 20)) (N 3))];
  [(34%nat, Div (Neg (N 20)) (N 3))];
  [(35%nat, Div (Neg (N 20)) (N 3))];
  [(36%nat, Div (Neg (N 20)) (N 3))];
  [(37%nat, Div (Neg (N 20)) (N 3))];
  [(38%nat, Div (Neg (N 20)) (N 3)); (44%nat, Div (Neg (N 2)) (N 3))];
  [(39%nat, Div (Neg (N 20)) (N 3)); (45%nat, Div (Neg (N 2)) (N 3))];
  [(40%nat, Div (Neg (N 20)) (N 3)); (46%nat, Div (Neg (N 2)) (N 3))];
  [(41%nat, Div (Neg (N 20)) (N 3)); (47%nat, Div (Neg (N 2)) (N 3))];
  [(42%nat, Div (Neg (N 20)) (N 3)); (48%nat, Div (Neg (N 2)) (N 3))];
  [(43%nat, Div (Neg (N 20)) (N 3)); (49%nat, Div (Neg (N 2)) (N 3))];
  [(38%nat, Neg (N 32)); (44%nat, Div (N 20) (N 9))];
  [(39%nat, Neg (N 32)); (45%nat, Div (N 20) (N 9))];
  [(40%nat, Neg (N 32)); (46%nat, Div (N 20) (N 9))];
  [(41%nat, Neg (N 32)); (47%nat, Div (N 20) (N 9))];
  [(42%nat, Neg (N 32)); (48%nat, Div (N 20) (N 9))];
  [(43%nat, Neg (N 32)); (49%nat, Div (N 20) (N 9))];
  [(50%nat, Div (Neg (N 8)) (N 9)); (55%nat, Div (N 4) (N 9)); (57%nat, Div (N 4) (N 9)); (62%nat, Div (Neg (N 8)) (N 9)); (63%nat, Div (Neg (N 8)) (N 9)); (64%nat, Div (Neg (N 8)) (N 9)); (65%nat, Div (Neg (N 8)) (N 9)); (94%nat, Div (N 4) (N 9)); (96%nat, Div (N 4) (N 9)); (97%nat, Div (N 4) (N 9)); (104%nat, Div (N 4) (N 3)); (105%nat, Div (N 4) (N 3)); (106%nat, Div (N 4) (N 3)); (107%nat, Div (N 4) (N 3)); (108%nat, Div (N 4) (N 3)); (109%nat, Div (N 4) (N 3))];
  [(51%nat, Div (Neg (N 4)) (N 3))];
  [(52%nat, Div (Neg (N 8)) (N 9)); (53%nat, Div (N 4) (N 9)); (54%nat, Div (N 4) (N 9)); (58%nat, Div (Neg (N 8)) (N 9)); (59%nat, Div (Neg (N 8)) (N 9)); (60%nat, Div (Neg (N 8)) (N 9)); (61%nat, Div (Neg (N 8)) (N 9)); (90%nat, Div (N 4) (N 9)); (92%nat, Div (N 4) (N 9)); (93%nat, Div (N 4) (N 9)); (98%nat, Div (N 4) (N 3)); (99%nat, Div (N 4) (N 3)); (100%nat, Div (N 4) (N 3)); (101%nat, Div (N 4) (N 3)); (102%nat, Div (N 4) (N 3)); (103%nat, Div (N 4) (N 3))];
  [(52%nat, Div (N 4) (N 9)); (53%nat, Div (Neg (N 8)) (N 9)); (54%nat, Div (N 4) (N 9)); (58%nat, Div (Neg (N 8)) (N 9)); (59%nat, Div (Neg (N 8)) (N 9)); (60%nat, Div (Neg (N 8)) (N 9)); (61%nat, Div (Neg (N 8)) (N 9)); (90%nat, Div (N 4) (N 9)); (92%nat, Div (N 4) (N 9)); (93%nat, Div (N 4) (N 9)); (98%nat, Div (N 4) (N 3)); (99%nat, Div (N 4) (N 3)); (100%nat, Div (N 4) (N 3)); (101%nat, Div (N 4) (N 3)); (102%nat, Div (N 4) (N 3)); (103%nat, Div (N 4) (N 3))];
  [(52%nat, Div (N 4) (N 9)); (53%nat, Div (N 4) (N 9)); (54%nat, Div (Neg (N 8)) (N 9)); (58%nat, Div (Neg (N 8)) (N 9)); (59%nat, Div (Neg (N 8)) (N 9)); (60%nat, Div (Neg (N 8)) (N 9)); (61%nat, Div (Neg (N 8)) (N 9)); (90%nat, Div (N 4) (N 9)); (92%nat, Div (N 4) (N 9)); (93%nat, Div (N 4) (N 9)); (98%nat, Div (N 4) (N 3)); (99%nat, Div (N 4) (N 3)); (100%nat, Div (N 4) (N 3)); (101%nat, Div (N 4) (N 3)); (102%nat, Div (N 4) (N 3)); (103%nat, Div (N 4) (N 3))];
  [(50%nat, Div (N 4) (N 9)); (55%nat, Div (Neg (N 8)) (N 9)); (57%nat, Div (N 4) (N 9)); (62%nat, Div (Neg (N 8)) (N 9)); (63%nat, Div (Neg (N 8)) (N 9)); (64%nat, Div (Neg (N 8)) (N 9)); (65%nat, Div (Neg (N 8)) (N 9)); (94%nat, Div (N 4) (N 9)); (96%nat, Div (N 4) (N 9)); (97%nat, Div (N 4) (N 9)); (104%nat, Div (N 4) (N 3)); (105%nat, Div (N 4) (N 3)); (106%nat, Div (N 4) (N 3)); (107%nat, Div (N 4) (N 3)); (108%nat, Div (N 4) (N 3)); (109%nat, Div (N 4) (N 3))];
  [(56%nat, Div (Neg (N 4)) (N 3))];
  [(50%nat, Div (N 4) (N 9)); (55%nat, Div (N 4) (N 9)); (57%nat, Div (Neg (N 8)) (N 9)); (62%nat, Div (Neg (N 8)) (N 9)); (63%nat, Div (Neg (N 8)) (N 9)); (64%nat, Div (Neg (N 8)) (N 9)); (65%nat, Div (Neg (N 8)) (N 9)); (94%nat, Div (N 4) (N 9)); (96%nat, Div (N 4) (N 9)); (97%nat, Div (N 4) (N 9)); (104%nat, Div (N 4) (N 3)); (105%nat, Div (N 4) (N 3)); (106%nat, Div (N 4) (N 3)); (107%nat, Div (N 4) (N 3)); (108%nat, Div (N 4) (N 3)); (109%nat, Div (N 4) (N 3))];
  [(52%nat, Div (Neg (N 8)) (N 9)); (53%nat, Div (Neg (N 8)) (N 9)); (54%nat, Div (Neg (N 8)) (N 9)); (58%nat, Div (N 40) (N 9)); (59%nat, Div (N 16) (N 9)); (60%nat, Div (N 16) (N 9)); (61%nat, Div (N 16) (N 9)); (90%nat, Div (Neg (N 8)) (N 9)); (92%nat, Div (Neg (N 8)) (N 9)); (93%nat, Div (Neg (N 8)) (N 9)); (98%nat, Div (Neg (N 8)) (N 3)); (99%nat, Div (Neg (N 8)) (N 3)); (100%nat, Div (Neg (N 8)) (N 3)); (101%nat, Div (Neg (N 8)) (N 3)); (102%nat, Div (Neg (N 8)) (N 3)); (103%nat, Div (Neg (N 8)) (N 3))];
  [(52%nat, Div (Neg (N 8)) (N 9)); (53%nat, Div (Neg (N 8)) (N 9)); (54%nat, Div (Neg (N 8)) (N 9)); (58%nat, Div (N 16) (N 9)); (59%nat, Div (N 40) (N 9)); (60%nat, Div (N 16) (N 9)); (61%nat, Div (N 16) (N 9)); (90%nat, Div (Neg (N 8)) (N 9)); (92%nat, Div (Neg (N 8)) (N 9)); (93%nat, Div (Neg (N 8)) (N 9)); (98%nat, Div (Neg (N 8)) (N 3)); (99%nat, Div (Neg (N 8)) (N 3)); (100%nat, Div (Neg (N 8)) (N 3)); (101%nat, Div (Neg (N 8)) (N 3)); (102%nat, Div (Neg (N 8)) (N 3)); (103%nat, Div (Neg (N 8)) (N 3))];
  [(52%nat, Div (Neg (N 8)) (N 9)); (53%nat, Div (Neg (N 8)) (N 9)); (54%nat, Div (Neg (N 8)) (N 9)); (58%nat, Div (N 16) (N 9)); (59%nat, Div (N 16) (N 9)); (60%nat, Div (Neg (N 8)) (N 9)); (61%nat, Div (N 16) (N 9)); (90%nat, Div (Neg (N 8)) (N 9)); (92%nat, Div (Neg (N 8)) (N 9)); (93%nat, Div (Neg (N 8)) (N 9)); (98%nat, Div (Neg (N 8)) (N 3)); (99%nat, Div (Neg (N 8)) (N 3)); (100%nat, Div (Neg (N 8)) (N 3)); (101%nat, Div (Neg (N 8)) (N 3)); (102%nat, Div (Neg (N 8)) (N 3)); (103%nat, Div (Neg (N 8)) (N 3))];
  [(52%nat, Div (Neg (N 8)) (N 9)); (53%nat, Div (Neg (N 8)) (N 9)); (54%nat, Div (Neg (N 8)) (N 9)); (58%nat, Div (N 16) (N 9)); (59%nat, Div (N 16) (N 9)); (60%nat, Div (N 16) (N 9)); (61%nat, Div (Neg (N 8)) (N 9)); (90%nat, Div (Neg (N 8)) (N 9)); (92%nat, Div (Neg (N 8)) (N 9)); (93%nat, Div (Neg (N 8)) (N 9)); (98%nat, Div (Neg (N 8)) (N 3)); (99%nat, Div (Neg (N 8)) (N 3)); (100%nat, Div (Neg (N 8)) (N 3)); (101%nat, Div (Neg (N 8)) (N 3)); (102%nat, Div (Neg (N 8)) (N 3)); (103%nat, Div (Neg (N 8)) (N 3))];
  [(50%nat, Div (Neg (N 8)) (N 9)); (55%nat, Div (Neg (N 8)) (N 9)); (57%nat, Div (Neg (N 8)) (N 9)); (62%nat, Div (N 40) (N 9)); (63%nat, Div (N 16) (N 9)); (64%nat, Div (N 16) (N 9)); (65%nat, Div (N 16) (N 9)); (94%nat, Div (Neg (N 8)) (N 9)); (96%nat, Div (Neg (N 8)) (N 9)); (97%nat, Div (Neg (N 8)) (N 9)); (104%nat, Div (Neg (N 8)) (N 3)); (105%nat, Div (Neg (N 8)) (N 3)); (106%nat, Div (Neg (N 8)) (N 3)); (107%nat, Div (Neg (N 8)) (N 3)); (108%nat, Div (Neg (N 8)) (N 3)); (109%nat, Div (Neg (N 8)) (N 3))];
  [(50%nat, Div (Neg (N 8)) (N 9)); (55%nat, Div (Neg (N 8)) (N 9)); (57%nat, Div (Neg (N 8)) (N 9)); (62%nat, Div (N 16) (N 9)); (63%nat, Div (N 40) (N 9)); (64%nat, Div (N 16) (N 9)); (65%nat, Div (N 16) (N 9)); (94%nat, Div (Neg (N 8)) (N 9)); (96%nat, Div (Neg (N 8)) (N 9)); (97%nat, Div (Neg (N 8)) (N 9)); (104%nat, Div (Neg (N 8)) (N 3)); (105%nat, Div (Neg (N 8)) (N 3)); (106%nat, Div (Neg (N 8)) (N 3)); (107%nat, Div (Neg (N 8)) (N 3)); (108%nat, Div (Neg (N 8)) (N 3)); (109%nat, Div (Neg (N 8)) (N 3))];
  [(50%nat, Div (Neg (N 8)) (N 9)); (55%nat, Div (Neg (N 8)) (N 9)); (57%nat, Div (Neg (N 8)) (N 9)); (62%nat, Div (N 16) (N 9)); (63%nat, Div (N 16) (N 9)); (64%nat, Div (Neg (N 8)) (N 9)); (65%nat, Div (N 16) (N 9)); (94%nat, Div (Neg (N 8)) (N 9)); (96%nat, Div (Neg (N 8)) (N 9)); (97%nat, Div (Neg (N 8)) (N 9)); (104%nat, Div (Neg (N 8)) (N 3)); (105%nat, Div (Neg (N 8)) (N 3)); (106%nat, Div (Neg (N 8)) (N 3)); (107%nat, Div (Neg (N 8)) (N 3)); (108%nat, Div (Neg (N 8)) (N 3)); (109%nat, Div (Neg (N 8)) (N 3))];
  [(50%nat, Div (Neg (N 8)) (N 9)); (55%nat, Div (Neg (N 8)) (N 9)); (57%nat, Div (Neg (N 8)) (N 9)); (62%nat, Div (N 16) (N 9)); (63%nat, Div (N 16) (N 9)); (64%nat, Div (N 16) (N 9)); (65%nat, Div (Neg (N 8)) (N 9)); (94%nat, Div (Neg (N 8)) (N 9)); (96%nat, Div (Neg (N 8)) (N 9)); (97%nat, Div (Neg (N 8)) (N 9)); (104%nat, Div (Neg (N 8)) (N 3)); (105%nat, Div (Neg (N 8)) (N 3)); (106%nat, Div (Neg (N 8)) (N 3)); (107%nat, Div (Neg (N 8)) (N 3)); (108%nat, Div (Neg (N 8)) (N 3)); (109%nat, Div (Neg (N 8)) (N 3))];
  [(66%nat, Div (Neg (N 10)) (N 3))];
  [(67%nat, Div (Neg (N 10)) (N 3))];
  [(68%nat, Div (Neg (N 10)) (N 3))];
  [(69%nat, Div (Neg (N 10)) (N 3))];
  [(70%nat, Div (Neg (N 4)) (N 3))];
  [(71%nat, Div (Neg (N 4)) (N 3))];
  [(72%nat, Div (Neg (N 4)) (N 3))];
  [(73%nat, Div (Neg (N 4)) (N 3))];
  [(74%nat, Div (Neg (N 4)) (N 3))];
  [(75%nat, Div (Neg (N 4)) (N 3))];
  [(76%nat, Div (Neg (N 4)) (N 3))];
  [(77%nat, Div (Neg (N 4)) (N 3))];
  [(78%nat, Div (N 8) (N 3))];
  [(79%nat, Div (N 8) (N 3))];
  [(80%nat, Div (Neg (N 8)) (N 3))];
  [(81%nat, Div (Neg (N 8)) (N 3))];
  [(82%nat, Div (N 8) (N 3))];
  [(83%nat, Div (N 8) (N 3))];
  [(84%nat, Div (Neg (N 8)) (N 3))];
  [(85%nat, Div (Neg (N 8)) (N 3))];
  [(86%nat, Div (Neg (N 10)) (N 3))];
  [(87%nat, Div (Neg (N 10)) (N 3))];
  [(88%nat, Div (Neg (N 10)) (N 3))];
  [(89%nat, Div (Neg (N 10)) (N 3))];
  [(52%nat, Div (N 16) (N 27)); (53%nat, Div (N 16) (N 27)); (54%nat, Div (N 16) (N 27)); (58%nat, Div (Neg (N 32)) (N 27)); (59%nat, Div (Neg (N 32)) (N 27)); (60%nat, Div (Neg (N 32)) (N 27)); (61%nat, Div (Neg (N 32)) (N 27)); (90%nat, Div (N 52) (N 27)); (92%nat, Div (N 16) (N 27)); (93%nat, Div (N 16) (N 27)); (98%nat, Div (N 16) (N 9)); (99%nat, Div (N 16) (N 9)); (100%nat, Div (N 16) (N 9)); (101%nat, Div (N 16) (N 9)); (102%nat, Div (N 16) (N 9)); (103%nat, Div (N 16) (N 9))];
  [(52%nat, Div (N 4) (N 27)); (53%nat, Div (N 4) (N 27)); (54%nat, Div (N 4) (N 27)); (58%nat, Div (Neg (N 8)) (N 27)); (59%nat, Div (Neg (N 8)) (N 27)); (60%nat, Div (Neg (N 8)) (N 27)); (61%nat, Div (Neg (N 8)) (N 27)); (90%nat, Div (N 4) (N 27)); (91%nat, Div (N 4) (N 3)); (92%nat, Div (N 4) (N 27)); (93%nat, Div (N 4) (N 27)); (98%nat, Div (N 4) (N 9)); (99%nat, Div (N 4) (N 9)); (100%nat, Div (N 4) (N 9)); (101%nat, Div (N 4) (N 9)); (102%nat, Div (N 4) (N 9)); (103%nat, Div (N 4) (N 9))];
  [(52%nat, Div (N 4) (N 9)); (53%nat, Div (N 4) (N 9)); (54%nat, Div (N 4) (N 9)); (58%nat, Div (Neg (N 8)) (N 9)); (59%nat, Div (Neg (N 8)) (N 9)); (60%nat, Div (Neg (N 8)) (N 9)); (61%nat, Div (Neg (N 8)) (N 9)); (90%nat, Div (N 4) (N 9)); (92%nat, Div (N 16) (N 9)); (93%nat, Div (N 4) (N 9)); (98%nat, Div (N 4) (N 3)); (99%nat, Div (N 4) (N 3)); (100%nat, Div (N 4) (N 3)); (101%nat, Div (N 4) (N 3)); (102%nat, Div (N 4) (N 3)); (103%nat, Div (N 4) (N 3))];
  [(52%nat, Div (N 16) (N 27)); (53%nat, Div (N 16) (N 27)); (54%nat, Div (N 16) (N 27)); (58%nat, Div (Neg (N 32)) (N 27)); (59%nat, Div (Neg (N 32)) (N 27)); (60%nat, Div (Neg (N 32)) (N 27)); (61%nat, Div (Neg (N 32)) (N 27)); (90%nat, Div (N 16) (N 27)); (92%nat, Div (N 16) (N 27)); (93%nat, Div (N 52) (N 27)); (98%nat, Div (N 16) (N 9)); (99%nat, Div (N 16) (N 9)); (100%nat, Div (N 16) (N 9)); (101%nat, Div (N 16) (N 9)); (102%nat, Div (N 16) (N 9)); (103%nat, Div (N 16) (N 9))];
  [(50%nat, Div (N 16) (N 27)); (55%nat, Div (N 16) (N 27)); (57%nat, Div (N 16) (N 27)); (62%nat, Div (Neg (N 32)) (N 27)); (63%nat, Div (Neg (N 32)) (N 27)); (64%nat, Div (Neg (N 32)) (N 27)); (65%nat, Div (Neg (N 32)) (N 27)); (94%nat, Div (N 52) (N 27)); (96%nat, Div (N 16) (N 27)); (97%nat, Div (N 16) (N 27)); (104%nat, Div (N 16) (N 9)); (105%nat, Div (N 16) (N 9)); (106%nat, Div (N 16) (N 9)); (107%nat, Div (N 16) (N 9)); (108%nat, Div (N 16) (N 9)); (109%nat, Div (N 16) (N 9))];
  [(50%nat, Div (N 4) (N 27)); (55%nat, Div (N 4) (N 27)); (57%nat, Div (N 4) (N 27)); (62%nat, Div (Neg (N 8)) (N 27)); (63%nat, Div (Neg (N 8)) (N 27)); (64%nat, Div (Neg (N 8)) (N 27)); (65%nat, Div (Neg (N 8)) (N 27)); (94%nat, Div (N 4) (N 27)); (95%nat, Div (N 4) (N 3)); (96%nat, Div (N 4) (N 27)); (97%nat, Div (N 4) (N 27)); (104%nat, Div (N 4) (N 9)); (105%nat, Div (N 4) (N 9)); (106%nat, Div (N 4) (N 9)); (107%nat, Div (N 4) (N 9)); (108%nat, Div (N 4) (N 9)); (109%nat, Div (N 4) (N 9))];
  [(50%nat, Div (N 4) (N 9)); (55%nat, Div (N 4) (N 9)); (57%nat, Div (N 4) (N 9)); (62%nat, Div (Neg (N 8)) (N 9)); (63%nat, Div (Neg (N 8)) (N 9)); (64%nat, Div (Neg (N 8)) (N 9)); (65%nat, Div (Neg (N 8)) (N 9)); (94%nat, Div (N 4) (N 9)); (96%nat, Div (N 16) (N 9)); (97%nat, Div (N 4) (N 9)); (104%nat, Div (N 4) (N 3)); (105%nat, Div (N 4) (N 3)); (106%nat, Div (N 4) (N 3)); (107%nat, Div (N 4) (N 3)); (108%nat, Div (N 4) (N 3)); (109%nat, Div (N 4) (N 3))];
  [(50%nat, Div (N 16) (N 27)); (55%nat, Div (N 16) (N 27)); (57%nat, Div (N 16) (N 27)); (62%nat, Div (Neg (N 32)) (N 27)); (63%nat, Div (Neg (N 32)) (N 27)); (64%nat, Div (Neg (N 32)) (N 27)); (65%nat, Div (Neg (N 32)) (N 27)); (94%nat, Div (N 16) (N 27)); (96%nat, Div (N 16) (N 27)); (97%nat, Div (N 52) (N 27)); (104%nat, Div (N 16) (N 9)); (105%nat, Div (N 16) (N 9)); (106%nat, Div (N 16) (N 9)); (107%nat, Div (N 16) (N 9)); (108%nat, Div (N 16) (N 9)); (109%nat, Div (N 16) (N 9))];
  [(52%nat, Div (N 4) (N 9)); (53%nat, Div (N 4) (N 9)); (54%nat, Div (N 4) (N 9)); (58%nat, Div (Neg (N 8)) (N 9)); (59%nat, Div (Neg (N 8)) (N 9)); (60%nat, Div (Neg (N 8)) (N 9)); (61%nat, Div (Neg (N 8)) (N 9)); (90%nat, Div (N 4) (N 9)); (92%nat, Div (N 4) (N 9)); (93%nat, Div (N 4) (N 9)); (98%nat, Div (Neg (N 8)) (N 3)); (99%nat, Div (N 4) (N 3)); (100%nat, Div (N 4) (N 3)); (101%nat, Div (N 4) (N 3)); (102%nat, Div (N 4) (N 3)); (103%nat, Div (N 4) (N 3))];
  [(52%nat, Div (N 4) (N 9)); (53%nat, Div (N 4) (N 9)); (54%nat, Div (N 4) (N 9)); (58%nat, Div (Neg (N 8)) (N 9)); (59%nat, Div (Neg (N 8)) (N 9)); (60%nat, Div (Neg (N 8)) (N 9)); (61%nat, Div (Neg (N 8)) (N 9)); (90%nat, Div (N 4) (N 9)); (92%nat, Div (N 4) (N 9)); (93%nat, Div (N 4) (N 9)); (98%nat, Div (N 4) (N 3)); (99%nat, Div (Neg (N 8)) (N 3)); (100%nat, Div (N 4) (N 3)); (101%nat, Div (N 4) (N 3)); (102%nat, Div (N 4) (N 3)); (103%nat, Div (N 4) (N 3))];
  [(52%nat, Div (N 4) (N 9)); (53%nat, Div (N 4) (N 9)); (54%nat, Div (N 4) (N 9)); (58%nat, Div (Neg (N 8)) (N 9)); (59%nat, Div (Neg (N 8)) (N 9)); (60%nat, Div (Neg (N 8)) (N 9)); (61%nat, Div (Neg (N 8)) (N 9)); (90%nat, Div (N 4) (N 9)); (92%nat, Div (N 4) (N 9)); (93%nat, Div (N 4) (N 9)); (98%nat, Div (N 4) (N 3)); (99%nat, Div (N 4) (N 3)); (100%nat, Div (Neg (N 8)) (N 3)); (101%nat, Div (N 4) (N 3)); (102%nat, Div (N 4) (N 3)); (103%nat, Div (N 4) (N 3))];
  [(52%nat, Div (N 4) (N 9)); (53%nat, Div (N 4) (N 9)); (54%nat, Div (N 4) (N 9)); (58%nat, Div (Neg (N 8)) (N 9)); (59%nat, Div (Neg (N 8)) (N 9)); (60%nat, Div (Neg (N 8)) (N 9)); (61%nat, Div (Neg (N 8)) (N 9)); (90%nat, Div (N 4) (N 9)); (92%nat, Div (N 4) (N 9)); (93%nat, Div (N 4) (N 9)); (98%nat, Div (N 4) (N 3)); (99%nat, Div (N 4) (N 3)); (100%nat, Div (N 4) (N 3)); (101%nat, Div (N 16) (N 3)); (102%nat, Div (N 4) (N 3)); (103%nat, Div (N 4) (N 3))];
  [(52%nat, Div (N 4) (N 9)); (53%nat, Div (N 4) (N 9)); (54%nat, Div (N 4) (N 9)); (58%nat, Div (Neg (N 8)) (N 9)); (59%nat, Div (Neg (N 8)) (N 9)); (60%nat, Div (Neg (N 8)) (N 9)); (61%nat, Div (Neg (N 8)) (N 9)); (90%nat, Div (N 4) (N 9)); (92%nat, Div (N 4) (N 9)); (93%nat, Div (N 4) (N 9)); (98%nat, Div (N 4) (N 3)); (99%nat, Div (N 4) (N 3)); (100%nat, Div (N 4) (N 3)); (101%nat, Div (N 4) (N 3)); (102%nat, Div (N 16) (N 3)); (103%nat, Div (N 4) (N 3))];
  [(52%nat, Div (N 4) (N 9)); (53%nat, Div (N 4) (N 9)); (54%nat, Div (N 4) (N 9)); (58%nat, Div (Neg (N 8)) (N 9)); (59%nat, Div (Neg (N 8)) (N 9)); (60%nat, Div (Neg (N 8)) (N 9)); (61%nat, Div (Neg (N 8)) (N 9)); (90%nat, Div (N 4) (N 9)); (92%nat, Div (N 4) (N 9)); (93%nat, Div (N 4) (N 9)); (98%nat, Div (N 4) (N 3)); (99%nat, Div (N 4) (N 3)); (100%nat, Div (N 4) (N 3)); (101%nat, Div (N 4) (N 3)); (102%nat, Div (N 4) (N 3)); (103%nat, Div (N 16) (N 3))];
  [(50%nat, Div (N 4) (N 9)); (55%nat, Div (N 4) (N 9)); (57%nat, Div (N 4) (N 9)); (62%nat, Div (Neg (N 8)) (N 9)); (63%nat, Div (Neg (N 8)) (N 9)); (64%nat, Div (Neg (N 8)) (N 9)); (65%nat, Div (Neg (N 8)) (N 9)); (94%nat, Div (N 4) (N 9)); (96%nat, Div (N 4) (N 9)); (97%nat, Div (N 4) (N 9)); (104%nat, Div (Neg (N 8)) (N 3)); (105%nat, Div (N 4) (N 3)); (106%nat, Div (N 4) (N 3)); (107%nat, Div (N 4) (N 3)); (108%nat, Div (N 4) (N 3)); (109%nat, Div (N 4) (N 3))];
  [(50%nat, Div (N 4) (N 9)); (55%nat, Div (N 4) (N 9)); (57%nat, Div (N 4) (N 9)); (62%nat, Div (Neg (N 8)) (N 9)); (63%nat, Div (Neg (N 8)) (N 9)); (64%nat, Div (Neg (N 8)) (N 9)); (65%nat, Div (Neg (N 8)) (N 9)); (94%nat, Div (N 4) (N 9)); (96%nat, Div (N 4) (N 9)); (97%nat, Div (N 4) (N 9)); (104%nat, Div (N 4) (N 3)); (105%nat, Div (Neg (N 8)) (N 3)); (106%nat, Div (N 4) (N 3)); (107%nat, Div (N 4) (N 3)); (108%nat, Div (N 4) (N 3)); (109%nat, Div (N 4) (N 3))];
  [(50%nat, Div (N 4) (N 9)); (55%nat, Div (N 4) (N 9)); (57%nat, Div (N 4) (N 9)); (62%nat, Div (Neg (N 8)) (N 9)); (63%nat, Div (Neg (N 8)) (N 9)); (64%nat, Div (Neg (N 8)) (N 9)); (65%nat, Div (Neg (N 8)) (N 9)); (94%nat, Div (N 4) (N 9)); (96%nat, Div (N 4) (N 9)); (97%nat, Div (N 4) (N 9)); (104%nat, Div (N 4) (N 3)); (105%nat, Div (N 4) (N 3)); (106%nat, Div (Neg (N 8)) (N 3)); (107%nat, Div (N 4) (N 3)); (108%nat, Div (N 4) (N 3)); (109%nat, Div (N 4) (N 3))];
  [(50%nat, Div (N 4) (N 9)); (55%nat, Div (N 4) (N 9)); (57%nat, Div (N 4) (N 9)); (62%nat, Div (Neg (N 8)) (N 9)); (63%nat, Div (Neg (N 8)) (N 9)); (64%nat, Div (Neg (N 8)) (N 9)); (65%nat, Div (Neg (N 8)) (N 9)); (94%nat, Div (N 4) (N 9)); (96%nat, Div (N 4) (N 9)); (97%nat, Div (N 4) (N 9)); (104%nat, Div (N 4) (N 3)); (105%nat, Div (N 4) (N 3)); (106%nat, Div (N 4) (N 3)); (107%nat, Div (N 16) (N 3)); (108%nat, Div (N 4) (N 3)); (109%nat, Div (N 4) (N 3))];
  [(50%nat, Div (N 4) (N 9)); (55%nat, Div (N 4) (N 9)); (57%nat, Div (N 4) (N 9)); (62%nat, Div (Neg (N 8)) (N 9)); (63%nat, Div (Neg (N 8)) (N 9)); (64%nat, Div (Neg (N 8)) (N 9)); (65%nat, Div (Neg (N 8)) (N 9)); (94%nat, Div (N 4) (N 9)); (96%nat, Div (N 4) (N 9)); (97%nat, Div (N 4) (N 9)); (104%nat, Div (N 4) (N 3)); (105%nat, Div (N 4) (N 3)); (106%nat, Div (N 4) (N 3)); (107%nat, Div (N 4) (N 3)); (108%nat, Div (N 16) (N 3)); (109%nat, Div (N 4) (N 3))];
  [(50%nat, Div (N 4) (N 9)); (55%nat, Div (N 4) (N 9)); (57%nat, Div (N 4) (N 9)); (62%nat, Div (Neg (N 8)) (N 9)); (63%nat, Div (Neg (N 8)) (N 9)); (64%nat, Div (Neg (N 8)) (N 9)); (65%nat, Div (Neg (N 8)) (N 9)); (94%nat, Div (N 4) (N 9)); (96%nat, Div (N 4) (N 9)); (97%nat, Div (N 4) (N 9)); (104%nat, Div (N 4) (N 3)); (105%nat, Div (N 4) (N 3)); (106%nat, Div (N 4) (N 3)); (107%nat, Div (N 4) (N 3)); (108%nat, Div (N 4) (N 3)); (109%nat, Div (N 16) (N 3))];
  [(110%nat, Div (N 8) (N 9))];
  [(111%nat, Div (N 8) (N 9))];
  [(110%nat, Div (Neg (N 8)) (N 3)); (112%nat, Dec 88888888888889 50000000000000)];
  [(111%nat, Div (Neg (N 8)) (N 3)); (113%nat, Dec 88888888888889 50000000000000)]].

(* adm.py:648-764 *)
Definition adm_s_db : amat := [
  [(0%nat, Div (Neg (N 80)) (N 9)); (16%nat, Div (N 8) (N 3)); (110%nat, Div (V Md) (V Mb)); (112%nat, Div (Neg (V Md)) (Mul (N 3) (V Mb)))];
  [(1%nat, Div (Neg (N 80)) (N 9)); (17%nat, Div (N 8) (N 3)); (111%nat, Div (V Md) (V Mb)); (113%nat, Div (Neg (V Md)) (Mul (N 3) (V Mb)))];
  [(2%nat, Neg (N 16)); (3%nat, Div (N 64) (N 9)); (18%nat, N 8); (19%nat, Div (Neg (N 16)) (N 3)); (110%nat, Div (V Ms) (V Mb)); (112%nat, Div (Neg (V Ms)) (Mul (N 3) (V Mb)))];
  [(2%nat, Div (N 64) (N 9)); (3%nat, Neg (N 16)); (18%nat, Div (Neg (N 16)) (N 3)); (19%nat, N 8)];
  [(4%nat, Div (Neg (N 80)) (N 9)); (20%nat, Div (N 8) (N 3)); (110%nat, N 1); (112%nat, Div (Neg (N 1)) (N 3))];
  [(5%nat, Neg (N 16)); (6%nat, Div (N 64) (N 9)); (21%nat, N 8); (22%nat, Div (Neg (N 16)) (N 3)); (111%nat, Div (V Ms) (V Mb)); (113%nat, Div (Neg (V Ms)) (Mul (N 3) (V Mb)))];
  [(5%nat, Div (N 64) (N 9)); (6%nat, Neg (N 16)); (21%nat, Div (Neg (N 16)) (N 3)); (22%nat, N 8)];
  [(7%nat, Div (Neg (N 80)) (N 9)); (23%nat, Div (N 8) (N 3)); (111%nat, N 1); (113%nat, Div (Neg (N 1)) (N 3))];
  [(8%nat, Neg (N 16)); (13%nat, Div (N 64) (N 9)); (24%nat, N 8); (29%nat, Div (Neg (N 16)) (N 3))];
  [(9%nat, Neg (N 16)); (12%nat, Div (N 64) (N 9)); (25%nat, N 8); (28%nat, Div (Neg (N 16)) (N 3))];
  [(10%nat, Neg (N 16)); (15%nat, Div (N 64) (N 9)); (26%nat, N 8); (31%nat, Div (Neg (N 16)) (N 3))];
  [(11%nat, Neg (N 16)); (14%nat, Div (N 64) (N 9)); (27%nat, N 8); (30%nat, Div (Neg (N 16)) (N 3))];
  [(9%nat, Div (N 64) (N 9)); (12%nat, Neg (N 16)); (25%nat, Div (Neg (N 16)) (N 3)); (28%nat, N 8); (111%nat, Div (V Mu) (V Mb)); (113%nat, Div (Mul (N 2) (V Mu)) (Mul (N 3) (V Mb)))];
  [(8%nat, Div (N 64) (N 9)); (13%nat, Neg (N 16)); (24%nat, Div (Neg (N 16)) (N 3)); (29%nat, N 8); (110%nat, Div (V Mu) (V Mb)); (112%nat, Div (Mul (N 2) (V Mu)) (Mul (N 3) (V Mb)))];
  [(11%nat, Div (N 64) (N 9)); (14%nat, Neg (N 16)); (27%nat, Div (Neg (N 16)) (N 3)); (30%nat, N 8); (111%nat, Div (V Mc) (V Mb)); (113%nat, Div (Mul (N 2) (V Mc)) (Mul (N 3) (V Mb)))];
  [(10%nat, Div (N 64) (N 9)); (15%nat, Neg (N 16)); (26%nat, Div (Neg (N 16)) (N 3)); (31%nat, N 8); (110%nat, Div (V Mc) (V Mb)); (112%nat, Div (Mul (N 2) (V Mc)) (Mul (N 3) (V Mb)))];
  [(0%nat, Div (N 160) (N 27)); (16%nat, Div (N 92) (N 9)); (110%nat, Div (Neg (V Md)) (Mul (N 6) (V Mb))); (112%nat, Div (Mul (Neg (N 4)) (V Md)) (Mul (N 9) (V Mb)))];
  [(1%nat, Div (N 160) (N 27)); (17%nat, Div (N 92) (N 9)); (111%nat, Div (Neg (V Md)) (Mul (N 6) (V Mb))); (113%nat, Div (Mul (Neg (N 4)) (V Md)) (Mul (N 9) (V Mb)))];
  [(2%nat, Div (N 16) (N 9)); (3%nat, Div (N 112) (N 27)); (18%nat, Div (N 16) (N 3)); (19%nat, Div (N 44) (N 9)); (110%nat, Div (Neg (V Ms)) (Mul (N 6) (V Mb))); (112%nat, Div (Mul (Neg (N 4)) (V Ms)) (Mul (N 9) (V Mb)))];
  [(2%nat, Div (N 112) (N 27)); (3%nat, Div (N 16) (N 9)); (18%nat, Div (N 44) (N 9)); (19%nat, Div (N 16) (N 3))];
  [(4%nat, Div (N 160) (N 27)); (20%nat, Div (N 92) (N 9)); (110%nat, Div (Neg (N 1)) (N 6)); (112%nat, Div (Neg (N 4)) (N 9))];
  [(5%nat, Div (N 16) (N 9)); (6%nat, Div (N 112) (N 27)); (21%nat, Div (N 16) (N 3)); (22%nat, Div (N 44) (N 9)); (111%nat, Div (Neg (V Ms)) (Mul (N 6) (V Mb))); (113%nat, Div (Mul (Neg (N 4)) (V Ms)) (Mul (N 9) (V Mb)))];
  [(5%nat, Div (N 112) (N 27)); (6%nat, Div (N 16) (N 9)); (21%nat, Div (N 44) (N 9)); (22%nat, Div (N 16) (N 3))];
  [(7%nat, Div (N 160) (N 27)); (23%nat, Div (N 92) (N 9)); (111%nat, Div (Neg (N 1)) (N 6)); (113%nat, Div (Neg (N 4)) (N 9))];
  [(8%nat, Div (N 16) (N 9)); (13%nat, Div (N 112) (N 27)); (24%nat, Div (N 16) (N 3)); (29%nat, Div (N 44) (N 9))];
  [(9%nat, Div (N 16) (N 9)); (12%nat, Div (N 112) (N 27)); (25%nat, Div (N 16) (N 3)); (28%nat, Div (N 44) (N 9))];
  [(10%nat, Div (N 16) (N 9)); (15%nat, Div (N 112) (N 27)); (26%nat, Div (N 16) (N 3)); (31%nat, Div (N 44) (N 9))];
  [(11%nat, Div (N 16) (N 9)); (14%nat, Div (N 112) (N 27)); (27%nat, Div (N 16) (N 3)); (30%nat, Div (N 44) (N 9))];
  [(9%nat, Div (N 112) (N 27)); (12%nat, Div (N 16) (N 9)); (25%nat, Div (N 44) (N 9)); (28%nat, Div (N 16) (N 3)); (111%nat, Div (Neg (V Mu)) (Mul (N 6) (V Mb))); (113%nat, Div (Mul (N 8) (V Mu)) (Mul (N 9) (V Mb)))];
  [(8%nat, Div (N 112) (N 27)); (13%nat, Div (N 16) (N 9)); (24%nat, Div (N 44) (N 9)); (29%nat, Div (N 16) (N 3)); (110%nat, Div (Neg (V Mu)) (Mul (N 6) (V Mb))); (112%nat, Div (Mul (N 8) (V Mu)) (Mul (N 9) (V Mb)))];
  [(11%nat, Div (N 112) (N 27)); (14%nat, Div (N 16) (N 9)); (27%nat, Div (N 44) (N 9)); (30%nat, Div (N 16) (N 3)); (111%nat, Div (Neg (V Mc)) (Mul (N 6) (V Mb))); (113%nat, Div (Mul (N 8) (V Mc)) (Mul (N 9) (V Mb)))];
  [(10%nat, Div (N 112) (N 27)); (15%nat, Div (N 16) (N 9)); (26%nat, Div (N 44) (N 9)); (31%nat, Div (N 16) (N 3)); (110%nat, Div (Neg (V Mc)) (Mul (N 6) (V Mb))); (112%nat, Div (Mul (N 8) (V Mc)) (Mul (N 9) (V Mb)))];
  [(32%nat, Neg (N 8))];
  [(33%nat, Neg (N 8))];
  [(34%nat, Neg (N 8))];
  [(35%nat, Neg (N 8))];
  [(36%nat, Neg (N 8))];
  [(37%nat, Neg (N 8))];
  [(38%nat, Neg (N 8))];
  [(39%nat, Neg (N 8))];
  [(40%nat, Neg (N 8))];
  [(41%nat, Neg (N 8))];
  [(42%nat, Neg (N 8))];
  [(43%nat, Neg (N 8))];
  [(44%nat, Div (N 8) (N 3)); (112%nat, Div (Mul (N 8) (V Me)) (V Mb))];
  [(45%nat, Div (N 8) (N 3)); (113%nat, Div (Mul (N 8) (V Me)) (V Mb))];
  [(46%nat, Div (N 8) (N 3)); (112%nat, Div (Mul (N 8) (V Mmu)) (V Mb))];
  [(47%nat, Div (N 8) (N 3)); (113%nat, Div (Mul (N 8) (V Mmu)) (V Mb))];
  [(48%nat, Div (N 8) (N 3)); (112%nat, Div (Mul (N 8) (V Mtau)) (V Mb))];
  [(49%nat, Div (N 8) (N 3)); (113%nat, Div (Mul (N 8) (V Mtau)) (V Mb))];
  [(70%nat, Neg (N 12))];
  [(71%nat, Neg (N 12))];
  [(72%nat, Neg (N 12))];
  [(73%nat, Neg (N 12))];
  [(74%nat, Neg (N 12))];
  [(75%nat, Neg (N 12))];
  [(76%nat, Neg (N 12))];
  [(77%nat, Neg (N 12))];
  [(78%nat, Neg (N 12))];
  [(79%nat, Neg (N 12))];
  [(80%nat, N 12)];
  [(81%nat, N 12)];
  [(82%nat, Neg (N 12))];
  [(83%nat, Neg (N 12))];
  [(84%nat, N 12)];
  [(85%nat, N 12)];
  [(86%nat, Neg (N 12))];
  [(87%nat, Neg (N 12))];
  [(88%nat, Neg (N 12))];
  [(89%nat, Neg (N 12))];
  [(50%nat, Div (Neg (N 8)) (N 3)); (70%nat, Div (Neg (N 40)) (N 3)); (75%nat, Div (N 2) (N 3)); (77%nat, Div (N 2) (N 3)); (82%nat, Div (N 2) (N 3)); (83%nat, Div (N 2) (N 3)); (84%nat, Div (N 2) (N 3)); (85%nat, Div (N 2) (N 3)); (94%nat, Div (N 2) (N 9)); (95%nat, Div (N 1) (N 3)); (96%nat, Div (Neg (N 1)) (N 9)); (97%nat, Div (N 2) (N 9))];
  [(51%nat, Div (Neg (N 8)) (N 3)); (71%nat, Neg (N 14))];
  [(52%nat, Div (Neg (N 8)) (N 3)); (72%nat, Div (Neg (N 40)) (N 3)); (73%nat, Div (N 2) (N 3)); (74%nat, Div (N 2) (N 3)); (78%nat, Div (N 2) (N 3)); (79%nat, Div (N 2) (N 3)); (80%nat, Div (N 2) (N 3)); (81%nat, Div (N 2) (N 3)); (90%nat, Div (N 2) (N 9)); (91%nat, Div (N 1) (N 3)); (92%nat, Div (Neg (N 1)) (N 9)); (93%nat, Div (N 2) (N 9))];
  [(53%nat, Div (Neg (N 8)) (N 3)); (72%nat, Div (N 2) (N 3)); (73%nat, Div (Neg (N 40)) (N 3)); (74%nat, Div (N 2) (N 3)); (78%nat, Div (N 2) (N 3)); (79%nat, Div (N 2) (N 3)); (80%nat, Div (N 2) (N 3)); (81%nat, Div (N 2) (N 3)); (90%nat, Div (N 2) (N 9)); (91%nat, Div (N 1) (N 3)); (92%nat, Div (Neg (N 1)) (N 9)); (93%nat, Div (N 2) (N 9))];
  [(54%nat, Div (Neg (N 8)) (N 3)); (72%nat, Div (N 2) (N 3)); (73%nat, Div (N 2) (N 3)); (74%nat, Div (Neg (N 40)) (N 3)); (78%nat, Div (N 2) (N 3)); (79%nat, Div (N 2) (N 3)); (80%nat, Div (N 2) (N 3)); (81%nat, Div (N 2) (N 3)); (90%nat, Div (N 2) (N 9)); (91%nat, Div (N 1) (N 3)); (92%nat, Div (Neg (N 1)) (N 9)); (93%nat, Div (N 2) (N 9))];
  [(55%nat, Div (Neg (N 8)) (N 3)); (70%nat, Div (N 2) (N 3)); (75%nat, Div (Neg (N 40)) (N 3)); (77%nat, Div (N 2) (N 3)); (82%nat, Div (N 2) (N 3)); (83%nat, Div (N 2) (N 3)); (84%nat, Div (N 2) (N 3)); (85%nat, Div (N 2) (N 3)); (94%nat, Div (N 2) (N 9)); (95%nat, Div (N 1) (N 3)); (96%nat, Div (Neg (N 1)) (N 9)); (97%nat, Div (N 2) (N 9))];
  [(56%nat, Div (Neg (N 8)) (N 3)); (76%nat, Neg (N 14))];
  [(57%nat, Div (Neg (N 8)) (N 3)); (70%nat, Div (N 2) (N 3)); (75%nat, Div (N 2) (N 3)); (77%nat, Div (Neg (N 40)) (N 3)); (82%nat, Div (N 2) (N 3)); (83%nat, Div (N 2) (N 3)); (84%nat, Div (N 2) (N 3)); (85%nat, Div (N 2) (N 3)); (94%nat, Div (N 2) (N 9)); (95%nat, Div (N 1) (N 3)); (96%nat, Div (Neg (N 1)) (N 9)); (97%nat, Div (N 2) (N 9))];
  [(58%nat, Div (Neg (N 8)) (N 3)); (72%nat, Div (N 2) (N 3)); (73%nat, Div (N 2) (N 3)); (74%nat, Div (N 2) (N 3)); (78%nat, Div (Neg (N 40)) (N 3)); (79%nat, Div (N 2) (N 3)); (80%nat, Div (N 2) (N 3)); (81%nat, Div (N 2) (N 3)); (90%nat, Div (N 2) (N 9)); (91%nat, Div (N 1) (N 3)); (92%nat, Div (Neg (N 1)) (N 9)); (93%nat, Div (N 2) (N 9))];
  [(59%nat, Div (Neg (N 8)) (N 3)); (72%nat, Div (N 2) (N 3)); (73%nat, Div (N 2) (N 3)); (74%nat, Div (N 2) (N 3)); (78%nat, Div (N 2) (N 3)); (79%nat, Div (Neg (N 40)) (N 3)); (80%nat, Div (N 2) (N 3)); (81%nat, Div (N 2) (N 3)); (90%nat, Div (N 2) (N 9)); (91%nat, Div (N 1) (N 3)); (92%nat, Div (Neg (N 1)) (N 9)); (93%nat, Div (N 2) (N 9))];
  [(60%nat, Div (N 8) (N 3)); (72%nat, Div (N 2) (N 3)); (73%nat, Div (N 2) (N 3)); (74%nat, Div (N 2) (N 3)); (78%nat, Div (N 2) (N 3)); (79%nat, Div (N 2) (N 3)); (80%nat, Div (Neg (N 10)) (N 3)); (81%nat, Div (N 2) (N 3)); (90%nat, Div (N 2) (N 9)); (91%nat, Div (N 1) (N 3)); (92%nat, Div (Neg (N 1)) (N 9)); (93%nat, Div (N 2) (N 9))];
  [(61%nat, Div (N 8) (N 3)); (72%nat, Div (N 2) (N 3)); (73%nat, Div (N 2) (N 3)); (74%nat, Div (N 2) (N 3)); (78%nat, Div (N 2) (N 3)); (79%nat, Div (N 2) (N 3)); (80%nat, Div (N 2) (N 3)); (81%nat, Div (Neg (N 10)) (N 3)); (90%nat, Div (N 2) (N 9)); (91%nat, Div (N 1) (N 3)); (92%nat, Div (Neg (N 1)) (N 9)); (93%nat, Div (N 2) (N 9))];
  [(62%nat, Div (Neg (N 8)) (N 3)); (70%nat, Div (N 2) (N 3)); (75%nat, Div (N 2) (N 3)); (77%nat, Div (N 2) (N 3)); (82%nat, Div (Neg (N 40)) (N 3)); (83%nat, Div (N 2) (N 3)); (84%nat, Div (N 2) (N 3)); (85%nat, Div (N 2) (N 3)); (94%nat, Div (N 2) (N 9)); (95%nat, Div (N 1) (N 3)); (96%nat, Div (Neg (N 1)) (N 9)); (97%nat, Div (N 2) (N 9))];
  [(63%nat, Div (Neg (N 8)) (N 3)); (70%nat, Div (N 2) (N 3)); (75%nat, Div (N 2) (N 3)); (77%nat, Div (N 2) (N 3)); (82%nat, Div (N 2) (N 3)); (83%nat, Div (Neg (N 40)) (N 3)); (84%nat, Div (N 2) (N 3)); (85%nat, Div (N 2) (N 3)); (94%nat, Div (N 2) (N 9)); (95%nat, Div (N 1) (N 3)); (96%nat, Div (Neg (N 1)) (N 9)); (97%nat, Div (N 2) (N 9))];
  [(64%nat, Div (N 8) (N 3)); (70%nat, Div (N 2) (N 3)); (75%nat, Div (N 2) (N 3)); (77%nat, Div (N 2) (N 3)); (82%nat, Div (N 2) (N 3)); (83%nat, Div (N 2) (N 3)); (84%nat, Div (Neg (N 10)) (N 3)); (85%nat, Div (N 2) (N 3)); (94%nat, Div (N 2) (N 9)); (95%nat, Div (N 1) (N 3)); (96%nat, Div (Neg (N 1)) (N 9)); (97%nat, Div (N 2) (N 9))];
  [(65%nat, Div (N 8) (N 3)); (70%nat, Div (N 2) (N 3)); (75%nat, Div (N 2) (N 3)); (77%nat, Div (N 2) (N 3)); (82%nat, Div (N 2) (N 3)); (83%nat, Div (N 2) (N 3)); (84%nat, Div (N 2) (N 3)); (85%nat, Div (Neg (N 10)) (N 3)); (94%nat, Div (N 2) (N 9)); (95%nat, Div (N 1) (N 3)); (96%nat, Div (Neg (N 1)) (N 9)); (97%nat, Div (N 2) (N 9))];
  [(66%nat, Div (Neg (N 8)) (N 3)); (86%nat, Neg (N 14))];
  [(67%nat, Div (Neg (N 8)) (N 3)); (87%nat, Neg (N 14))];
  [(68%nat, Div (Neg (N 8)) (N 3)); (88%nat, Neg (N 14))];
  [(69%nat, Div (Neg (N 8)) (N 3)); (89%nat, Neg (N 14))];
  [(72%nat, Div (N 4) (N 3)); (73%nat, Div (N 4) (N 3)); (74%nat, Div (N 4) (N 3)); (78%nat, Div (N 4) (N 3)); (79%nat, Div (N 4) (N 3)); (80%nat, Div (N 4) (N 3)); (81%nat, Div (N 4) (N 3)); (90%nat, Div (N 40) (N 9)); (91%nat, Div (N 2) (N 3)); (92%nat, Div (Neg (N 2)) (N 9)); (93%nat, Div (N 4) (N 9))];
  [(72%nat, Div (N 4) (N 3)); (73%nat, Div (N 4) (N 3)); (74%nat, Div (N 4) (N 3)); (78%nat, Div (N 4) (N 3)); (79%nat, Div (N 4) (N 3)); (80%nat, Div (N 4) (N 3)); (81%nat, Div (N 4) (N 3)); (90%nat, Div (N 4) (N 9)); (91%nat, Div (Neg (N 4)) (N 3)); (92%nat, Div (N 52) (N 9)); (93%nat, Div (N 4) (N 9))];
  [(91%nat, N 6); (92%nat, Neg (N 2))];
  [(72%nat, Div (N 4) (N 3)); (73%nat, Div (N 4) (N 3)); (74%nat, Div (N 4) (N 3)); (78%nat, Div (N 4) (N 3)); (79%nat, Div (N 4) (N 3)); (80%nat, Div (N 4) (N 3)); (81%nat, Div (N 4) (N 3)); (90%nat, Div (N 4) (N 9)); (91%nat, Div (N 2) (N 3)); (92%nat, Div (Neg (N 2)) (N 9)); (93%nat, Div (N 40) (N 9))];
  [(70%nat, Div (N 4) (N 3)); (75%nat, Div (N 4) (N 3)); (77%nat, Div (N 4) (N 3)); (82%nat, Div (N 4) (N 3)); (83%nat, Div (N 4) (N 3)); (84%nat, Div (N 4) (N 3)); (85%nat, Div (N 4) (N 3)); (94%nat, Div (N 40) (N 9)); (95%nat, Div (N 2) (N 3)); (96%nat, Div (Neg (N 2)) (N 9)); (97%nat, Div (N 4) (N 9))];
  [(70%nat, Div (N 4) (N 3)); (75%nat, Div (N 4) (N 3)); (77%nat, Div (N 4) (N 3)); (82%nat, Div (N 4) (N 3)); (83%nat, Div (N 4) (N 3)); (84%nat, Div (N 4) (N 3)); (85%nat, Div (N 4) (N 3)); (94%nat, Div (N 4) (N 9)); (95%nat, Div (Neg (N 4)) (N 3)); (96%nat, Div (N 52) (N 9)); (97%nat, Div (N 4) (N 9))];
  [(95%nat, N 6); (96%nat, Neg (N 2))];
  [(70%nat, Div (N 4) (N 3)); (75%nat, Div (N 4) (N 3)); (77%nat, Div (N 4) (N 3)); (82%nat, Div (N 4) (N 3)); (83%nat, Div (N 4) (N 3)); (84%nat, Div (N 4) (N 3)); (85%nat, Div (N 4) (N 3)); (94%nat, Div (N 4) (N 9)); (95%nat, Div (N 2) (N 3)); (96%nat, Div (Neg (N 2)) (N 9)); (97%nat, Div (N 40) (N 9))];
  [];
  [];
  [];
  [];
  [];
  [];
  [];
  [];
  [];
  [];
  [];
  [];
  [(110%nat, Add (Mul (Neg (N 2)) B0) (Div (N 28) (N 3))); (112%nat, Div (Neg (N 32)) (N 9))];
  [(111%nat, Add (Mul (Neg (N 2)) B0) (Div (N 28) (N 3))); (113%nat, Div (Neg (N 32)) (N 9))];
  [(112%nat, Add (Mul (Neg (N 2)) B0) (Div (N 32) (N 3)))];
  [(113%nat, Add (Mul (Neg (N 2)) B0) (Div (N 32) (N 3)))]].

(* adm.py:766-881 *)
Definition adm_e_sb : amat := [
  [(0%nat, Div (Neg (N 4)) (N 9)); (3%nat, Div (N 16) (N 27)); (19%nat, Div (N 32) (N 9))];
  [(1%nat, Div (Neg (N 4)) (N 9)); (2%nat, Div (N 16) (N 27)); (18%nat, Div (N 32) (N 9))];
  [(1%nat, Div (N 16) (N 27)); (2%nat, Div (Neg (N 4)) (N 9)); (17%nat, Div (N 32) (N 9))];
  [(0%nat, Div (N 16) (N 27)); (3%nat, Div (Neg (N 4)) (N 9)); (16%nat, Div (N 32) (N 9))];
  [(4%nat, Div (N 4) (N 27)); (20%nat, Div (N 32) (N 9))];
  [(5%nat, Div (N 4) (N 27)); (21%nat, Div (N 32) (N 9))];
  [(6%nat, Div (N 4) (N 27)); (22%nat, Div (N 32) (N 9))];
  [(7%nat, Div (N 4) (N 27)); (23%nat, Div (N 32) (N 9))];
  [(8%nat, Div (Neg (N 46)) (N 9)); (13%nat, Div (Neg (N 32)) (N 27)); (29%nat, Div (Neg (N 64)) (N 9))];
  [(9%nat, Div (Neg (N 46)) (N 9)); (12%nat, Div (Neg (N 32)) (N 27)); (28%nat, Div (Neg (N 64)) (N 9))];
  [(10%nat, Div (Neg (N 46)) (N 9)); (15%nat, Div (Neg (N 32)) (N 27)); (31%nat, Div (Neg (N 64)) (N 9))];
  [(11%nat, Div (Neg (N 46)) (N 9)); (14%nat, Div (Neg (N 32)) (N 27)); (30%nat, Div (Neg (N 64)) (N 9))];
  [(9%nat, Div (N 4) (N 27)); (12%nat, Div (N 26) (N 9)); (25%nat, Div (N 8) (N 9))];
  [(8%nat, Div (N 4) (N 27)); (13%nat, Div (N 26) (N 9)); (24%nat, Div (N 8) (N 9))];
  [(11%nat, Div (N 4) (N 27)); (14%nat, Div (N 26) (N 9)); (27%nat, Div (N 8) (N 9))];
  [(10%nat, Div (N 4) (N 27)); (15%nat, Div (N 26) (N 9)); (26%nat, Div (N 8) (N 9))];
  [(3%nat, Div (N 64) (N 81)); (16%nat, Div (Neg (N 4)) (N 9)); (19%nat, Div (Neg (N 16)) (N 27))];
  [(2%nat, Div (N 64) (N 81)); (17%nat, Div (Neg (N 4)) (N 9)); (18%nat, Div (Neg (N 16)) (N 27))];
  [(1%nat, Div (N 64) (N 81)); (17%nat, Div (Neg (N 16)) (N 27)); (18%nat, Div (Neg (N 4)) (N 9))];
  [(0%nat, Div (N 64) (N 81)); (16%nat, Div (Neg (N 16)) (N 27)); (19%nat, Div (Neg (N 4)) (N 9))];
  [(4%nat, Div (N 64) (N 81)); (20%nat, Div (Neg (N 28)) (N 27))];
  [(5%nat, Div (N 64) (N 81)); (21%nat, Div (Neg (N 28)) (N 27))];
  [(6%nat, Div (N 64) (N 81)); (22%nat, Div (Neg (N 28)) (N 27))];
  [(7%nat, Div (N 64) (N 81)); (23%nat, Div (Neg (N 28)) (N 27))];
  [(13%nat, Div (Neg (N 128)) (N 81)); (24%nat, Div (Neg (N 46)) (N 9)); (29%nat, Div (N 32) (N 27))];
  [(12%nat, Div (Neg (N 128)) (N 81)); (25%nat, Div (Neg (N 46)) (N 9)); (28%nat, Div (N 32) (N 27))];
  [(15%nat, Div (Neg (N 128)) (N 81)); (26%nat, Div (Neg (N 46)) (N 9)); (31%nat, Div (N 32) (N 27))];
  [(14%nat, Div (Neg (N 128)) (N 81)); (27%nat, Div (Neg (N 46)) (N 9)); (30%nat, Div (N 32) (N 27))];
  [(9%nat, Div (N 16) (N 81)); (25%nat, Div (Neg (N 4)) (N 27)); (28%nat, Div (N 26) (N 9))];
  [(8%nat, Div (N 16) (N 81)); (24%nat, Div (Neg (N 4)) (N 27)); (29%nat, Div (N 26) (N 9))];
  [(11%nat, Div (N 16) (N 81)); (27%nat, Div (Neg (N 4)) (N 27)); (30%nat, Div (N 26) (N 9))];
  [(10%nat, Div (N 16) (N 81)); (26%nat, Div (Neg (N 4)) (N 27)); (31%nat, Div (N 26) (N 9))];
  [(32%nat, Div (Neg (N 20)) (N 3))];
  [(33%nat, Div (Neg (N 20)) (N 3))];
  [(34%nat, Div (Neg (N 20)) (N 3))];
  [(35%nat, Div (Neg (N 20)) (N 3))];
  [(36%nat, Div (Neg (N 20)) (N 3))];
  [(37%nat, Div (Neg (N 20)) (N 3))];
  [(38%nat, Div (Neg (N 20)) (N 3)); (44%nat, Div (Neg (N 2)) (N 3))];
  [(39%nat, Div (Neg (N 20)) (N 3)); (45%nat, Div (Neg (N 2)) (N 3))];
  [(40%nat, Div (Neg (N 20)) (N 3)); (46%nat, Div (Neg (N 2)) (N 3))];
  [(41%nat, Div (Neg (N 20)) (N 3)); (47%nat, Div (Neg (N 2)) (N 3))];
  [(42%nat, Div (Neg (N 20)) (N 3)); (48%nat, Div (Neg (N 2)) (N 3))];
  [(43%nat, Div (Neg (N 20)) (N 3)); (49%nat, Div (Neg (N 2)) (N 3))];
  [(38%nat, Neg (N 32)); (44%nat, Div (N 20) (N 9))];
  [(39%nat, Neg (N 32)); (45%nat, Div (N 20) (N 9))];
  [(40%nat, Neg (N 32)); (46%nat, Div (N 20) (N 9))];
  [(41%nat, Neg (N 32)); (47%nat, Div (N 20) (N 9))];
  [(42%nat, Neg (N 32)); (48%nat, Div (N 20) (N 9))];
  [(43%nat, Neg (N 32)); (49%nat, Div (N 20) (N 9))];
  [(50%nat, Div (Neg (N 8)) (N 9)); (53%nat, Div (N 4) (N 9)); (57%nat, Div (N 4) (N 9)); (62%nat, Div (Neg (N 8)) (N 9)); (63%nat, Div (Neg (N 8)) (N 9)); (64%nat, Div (Neg (N 8)) (N 9)); (65%nat, Div (Neg (N 8)) (N 9)); (94%nat, Div (N 4) (N 9)); (96%nat, Div (N 4) (N 9)); (97%nat, Div (N 4) (N 9)); (104%nat, Div (N 4) (N 3)); (105%nat, Div (N 4) (N 3)); (106%nat, Div (N 4) (N 3)); (107%nat, Div (N 4) (N 3)); (108%nat, Div (N 4) (N 3)); (109%nat, Div (N 4) (N 3))];
  [(51%nat, Div (Neg (N 4)) (N 3))];
  [(52%nat, Div (Neg (N 4)) (N 3))];
  [(50%nat, Div (N 4) (N 9)); (53%nat, Div (Neg (N 8)) (N 9)); (57%nat, Div (N 4) (N 9)); (62%nat, Div (Neg (N 8)) (N 9)); (63%nat, Div (Neg (N 8)) (N 9)); (64%nat, Div (Neg (N 8)) (N 9)); (65%nat, Div (Neg (N 8)) (N 9)); (94%nat, Div (N 4) (N 9)); (96%nat, Div (N 4) (N 9)); (97%nat, Div (N 4) (N 9)); (104%nat, Div (N 4) (N 3)); (105%nat, Div (N 4) (N 3)); (106%nat, Div (N 4) (N 3)); (107%nat, Div (N 4) (N 3)); (108%nat, Div (N 4) (N 3)); (109%nat, Div (N 4) (N 3))];
  [(54%nat, Div (Neg (N 8)) (N 9)); (55%nat, Div (N 4) (N 9)); (56%nat, Div (N 4) (N 9)); (58%nat, Div (Neg (N 8)) (N 9)); (59%nat, Div (Neg (N 8)) (N 9)); (60%nat, Div (Neg (N 8)) (N 9)); (61%nat, Div (Neg (N 8)) (N 9)); (90%nat, Div (N 4) (N 9)); (92%nat, Div (N 4) (N 9)); (93%nat, Div (N 4) (N 9)); (98%nat, Div (N 4) (N 3)); (99%nat, Div (N 4) (N 3)); (100%nat, Div (N 4) (N 3)); (101%nat, Div (N 4) (N 3)); (102%nat, Div (N 4) (N 3)); (103%nat, Div (N 4) (N 3))];
  [(54%nat, Div (N 4) (N 9)); (55%nat, Div (Neg (N 8)) (N 9)); (56%nat, Div (N 4) (N 9)); (58%nat, Div (Neg (N 8)) (N 9)); (59%nat, Div (Neg (N 8)) (N 9)); (60%nat, Div (Neg (N 8)) (N 9)); (61%nat, Div (Neg (N 8)) (N 9)); (90%nat, Div (N 4) (N 9)); (92%nat, Div (N 4) (N 9)); (93%nat, Div (N 4) (N 9)); (98%nat, Div (N 4) (N 3)); (99%nat, Div (N 4) (N 3)); (100%nat, Div (N 4) (N 3)); (101%nat, Div (N 4) (N 3)); (102%nat, Div (N 4) (N 3)); (103%nat, Div (N 4) (N 3))];
  [(54%nat, Div (N 4) (N 9)); (55%nat, Div (N 4) (N 9)); (56%nat, Div (Neg (N 8)) (N 9)); (58%nat, Div (Neg (N 8)) (N 9)); (59%nat, Div (Neg (N 8)) (N 9)); (60%nat, Div (Neg (N 8)) (N 9)); (61%nat, Div (Neg (N 8)) (N 9)); (90%nat, Div (N 4) (N 9)); (92%nat, Div (N 4) (N 9)); (93%nat, Div (N 4) (N 9)); (98%nat, Div (N 4) (N 3)); (99%nat, Div (N 4) (N 3)); (100%nat, Div (N 4) (N 3)); (101%nat, Div (N 4) (N 3)); (102%nat, Div (N 4) (N 3)); (103%nat, Div (N 4) (N 3))];
  [(50%nat, Div (N 4) (N 9)); (53%nat, Div (N 4) (N 9)); (57%nat, Div (Neg (N 8)) (N 9)); (62%nat, Div (Neg (N 8)) (N 9)); (63%nat, Div (Neg (N 8)) (N 9)); (64%nat, Div (Neg (N 8)) (N 9)); (65%nat, Div (Neg (N 8)) (N 9)); (94%nat, Div (N 4) (N 9)); (96%nat, Div (N 4) (N 9)); (97%nat, Div (N 4) (N 9)); (104%nat, Div (N 4) (N 3)); (105%nat, Div (N 4) (N 3)); (106%nat, Div (N 4) (N 3)); (107%nat, Div (N 4) (N 3)); (108%nat, Div (N 4) (N 3)); (109%nat, Div (N 4) (N 3))];
  [(54%nat, Div (Neg (N 8)) (N 9)); (55%nat, Div (Neg (N 8)) (N 9)); (56%nat, Div (Neg (N 8)) (N 9)); (58%nat, Div (N 40) (N 9)); (59%nat, Div (N 16) (N 9)); (60%nat, Div (N 16) (N 9)); (61%nat, Div (N 16) (N 9)); (90%nat, Div (Neg (N 8)) (N 9)); (92%nat, Div (Neg (N 8)) (N 9)); (93%nat, Div (Neg (N 8)) (N 9)); (98%nat, Div (Neg (N 8)) (N 3)); (99%nat, Div (Neg (N 8)) (N 3)); (100%nat, Div (Neg (N 8)) (N 3)); (101%nat, Div (Neg (N 8)) (N 3)); (102%nat, Div (Neg (N 8)) (N 3)); (103%nat, Div (Neg (N 8)) (N 3))];
  [(54%nat, Div (Neg (N 8)) (N 9)); (55%nat, Div (Neg (N 8)) (N 9)); (56%nat, Div (Neg (N 8)) (N 9)); (58%nat, Div (N 16) (N 9)); (59%nat, Div (N 40) (N 9)); (60%nat, Div (N 16) (N 9)); (61%nat, Div (N 16) (N 9)); (90%nat, Div (Neg (N 8)) (N 9)); (92%nat, Div (Neg (N 8)) (N 9)); (93%nat, Div (Neg (N 8)) (N 9)); (98%nat, Div (Neg (N 8)) (N 3)); (99%nat, Div (Neg (N 8)) (N 3)); (100%nat, Div (Neg (N 8)) (N 3)); (101%nat, Div (Neg (N 8)) (N 3)); (102%nat, Div (Neg (N 8)) (N 3)); (103%nat, Div (Neg (N 8)) (N 3))];
  [(54%nat, Div (Neg (N 8)) (N 9)); (55%nat, Div (Neg (N 8)) (N 9)); (56%nat, Div (Neg (N 8)) (N 9)); (58%nat, Div (N 16) (N 9)); (59%nat, Div (N 16) (N 9)); (60%nat, Div (Neg (N 8)) (N 9)); (61%nat, Div (N 16) (N 9)); (90%nat, Div (Neg (N 8)) (N 9)); (92%nat, Div (Neg (N 8)) (N 9)); (93%nat, Div (Neg (N 8)) (N 9)); (98%nat, Div (Neg (N 8)) (N 3)); (99%nat, Div (Neg (N 8)) (N 3)); (100%nat, Div (Neg (N 8)) (N 3)); (101%nat, Div (Neg (N 8)) (N 3)); (102%nat, Div (Neg (N 8)) (N 3)); (103%nat, Div (Neg (N 8)) (N 3))];
  [(54%nat, Div (Neg (N 8)) (N 9)); (55%nat, Div (Neg (N 8)) (N 9)); (56%nat, Div (Neg (N 8)) (N 9)); (58%nat, Div (N 16) (N 9)); (59%nat, Div (N 16) (N 9)); (60%nat, Div (N 16) (N 9)); (61%nat, Div (Neg (N 8)) (N 9)); (90%nat, Div (Neg (N 8)) (N 9)); (92%nat, Div (Neg (N 8)) (N 9)); (93%nat, Div (Neg (N 8)) (N 9)); (98%nat, Div (Neg (N 8)) (N 3)); (99%nat, Div (Neg (N 8)) (N 3)); (100%nat, Div (Neg (N 8)) (N 3)); (101%nat, Div (Neg (N 8)) (N 3)); (102%nat, Div (Neg (N 8)) (N 3)); (103%nat, Div (Neg (N 8)) (N 3))];
  [(50%nat, Div (Neg (N 8)) (N 9)); (53%nat, Div (Neg (N 8)) (N 9)); (57%nat, Div (Neg (N 8)) (N 9)); (62%nat, Div (N 40) (N 9)); (63%nat, Div (N 16) (N 9)); (64%nat, Div (N 16) (N 9)); (65%nat, Div (N 16) (N 9)); (94%nat, Div (Neg (N 8)) (N 9)); (96%nat, Div (Neg (N 8)) (N 9)); (97%nat, Div (Neg (N 8)) (N 9)); (104%nat, Div (Neg (N 8)) (N 3)); (105%nat, Div (Neg (N 8)) (N 3)); (106%nat, Div (Neg (N 8)) (N 3)); (107%nat, Div (Neg (N 8)) (N 3)); (108%nat, Div (Neg (N 8)) (N 3)); (109%nat, Div (Neg (N 8)) (N 3))];
  [(50%nat, Div (Neg (N 8)) (N 9)); (53%nat, Div (Neg (N 8)) (N 9)); (57%nat, Div (Neg (N 8)) (N 9)); (62%nat, Div (N 16) (N 9)); (63%nat, Div (N 40) (N 9)); (64%nat, Div (N 16) (N 9)); (65%nat, Div (N 16) (N 9)); (94%nat, Div (Neg (N 8)) (N 9)); (96%nat, Div (Neg (N 8)) (N 9)); (97%nat, Div (Neg (N 8)) (N 9)); (104%nat, Div (Neg (N 8)) (N 3)); (105%nat, Div (Neg (N 8)) (N 3)); (106%nat, Div (Neg (N 8)) (N 3)); (107%nat, Div (Neg (N 8)) (N 3)); (108%nat, Div (Neg (N 8)) (N 3)); (109%nat, Div (Neg (N 8)) (N 3))];
  [(50%nat, Div (Neg (N 8)) (N 9)); (53%nat, Div (Neg (N 8)) (N 9)); (57%nat, Div (Neg (N 8)) (N 9)); (62%nat, Div (N 16) (N 9)); (63%nat, Div (N 16) (N 9)); (64%nat, Div (Neg (N 8)) (N 9)); (65%nat, Div (N 16) (N 9)); (94%nat, Div (Neg (N 8)) (N 9)); (96%nat, Div (Neg (N 8)) (N 9)); (97%nat, Div (Neg (N 8)) (N 9)); (104%nat, Div (Neg (N 8)) (N 3)); (105%nat, Div (Neg (N 8)) (N 3)); (106%nat, Div (Neg (N 8)) (N 3)); (107%nat, Div (Neg (N 8)) (N 3)); (108%nat, Div (Neg (N 8)) (N 3)); (109%nat, Div (Neg (N 8)) (N 3))];
  [(50%nat, Div (Neg (N 8)) (N 9)); (53%nat, Div (Neg (N 8)) (N 9)); (57%nat, Div (Neg (N 8)) (N 9)); (62%nat, Div (N 16) (N 9)); (63%nat, Div (N 16) (N 9)); (64%nat, Div (N 16) (N 9)); (65%nat, Div (Neg (N 8)) (N 9)); (94%nat, Div (Neg (N 8)) (N 9)); (96%nat, Div (Neg (N 8)) (N 9)); (97%nat, Div (Neg (N 8)) (N 9)); (104%nat, Div (Neg (N 8)) (N 3)); (105%nat, Div (Neg (N 8)) (N 3)); (106%nat, Div (Neg (N 8)) (N 3)); (107%nat, Div (Neg (N 8)) (N 3)); (108%nat, Div (Neg (N 8)) (N 3)); (109%nat, Div (Neg (N 8)) (N 3))];
  [(66%nat, Div (Neg (N 10)) (N 3))];
  [(67%nat, Div (Neg (N 10)) (N 3))];
  [(68%nat, Div (Neg (N 10)) (N 3))];
  [(69%nat, Div (Neg (N 10)) (N 3))];
  [(70%nat, Div (Neg (N 4)) (N 3))];
  [(71%nat, Div (Neg (N 4)) (N 3))];
  [(72%nat, Div (Neg (N 4)) (N 3))];
  [(73%nat, Div (Neg (N 4)) (N 3))];
  [(74%nat, Div (Neg (N 4)) (N 3))];
  [(75%nat, Div (Neg (N 4)) (N 3))];
  [(76%nat, Div (Neg (N 4)) (N 3))];
  [(77%nat, Div (Neg (N 4)) (N 3))];
  [(78%nat, Div (N 8) (N 3))];
  [(79%nat, Div (N 8) (N 3))];
  [(80%nat, Div (Neg (N 8)) (N 3))];
  [(81%nat, Div (Neg (N 8)) (N 3))];
  [(82%nat, Div (N 8) (N 3))];
  [(83%nat, Div (N 8) (N 3))];
  [(84%nat, Div (Neg (N 8)) (N 3))];
  [(85%nat, Div (Neg (N 8)) (N 3))];
  [(86%nat, Div (Neg (N 10)) (N 3))];
  [(87%nat, Div (Neg (N 10)) (N 3))];
  [(88%nat, Div (Neg (N 10)) (N 3))];
  [(89%nat, Div (Neg (N 10)) (N 3))];
  [(54%nat, Div (N 4) (N 9)); (55%nat, Div (N 4) (N 9)); (56%nat, Div (N 4) (N 9)); (58%nat, Div (Neg (N 8)) (N 9)); (59%nat, Div (Neg (N 8)) (N 9)); (60%nat, Div (Neg (N 8)) (N 9)); (61%nat, Div (Neg (N 8)) (N 9)); (90%nat, Div (N 16) (N 9)); (92%nat, Div (N 4) (N 9)); (93%nat, Div (N 4) (N 9)); (98%nat, Div (N 4) (N 3)); (99%nat, Div (N 4) (N 3)); (100%nat, Div (N 4) (N 3)); (101%nat, Div (N 4) (N 3)); (102%nat, Div (N 4) (N 3)); (103%nat, Div (N 4) (N 3))];
  [(54%nat, Div (N 4) (N 27)); (55%nat, Div (N 4) (N 27)); (56%nat, Div (N 4) (N 27)); (58%nat, Div (Neg (N 8)) (N 27)); (59%nat, Div (Neg (N 8)) (N 27)); (60%nat, Div (Neg (N 8)) (N 27)); (61%nat, Div (Neg (N 8)) (N 27)); (90%nat, Div (N 4) (N 27)); (91%nat, Div (N 4) (N 3)); (92%nat, Div (N 4) (N 27)); (93%nat, Div (N 4) (N 27)); (98%nat, Div (N 4) (N 9)); (99%nat, Div (N 4) (N 9)); (100%nat, Div (N 4) (N 9)); (101%nat, Div (N 4) (N 9)); (102%nat, Div (N 4) (N 9)); (103%nat, Div (N 4) (N 9))];
  [(54%nat, Div (N 16) (N 27)); (55%nat, Div (N 16) (N 27)); (56%nat, Div (N 16) (N 27)); (58%nat, Div (Neg (N 32)) (N 27)); (59%nat, Div (Neg (N 32)) (N 27)); (60%nat, Div (Neg (N 32)) (N 27)); (61%nat, Div (Neg (N 32)) (N 27)); (90%nat, Div (N 16) (N 27)); (92%nat, Div (N 52) (N 27)); (93%nat, Div (N 16) (N 27)); (98%nat, Div (N 16) (N 9)); (99%nat, Div (N 16) (N 9)); (100%nat, Div (N 16) (N 9)); (101%nat, Div (N 16) (N 9)); (102%nat, Div (N 16) (N 9)); (103%nat, Div (N 16) (N 9))];
  [(54%nat, Div (N 16) (N 27)); (55%nat, Div (N 16) (N 27)); (56%nat, Div (N 16) (N 27)); (58%nat, Div (Neg (N 32)) (N 27)); (59%nat, Div (Neg (N 32)) (N 27)); (60%nat, Div (Neg (N 32)) (N 27)); (61%nat, Div (Neg (N 32)) (N 27)); (90%nat, Div (N 16) (N 27)); (92%nat, Div (N 16) (N 27)); (93%nat, Div (N 52) (N 27)); (98%nat, Div (N 16) (N 9)); (99%nat, Div (N 16) (N 9)); (100%nat, Div (N 16) (N 9)); (101%nat, Div (N 16) (N 9)); (102%nat, Div (N 16) (N 9)); (103%nat, Div (N 16) (N 9))];
  [(50%nat, Div (N 4) (N 9)); (53%nat, Div (N 4) (N 9)); (57%nat, Div (N 4) (N 9)); (62%nat, Div (Neg (N 8)) (N 9)); (63%nat, Div (Neg (N 8)) (N 9)); (64%nat, Div (Neg (N 8)) (N 9)); (65%nat, Div (Neg (N 8)) (N 9)); (94%nat, Div (N 16) (N 9)); (96%nat, Div (N 4) (N 9)); (97%nat, Div (N 4) (N 9)); (104%nat, Div (N 4) (N 3)); (105%nat, Div (N 4) (N 3)); (106%nat, Div (N 4) (N 3)); (107%nat, Div (N 4) (N 3)); (108%nat, Div (N 4) (N 3)); (109%nat, Div (N 4) (N 3))];
  [(50%nat, Div (N 4) (N 27)); (53%nat, Div (N 4) (N 27)); (57%nat, Div (N 4) (N 27)); (62%nat, Div (Neg (N 8)) (N 27)); (63%nat, Div (Neg (N 8)) (N 27)); (64%nat, Div (Neg (N 8)) (N 27)); (65%nat, Div (Neg (N 8)) (N 27)); (94%nat, Div (N 4) (N 27)); (95%nat, Div (N 4) (N 3)); (96%nat, Div (N 4) (N 27)); (97%nat, Div (N 4) (N 27)); (104%nat, Div (N 4) (N 9)); (105%nat, Div (N 4) (N 9)); (106%nat, Div (N 4) (N 9)); (107%nat, Div (N 4) (N 9)); (108%nat, Div (N 4) (N 9)); (109%nat, Div (N 4) (N 9))];
  [(50%nat, Div (N 16) (N 27)); (53%nat, Div (N 16) (N 27)); (57%nat, Div (N 16) (N 27)); (62%nat, Div (Neg (N 32)) (N 27)); (63%nat, Div (Neg (N 32)) (N 27)); (64%nat, Div (Neg (N 32)) (N 27)); (65%nat, Div (Neg (N 32)) (N 27)); (94%nat, Div (N 16) (N 27)); (96%nat, Div (N 52) (N 27)); (97%nat, Div (N 16) (N 27)); (104%nat, Div (N 16) (N 9)); (105%nat, Div (N 16) (N 9)); (106%nat, Div (N 16) (N 9)); (107%nat, Div (N 16) (N 9)); (108%nat, Div (N 16) (N 9)); (109%nat, Div (N 16) (N 9))];
  [(50%nat, Div (N 16) (N 27)); (53%nat, Div (N 16) (N 27)); (57%nat, Div (N 16) (N 27)); (62%nat, Div (Neg (N 32)) (N 27)); (63%nat, Div (Neg (N 32)) (N 27)); (64%nat, Div (Neg (N 32)) (N 27)); (65%nat, Div (Neg (N 32)) (N 27)); (94%nat, Div (N 16) (N 27)); (96%nat, Div (N 16) (N 27)); (97%nat, Div (N 52) (N 27)); (104%nat, Div (N 16) (N 9)); (105%nat, Div (N 16) (N 9)); (106%nat, Div (N 16) (N 9)); (107%nat, Div (N 16) (N 9)); (108%nat, Div (N 16) (N 9)); (109%nat, Div (N 16) (N 9))];
  [(54%nat, Div (N 4) (N 9)); (55%nat, Div (N 4) (N 9)); (56%nat, Div (N 4) (N 9)); (58%nat, Div (Neg (N 8)) (N 9)); (59%nat, Div (Neg (N 8)) (N 9)); (60%nat, Div (Neg (N 8)) (N 9)); (61%nat, Div (Neg (N 8)) (N 9)); (90%nat, Div (N 4) (N 9)); (92%nat, Div (N 4) (N 9)); (93%nat, Div (N 4) (N 9)); (98%nat, Div (Neg (N 8)) (N 3)); (99%nat, Div (N 4) (N 3)); (100%nat, Div (N 4) (N 3)); (101%nat, Div (N 4) (N 3)); (102%nat, Div (N 4) (N 3)); (103%nat, Div (N 4) (N 3))];
  [(54%nat, Div (N 4) (N 9)); (55%nat, Div (N 4) (N 9)); (56%nat, Div (N 4) (N 9)); (58%nat, Div (Neg (N 8)) (N 9)); (59%nat, Div (Neg (N 8)) (N 9)); (60%nat, Div (Neg (N 8)) (N 9)); (61%nat, Div (Neg (N 8)) (N 9)); (90%nat, Div (N 4) (N 9)); (92%nat, Div (N 4) (N 9)); (93%nat, Div (N 4) (N 9)); (98%nat, Div (N 4) (N 3)); (99%nat, Div (Neg (N 8)) (N 3)); (100%nat, Div (N 4) (N 3)); (101%nat, Div (N 4) (N 3)); (102%nat, Div (N 4) (N 3)); (103%nat, Div (N 4) (N 3))];
  [(54%nat, Div (N 4) (N 9)); (55%nat, Div (N 4) (N 9)); (56%nat, Div (N 4) (N 9)); (58%nat, Div (Neg (N 8)) (N 9)); (59%nat, Div (Neg (N 8)) (N 9)); (60%nat, Div (Neg (N 8)) (N 9)); (61%nat, Div (Neg (N 8)) (N 9)); (90%nat, Div (N 4) (N 9)); (92%nat, Div (N 4) (N 9)); (93%nat, Div (N 4) (N 9)); (98%nat, Div (N 4) (N 3)); (99%nat, Div (N 4) (N 3)); (100%nat, Div (Neg (N 8)) (N 3)); (101%nat, Div (N 4) (N 3)); (102%nat, Div (N 4) (N 3)); (103%nat, Div (N 4) (N 3))];
  [(54%nat, Div (N 4) (N 9)); (55%nat, Div (N 4) (N 9)); (56%nat, Div (N 4) (N 9)); (58%nat, Div (Neg (N 8)) (N 9)); (59%nat, Div (Neg (N 8)) (N 9)); (60%nat, Div (Neg (N 8)) (N 9)); (61%nat, Div (Neg (N 8)) (N 9)); (90%nat, Div (N 4) (N 9)); (92%nat, Div (N 4) (N 9)); (93%nat, Div (N 4) (N 9)); (98%nat, Div (N 4) (N 3)); (99%nat, Div (N 4) (N 3)); (100%nat, Div (N 4) (N 3)); (101%nat, Div (N 16) (N 3)); (102%nat, Div (N 4) (N 3)); (103%nat, Div (N 4) (N 3))];
  [(54%nat, Div (N 4) (N 9)); (55%nat, Div (N 4) (N 9)); (56%nat, Div (N 4) (N 9)); (58%nat, Div (Neg (N 8)) (N 9)); (59%nat, Div (Neg (N 8)) (N 9)); (60%nat, Div (Neg (N 8)) (N 9)); (61%nat, Div (Neg (N 8)) (N 9)); (90%nat, Div (N 4) (N 9)); (92%nat, Div (N 4) (N 9)); (93%nat, Div (N 4) (N 9)); (98%nat, Div (N 4) (N 3)); (99%nat, Div (N 4) (N 3)); (100%nat, Div (N 4) (N 3)); (101%nat, Div (N 4) (N 3)); (102%nat, Div (N 16) (N 3)); (103%nat, Div (N 4) (N 3))];
  [(54%nat, Div (N 4) (N 9)); (55%nat, Div (N 4) (N 9)); (56%nat, Div (N 4) (N 9)); (58%nat, Div (Neg (N 8)) (N 9)); (59%nat, Div (Neg (N 8)) (N 9)); (60%nat, Div (Neg (N 8)) (N 9)); (61%nat, Div (Neg (N 8)) (N 9)); (90%nat, Div (N 4) (N 9)); (92%nat, Div (N 4) (N 9)); (93%nat, Div (N 4) (N 9)); (98%nat, Div (N 4) (N 3)); (99%nat, Div (N 4) (N 3)); (100%nat, Div (N 4) (N 3)); (101%nat, Div (N 4) (N 3)); (102%nat, Div (N 4) (N 3)); (103%nat, Div (N 16) (N 3))];
  [(50%nat, Div (N 4) (N 9)); (53%nat, Div (N 4) (N 9)); (57%nat, Div (N 4) (N 9)); (62%nat, Div (Neg (N 8)) (N 9)); (63%nat, Div (Neg (N 8)) (N 9)); (64%nat, Div (Neg (N 8)) (N 9)); (65%nat, Div (Neg (N 8)) (N 9)); (94%nat, Div (N 4) (N 9)); (96%nat, Div (N 4) (N 9)); (97%nat, Div (N 4) (N 9)); (104%nat, Div (Neg (N 8)) (N 3)); (105%nat, Div (N 4) (N 3)); (106%nat, Div (N 4) (N 3)); (107%nat, Div (N 4) (N 3)); (108%nat, Div (N 4) (N 3)); (109%nat, Div (N 4) (N 3))];
  [(50%nat, Div (N 4) (N 9)); (53%nat, Div (N 4) (N 9)); (57%nat, Div (N 4) (N 9)); (62%nat, Div (Neg (N 8)) (N 9)); (63%nat, Div (Neg (N 8)) (N 9)); (64%nat, Div (Neg (N 8)) (N 9)); (65%nat, Div (Neg (N 8)) (N 9)); (94%nat, Div (N 4) (N 9)); (96%nat, Div (N 4) (N 9)); (97%nat, Div (N 4) (N 9)); (104%nat, Div (N 4) (N 3)); (105%nat, Div (Neg (N 8)) (N 3)); (106%nat, Div (N 4) (N 3)); (107%nat, Div (N 4) (N 3)); (108%nat, Div (N 4) (N 3)); (109%nat, Div (N 4) (N 3))];
  [(50%nat, Div (N 4) (N 9)); (53%nat, Div (N 4) (N 9)); (57%nat, Div (N 4) (N 9)); (62%nat, Div (Neg (N 8)) (N 9)); (63%nat, Div (Neg (N 8)) (N 9)); (64%nat, Div (Neg (N 8)) (N 9)); (65%nat, Div (Neg (N 8)) (N 9)); (94%nat, Div (N 4) (N 9)); (96%nat, Div (N 4) (N 9)); (97%nat, Div (N 4) (N 9)); (104%nat, Div (N 4) (N 3)); (105%nat, Div (N 4) (N 3)); (106%nat, Div (Neg (N 8)) (N 3)); (107%nat, Div (N 4) (N 3)); (108%nat, Div (N 4) (N 3)); (109%nat, Div (N 4) (N 3))];
  [(50%nat, Div (N 4) (N 9)); (53%nat, Div (N 4) (N 9)); (57%nat, Div (N 4) (N 9)); (62%nat, Div (Neg (N 8)) (N 9)); (63%nat, Div (Neg (N 8)) (N 9)); (64%nat, Div (Neg (N 8)) (N 9)); (65%nat, Div (Neg (N 8)) (N 9)); (94%nat, Div (N 4) (N 9)); (96%nat, Div (N 4) (N 9)); (97%nat, Div (N 4) (N 9)); (104%nat, Div (N 4) (N 3)); (105%nat, Div (N 4) (N 3)); (106%nat, Div (N 4) (N 3)); (107%nat, Div (N 16) (N 3)); (108%nat, Div (N 4) (N 3)); (109%nat, Div (N 4) (N 3))];
  [(50%nat, Div (N 4) (N 9)); (53%nat, Div (N 4) (N 9)); (57%nat, Div (N 4) (N 9)); (62%nat, Div (Neg (N 8)) (N 9)); (63%nat, Div (Neg (N 8)) (N 9)); (64%nat, Div (Neg (N 8)) (N 9)); (65%nat, Div (Neg (N 8)) (N 9)); (94%nat, Div (N 4) (N 9)); (96%nat, Div (N 4) (N 9)); (97%nat, Div (N 4) (N 9)); (104%nat, Div (N 4) (N 3)); (105%nat, Div (N 4) (N 3)); (106%nat, Div (N 4) (N 3)); (107%nat, Div (N 4) (N 3)); (108%nat, Div (N 16) (N 3)); (109%nat, Div (N 4) (N 3))];
  [(50%nat, Div (N 4) (N 9)); (53%nat, Div (N 4) (N 9)); (57%nat, Div (N 4) (N 9)); (62%nat, Div (Neg (N 8)) (N 9)); (63%nat, Div (Neg (N 8)) (N 9)); (64%nat, Div (Neg (N 8)) (N 9)); (65%nat, Div (Neg (N 8)) (N 9)); (94%nat, Div (N 4) (N 9)); (96%nat, Div (N 4) (N 9)); (97%nat, Div (N 4) (N 9)); (104%nat, Div (N 4) (N 3)); (105%nat, Div (N 4) (N 3)); (106%nat, Div (N 4) (N 3)); (107%nat, Div (N 4) (N 3)); (108%nat, Div (N 4) (N 3)); (109%nat, Div (N 16) (N 3))];
  [(110%nat, Div (N 8) (N 9))];
  [(111%nat, Div (N 8) (N 9))];
  [(110%nat, Div (Neg (N 8)) (N 3)); (112%nat, Dec 88888888888889 50000000000000)];
  [(111%nat, Div (Neg (N 8)) (N 3)); (113%nat, Dec 88888888888889 50000000000000)]].

(* adm.py:883-999 *)
Definition adm_s_sb : amat := [
  [(0%nat, Neg (N 16)); (3%nat, Div (N 64) (N 9)); (16%nat, N 8); (19%nat, Div (Neg (N 16)) (N 3))];
  [(1%nat, Neg (N 16)); (2%nat, Div (N 64) (N 9)); (17%nat, N 8); (18%nat, Div (Neg (N 16)) (N 3))];
  [(1%nat, Div (N 64) (N 9)); (2%nat, Neg (N 16)); (17%nat, Div (Neg (N 16)) (N 3)); (18%nat, N 8); (111%nat, Div (V Md) (V Mb)); (113%nat, Div (Neg (V Md)) (Mul (N 3) (V Mb)))];
  [(0%nat, Div (N 64) (N 9)); (3%nat, Neg (N 16)); (16%nat, Div (Neg (N 16)) (N 3)); (19%nat, N 8); (110%nat, Div (V Md) (V Mb)); (112%nat, Div (Neg (V Md)) (Mul (N 3) (V Mb)))];
  [(4%nat, Div (Neg (N 80)) (N 9)); (20%nat, Div (N 8) (N 3)); (110%nat, Div (V Ms) (V Mb)); (112%nat, Div (Neg (V Ms)) (Mul (N 3) (V Mb)))];
  [(5%nat, Div (Neg (N 80)) (N 9)); (21%nat, Div (N 8) (N 3)); (111%nat, Div (V Ms) (V Mb)); (113%nat, Div (Neg (V Ms)) (Mul (N 3) (V Mb)))];
  [(6%nat, Div (Neg (N 80)) (N 9)); (22%nat, Div (N 8) (N 3)); (110%nat, N 1); (112%nat, Div (Neg (N 1)) (N 3))];
  [(7%nat, Div (Neg (N 80)) (N 9)); (23%nat, Div (N 8) (N 3)); (111%nat, N 1); (113%nat, Div (Neg (N 1)) (N 3))];
  [(8%nat, Neg (N 16)); (13%nat, Div (N 64) (N 9)); (24%nat, N 8); (29%nat, Div (Neg (N 16)) (N 3))];
  [(9%nat, Neg (N 16)); (12%nat, Div (N 64) (N 9)); (25%nat, N 8); (28%nat, Div (Neg (N 16)) (N 3))];
  [(10%nat, Neg (N 16)); (15%nat, Div (N 64) (N 9)); (26%nat, N 8); (31%nat, Div (Neg (N 16)) (N 3))];
  [(11%nat, Neg (N 16)); (14%nat, Div (N 64) (N 9)); (27%nat, N 8); (30%nat, Div (Neg (N 16)) (N 3))];
  [(9%nat, Div (N 64) (N 9)); (12%nat, Neg (N 16)); (25%nat, Div (Neg (N 16)) (N 3)); (28%nat, N 8); (111%nat, Div (V Mu) (V Mb)); (113%nat, Div (Mul (N 2) (V Mu)) (Mul (N 3) (V Mb)))];
  [(8%nat, Div (N 64) (N 9)); (13%nat, Neg (N 16)); (24%nat, Div (Neg (N 16)) (N 3)); (29%nat, N 8); (110%nat, Div (V Mu) (V Mb)); (112%nat, Div (Mul (N 2) (V Mu)) (Mul (N 3) (V Mb)))];
  [(11%nat, Div (N 64) (N 9)); (14%nat, Neg (N 16)); (27%nat, Div (Neg (N 16)) (N 3)); (30%nat, N 8); (111%nat, Div (V Mc) (V Mb)); (113%nat, Div (Mul (N 2) (V Mc)) (Mul (N 3) (V Mb)))];
  [(10%nat, Div (N 64) (N 9)); (15%nat, Neg (N 16)); (26%nat, Div (Neg (N 16)) (N 3)); (31%nat, N 8); (110%nat, Div (V Mc) (V Mb)); (112%nat, Div (Mul (N 2) (V Mc)) (Mul (N 3) (V Mb)))];
  [(0%nat, Div (N 16) (N 9)); (3%nat, Div (N 112) (N 27)); (16%nat, Div (N 16) (N 3)); (19%nat, Div (N 44) (N 9))];
  [(1%nat, Div (N 16) (N 9)); (2%nat, Div (N 112) (N 27)); (17%nat, Div (N 16) (N 3)); (18%nat, Div (N 44) (N 9))];
  [(1%nat, Div (N 112) (N 27)); (2%nat, Div (N 16) (N 9)); (17%nat, Div (N 44) (N 9)); (18%nat, Div (N 16) (N 3)); (111%nat, Div (Neg (V Md)) (Mul (N 6) (V Mb))); (113%nat, Div (Mul (Neg (N 4)) (V Md)) (Mul (N 9) (V Mb)))];
  [(0%nat, Div (N 112) (N 27)); (3%nat, Div (N 16) (N 9)); (16%nat, Div (N 44) (N 9)); (19%nat, Div (N 16) (N 3)); (110%nat, Div (Neg (V Md)) (Mul (N 6) (V Mb))); (112%nat, Div (Mul (Neg (N 4)) (V Md)) (Mul (N 9) (V Mb)))];
  [(4%nat, Div (N 160) (N 27)); (20%nat, Div (N 92) (N 9)); (110%nat, Div (Neg (V Ms)) (Mul (N 6) (V Mb))); (112%nat, Div (Mul (Neg (N 4)) (V Ms)) (Mul (N 9) (V Mb)))];
  [(5%nat, Div (N 160) (N 27)); (21%nat, Div (N 92) (N 9)); (111%nat, Div (Neg (V Ms)) (Mul (N 6) (V Mb))); (113%nat, Div (Mul (Neg (N 4)) (V Ms)) (Mul (N 9) (V Mb)))];
  [(6%nat, Div (N 160) (N 27)); (22%nat, Div (N 92) (N 9)); (110%nat, Div (Neg (N 1)) (N 6)); (112%nat, Div (Neg (N 4)) (N 9))];
  [(7%nat, Div (N 160) (N 27)); (23%nat, Div (N 92) (N 9)); (111%nat, Div (Neg (N 1)) (N 6)); (113%nat, Div (Neg (N 4)) (N 9))];
  [(8%nat, Div (N 16) (N 9)); (13%nat, Div (N 112) (N 27)); (24%nat, Div (N 16) (N 3)); (29%nat, Div (N 44) (N 9))];
  [(9%nat, Div (N 16) (N 9)); (12%nat, Div (N 112) (N 27)); (25%nat, Div (N 16) (N 3)); (28%nat, Div (N 44) (N 9))];
  [(10%nat, Div (N 16) (N 9)); (15%nat, Div (N 112) (N 27)); (26%nat, Div (N 16) (N 3)); (31%nat, Div (N 44) (N 9))];
  [(11%nat, Div (N 16) (N 9)); (14%nat, Div (N 112) (N 27)); (27%nat, Div (N 16) (N 3)); (30%nat, Div (N 44) (N 9))];
  [(9%nat, Div (N 112) (N 27)); (12%nat, Div (N 16) (N 9)); (25%nat, Div (N 44) (N 9)); (28%nat, Div (N 16) (N 3)); (111%nat, Div (Neg (V Mu)) (Mul (N 6) (V Mb))); (113%nat, Div (Mul (N 8) (V Mu)) (Mul (N 9) (V Mb)))];
  [(8%nat, Div (N 112) (N 27)); (13%nat, Div (N 16) (N 9)); (24%nat, Div (N 44) (N 9)); (29%nat, Div (N 16) (N 3)); (110%nat, Div (Neg (V Mu)) (Mul (N 6) (V Mb))); (112%nat, Div (Mul (N 8) (V Mu)) (Mul (N 9) (V Mb)))];
  [(11%nat, Div (N 112) (N 27)); (14%nat, Div (N 16) (N 9)); (27%nat, Div (N 44) (N 9)); (30%nat, Div (N 16) (N 3)); (111%nat, Div (Neg (V Mc)) (Mul (N 6) (V Mb))); (113%nat, Div (Mul (N 8) (V Mc)) (Mul (N 9) (V Mb)))];
  [(10%nat, Div (N 112) (N 27)); (15%nat, Div (N 16) (N 9)); (26%nat, Div (N 44) (N 9)); (31%nat, Div (N 16) (N 3)); (110%nat, Div (Neg (V Mc)) (Mul (N 6) (V Mb))); (112%nat, Div (Mul (N 8) (V Mc)) (Mul (N 9) (V Mb)))];
  [(32%nat, Neg (N 8))];
  [(33%nat, Neg (N 8))];
  [(34%nat, Neg (N 8))];
  [(35%nat, Neg (N 8))];
  [(36%nat, Neg (N 8))];
  [(37%nat, Neg (N 8))];
  [(38%nat, Neg (N 8))];
  [(39%nat, Neg (N 8))];
  [(40%nat, Neg (N 8))];
  [(41%nat, Neg (N 8))];
  [(42%nat, Neg (N 8))];
  [(43%nat, Neg (N 8))];
  [(44%nat, Div (N 8) (N 3)); (112%nat, Div (Mul (N 8) (V Me)) (V Mb))];
  [(45%nat, Div (N 8) (N 3)); (113%nat, Div (Mul (N 8) (V Me)) (V Mb))];
  [(46%nat, Div (N 8) (N 3)); (112%nat, Div (Mul (N 8) (V Mmu)) (V Mb))];
  [(47%nat, Div (N 8) (N 3)); (113%nat, Div (Mul (N 8) (V Mmu)) (V Mb))];
  [(48%nat, Div (N 8) (N 3)); (112%nat, Div (Mul (N 8) (V Mtau)) (V Mb))];
  [(49%nat, Div (N 8) (N 3)); (113%nat, Div (Mul (N 8) (V Mtau)) (V Mb))];
  [(70%nat, Neg (N 12))];
  [(71%nat, Neg (N 12))];
  [(72%nat, Neg (N 12))];
  [(73%nat, Neg (N 12))];
  [(74%nat, Neg (N 12))];
  [(75%nat, Neg (N 12))];
  [(76%nat, Neg (N 12))];
  [(77%nat, Neg (N 12))];
  [(78%nat, Neg (N 12))];
  [(79%nat, Neg (N 12))];
  [(80%nat, N 12)];
  [(81%nat, N 12)];
  [(82%nat, Neg (N 12))];
  [(83%nat, Neg (N 12))];
  [(84%nat, N 12)];
  [(85%nat, N 12)];
  [(86%nat, Neg (N 12))];
  [(87%nat, Neg (N 12))];
  [(88%nat, Neg (N 12))];
  [(89%nat, Neg (N 12))];
  [(50%nat, Div (Neg (N 8)) (N 3)); (70%nat, Div (Neg (N 40)) (N 3)); (73%nat, Div (N 2) (N 3)); (77%nat, Div (N 2) (N 3)); (82%nat, Div (N 2) (N 3)); (83%nat, Div (N 2) (N 3)); (84%nat, Div (N 2) (N 3)); (85%nat, Div (N 2) (N 3)); (94%nat, Div (Neg (N 1)) (N 9)); (95%nat, Div (N 1) (N 3)); (96%nat, Div (N 2) (N 9)); (97%nat, Div (N 2) (N 9))];
  [(51%nat, Div (Neg (N 8)) (N 3)); (71%nat, Neg (N 14))];
  [(52%nat, Div (Neg (N 8)) (N 3)); (72%nat, Neg (N 14))];
  [(53%nat, Div (Neg (N 8)) (N 3)); (70%nat, Div (N 2) (N 3)); (73%nat, Div (Neg (N 40)) (N 3)); (77%nat, Div (N 2) (N 3)); (82%nat, Div (N 2) (N 3)); (83%nat, Div (N 2) (N 3)); (84%nat, Div (N 2) (N 3)); (85%nat, Div (N 2) (N 3)); (94%nat, Div (Neg (N 1)) (N 9)); (95%nat, Div (N 1) (N 3)); (96%nat, Div (N 2) (N 9)); (97%nat, Div (N 2) (N 9))];
  [(54%nat, Div (Neg (N 8)) (N 3)); (74%nat, Div (Neg (N 40)) (N 3)); (75%nat, Div (N 2) (N 3)); (76%nat, Div (N 2) (N 3)); (78%nat, Div (N 2) (N 3)); (79%nat, Div (N 2) (N 3)); (80%nat, Div (N 2) (N 3)); (81%nat, Div (N 2) (N 3)); (90%nat, Div (Neg (N 1)) (N 9)); (91%nat, Div (N 1) (N 3)); (92%nat, Div (N 2) (N 9)); (93%nat, Div (N 2) (N 9))];
  [(55%nat, Div (Neg (N 8)) (N 3)); (74%nat, Div (N 2) (N 3)); (75%nat, Div (Neg (N 40)) (N 3)); (76%nat, Div (N 2) (N 3)); (78%nat, Div (N 2) (N 3)); (79%nat, Div (N 2) (N 3)); (80%nat, Div (N 2) (N 3)); (81%nat, Div (N 2) (N 3)); (90%nat, Div (Neg (N 1)) (N 9)); (91%nat, Div (N 1) (N 3)); (92%nat, Div (N 2) (N 9)); (93%nat, Div (N 2) (N 9))];
  [(56%nat, Div (Neg (N 8)) (N 3)); (74%nat, Div (N 2) (N 3)); (75%nat, Div (N 2) (N 3)); (76%nat, Div (Neg (N 40)) (N 3)); (78%nat, Div (N 2) (N 3)); (79%nat, Div (N 2) (N 3)); (80%nat, Div (N 2) (N 3)); (81%nat, Div (N 2) (N 3)); (90%nat, Div (Neg (N 1)) (N 9)); (91%nat, Div (N 1) (N 3)); (92%nat, Div (N 2) (N 9)); (93%nat, Div (N 2) (N 9))];
  [(57%nat, Div (Neg (N 8)) (N 3)); (70%nat, Div (N 2) (N 3)); (73%nat, Div (N 2) (N 3)); (77%nat, Div (Neg (N 40)) (N 3)); (82%nat, Div (N 2) (N 3)); (83%nat, Div (N 2) (N 3)); (84%nat, Div (N 2) (N 3)); (85%nat, Div (N 2) (N 3)); (94%nat, Div (Neg (N 1)) (N 9)); (95%nat, Div (N 1) (N 3)); (96%nat, Div (N 2) (N 9)); (97%nat, Div (N 2) (N 9))];
  [(58%nat, Div (Neg (N 8)) (N 3)); (74%nat, Div (N 2) (N 3)); (75%nat, Div (N 2) (N 3)); (76%nat, Div (N 2) (N 3)); (78%nat, Div (Neg (N 40)) (N 3)); (79%nat, Div (N 2) (N 3)); (80%nat, Div (N 2) (N 3)); (81%nat, Div (N 2) (N 3)); (90%nat, Div (Neg (N 1)) (N 9)); (91%nat, Div (N 1) (N 3)); (92%nat, Div (N 2) (N 9)); (93%nat, Div (N 2) (N 9))];
  [(59%nat, Div (Neg (N 8)) (N 3)); (74%nat, Div (N 2) (N 3)); (75%nat, Div (N 2) (N 3)); (76%nat, Div (N 2) (N 3)); (78%nat, Div (N 2) (N 3)); (79%nat, Div (Neg (N 40)) (N 3)); (80%nat, Div (N 2) (N 3)); (81%nat, Div (N 2) (N 3)); (90%nat, Div (Neg (N 1)) (N 9)); (91%nat, Div (N 1) (N 3)); (92%nat, Div (N 2) (N 9)); (93%nat, Div (N 2) (N 9))];
  [(60%nat, Div (N 8) (N 3)); (74%nat, Div (N 2) (N 3)); (75%nat, Div (N 2) (N 3)); (76%nat, Div (N 2) (N 3)); (78%nat, Div (N 2) (N 3)); (79%nat, Div (N 2) (N 3)); (80%nat, Div (Neg (N 10)) (N 3)); (81%nat, Div (N 2) (N 3)); (90%nat, Div (Neg (N 1)) (N 9)); (91%nat, Div (N 1) (N 3)); (92%nat, Div (N 2) (N 9)); (93%nat, Div (N 2) (N 9))];
  [(61%nat, Div (N 8) (N 3)); (74%nat, Div (N 2) (N 3)); (75%nat, Div (N 2) (N 3)); (76%nat, Div (N 2) (N 3)); (78%nat, Div (N 2) (N 3)); (79%nat, Div (N 2) (N 3)); (80%nat, Div (N 2) (N 3)); (81%nat, Div (Neg (N 10)) (N 3)); (90%nat, Div (Neg (N 1)) (N 9)); (91%nat, Div (N 1) (N 3)); (92%nat, Div (N 2) (N 9)); (93%nat, Div (N 2) (N 9))];
  [(62%nat, Div (Neg (N 8)) (N 3)); (70%nat, Div (N 2) (N 3)); (73%nat, Div (N 2) (N 3)); (77%nat, Div (N 2) (N 3)); (82%nat, Div (Neg (N 40)) (N 3)); (83%nat, Div (N 2) (N 3)); (84%nat, Div (N 2) (N 3)); (85%nat, Div (N 2) (N 3)); (94%nat, Div (Neg (N 1)) (N 9)); (95%nat, Div (N 1) (N 3)); (96%nat, Div (N 2) (N 9)); (97%nat, Div (N 2) (N 9))];
  [(63%nat, Div (Neg (N 8)) (N 3)); (70%nat, Div (N 2) (N 3)); (73%nat, Div (N 2) (N 3)); (77%nat, Div (N 2) (N 3)); (82%nat, Div (N 2) (N 3)); (83%nat, Div (Neg (N 40)) (N 3)); (84%nat, Div (N 2) (N 3)); (85%nat, Div (N 2) (N 3)); (94%nat, Div (Neg (N 1)) (N 9)); (95%nat, Div (N 1) (N 3)); (96%nat, Div (N 2) (N 9)); (97%nat, Div (N 2) (N 9))];
  [(64%nat, Div (N 8) (N 3)); (70%nat, Div (N 2) (N 3)); (73%nat, Div (N 2) (N 3)); (77%nat, Div (N 2) (N 3)); (82%nat, Div (N 2) (N 3)); (83%nat, Div (N 2) (N 3)); (84%nat, Div (Neg (N 10)) (N 3)); (85%nat, Div (N 2) (N 3)); (94%nat, Div (Neg (N 1)) (N 9)); (95%nat, Div (N 1) (N 3)); (96%nat, Div (N 2) (N 9)); (97%nat, Div (N 2) (N 9))];
  [(65%nat, Div (N 8) (N 3)); (70%nat, Div (N 2) (N 3)); (73%nat, Div (N 2) (N 3)); (77%nat, Div (N 2) (N 3)); (82%nat, Div (N 2) (N 3)); (83%nat, Div (N 2) (N 3)); (84%nat, Div (N 2) (N 3)); (85%nat, Div (Neg (N 10)) (N 3)); (94%nat, Div (Neg (N 1)) (N 9)); (95%nat, Div (N 1) (N 3)); (96%nat, Div (N 2) (N 9)); (97%nat, Div (N 2) (N 9))];
  [(66%nat, Div (Neg (N 8)) (N 3)); (86%nat, Neg (N 14))];
  [(67%nat, Div (Neg (N 8)) (N 3)); (87%nat, Neg (N 14))];
  [(68%nat, Div (Neg (N 8)) (N 3)); (88%nat, Neg (N 14))];
  [(69%nat, Div (Neg (N 8)) (N 3)); (89%nat, Neg (N 14))];
  [(90%nat, Neg (N 2)); (91%nat, N 6)];
  [(74%nat, Div (N 4) (N 3)); (75%nat, Div (N 4) (N 3)); (76%nat, Div (N 4) (N 3)); (78%nat, Div (N 4) (N 3)); (79%nat, Div (N 4) (N 3)); (80%nat, Div (N 4) (N 3)); (81%nat, Div (N 4) (N 3)); (90%nat, Div (N 52) (N 9)); (91%nat, Div (Neg (N 4)) (N 3)); (92%nat, Div (N 4) (N 9)); (93%nat, Div (N 4) (N 9))];
  [(74%nat, Div (N 4) (N 3)); (75%nat, Div (N 4) (N 3)); (76%nat, Div (N 4) (N 3)); (78%nat, Div (N 4) (N 3)); (79%nat, Div (N 4) (N 3)); (80%nat, Div (N 4) (N 3)); (81%nat, Div (N 4) (N 3)); (90%nat, Div (Neg (N 2)) (N 9)); (91%nat, Div (N 2) (N 3)); (92%nat, Div (N 40) (N 9)); (93%nat, Div (N 4) (N 9))];
  [(74%nat, Div (N 4) (N 3)); (75%nat, Div (N 4) (N 3)); (76%nat, Div (N 4) (N 3)); (78%nat, Div (N 4) (N 3)); (79%nat, Div (N 4) (N 3)); (80%nat, Div (N 4) (N 3)); (81%nat, Div (N 4) (N 3)); (90%nat, Div (Neg (N 2)) (N 9)); (91%nat, Div (N 2) (N 3)); (92%nat, Div (N 4) (N 9)); (93%nat, Div (N 40) (N 9))];
  [(94%nat, Neg (N 2)); (95%nat, N 6)];
  [(70%nat, Div (N 4) (N 3)); (73%nat, Div (N 4) (N 3)); (77%nat, Div (N 4) (N 3)); (82%nat, Div (N 4) (N 3)); (83%nat, Div (N 4) (N 3)); (84%nat, Div (N 4) (N 3)); (85%nat, Div (N 4) (N 3)); (94%nat, Div (N 52) (N 9)); (95%nat, Div (Neg (N 4)) (N 3)); (96%nat, Div (N 4) (N 9)); (97%nat, Div (N 4) (N 9))];
  [(70%nat, Div (N 4) (N 3)); (73%nat, Div (N 4) (N 3)); (77%nat, Div (N 4) (N 3)); (82%nat, Div (N 4) (N 3)); (83%nat, Div (N 4) (N 3)); (84%nat, Div (N 4) (N 3)); (85%nat, Div (N 4) (N 3)); (94%nat, Div (Neg (N 2)) (N 9)); (95%nat, Div (N 2) (N 3)); (96%nat, Div (N 40) (N 9)); (97%nat, Div (N 4) (N 9))];
  [(70%nat, Div (N 4) (N 3)); (73%nat, Div (N 4) (N 3)); (77%nat, Div (N 4) (N 3)); (82%nat, Div (N 4) (N 3)); (83%nat, Div (N 4) (N 3)); (84%nat, Div (N 4) (N 3)); (85%nat, Div (N 4) (N 3)); (94%nat, Div (Neg (N 2)) (N 9)); (95%nat, Div (N 2) (N 3)); (96%nat, Div (N 4) (N 9)); (97%nat, Div (N 40) (N 9))];
  [];
  [];
  [];
  [];
  [];
  [];
  [];
  [];
  [];
  [];
  [];
  [];
  [(110%nat, Add (Mul (Neg (N 2)) B0) (Div (N 28) (N 3))); (112%nat, Div (Neg (N 32)) (N 9))];
  [(111%nat, Add (Mul (Neg (N 2)) B0) (Div (N 28) (N 3))); (113%nat, Div (Neg (N 32)) (N 9))];
  [(112%nat, Add (Mul (Neg (N 2)) B0) (Div (N 32) (N 3)))];
  [(113%nat, Add (Mul (Neg (N 2)) B0) (Div (N 32) (N 3)))]].

(* adm.py:1001-1116 *)
Definition adm_e_sd : amat := [
  [(0%nat, Div (N 4) (N 27)); (16%nat, Div (N 32) (N 9))];
  [(1%nat, Div (N 4) (N 27)); (17%nat, Div (N 32) (N 9))];
  [(2%nat, Div (N 4) (N 27)); (18%nat, Div (N 32) (N 9))];
  [(3%nat, Div (Neg (N 4)) (N 9)); (4%nat, Div (N 16) (N 27)); (20%nat, Div (N 32) (N 9))];
  [(3%nat, Div (N 16) (N 27)); (4%nat, Div (Neg (N 4)) (N 9)); (19%nat, Div (N 32) (N 9))];
  [(5%nat, Div (N 4) (N 27)); (21%nat, Div (N 32) (N 9))];
  [(6%nat, Div (Neg (N 4)) (N 9)); (7%nat, Div (N 16) (N 27)); (23%nat, Div (N 32) (N 9))];
  [(6%nat, Div (N 16) (N 27)); (7%nat, Div (Neg (N 4)) (N 9)); (22%nat, Div (N 32) (N 9))];
  [(8%nat, Div (Neg (N 46)) (N 9)); (13%nat, Div (Neg (N 32)) (N 27)); (29%nat, Div (Neg (N 64)) (N 9))];
  [(9%nat, Div (Neg (N 46)) (N 9)); (12%nat, Div (Neg (N 32)) (N 27)); (28%nat, Div (Neg (N 64)) (N 9))];
  [(10%nat, Div (Neg (N 46)) (N 9)); (15%nat, Div (Neg (N 32)) (N 27)); (31%nat, Div (Neg (N 64)) (N 9))];
  [(11%nat, Div (Neg (N 46)) (N 9)); (14%nat, Div (Neg (N 32)) (N 27)); (30%nat, Div (Neg (N 64)) (N 9))];
  [(9%nat, Div (N 4) (N 27)); (12%nat, Div (N 26) (N 9)); (25%nat, Div (N 8) (N 9))];
  [(8%nat, Div (N 4) (N 27)); (13%nat, Div (N 26) (N 9)); (24%nat, Div (N 8) (N 9))];
  [(11%nat, Div (N 4) (N 27)); (14%nat, Div (N 26) (N 9)); (27%nat, Div (N 8) (N 9))];
  [(10%nat, Div (N 4) (N 27)); (15%nat, Div (N 26) (N 9)); (26%nat, Div (N 8) (N 9))];
  [(0%nat, Div (N 64) (N 81)); (16%nat, Div (Neg (N 28)) (N 27))];
  [(1%nat, Div (N 64) (N 81)); (17%nat, Div (Neg (N 28)) (N 27))];
  [(2%nat, Div (N 64) (N 81)); (18%nat, Div (Neg (N 28)) (N 27))];
  [(4%nat, Div (N 64) (N 81)); (19%nat, Div (Neg (N 4)) (N 9)); (20%nat, Div (Neg (N 16)) (N 27))];
  [(3%nat, Div (N 64) (N 81)); (19%nat, Div (Neg (N 16)) (N 27)); (20%nat, Div (Neg (N 4)) (N 9))];
  [(5%nat, Div (N 64) (N 81)); (21%nat, Div (Neg (N 28)) (N 27))];
  [(7%nat, Div (N 64) (N 81)); (22%nat, Div (Neg (N 4)) (N 9)); (23%nat, Div (Neg (N 16)) (N 27))];
  [(6%nat, Div (N 64) (N 81)); (22%nat, Div (Neg (N 16)) (N 27)); (23%nat, Div (Neg (N 4)) (N 9))];
  [(13%nat, Div (Neg (N 128)) (N 81)); (24%nat, Div (Neg (N 46)) (N 9)); (29%nat, Div (N 32) (N 27))];
  [(12%nat, Div (Neg (N 128)) (N 81)); (25%nat, Div (Neg (N 46)) (N 9)); (28%nat, Div (N 32) (N 27))];
  [(15%nat, Div (Neg (N 128)) (N 81)); (26%nat, Div (Neg (N 46)) (N 9)); (31%nat, Div (N 32) (N 27))];
  [(14%nat, Div (Neg (N 128)) (N 81)); (27%nat, Div (Neg (N 46)) (N 9)); (30%nat, Div (N 32) (N 27))];
  [(9%nat, Div (N 16) (N 81)); (25%nat, Div (Neg (N 4)) (N 27)); (28%nat, Div (N 26) (N 9))];
  [(8%nat, Div (N 16) (N 81)); (24%nat, Div (Neg (N 4)) (N 27)); (29%nat, Div (N 26) (N 9))];
  [(11%nat, Div (N 16) (N 81)); (27%nat, Div (Neg (N 4)) (N 27)); (30%nat, Div (N 26) (N 9))];
  [(10%nat, Div (N 16) (N 81)); (26%nat, Div (Neg (N 4)) (N 27)); (31%nat, Div (N 26) (N 9))];
  [(32%nat, Div (Neg (N 20)) (N 3))];
  [(33%nat, Div (Neg (N 20)) (N 3))];
  [(34%nat, Div (Neg (N 20)) (N 3))];
  [(35%nat, Div (Neg (N 20)) (N 3))];
  [(36%nat, Div (Neg (N 20)) (N 3))];
  [(37%nat, Div (Neg (N 20)) (N 3))];
  [(38%nat, Div (Neg (N 20)) (N 3)); (44%nat, Div (Neg (N 2)) (N 3))];
  [(39%nat, Div (Neg (N 20)) (N 3)); (45%nat, Div (Neg (N 2)) (N 3))];
  [(40%nat, Div (Neg (N 20)) (N 3)); (46%nat, Div (Neg (N 2)) (N 3))];
  [(41%nat, Div (Neg (N 20)) (N 3)); (47%nat, Div (Neg (N 2)) (N 3))];
  [(42%nat, Div (Neg (N 20)) (N 3)); (48%nat, Div (Neg (N 2)) (N 3))];
  [(43%nat, Div (Neg (N 20)) (N 3)); (49%nat, Div (Neg (N 2)) (N 3))];
  [(38%nat, Neg (N 32)); (44%nat, Div (N 20) (N 9))];
  [(39%nat, Neg (N 32)); (45%nat, Div (N 20) (N 9))];
  [(40%nat, Neg (N 32)); (46%nat, Div (N 20) (N 9))];
  [(41%nat, Neg (N 32)); (47%nat, Div (N 20) (N 9))];
  [(42%nat, Neg (N 32)); (48%nat, Div (N 20) (N 9))];
  [(43%nat, Neg (N 32)); (49%nat, Div (N 20) (N 9))];
  [(50%nat, Div (Neg (N 8)) (N 9)); (55%nat, Div (N 4) (N 9)); (57%nat, Div (N 4) (N 9)); (62%nat, Div (Neg (N 8)) (N 9)); (63%nat, Div (Neg (N 8)) (N 9)); (64%nat, Div (Neg (N 8)) (N 9)); (65%nat, Div (Neg (N 8)) (N 9)); (94%nat, Div (N 4) (N 9)); (95%nat, Div (N 4) (N 9)); (96%nat, Div (N 4) (N 9)); (104%nat, Div (N 4) (N 3)); (105%nat, Div (N 4) (N 3)); (106%nat, Div (N 4) (N 3)); (107%nat, Div (N 4) (N 3)); (108%nat, Div (N 4) (N 3)); (109%nat, Div (N 4) (N 3))];
  [(51%nat, Div (Neg (N 8)) (N 9)); (52%nat, Div (N 4) (N 9)); (53%nat, Div (N 4) (N 9)); (58%nat, Div (Neg (N 8)) (N 9)); (59%nat, Div (Neg (N 8)) (N 9)); (60%nat, Div (Neg (N 8)) (N 9)); (61%nat, Div (Neg (N 8)) (N 9)); (90%nat, Div (N 4) (N 9)); (91%nat, Div (N 4) (N 9)); (92%nat, Div (N 4) (N 9)); (98%nat, Div (N 4) (N 3)); (99%nat, Div (N 4) (N 3)); (100%nat, Div (N 4) (N 3)); (101%nat, Div (N 4) (N 3)); (102%nat, Div (N 4) (N 3)); (103%nat, Div (N 4) (N 3))];
  [(51%nat, Div (N 4) (N 9)); (52%nat, Div (Neg (N 8)) (N 9)); (53%nat, Div (N 4) (N 9)); (58%nat, Div (Neg (N 8)) (N 9)); (59%nat, Div (Neg (N 8)) (N 9)); (60%nat, Div (Neg (N 8)) (N 9)); (61%nat, Div (Neg (N 8)) (N 9)); (90%nat, Div (N 4) (N 9)); (91%nat, Div (N 4) (N 9)); (92%nat, Div (N 4) (N 9)); (98%nat, Div (N 4) (N 3)); (99%nat, Div (N 4) (N 3)); (100%nat, Div (N 4) (N 3)); (101%nat, Div (N 4) (N 3)); (102%nat, Div (N 4) (N 3)); (103%nat, Div (N 4) (N 3))];
  [(51%nat, Div (N 4) (N 9)); (52%nat, Div (N 4) (N 9)); (53%nat, Div (Neg (N 8)) (N 9)); (58%nat, Div (Neg (N 8)) (N 9)); (59%nat, Div (Neg (N 8)) (N 9)); (60%nat, Div (Neg (N 8)) (N 9)); (61%nat, Div (Neg (N 8)) (N 9)); (90%nat, Div (N 4) (N 9)); (91%nat, Div (N 4) (N 9)); (92%nat, Div (N 4) (N 9)); (98%nat, Div (N 4) (N 3)); (99%nat, Div (N 4) (N 3)); (100%nat, Div (N 4) (N 3)); (101%nat, Div (N 4) (N 3)); (102%nat, Div (N 4) (N 3)); (103%nat, Div (N 4) (N 3))];
  [(54%nat, Div (Neg (N 4)) (N 3))];
  [(50%nat, Div (N 4) (N 9)); (55%nat, Div (Neg (N 8)) (N 9)); (57%nat, Div (N 4) (N 9)); (62%nat, Div (Neg (N 8)) (N 9)); (63%nat, Div (Neg (N 8)) (N 9)); (64%nat, Div (Neg (N 8)) (N 9)); (65%nat, Div (Neg (N 8)) (N 9)); (94%nat, Div (N 4) (N 9)); (95%nat, Div (N 4) (N 9)); (96%nat, Div (N 4) (N 9)); (104%nat, Div (N 4) (N 3)); (105%nat, Div (N 4) (N 3)); (106%nat, Div (N 4) (N 3)); (107%nat, Div (N 4) (N 3)); (108%nat, Div (N 4) (N 3)); (109%nat, Div (N 4) (N 3))];
  [(56%nat, Div (Neg (N 4)) (N 3))];
  [(50%nat, Div (N 4) (N 9)); (55%nat, Div (N 4) (N 9)); (57%nat, Div (Neg (N 8)) (N 9)); (62%nat, Div (Neg (N 8)) (N 9)); (63%nat, Div (Neg (N 8)) (N 9)); (64%nat, Div (Neg (N 8)) (N 9)); (65%nat, Div (Neg (N 8)) (N 9)); (94%nat, Div (N 4) (N 9)); (95%nat, Div (N 4) (N 9)); (96%nat, Div (N 4) (N 9)); (104%nat, Div (N 4) (N 3)); (105%nat, Div (N 4) (N 3)); (106%nat, Div (N 4) (N 3)); (107%nat, Div (N 4) (N 3)); (108%nat, Div (N 4) (N 3)); (109%nat, Div (N 4) (N 3))];
  [(51%nat, Div (Neg (N 8)) (N 9)); (52%nat, Div (Neg (N 8)) (N 9)); (53%nat, Div (Neg (N 8)) (N 9)); (58%nat, Div (N 40) (N 9)); (59%nat, Div (N 16) (N 9)); (60%nat, Div (N 16) (N 9)); (61%nat, Div (N 16) (N 9)); (90%nat, Div (Neg (N 8)) (N 9)); (91%nat, Div (Neg (N 8)) (N 9)); (92%nat, Div (Neg (N 8)) (N 9)); (98%nat, Div (Neg (N 8)) (N 3)); (99%nat, Div (Neg (N 8)) (N 3)); (100%nat, Div (Neg (N 8)) (N 3)); (101%nat, Div (Neg (N 8)) (N 3)); (102%nat, Div (Neg (N 8)) (N 3)); (103%nat, Div (Neg (N 8)) (N 3))];
  [(51%nat, Div (Neg (N 8)) (N 9)); (52%nat, Div (Neg (N 8)) (N 9)); (53%nat, Div (Neg (N 8)) (N 9)); (58%nat, Div (N 16) (N 9)); (59%nat, Div (N 40) (N 9)); (60%nat, Div (N 16) (N 9)); (61%nat, Div (N 16) (N 9)); (90%nat, Div (Neg (N 8)) (N 9)); (91%nat, Div (Neg (N 8)) (N 9)); (92%nat, Div (Neg (N 8)) (N 9)); (98%nat, Div (Neg (N 8)) (N 3)); (99%nat, Div (Neg (N 8)) (N 3)); (100%nat, Div (Neg (N 8)) (N 3)); (101%nat, Div (Neg (N 8)) (N 3)); (102%nat, Div (Neg (N 8)) (N 3)); (103%nat, Div (Neg (N 8)) (N 3))];
  [(51%nat, Div (Neg (N 8)) (N 9)); (52%nat, Div (Neg (N 8)) (N 9)); (53%nat, Div (Neg (N 8)) (N 9)); (58%nat, Div (N 16) (N 9)); (59%nat, Div (N 16) (N 9)); (60%nat, Div (Neg (N 8)) (N 9)); (61%nat, Div (N 16) (N 9)); (90%nat, Div (Neg (N 8)) (N 9)); (91%nat, Div (Neg (N 8)) (N 9)); (92%nat, Div (Neg (N 8)) (N 9)); (98%nat, Div (Neg (N 8)) (N 3)); (99%nat, Div (Neg (N 8)) (N 3)); (100%nat, Div (Neg (N 8)) (N 3)); (101%nat, Div (Neg (N 8)) (N 3)); (102%nat, Div (Neg (N 8)) (N 3)); (103%nat, Div (Neg (N 8)) (N 3))];
  [(51%nat, Div (Neg (N 8)) (N 9)); (52%nat, Div (Neg (N 8)) (N 9)); (53%nat, Div (Neg (N 8)) (N 9)); (58%nat, Div (N 16) (N 9)); (59%nat, Div (N 16) (N 9)); (60%nat, Div (N 16) (N 9)); (61%nat, Div (Neg (N 8)) (N 9)); (90%nat, Div (Neg (N 8)) (N 9)); (91%nat, Div (Neg (N 8)) (N 9)); (92%nat, Div (Neg (N 8)) (N 9)); (98%nat, Div (Neg (N 8)) (N 3)); (99%nat, Div (Neg (N 8)) (N 3)); (100%nat, Div (Neg (N 8)) (N 3)); (101%nat, Div (Neg (N 8)) (N 3)); (102%nat, Div (Neg (N 8)) (N 3)); (103%nat, Div (Neg (N 8)) (N 3))];
  [(50%nat, Div (Neg (N 8)) (N 9)); (55%nat, Div (Neg (N 8)) (N 9)); (57%nat, Div (Neg (N 8)) (N 9)); (62%nat, Div (N 40) (N 9)); (63%nat, Div (N 16) (N 9)); (64%nat, Div (N 16) (N 9)); (65%nat, Div (N 16) (N 9)); (94%nat, Div (Neg (N 8)) (N 9)); (95%nat, Div (Neg (N 8)) (N 9)); (96%nat, Div (Neg (N 8)) (N 9)); (104%nat, Div (Neg (N 8)) (N 3)); (105%nat, Div (Neg (N 8)) (N 3)); (106%nat, Div (Neg (N 8)) (N 3)); (107%nat, Div (Neg (N 8)) (N 3)); (108%nat, Div (Neg (N 8)) (N 3)); (109%nat, Div (Neg (N 8)) (N 3))];
  [(50%nat, Div (Neg (N 8)) (N 9)); (55%nat, Div (Neg (N 8)) (N 9)); (57%nat, Div (Neg (N 8)) (N 9)); (62%nat, Div (N 16) (N 9)); (63%nat, Div (N 40) (N 9)); (64%nat, Div (N 16) (N 9)); (65%nat, Div (N 16) (N 9)); (94%nat, Div (Neg (N 8)) (N 9)); (95%nat, Div (Neg (N 8)) (N 9)); (96%nat, Div (Neg (N 8)) (N 9)); (104%nat, Div (Neg (N 8)) (N 3)); (105%nat, Div (Neg (N 8)) (N 3)); (106%nat, Div (Neg (N 8)) (N 3)); (107%nat, Div (Neg (N 8)) (N 3)); (108%nat, Div (Neg (N 8)) (N 3)); (109%nat, Div (Neg (N 8)) (N 3))];
  [(50%nat, Div (Neg (N 8)) (N 9)); (55%nat, Div (Neg (N 8)) (N 9)); (57%nat, Div (Neg (N 8)) (N 9)); (62%nat, Div (N 16) (N 9)); (63%nat, Div (N 16) (N 9)); (64%nat, Div (Neg (N 8)) (N 9)); (65%nat, Div (N 16) (N 9)); (94%nat, Div (Neg (N 8)) (N 9)); (95%nat, Div (Neg (N 8)) (N 9)); (96%nat, Div (Neg (N 8)) (N 9)); (104%nat, Div (Neg (N 8)) (N 3)); (105%nat, Div (Neg (N 8)) (N 3)); (106%nat, Div (Neg (N 8)) (N 3)); (107%nat, Div (Neg (N 8)) (N 3)); (108%nat, Div (Neg (N 8)) (N 3)); (109%nat, Div (Neg (N 8)) (N 3))];
  [(50%nat, Div (Neg (N 8)) (N 9)); (55%nat, Div (Neg (N 8)) (N 9)); (57%nat, Div (Neg (N 8)) (N 9)); (62%nat, Div (N 16) (N 9)); (63%nat, Div (N 16) (N 9)); (64%nat, Div (N 16) (N 9)); (65%nat, Div (Neg (N 8)) (N 9)); (94%nat, Div (Neg (N 8)) (N 9)); (95%nat, Div (Neg (N 8)) (N 9)); (96%nat, Div (Neg (N 8)) (N 9)); (104%nat, Div (Neg (N 8)) (N 3)); (105%nat, Div (Neg (N 8)) (N 3)); (106%nat, Div (Neg (N 8)) (N 3)); (107%nat, Div (Neg (N 8)) (N 3)); (108%nat, Div (Neg (N 8)) (N 3)); (109%nat, Div (Neg (N 8)) (N 3))];
  [(66%nat, Div (Neg (N 10)) (N 3))];
  [(67%nat, Div (Neg (N 10)) (N 3))];
  [(68%nat, Div (Neg (N 10)) (N 3))];
  [(69%nat, Div (Neg (N 10)) (N 3))];
  [(70%nat, Div (Neg (N 4)) (N 3))];
  [(71%nat, Div (Neg (N 4)) (N 3))];
  [(72%nat, Div (Neg (N 4)) (N 3))];
  [(73%nat, Div (Neg (N 4)) (N 3))];
  [(74%nat, Div (Neg (N 4)) (N 3))];
  [(75%nat, Div (Neg (N 4)) (N 3))];
  [(76%nat, Div (Neg (N 4)) (N 3))];
  [(77%nat, Div (Neg (N 4)) (N 3))];
  [(78%nat, Div (N 8) (N 3))];
  [(79%nat, Div (N 8) (N 3))];
  [(80%nat, Div (Neg (N 8)) (N 3))];
  [(81%nat, Div (Neg (N 8)) (N 3))];
  [(82%nat, Div (N 8) (N 3))];
  [(83%nat, Div (N 8) (N 3))];
  [(84%nat, Div (Neg (N 8)) (N 3))];
  [(85%nat, Div (Neg (N 8)) (N 3))];
  [(86%nat, Div (Neg (N 10)) (N 3))];
  [(87%nat, Div (Neg (N 10)) (N 3))];
  [(88%nat, Div (Neg (N 10)) (N 3))];
  [(89%nat, Div (Neg (N 10)) (N 3))];
  [(51%nat, Div (N 16) (N 27)); (52%nat, Div (N 16) (N 27)); (53%nat, Div (N 16) (N 27)); (58%nat, Div (Neg (N 32)) (N 27)); (59%nat, Div (Neg (N 32)) (N 27)); (60%nat, Div (Neg (N 32)) (N 27)); (61%nat, Div (Neg (N 32)) (N 27)); (90%nat, Div (N 52) (N 27)); (91%nat, Div (N 16) (N 27)); (92%nat, Div (N 16) (N 27)); (98%nat, Div (N 16) (N 9)); (99%nat, Div (N 16) (N 9)); (100%nat, Div (N 16) (N 9)); (101%nat, Div (N 16) (N 9)); (102%nat, Div (N 16) (N 9)); (103%nat, Div (N 16) (N 9))];
  [(51%nat, Div (N 16) (N 27)); (52%nat, Div (N 16) (N 27)); (53%nat, Div (N 16) (N 27)); (58%nat, Div (Neg (N 32)) (N 27)); (59%nat, Div (Neg (N 32)) (N 27)); (60%nat, Div (Neg (N 32)) (N 27)); (61%nat, Div (Neg (N 32)) (N 27)); (90%nat, Div (N 16) (N 27)); (91%nat, Div (N 52) (N 27)); (92%nat, Div (N 16) (N 27)); (98%nat, Div (N 16) (N 9)); (99%nat, Div (N 16) (N 9)); (100%nat, Div (N 16) (N 9)); (101%nat, Div (N 16) (N 9)); (102%nat, Div (N 16) (N 9)); (103%nat, Div (N 16) (N 9))];
  [(51%nat, Div (N 4) (N 9)); (52%nat, Div (N 4) (N 9)); (53%nat, Div (N 4) (N 9)); (58%nat, Div (Neg (N 8)) (N 9)); (59%nat, Div (Neg (N 8)) (N 9)); (60%nat, Div (Neg (N 8)) (N 9)); (61%nat, Div (Neg (N 8)) (N 9)); (90%nat, Div (N 4) (N 9)); (91%nat, Div (N 4) (N 9)); (92%nat, Div (N 16) (N 9)); (98%nat, Div (N 4) (N 3)); (99%nat, Div (N 4) (N 3)); (100%nat, Div (N 4) (N 3)); (101%nat, Div (N 4) (N 3)); (102%nat, Div (N 4) (N 3)); (103%nat, Div (N 4) (N 3))];
  [(51%nat, Div (N 4) (N 27)); (52%nat, Div (N 4) (N 27)); (53%nat, Div (N 4) (N 27)); (58%nat, Div (Neg (N 8)) (N 27)); (59%nat, Div (Neg (N 8)) (N 27)); (60%nat, Div (Neg (N 8)) (N 27)); (61%nat, Div (Neg (N 8)) (N 27)); (90%nat, Div (N 4) (N 27)); (91%nat, Div (N 4) (N 27)); (92%nat, Div (N 4) (N 27)); (93%nat, Div (N 4) (N 3)); (98%nat, Div (N 4) (N 9)); (99%nat, Div (N 4) (N 9)); (100%nat, Div (N 4) (N 9)); (101%nat, Div (N 4) (N 9)); (102%nat, Div (N 4) (N 9)); (103%nat, Div (N 4) (N 9))];
  [(50%nat, Div (N 16) (N 27)); (55%nat, Div (N 16) (N 27)); (57%nat, Div (N 16) (N 27)); (62%nat, Div (Neg (N 32)) (N 27)); (63%nat, Div (Neg (N 32)) (N 27)); (64%nat, Div (Neg (N 32)) (N 27)); (65%nat, Div (Neg (N 32)) (N 27)); (94%nat, Div (N 52) (N 27)); (95%nat, Div (N 16) (N 27)); (96%nat, Div (N 16) (N 27)); (104%nat, Div (N 16) (N 9)); (105%nat, Div (N 16) (N 9)); (106%nat, Div (N 16) (N 9)); (107%nat, Div (N 16) (N 9)); (108%nat, Div (N 16) (N 9)); (109%nat, Div (N 16) (N 9))];
  [(50%nat, Div (N 16) (N 27)); (55%nat, Div (N 16) (N 27)); (57%nat, Div (N 16) (N 27)); (62%nat, Div (Neg (N 32)) (N 27)); (63%nat, Div (Neg (N 32)) (N 27)); (64%nat, Div (Neg (N 32)) (N 27)); (65%nat, Div (Neg (N 32)) (N 27)); (94%nat, Div (N 16) (N 27)); (95%nat, Div (N 52) (N 27)); (96%nat, Div (N 16) (N 27)); (104%nat, Div (N 16) (N 9)); (105%nat, Div (N 16) (N 9)); (106%nat, Div (N 16) (N 9)); (107%nat, Div (N 16) (N 9)); (108%nat, Div (N 16) (N 9)); (109%nat, Div (N 16) (N 9))];
  [(50%nat, Div (N 4) (N 9)); (55%nat, Div (N 4) (N 9)); (57%nat, Div (N 4) (N 9)); (62%nat, Div (Neg (N 8)) (N 9)); (63%nat, Div (Neg (N 8)) (N 9)); (64%nat, Div (Neg (N 8)) (N 9)); (65%nat, Div (Neg (N 8)) (N 9)); (94%nat, Div (N 4) (N 9)); (95%nat, Div (N 4) (N 9)); (96%nat, Div (N 16) (N 9)); (104%nat, Div (N 4) (N 3)); (105%nat, Div (N 4) (N 3)); (106%nat, Div (N 4) (N 3)); (107%nat, Div (N 4) (N 3)); (108%nat, Div (N 4) (N 3)); (109%nat, Div (N 4) (N 3))];
  [(50%nat, Div (N 4) (N 27)); (55%nat, Div (N 4) (N 27)); (57%nat, Div (N 4) (N 27)); (62%nat, Div (Neg (N 8)) (N 27)); (63%nat, Div (Neg (N 8)) (N 27)); (64%nat, Div (Neg (N 8)) (N 27)); (65%nat, Div (Neg (N 8)) (N 27)); (94%nat, Div (N 4) (N 27)); (95%nat, Div (N 4) (N 27)); (96%nat, Div (N 4) (N 27)); (97%nat, Div (N 4) (N 3)); (104%nat, Div (N 4) (N 9)); (105%nat, Div (N 4) (N 9)); (106%nat, Div (N 4) (N 9)); (107%nat, Div (N 4) (N 9)); (108%nat, Div (N 4) (N 9)); (109%nat, Div (N 4) (N 9))];
  [(51%nat, Div (N 4) (N 9)); (52%nat, Div (N 4) (N 9)); (53%nat, Div (N 4) (N 9)); (58%nat, Div (Neg (N 8)) (N 9)); (59%nat, Div (Neg (N 8)) (N 9)); (60%nat, Div (Neg (N 8)) (N 9)); (61%nat, Div (Neg (N 8)) (N 9)); (90%nat, Div (N 4) (N 9)); (91%nat, Div (N 4) (N 9)); (92%nat, Div (N 4) (N 9)); (98%nat, Div (Neg (N 8)) (N 3)); (99%nat, Div (N 4) (N 3)); (100%nat, Div (N 4) (N 3)); (101%nat, Div (N 4) (N 3)); (102%nat, Div (N 4) (N 3)); (103%nat, Div (N 4) (N 3))];
  [(51%nat, Div (N 4) (N 9)); (52%nat, Div (N 4) (N 9)); (53%nat, Div (N 4) (N 9)); (58%nat, Div (Neg (N 8)) (N 9)); (59%nat, Div (Neg (N 8)) (N 9)); (60%nat, Div (Neg (N 8)) (N 9)); (61%nat, Div (Neg (N 8)) (N 9)); (90%nat, Div (N 4) (N 9)); (91%nat, Div (N 4) (N 9)); (92%nat, Div (N 4) (N 9)); (98%nat, Div (N 4) (N 3)); (99%nat, Div (Neg (N 8)) (N 3)); (100%nat, Div (N 4) (N 3)); (101%nat, Div (N 4) (N 3)); (102%nat, Div (N 4) (N 3)); (103%nat, Div (N 4) (N 3))];
  [(51%nat, Div (N 4) (N 9)); (52%nat, Div (N 4) (N 9)); (53%nat, Div (N 4) (N 9)); (58%nat, Div (Neg (N 8)) (N 9)); (59%nat, Div (Neg (N 8)) (N 9)); (60%nat, Div (Neg (N 8)) (N 9)); (61%nat, Div (Neg (N 8)) (N 9)); (90%nat, Div (N 4) (N 9)); (91%nat, Div (N 4) (N 9)); (92%nat, Div (N 4) (N 9)); (98%nat, Div (N 4) (N 3)); (99%nat, Div (N 4) (N 3)); (100%nat, Div (Neg (N 8)) (N 3)); (101%nat, Div (N 4) (N 3)); (102%nat, Div (N 4) (N 3)); (103%nat, Div (N 4) (N 3))];
  [(51%nat, Div (N 4) (N 9)); (52%nat, Div (N 4) (N 9)); (53%nat, Div (N 4) (N 9)); (58%nat, Div (Neg (N 8)) (N 9)); (59%nat, Div (Neg (N 8)) (N 9)); (60%nat, Div (Neg (N 8)) (N 9)); (61%nat, Div (Neg (N 8)) (N 9)); (90%nat, Div (N 4) (N 9)); (91%nat, Div (N 4) (N 9)); (92%nat, Div (N 4) (N 9)); (98%nat, Div (N 4) (N 3)); (99%nat, Div (N 4) (N 3)); (100%nat, Div (N 4) (N 3)); (101%nat, Div (N 16) (N 3)); (102%nat, Div (N 4) (N 3)); (103%nat, Div (N 4) (N 3))];
  [(51%nat, Div (N 4) (N 9)); (52%nat, Div (N 4) (N 9)); (53%nat, Div (N 4) (N 9)); (58%nat, Div (Neg (N 8)) (N 9)); (59%nat, Div (Neg (N 8)) (N 9)); (60%nat, Div (Neg (N 8)) (N 9)); (61%nat, Div (Neg (N 8)) (N 9)); (90%nat, Div (N 4) (N 9)); (91%nat, Div (N 4) (N 9)); (92%nat, Div (N 4) (N 9)); (98%nat, Div (N 4) (N 3)); (99%nat, Div (N 4) (N 3)); (100%nat, Div (N 4) (N 3)); (101%nat, Div (N 4) (N 3)); (102%nat, Div (N 16) (N 3)); (103%nat, Div (N 4) (N 3))];
  [(51%nat, Div (N 4) (N 9)); (52%nat, Div (N 4) (N 9)); (53%nat, Div (N 4) (N 9)); (58%nat, Div (Neg (N 8)) (N 9)); (59%nat, Div (Neg (N 8)) (N 9)); (60%nat, Div (Neg (N 8)) (N 9)); (61%nat, Div (Neg (N 8)) (N 9)); (90%nat, Div (N 4) (N 9)); (91%nat, Div (N 4) (N 9)); (92%nat, Div (N 4) (N 9)); (98%nat, Div (N 4) (N 3)); (99%nat, Div (N 4) (N 3)); (100%nat, Div (N 4) (N 3)); (101%nat, Div (N 4) (N 3)); (102%nat, Div (N 4) (N 3)); (103%nat, Div (N 16) (N 3))];
  [(50%nat, Div (N 4) (N 9)); (55%nat, Div (N 4) (N 9)); (57%nat, Div (N 4) (N 9)); (62%nat, Div (Neg (N 8)) (N 9)); (63%nat, Div (Neg (N 8)) (N 9)); (64%nat, Div (Neg (N 8)) (N 9)); (65%nat, Div (Neg (N 8)) (N 9)); (94%nat, Div (N 4) (N 9)); (95%nat, Div (N 4) (N 9)); (96%nat, Div (N 4) (N 9)); (104%nat, Div (Neg (N 8)) (N 3)); (105%nat, Div (N 4) (N 3)); (106%nat, Div (N 4) (N 3)); (107%nat, Div (N 4) (N 3)); (108%nat, Div (N 4) (N 3)); (109%nat, Div (N 4) (N 3))];
  [(50%nat, Div (N 4) (N 9)); (55%nat, Div (N 4) (N 9)); (57%nat, Div (N 4) (N 9)); (62%nat, Div (Neg (N 8)) (N 9)); (63%nat, Div (Neg (N 8)) (N 9)); (64%nat, Div (Neg (N 8)) (N 9)); (65%nat, Div (Neg (N 8)) (N 9)); (94%nat, Div (N 4) (N 9)); (95%nat, Div (N 4) (N 9)); (96%nat, Div (N 4) (N 9)); (104%nat, Div (N 4) (N 3)); (105%nat, Div (Neg (N 8)) (N 3)); (106%nat, Div (N 4) (N 3)); (107%nat, Div (N 4) (N 3)); (108%nat, Div (N 4) (N 3)); (109%nat, Div (N 4) (N 3))];
  [(50%nat, Div (N 4) (N 9)); (55%nat, Div (N 4) (N 9)); (57%nat, Div (N 4) (N 9)); (62%nat, Div (Neg (N 8)) (N 9)); (63%nat, Div (Neg (N 8)) (N 9)); (64%nat, Div (Neg (N 8)) (N 9)); (65%nat, Div (Neg (N 8)) (N 9)); (94%nat, Div (N 4) (N 9)); (95%nat, Div (N 4) (N 9)); (96%nat, Div (N 4) (N 9)); (104%nat, Div (N 4) (N 3)); (105%nat, Div (N 4) (N 3)); (106%nat, Div (Neg (N 8)) (N 3)); (107%nat, Div (N 4) (N 3)); (108%nat, Div (N 4) (N 3)); (109%nat, Div (N 4) (N 3))];
  [(50%nat, Div (N 4) (N 9)); (55%nat, Div (N 4) (N 9)); (57%nat, Div (N 4) (N 9)); (62%nat, Div (Neg (N 8)) (N 9)); (63%nat, Div (Neg (N 8)) (N 9)); (64%nat, Div (Neg (N 8)) (N 9)); (65%nat, Div (Neg (N 8)) (N 9)); (94%nat, Div (N 4) (N 9)); (95%nat, Div (N 4) (N 9)); (96%nat, Div (N 4) (N 9)); (104%nat, Div (N 4) (N 3)); (105%nat, Div (N 4) (N 3)); (106%nat, Div (N 4) (N 3)); (107%nat, Div (N 16) (N 3)); (108%nat, Div (N 4) (N 3)); (109%nat, Div (N 4) (N 3))];
  [(50%nat, Div (N 4) (N 9)); (55%nat, Div (N 4) (N 9)); (57%nat, Div (N 4) (N 9)); (62%nat, Div (Neg (N 8)) (N 9)); (63%nat, Div (Neg (N 8)) (N 9)); (64%nat, Div (Neg (N 8)) (N 9)); (65%nat, Div (Neg (N 8)) (N 9)); (94%nat, Div (N 4) (N 9)); (95%nat, Div (N 4) (N 9)); (96%nat, Div (N 4) (N 9)); (104%nat, Div (N 4) (N 3)); (105%nat, Div (N 4) (N 3)); (106%nat, Div (N 4) (N 3)); (107%nat, Div (N 4) (N 3)); (108%nat, Div (N 16) (N 3)); (109%nat, Div (N 4) (N 3))];
  [(50%nat, Div (N 4) (N 9)); (55%nat, Div (N 4) (N 9)); (57%nat, Div (N 4) (N 9)); (62%nat, Div (Neg (N 8)) (N 9)); (63%nat, Div (Neg (N 8)) (N 9)); (64%nat, Div (Neg (N 8)) (N 9)); (65%nat, Div (Neg (N 8)) (N 9)); (94%nat, Div (N 4) (N 9)); (95%nat, Div (N 4) (N 9)); (96%nat, Div (N 4) (N 9)); (104%nat, Div (N 4) (N 3)); (105%nat, Div (N 4) (N 3)); (106%nat, Div (N 4) (N 3)); (107%nat, Div (N 4) (N 3)); (108%nat, Div (N 4) (N 3)); (109%nat, Div (N 16) (N 3))];
  [(110%nat, Div (N 8) (N 9))];
  [(111%nat, Div (N 8) (N 9))];
  [(110%nat, Div (Neg (N 8)) (N 3)); (112%nat, Dec 88888888888889 50000000000000)];
  [(111%nat, Div (Neg (N 8)) (N 3)); (113%nat, Dec 88888888888889 50000000000000)]].

(* adm.py:1118-1234 *)
Definition adm_s_sd : amat := [
  [(0%nat, Div (Neg (N 80)) (N 9)); (16%nat, Div (N 8) (N 3)); (110%nat, Div (V Md) (V Ms)); (112%nat, Div (Neg (V Md)) (Mul (N 3) (V Ms)))];
  [(1%nat, Div (Neg (N 80)) (N 9)); (17%nat, Div (N 8) (N 3)); (111%nat, Div (V Md) (V Ms)); (113%nat, Div (Neg (V Md)) (Mul (N 3) (V Ms)))];
  [(2%nat, Div (Neg (N 80)) (N 9)); (18%nat, Div (N 8) (N 3)); (110%nat, N 1); (112%nat, Div (Neg (N 1)) (N 3))];
  [(3%nat, Neg (N 16)); (4%nat, Div (N 64) (N 9)); (19%nat, N 8); (20%nat, Div (Neg (N 16)) (N 3))];
  [(3%nat, Div (N 64) (N 9)); (4%nat, Neg (N 16)); (19%nat, Div (Neg (N 16)) (N 3)); (20%nat, N 8); (110%nat, Div (V Mb) (V Ms)); (112%nat, Div (Neg (V Mb)) (Mul (N 3) (V Ms)))];
  [(5%nat, Div (Neg (N 80)) (N 9)); (21%nat, Div (N 8) (N 3)); (111%nat, N 1); (113%nat, Div (Neg (N 1)) (N 3))];
  [(6%nat, Neg (N 16)); (7%nat, Div (N 64) (N 9)); (22%nat, N 8); (23%nat, Div (Neg (N 16)) (N 3))];
  [(6%nat, Div (N 64) (N 9)); (7%nat, Neg (N 16)); (22%nat, Div (Neg (N 16)) (N 3)); (23%nat, N 8); (111%nat, Div (V Mb) (V Ms)); (113%nat, Div (Neg (V Mb)) (Mul (N 3) (V Ms)))];
  [(8%nat, Neg (N 16)); (13%nat, Div (N 64) (N 9)); (24%nat, N 8); (29%nat, Div (Neg (N 16)) (N 3))];
  [(9%nat, Neg (N 16)); (12%nat, Div (N 64) (N 9)); (25%nat, N 8); (28%nat, Div (Neg (N 16)) (N 3))];
  [(10%nat, Neg (N 16)); (15%nat, Div (N 64) (N 9)); (26%nat, N 8); (31%nat, Div (Neg (N 16)) (N 3))];
  [(11%nat, Neg (N 16)); (14%nat, Div (N 64) (N 9)); (27%nat, N 8); (30%nat, Div (Neg (N 16)) (N 3))];
  [(9%nat, Div (N 64) (N 9)); (12%nat, Neg (N 16)); (25%nat, Div (Neg (N 16)) (N 3)); (28%nat, N 8); (111%nat, Div (V Mu) (V Ms)); (113%nat, Div (Mul (N 2) (V Mu)) (Mul (N 3) (V Ms)))];
  [(8%nat, Div (N 64) (N 9)); (13%nat, Neg (N 16)); (24%nat, Div (Neg (N 16)) (N 3)); (29%nat, N 8); (110%nat, Div (V Mu) (V Ms)); (112%nat, Div (Mul (N 2) (V Mu)) (Mul (N 3) (V Ms)))];
  [(11%nat, Div (N 64) (N 9)); (14%nat, Neg (N 16)); (27%nat, Div (Neg (N 16)) (N 3)); (30%nat, N 8); (111%nat, Div (V Mc) (V Ms)); (113%nat, Div (Mul (N 2) (V Mc)) (Mul (N 3) (V Ms)))];
  [(10%nat, Div (N 64) (N 9)); (15%nat, Neg (N 16)); (26%nat, Div (Neg (N 16)) (N 3)); (31%nat, N 8); (110%nat, Div (V Mc) (V Ms)); (112%nat, Div (Mul (N 2) (V Mc)) (Mul (N 3) (V Ms)))];
  [(0%nat, Div (N 160) (N 27)); (16%nat, Div (N 92) (N 9)); (110%nat, Div (Neg (V Md)) (Mul (N 6) (V Ms))); (112%nat, Div (Mul (Neg (N 4)) (V Md)) (Mul (N 9) (V Ms)))];
  [(1%nat, Div (N 160) (N 27)); (17%nat, Div (N 92) (N 9)); (111%nat, Div (Neg (V Md)) (Mul (N 6) (V Ms))); (113%nat, Div (Mul (Neg (N 4)) (V Md)) (Mul (N 9) (V Ms)))];
  [(2%nat, Div (N 160) (N 27)); (18%nat, Div (N 92) (N 9)); (110%nat, Div (Neg (N 1)) (N 6)); (112%nat, Div (Neg (N 4)) (N 9))];
  [(3%nat, Div (N 16) (N 9)); (4%nat, Div (N 112) (N 27)); (19%nat, Div (N 16) (N 3)); (20%nat, Div (N 44) (N 9))];
  [(3%nat, Div (N 112) (N 27)); (4%nat, Div (N 16) (N 9)); (19%nat, Div (N 44) (N 9)); (20%nat, Div (N 16) (N 3)); (110%nat, Div (Neg (V Mb)) (Mul (N 6) (V Ms))); (112%nat, Div (Mul (Neg (N 4)) (V Mb)) (Mul (N 9) (V Ms)))];
  [(5%nat, Div (N 160) (N 27)); (21%nat, Div (N 92) (N 9)); (111%nat, Div (Neg (N 1)) (N 6)); (113%nat, Div (Neg (N 4)) (N 9))];
  [(6%nat, Div (N 16) (N 9)); (7%nat, Div (N 112) (N 27)); (22%nat, Div (N 16) (N 3)); (23%nat, Div (N 44) (N 9))];
  [(6%nat, Div (N 112) (N 27)); (7%nat, Div (N 16) (N 9)); (22%nat, Div (N 44) (N 9)); (23%nat, Div (N 16) (N 3)); (111%nat, Div (Neg (V Mb)) (Mul (N 6) (V Ms))); (113%nat, Div (Mul (Neg (N 4)) (V Mb)) (Mul (N 9) (V Ms)))];
  [(8%nat, Div (N 16) (N 9)); (13%nat, Div (N 112) (N 27)); (24%nat, Div (N 16) (N 3)); (29%nat, Div (N 44) (N 9))];
  [(9%nat, Div (N 16) (N 9)); (12%nat, Div (N 112) (N 27)); (25%nat, Div (N 16) (N 3)); (28%nat, Div (N 44) (N 9))];
  [(10%nat, Div (N 16) (N 9)); (15%nat, Div (N 112) (N 27)); (26%nat, Div (N 16) (N 3)); (31%nat, Div (N 44) (N 9))];
  [(11%nat, Div (N 16) (N 9)); (14%nat, Div (N 112) (N 27)); (27%nat, Div (N 16) (N 3)); (30%nat, Div (N 44) (N 9))];
  [(9%nat, Div (N 112) (N 27)); (12%nat, Div (N 16) (N 9)); (25%nat, Div (N 44) (N 9)); (28%nat, Div (N 16) (N 3)); (111%nat, Div (Neg (V Mu)) (Mul (N 6) (V Ms))); (113%nat, Div (Mul (N 8) (V Mu)) (Mul (N 9) (V Ms)))];
  [(8%nat, Div (N 112) (N 27)); (13%nat, Div (N 16) (N 9)); (24%nat, Div (N 44) (N 9)); (29%nat, Div (N 16) (N 3)); (110%nat, Div (Neg (V Mu)) (Mul (N 6) (V Ms))); (112%nat, Div (Mul (N 8) (V Mu)) (Mul (N 9) (V Ms)))];
  [(11%nat, Div (N 112) (N 27)); (14%nat, Div (N 16) (N 9)); (27%nat, Div (N 44) (N 9)); (30%nat, Div (N 16) (N 3)); (111%nat, Div (Neg (V Mc)) (Mul (N 6) (V Ms))); (113%nat, Div (Mul (N 8) (V Mc)) (Mul (N 9) (V Ms)))];
  [(10%nat, Div (N 112) (N 27)); (15%nat, Div (N 16) (N 9)); (26%nat, Div (N 44) (N 9)); (31%nat, Div (N 16) (N 3)); (110%nat, Div (Neg (V Mc)) (Mul (N 6) (V Ms))); (112%nat, Div (Mul (N 8) (V Mc)) (Mul (N 9) (V Ms)))];
  [(32%nat, Neg (N 8))];
  [(33%nat, Neg (N 8))];
  [(34%nat, Neg (N 8))];
  [(35%nat, Neg (N 8))];
  [(36%nat, Neg (N 8))];
  [(37%nat, Neg (N 8))];
  [(38%nat, Neg (N 8))];
  [(39%nat, Neg (N 8))];
  [(40%nat, Neg (N 8))];
  [(41%nat, Neg (N 8))];
  [(42%nat, Neg (N 8))];
  [(43%nat, Neg (N 8))];
  [(44%nat, Div (N 8) (N 3)); (112%nat, Div (Mul (N 8) (V Me)) (V Ms))];
  [(45%nat, Div (N 8) (N 3)); (113%nat, Div (Mul (N 8) (V Me)) (V Ms))];
  [(46%nat, Div (N 8) (N 3)); (112%nat, Div (Mul (N 8) (V Mmu)) (V Ms))];
  [(47%nat, Div (N 8) (N 3)); (113%nat, Div (Mul (N 8) (V Mmu)) (V Ms))];
  [(48%nat, Div (N 8) (N 3)); (112%nat, Div (Mul (N 8) (V Mtau)) (V Ms))];
  [(49%nat, Div (N 8) (N 3)); (113%nat, Div (Mul (N 8) (V Mtau)) (V Ms))];
  [(70%nat, Neg (N 12))];
  [(71%nat, Neg (N 12))];
  [(72%nat, Neg (N 12))];
  [(73%nat, Neg (N 12))];
  [(74%nat, Neg (N 12))];
  [(75%nat, Neg (N 12))];
  [(76%nat, Neg (N 12))];
  [(77%nat, Neg (N 12))];
  [(78%nat, Neg (N 12))];
  [(79%nat, Neg (N 12))];
  [(80%nat, N 12)];
  [(81%nat, N 12)];
  [(82%nat, Neg (N 12))];
  [(83%nat, Neg (N 12))];
  [(84%nat, N 12)];
  [(85%nat, N 12)];
  [(86%nat, Neg (N 12))];
  [(87%nat, Neg (N 12))];
  [(88%nat, Neg (N 12))];
  [(89%nat, Neg (N 12))];
  [(50%nat, Div (Neg (N 8)) (N 3)); (70%nat, Div (Neg (N 40)) (N 3)); (75%nat, Div (N 2) (N 3)); (77%nat, Div (N 2) (N 3)); (82%nat, Div (N 2) (N 3)); (83%nat, Div (N 2) (N 3)); (84%nat, Div (N 2) (N 3)); (85%nat, Div (N 2) (N 3)); (94%nat, Div (N 2) (N 9)); (95%nat, Div (N 2) (N 9)); (96%nat, Div (Neg (N 1)) (N 9)); (97%nat, Div (N 1) (N 3))];
  [(51%nat, Div (Neg (N 8)) (N 3)); (71%nat, Div (Neg (N 40)) (N 3)); (72%nat, Div (N 2) (N 3)); (73%nat, Div (N 2) (N 3)); (78%nat, Div (N 2) (N 3)); (79%nat, Div (N 2) (N 3)); (80%nat, Div (N 2) (N 3)); (81%nat, Div (N 2) (N 3)); (90%nat, Div (N 2) (N 9)); (91%nat, Div (N 2) (N 9)); (92%nat, Div (Neg (N 1)) (N 9)); (93%nat, Div (N 1) (N 3))];
  [(52%nat, Div (Neg (N 8)) (N 3)); (71%nat, Div (N 2) (N 3)); (72%nat, Div (Neg (N 40)) (N 3)); (73%nat, Div (N 2) (N 3)); (78%nat, Div (N 2) (N 3)); (79%nat, Div (N 2) (N 3)); (80%nat, Div (N 2) (N 3)); (81%nat, Div (N 2) (N 3)); (90%nat, Div (N 2) (N 9)); (91%nat, Div (N 2) (N 9)); (92%nat, Div (Neg (N 1)) (N 9)); (93%nat, Div (N 1) (N 3))];
  [(53%nat, Div (Neg (N 8)) (N 3)); (71%nat, Div (N 2) (N 3)); (72%nat, Div (N 2) (N 3)); (73%nat, Div (Neg (N 40)) (N 3)); (78%nat, Div (N 2) (N 3)); (79%nat, Div (N 2) (N 3)); (80%nat, Div (N 2) (N 3)); (81%nat, Div (N 2) (N 3)); (90%nat, Div (N 2) (N 9)); (91%nat, Div (N 2) (N 9)); (92%nat, Div (Neg (N 1)) (N 9)); (93%nat, Div (N 1) (N 3))];
  [(54%nat, Div (Neg (N 8)) (N 3)); (74%nat, Neg (N 14))];
  [(55%nat, Div (Neg (N 8)) (N 3)); (70%nat, Div (N 2) (N 3)); (75%nat, Div (Neg (N 40)) (N 3)); (77%nat, Div (N 2) (N 3)); (82%nat, Div (N 2) (N 3)); (83%nat, Div (N 2) (N 3)); (84%nat, Div (N 2) (N 3)); (85%nat, Div (N 2) (N 3)); (94%nat, Div (N 2) (N 9)); (95%nat, Div (N 2) (N 9)); (96%nat, Div (Neg (N 1)) (N 9)); (97%nat, Div (N 1) (N 3))];
  [(56%nat, Div (Neg (N 8)) (N 3)); (76%nat, Neg (N 14))];
  [(57%nat, Div (Neg (N 8)) (N 3)); (70%nat, Div (N 2) (N 3)); (75%nat, Div (N 2) (N 3)); (77%nat, Div (Neg (N 40)) (N 3)); (82%nat, Div (N 2) (N 3)); (83%nat, Div (N 2) (N 3)); (84%nat, Div (N 2) (N 3)); (85%nat, Div (N 2) (N 3)); (94%nat, Div (N 2) (N 9)); (95%nat, Div (N 2) (N 9)); (96%nat, Div (Neg (N 1)) (N 9)); (97%nat, Div (N 1) (N 3))];
  [(58%nat, Div (Neg (N 8)) (N 3)); (71%nat, Div (N 2) (N 3)); (72%nat, Div (N 2) (N 3)); (73%nat, Div (N 2) (N 3)); (78%nat, Div (Neg (N 40)) (N 3)); (79%nat, Div (N 2) (N 3)); (80%nat, Div (N 2) (N 3)); (81%nat, Div (N 2) (N 3)); (90%nat, Div (N 2) (N 9)); (91%nat, Div (N 2) (N 9)); (92%nat, Div (Neg (N 1)) (N 9)); (93%nat, Div (N 1) (N 3))];
  [(59%nat, Div (Neg (N 8)) (N 3)); (71%nat, Div (N 2) (N 3)); (72%nat, Div (N 2) (N 3)); (73%nat, Div (N 2) (N 3)); (78%nat, Div (N 2) (N 3)); (79%nat, Div (Neg (N 40)) (N 3)); (80%nat, Div (N 2) (N 3)); (81%nat, Div (N 2) (N 3)); (90%nat, Div (N 2) (N 9)); (91%nat, Div (N 2) (N 9)); (92%nat, Div (Neg (N 1)) (N 9)); (93%nat, Div (N 1) (N 3))];
  [(60%nat, Div (N 8) (N 3)); (71%nat, Div (N 2) (N 3)); (72%nat, Div (N 2) (N 3)); (73%nat, Div (N 2) (N 3)); (78%nat, Div (N 2) (N 3)); (79%nat, Div (N 2) (N 3)); (80%nat, Div (Neg (N 10)) (N 3)); (81%nat, Div (N 2) (N 3)); (90%nat, Div (N 2) (N 9)); (91%nat, Div (N 2) (N 9)); (92%nat, Div (Neg (N 1)) (N 9)); (93%nat, Div (N 1) (N 3))];
  [(61%nat, Div (N 8) (N 3)); (71%nat, Div (N 2) (N 3)); (72%nat, Div (N 2) (N 3)); (73%nat, Div (N 2) (N 3)); (78%nat, Div (N 2) (N 3)); (79%nat, Div (N 2) (N 3)); (80%nat, Div (N 2) (N 3)); (81%nat, Div (Neg (N 10)) (N 3)); (90%nat, Div (N 2) (N 9)); (91%nat, Div (N 2) (N 9)); (92%nat, Div (Neg (N 1)) (N 9)); (93%nat, Div (N 1) (N 3))];
  [(62%nat, Div (Neg (N 8)) (N 3)); (70%nat, Div (N 2) (N 3)); (75%nat, Div (N 2) (N 3)); (77%nat, Div (N 2) (N 3)); (82%nat, Div (Neg (N 40)) (N 3)); (83%nat, Div (N 2) (N 3)); (84%nat, Div (N 2) (N 3)); (85%nat, Div (N 2) (N 3)); (94%nat, Div (N 2) (N 9)); (95%nat, Div (N 2) (N 9)); (96%nat, Div (Neg (N 1)) (N 9)); (97%nat, Div (N 1) (N 3))];
  [(63%nat, Div (Neg (N 8)) (N 3)); (70%nat, Div (N 2) (N 3)); (75%nat, Div (N 2) (N 3)); (77%nat, Div (N 2) (N 3)); (82%nat, Div (N 2) (N 3)); (83%nat, Div (Neg (N 40)) (N 3)); (84%nat, Div (N 2) (N 3)); (85%nat, Div (N 2) (N 3)); (94%nat, Div (N 2) (N 9)); (95%nat, Div (N 2) (N 9)); (96%nat, Div (Neg (N 1)) (N 9)); (97%nat, Div (N 1) (N 3))];
  [(64%nat, Div (N 8) (N 3)); (70%nat, Div (N 2) (N 3)); (75%nat, Div (N 2) (N 3)); (77%nat, Div (N 2) (N 3)); (82%nat, Div (N 2) (N 3)); (83%nat, Div (N 2) (N 3)); (84%nat, Div (Neg (N 10)) (N 3)); (85%nat, Div (N 2) (N 3)); (94%nat, Div (N 2) (N 9)); (95%nat, Div (N 2) (N 9)); (96%nat, Div (Neg (N 1)) (N 9)); (97%nat, Div (N 1) (N 3))];
  [(65%nat, Div (N 8) (N 3)); (70%nat, Div (N 2) (N 3)); (75%nat, Div (N 2) (N 3)); (77%nat, Div (N 2) (N 3)); (82%nat, Div (N 2) (N 3)); (83%nat, Div (N 2) (N 3)); (84%nat, Div (N 2) (N 3)); (85%nat, Div (Neg (N 10)) (N 3)); (94%nat, Div (N 2) (N 9)); (95%nat, Div (N 2) (N 9)); (96%nat, Div (Neg (N 1)) (N 9)); (97%nat, Div (N 1) (N 3))];
  [(66%nat, Div (Neg (N 8)) (N 3)); (86%nat, Neg (N 14))];
  [(67%nat, Div (Neg (N 8)) (N 3)); (87%nat, Neg (N 14))];
  [(68%nat, Div (Neg (N 8)) (N 3)); (88%nat, Neg (N 14))];
  [(69%nat, Div (Neg (N 8)) (N 3)); (89%nat, Neg (N 14))];
  [(71%nat, Div (N 4) (N 3)); (72%nat, Div (N 4) (N 3)); (73%nat, Div (N 4) (N 3)); (78%nat, Div (N 4) (N 3)); (79%nat, Div (N 4) (N 3)); (80%nat, Div (N 4) (N 3)); (81%nat, Div (N 4) (N 3)); (90%nat, Div (N 40) (N 9)); (91%nat, Div (N 4) (N 9)); (92%nat, Div (Neg (N 2)) (N 9)); (93%nat, Div (N 2) (N 3))];
  [(71%nat, Div (N 4) (N 3)); (72%nat, Div (N 4) (N 3)); (73%nat, Div (N 4) (N 3)); (78%nat, Div (N 4) (N 3)); (79%nat, Div (N 4) (N 3)); (80%nat, Div (N 4) (N 3)); (81%nat, Div (N 4) (N 3)); (90%nat, Div (N 4) (N 9)); (91%nat, Div (N 40) (N 9)); (92%nat, Div (Neg (N 2)) (N 9)); (93%nat, Div (N 2) (N 3))];
  [(92%nat, Neg (N 2)); (93%nat, N 6)];
  [(71%nat, Div (N 4) (N 3)); (72%nat, Div (N 4) (N 3)); (73%nat, Div (N 4) (N 3)); (78%nat, Div (N 4) (N 3)); (79%nat, Div (N 4) (N 3)); (80%nat, Div (N 4) (N 3)); (81%nat, Div (N 4) (N 3)); (90%nat, Div (N 4) (N 9)); (91%nat, Div (N 4) (N 9)); (92%nat, Div (N 52) (N 9)); (93%nat, Div (Neg (N 4)) (N 3))];
  [(70%nat, Div (N 4) (N 3)); (75%nat, Div (N 4) (N 3)); (77%nat, Div (N 4) (N 3)); (82%nat, Div (N 4) (N 3)); (83%nat, Div (N 4) (N 3)); (84%nat, Div (N 4) (N 3)); (85%nat, Div (N 4) (N 3)); (94%nat, Div (N 40) (N 9)); (95%nat, Div (N 4) (N 9)); (96%nat, Div (Neg (N 2)) (N 9)); (97%nat, Div (N 2) (N 3))];
  [(70%nat, Div (N 4) (N 3)); (75%nat, Div (N 4) (N 3)); (77%nat, Div (N 4) (N 3)); (82%nat, Div (N 4) (N 3)); (83%nat, Div (N 4) (N 3)); (84%nat, Div (N 4) (N 3)); (85%nat, Div (N 4) (N 3)); (94%nat, Div (N 4) (N 9)); (95%nat, Div (N 40) (N 9)); (96%nat, Div (Neg (N 2)) (N 9)); (97%nat, Div (N 2) (N 3))];
  [(96%nat, Neg (N 2)); (97%nat, N 6)];
  [(70%nat, Div (N 4) (N 3)); (75%nat, Div (N 4) (N 3)); (77%nat, Div (N 4) (N 3)); (82%nat, Div (N 4) (N 3)); (83%nat, Div (N 4) (N 3)); (84%nat, Div (N 4) (N 3)); (85%nat, Div (N 4) (N 3)); (94%nat, Div (N 4) (N 9)); (95%nat, Div (N 4) (N 9)); (96%nat, Div (N 52) (N 9)); (97%nat, Div (Neg (N 4)) (N 3))];
  [];
  [];
  [];
  [];
  [];
  [];
  [];
  [];
  [];
  [];
  [];
  [];
  [(110%nat, Add (Mul (Neg (N 2)) B0) (Div (N 28) (N 3))); (112%nat, Div (Neg (N 32)) (N 9))];
  [(111%nat, Add (Mul (Neg (N 2)) B0) (Div (N 28) (N 3))); (113%nat, Div (Neg (N 32)) (N 9))];
  [(112%nat, Add (Mul (Neg (N 2)) B0) (Div (N 32) (N 3)))];
  [(113%nat, Add (Mul (Neg (N 2)) B0) (Div (N 32) (N 3)))]].

(* adm.py:1236-1311 *)
Definition adm_e_mue : amat := [
  [(0%nat, Div (Neg (N 20)) (N 3))];
  [(1%nat, Div (Neg (N 20)) (N 3))];
  [(2%nat, Div (Neg (N 20)) (N 3))];
  [(3%nat, Div (Neg (N 20)) (N 3))];
  [(4%nat, Div (Neg (N 20)) (N 3))];
  [(5%nat, Div (Neg (N 20)) (N 3))];
  [(6%nat, Div (Neg (N 20)) (N 3)); (28%nat, Div (Neg (N 2)) (N 3))];
  [(7%nat, Div (Neg (N 20)) (N 3)); (29%nat, Div (Neg (N 2)) (N 3))];
  [(8%nat, Div (Neg (N 20)) (N 3)); (30%nat, Div (Neg (N 2)) (N 3))];
  [(9%nat, Div (Neg (N 20)) (N 3)); (31%nat, Div (Neg (N 2)) (N 3))];
  [(10%nat, Div (Neg (N 20)) (N 3)); (32%nat, Div (Neg (N 2)) (N 3))];
  [(11%nat, Div (Neg (N 20)) (N 3)); (33%nat, Div (Neg (N 2)) (N 3))];
  [(12%nat, N 12)];
  [(13%nat, N 12)];
  [(14%nat, N 12)];
  [(15%nat, Neg (N 4)); (16%nat, N 16)];
  [(15%nat, N 16); (16%nat, Neg (N 4))];
  [(17%nat, N 12)];
  [(18%nat, Neg (N 4)); (19%nat, N 16)];
  [(18%nat, N 16); (19%nat, Neg (N 4))];
  [(20%nat, Div (Neg (N 26)) (N 3))];
  [(21%nat, Div (Neg (N 26)) (N 3))];
  [(22%nat, Div (Neg (N 26)) (N 3))];
  [(23%nat, Div (Neg (N 26)) (N 3))];
  [(24%nat, Div (Neg (N 26)) (N 3)); (34%nat, Div (N 4) (N 3))];
  [(25%nat, Div (Neg (N 26)) (N 3)); (35%nat, Div (N 4) (N 3))];
  [(26%nat, Div (Neg (N 26)) (N 3)); (36%nat, Div (N 4) (N 3))];
  [(27%nat, Div (Neg (N 26)) (N 3)); (37%nat, Div (N 4) (N 3))];
  [(6%nat, Neg (N 32)); (28%nat, Div (N 20) (N 9))];
  [(7%nat, Neg (N 32)); (29%nat, Div (N 20) (N 9))];
  [(8%nat, Neg (N 32)); (30%nat, Div (N 20) (N 9))];
  [(9%nat, Neg (N 32)); (31%nat, Div (N 20) (N 9))];
  [(10%nat, Neg (N 32)); (32%nat, Div (N 20) (N 9))];
  [(11%nat, Neg (N 32)); (33%nat, Div (N 20) (N 9))];
  [(24%nat, N 64); (34%nat, Div (N 26) (N 9))];
  [(25%nat, N 64); (35%nat, Div (N 26) (N 9))];
  [(26%nat, N 64); (36%nat, Div (N 26) (N 9))];
  [(27%nat, N 64); (37%nat, Div (N 26) (N 9))];
  [(38%nat, Div (Neg (N 32)) (N 9)); (39%nat, Div (N 4) (N 9)); (40%nat, Div (N 4) (N 9)); (47%nat, Div (N 4) (N 9)); (48%nat, Div (N 4) (N 9)); (49%nat, Div (N 4) (N 9)); (53%nat, Div (N 4) (N 3)); (58%nat, Div (N 4) (N 3)); (60%nat, Div (N 4) (N 3)); (61%nat, Div (N 4) (N 3)); (62%nat, Div (N 4) (N 3)); (63%nat, Div (N 4) (N 3)); (68%nat, Div (Neg (N 8)) (N 9)); (69%nat, Div (Neg (N 8)) (N 9)); (70%nat, Div (Neg (N 8)) (N 9)); (71%nat, Div (Neg (N 8)) (N 9))];
  [(38%nat, Div (N 4) (N 9)); (39%nat, Div (Neg (N 32)) (N 9)); (40%nat, Div (N 4) (N 9)); (47%nat, Div (N 4) (N 9)); (48%nat, Div (N 4) (N 9)); (49%nat, Div (N 4) (N 9)); (53%nat, Div (N 4) (N 3)); (58%nat, Div (N 4) (N 3)); (60%nat, Div (N 4) (N 3)); (61%nat, Div (N 4) (N 3)); (62%nat, Div (N 4) (N 3)); (63%nat, Div (N 4) (N 3)); (68%nat, Div (Neg (N 8)) (N 9)); (69%nat, Div (Neg (N 8)) (N 9)); (70%nat, Div (Neg (N 8)) (N 9)); (71%nat, Div (Neg (N 8)) (N 9))];
  [(38%nat, Div (N 4) (N 9)); (39%nat, Div (N 4) (N 9)); (40%nat, Div (Neg (N 32)) (N 9)); (47%nat, Div (N 4) (N 9)); (48%nat, Div (N 4) (N 9)); (49%nat, Div (N 4) (N 9)); (53%nat, Div (N 4) (N 3)); (58%nat, Div (N 4) (N 3)); (60%nat, Div (N 4) (N 3)); (61%nat, Div (N 4) (N 3)); (62%nat, Div (N 4) (N 3)); (63%nat, Div (N 4) (N 3)); (68%nat, Div (Neg (N 8)) (N 9)); (69%nat, Div (Neg (N 8)) (N 9)); (70%nat, Div (Neg (N 8)) (N 9)); (71%nat, Div (Neg (N 8)) (N 9))];
  [(41%nat, Div (N 40) (N 9)); (42%nat, Div (N 4) (N 9)); (43%nat, Div (N 4) (N 9)); (44%nat, Div (N 4) (N 9)); (45%nat, Div (N 4) (N 9)); (46%nat, Div (N 4) (N 9)); (50%nat, Div (N 4) (N 3)); (51%nat, Div (N 4) (N 3)); (52%nat, Div (N 4) (N 3)); (54%nat, Div (N 4) (N 3)); (55%nat, Div (N 4) (N 3)); (56%nat, Div (N 4) (N 3)); (64%nat, Div (Neg (N 8)) (N 9)); (65%nat, Div (Neg (N 8)) (N 9)); (66%nat, Div (Neg (N 8)) (N 9)); (67%nat, Div (Neg (N 8)) (N 9))];
  [(41%nat, Div (N 4) (N 9)); (42%nat, Div (N 40) (N 9)); (43%nat, Div (N 4) (N 9)); (44%nat, Div (N 4) (N 9)); (45%nat, Div (N 4) (N 9)); (46%nat, Div (N 4) (N 9)); (50%nat, Div (N 4) (N 3)); (51%nat, Div (N 4) (N 3)); (52%nat, Div (N 4) (N 3)); (54%nat, Div (N 4) (N 3)); (55%nat, Div (N 4) (N 3)); (56%nat, Div (N 4) (N 3)); (64%nat, Div (Neg (N 8)) (N 9)); (65%nat, Div (Neg (N 8)) (N 9)); (66%nat, Div (Neg (N 8)) (N 9)); (67%nat, Div (Neg (N 8)) (N 9))];
  [(41%nat, Div (N 4) (N 9)); (42%nat, Div (N 4) (N 9)); (43%nat, Div (N 40) (N 9)); (44%nat, Div (N 4) (N 9)); (45%nat, Div (N 4) (N 9)); (46%nat, Div (N 4) (N 9)); (50%nat, Div (N 4) (N 3)); (51%nat, Div (N 4) (N 3)); (52%nat, Div (N 4) (N 3)); (54%nat, Div (N 4) (N 3)); (55%nat, Div (N 4) (N 3)); (56%nat, Div (N 4) (N 3)); (64%nat, Div (Neg (N 8)) (N 9)); (65%nat, Div (Neg (N 8)) (N 9)); (66%nat, Div (Neg (N 8)) (N 9)); (67%nat, Div (Neg (N 8)) (N 9))];
  [(41%nat, Div (N 4) (N 9)); (42%nat, Div (N 4) (N 9)); (43%nat, Div (N 4) (N 9)); (44%nat, Div (Neg (N 32)) (N 9)); (45%nat, Div (N 4) (N 9)); (46%nat, Div (N 4) (N 9)); (50%nat, Div (N 4) (N 3)); (51%nat, Div (N 4) (N 3)); (52%nat, Div (N 4) (N 3)); (54%nat, Div (N 4) (N 3)); (55%nat, Div (N 4) (N 3)); (56%nat, Div (N 4) (N 3)); (64%nat, Div (Neg (N 8)) (N 9)); (65%nat, Div (Neg (N 8)) (N 9)); (66%nat, Div (Neg (N 8)) (N 9)); (67%nat, Div (Neg (N 8)) (N 9))];
  [(41%nat, Div (N 4) (N 9)); (42%nat, Div (N 4) (N 9)); (43%nat, Div (N 4) (N 9)); (44%nat, Div (N 4) (N 9)); (45%nat, Div (Neg (N 32)) (N 9)); (46%nat, Div (N 4) (N 9)); (50%nat, Div (N 4) (N 3)); (51%nat, Div (N 4) (N 3)); (52%nat, Div (N 4) (N 3)); (54%nat, Div (N 4) (N 3)); (55%nat, Div (N 4) (N 3)); (56%nat, Div (N 4) (N 3)); (64%nat, Div (Neg (N 8)) (N 9)); (65%nat, Div (Neg (N 8)) (N 9)); (66%nat, Div (Neg (N 8)) (N 9)); (67%nat, Div (Neg (N 8)) (N 9))];
  [(41%nat, Div (N 4) (N 9)); (42%nat, Div (N 4) (N 9)); (43%nat, Div (N 4) (N 9)); (44%nat, Div (N 4) (N 9)); (45%nat, Div (N 4) (N 9)); (46%nat, Div (Neg (N 32)) (N 9)); (50%nat, Div (N 4) (N 3)); (51%nat, Div (N 4) (N 3)); (52%nat, Div (N 4) (N 3)); (54%nat, Div (N 4) (N 3)); (55%nat, Div (N 4) (N 3)); (56%nat, Div (N 4) (N 3)); (64%nat, Div (Neg (N 8)) (N 9)); (65%nat, Div (Neg (N 8)) (N 9)); (66%nat, Div (Neg (N 8)) (N 9)); (67%nat, Div (Neg (N 8)) (N 9))];
  [(38%nat, Div (N 4) (N 9)); (39%nat, Div (N 4) (N 9)); (40%nat, Div (N 4) (N 9)); (47%nat, Div (N 40) (N 9)); (48%nat, Div (N 4) (N 9)); (49%nat, Div (N 4) (N 9)); (53%nat, Div (N 4) (N 3)); (58%nat, Div (N 4) (N 3)); (60%nat, Div (N 4) (N 3)); (61%nat, Div (N 4) (N 3)); (62%nat, Div (N 4) (N 3)); (63%nat, Div (N 4) (N 3)); (68%nat, Div (Neg (N 8)) (N 9)); (69%nat, Div (Neg (N 8)) (N 9)); (70%nat, Div (Neg (N 8)) (N 9)); (71%nat, Div (Neg (N 8)) (N 9))];
  [(38%nat, Div (N 4) (N 9)); (39%nat, Div (N 4) (N 9)); (40%nat, Div (N 4) (N 9)); (47%nat, Div (N 4) (N 9)); (48%nat, Div (N 40) (N 9)); (49%nat, Div (N 4) (N 9)); (53%nat, Div (N 4) (N 3)); (58%nat, Div (N 4) (N 3)); (60%nat, Div (N 4) (N 3)); (61%nat, Div (N 4) (N 3)); (62%nat, Div (N 4) (N 3)); (63%nat, Div (N 4) (N 3)); (68%nat, Div (Neg (N 8)) (N 9)); (69%nat, Div (Neg (N 8)) (N 9)); (70%nat, Div (Neg (N 8)) (N 9)); (71%nat, Div (Neg (N 8)) (N 9))];
  [(38%nat, Div (N 4) (N 9)); (39%nat, Div (N 4) (N 9)); (40%nat, Div (N 4) (N 9)); (47%nat, Div (N 4) (N 9)); (48%nat, Div (N 4) (N 9)); (49%nat, Div (N 40) (N 9)); (53%nat, Div (N 4) (N 3)); (58%nat, Div (N 4) (N 3)); (60%nat, Div (N 4) (N 3)); (61%nat, Div (N 4) (N 3)); (62%nat, Div (N 4) (N 3)); (63%nat, Div (N 4) (N 3)); (68%nat, Div (Neg (N 8)) (N 9)); (69%nat, Div (Neg (N 8)) (N 9)); (70%nat, Div (Neg (N 8)) (N 9)); (71%nat, Div (Neg (N 8)) (N 9))];
  [(41%nat, Div (N 8) (N 9)); (42%nat, Div (N 8) (N 9)); (43%nat, Div (N 8) (N 9)); (44%nat, Div (N 8) (N 9)); (45%nat, Div (N 8) (N 9)); (46%nat, Div (N 8) (N 9)); (50%nat, Div (N 44) (N 3)); (51%nat, Div (N 8) (N 3)); (52%nat, Div (N 8) (N 3)); (54%nat, Div (N 8) (N 3)); (55%nat, Div (N 8) (N 3)); (56%nat, Div (N 8) (N 3)); (64%nat, Div (Neg (N 16)) (N 9)); (65%nat, Div (Neg (N 16)) (N 9)); (66%nat, Div (Neg (N 16)) (N 9)); (67%nat, Div (Neg (N 16)) (N 9))];
  [(41%nat, Div (N 8) (N 9)); (42%nat, Div (N 8) (N 9)); (43%nat, Div (N 8) (N 9)); (44%nat, Div (N 8) (N 9)); (45%nat, Div (N 8) (N 9)); (46%nat, Div (N 8) (N 9)); (50%nat, Div (N 8) (N 3)); (51%nat, Div (N 44) (N 3)); (52%nat, Div (N 8) (N 3)); (54%nat, Div (N 8) (N 3)); (55%nat, Div (N 8) (N 3)); (56%nat, Div (N 8) (N 3)); (64%nat, Div (Neg (N 16)) (N 9)); (65%nat, Div (Neg (N 16)) (N 9)); (66%nat, Div (Neg (N 16)) (N 9)); (67%nat, Div (Neg (N 16)) (N 9))];
  [(41%nat, Div (N 4) (N 9)); (42%nat, Div (N 4) (N 9)); (43%nat, Div (N 4) (N 9)); (44%nat, Div (N 4) (N 9)); (45%nat, Div (N 4) (N 9)); (46%nat, Div (N 4) (N 9)); (50%nat, Div (N 4) (N 3)); (51%nat, Div (N 4) (N 3)); (52%nat, Div (N 40) (N 3)); (54%nat, Div (N 4) (N 3)); (55%nat, Div (N 4) (N 3)); (56%nat, Div (N 4) (N 3)); (64%nat, Div (Neg (N 8)) (N 9)); (65%nat, Div (Neg (N 8)) (N 9)); (66%nat, Div (Neg (N 8)) (N 9)); (67%nat, Div (Neg (N 8)) (N 9))];
  [(38%nat, Div (N 4) (N 9)); (39%nat, Div (N 4) (N 9)); (40%nat, Div (N 4) (N 9)); (47%nat, Div (N 4) (N 9)); (48%nat, Div (N 4) (N 9)); (49%nat, Div (N 4) (N 9)); (53%nat, Div (Neg (N 32)) (N 3)); (58%nat, Div (N 4) (N 3)); (60%nat, Div (N 4) (N 3)); (61%nat, Div (N 4) (N 3)); (62%nat, Div (N 4) (N 3)); (63%nat, Div (N 4) (N 3)); (68%nat, Div (Neg (N 8)) (N 9)); (69%nat, Div (Neg (N 8)) (N 9)); (70%nat, Div (Neg (N 8)) (N 9)); (71%nat, Div (Neg (N 8)) (N 9))];
  [(41%nat, Div (N 4) (N 9)); (42%nat, Div (N 4) (N 9)); (43%nat, Div (N 4) (N 9)); (44%nat, Div (N 4) (N 9)); (45%nat, Div (N 4) (N 9)); (46%nat, Div (N 4) (N 9)); (50%nat, Div (N 4) (N 3)); (51%nat, Div (N 4) (N 3)); (52%nat, Div (N 4) (N 3)); (54%nat, Div (Neg (N 32)) (N 3)); (55%nat, Div (N 4) (N 3)); (56%nat, Div (N 4) (N 3)); (64%nat, Div (Neg (N 8)) (N 9)); (65%nat, Div (Neg (N 8)) (N 9)); (66%nat, Div (Neg (N 8)) (N 9)); (67%nat, Div (Neg (N 8)) (N 9))];
  [(41%nat, Div (N 4) (N 9)); (42%nat, Div (N 4) (N 9)); (43%nat, Div (N 4) (N 9)); (44%nat, Div (N 4) (N 9)); (45%nat, Div (N 4) (N 9)); (46%nat, Div (N 4) (N 9)); (50%nat, Div (N 4) (N 3)); (51%nat, Div (N 4) (N 3)); (52%nat, Div (N 4) (N 3)); (54%nat, Div (N 4) (N 3)); (55%nat, Div (Neg (N 32)) (N 3)); (56%nat, Div (N 4) (N 3)); (64%nat, Div (Neg (N 8)) (N 9)); (65%nat, Div (Neg (N 8)) (N 9)); (66%nat, Div (Neg (N 8)) (N 9)); (67%nat, Div (Neg (N 8)) (N 9))];
  [(41%nat, Div (N 4) (N 9)); (42%nat, Div (N 4) (N 9)); (43%nat, Div (N 4) (N 9)); (44%nat, Div (N 4) (N 9)); (45%nat, Div (N 4) (N 9)); (46%nat, Div (N 4) (N 9)); (50%nat, Div (N 4) (N 3)); (51%nat, Div (N 4) (N 3)); (52%nat, Div (N 4) (N 3)); (54%nat, Div (N 4) (N 3)); (55%nat, Div (N 4) (N 3)); (56%nat, Div (Neg (N 32)) (N 3)); (64%nat, Div (Neg (N 8)) (N 9)); (65%nat, Div (Neg (N 8)) (N 9)); (66%nat, Div (Neg (N 8)) (N 9)); (67%nat, Div (Neg (N 8)) (N 9))];
  [(57%nat, Neg (N 12))];
  [(38%nat, Div (N 4) (N 9)); (39%nat, Div (N 4) (N 9)); (40%nat, Div (N 4) (N 9)); (47%nat, Div (N 4) (N 9)); (48%nat, Div (N 4) (N 9)); (49%nat, Div (N 4) (N 9)); (53%nat, Div (N 4) (N 3)); (58%nat, Div (Neg (N 32)) (N 3)); (60%nat, Div (N 4) (N 3)); (61%nat, Div (N 4) (N 3)); (62%nat, Div (N 4) (N 3)); (63%nat, Div (N 4) (N 3)); (68%nat, Div (Neg (N 8)) (N 9)); (69%nat, Div (Neg (N 8)) (N 9)); (70%nat, Div (Neg (N 8)) (N 9)); (71%nat, Div (Neg (N 8)) (N 9))];
  [(59%nat, Neg (N 12))];
  [(38%nat, Div (N 4) (N 9)); (39%nat, Div (N 4) (N 9)); (40%nat, Div (N 4) (N 9)); (47%nat, Div (N 4) (N 9)); (48%nat, Div (N 4) (N 9)); (49%nat, Div (N 4) (N 9)); (53%nat, Div (N 4) (N 3)); (58%nat, Div (N 4) (N 3)); (60%nat, Div (Neg (N 32)) (N 3)); (61%nat, Div (N 4) (N 3)); (62%nat, Div (N 4) (N 3)); (63%nat, Div (N 4) (N 3)); (68%nat, Div (Neg (N 8)) (N 9)); (69%nat, Div (Neg (N 8)) (N 9)); (70%nat, Div (Neg (N 8)) (N 9)); (71%nat, Div (Neg (N 8)) (N 9))];
  [(38%nat, Div (N 8) (N 9)); (39%nat, Div (N 8) (N 9)); (40%nat, Div (N 8) (N 9)); (47%nat, Div (N 8) (N 9)); (48%nat, Div (N 8) (N 9)); (49%nat, Div (N 8) (N 9)); (53%nat, Div (N 8) (N 3)); (58%nat, Div (N 8) (N 3)); (60%nat, Div (N 8) (N 3)); (61%nat, Div (N 44) (N 3)); (62%nat, Div (N 8) (N 3)); (63%nat, Div (N 8) (N 3)); (68%nat, Div (Neg (N 16)) (N 9)); (69%nat, Div (Neg (N 16)) (N 9)); (70%nat, Div (Neg (N 16)) (N 9)); (71%nat, Div (Neg (N 16)) (N 9))];
  [(38%nat, Div (N 8) (N 9)); (39%nat, Div (N 8) (N 9)); (40%nat, Div (N 8) (N 9)); (47%nat, Div (N 8) (N 9)); (48%nat, Div (N 8) (N 9)); (49%nat, Div (N 8) (N 9)); (53%nat, Div (N 8) (N 3)); (58%nat, Div (N 8) (N 3)); (60%nat, Div (N 8) (N 3)); (61%nat, Div (N 8) (N 3)); (62%nat, Div (N 44) (N 3)); (63%nat, Div (N 8) (N 3)); (68%nat, Div (Neg (N 16)) (N 9)); (69%nat, Div (Neg (N 16)) (N 9)); (70%nat, Div (Neg (N 16)) (N 9)); (71%nat, Div (Neg (N 16)) (N 9))];
  [(38%nat, Div (N 4) (N 9)); (39%nat, Div (N 4) (N 9)); (40%nat, Div (N 4) (N 9)); (47%nat, Div (N 4) (N 9)); (48%nat, Div (N 4) (N 9)); (49%nat, Div (N 4) (N 9)); (53%nat, Div (N 4) (N 3)); (58%nat, Div (N 4) (N 3)); (60%nat, Div (N 4) (N 3)); (61%nat, Div (N 4) (N 3)); (62%nat, Div (N 4) (N 3)); (63%nat, Div (N 40) (N 3)); (68%nat, Div (Neg (N 8)) (N 9)); (69%nat, Div (Neg (N 8)) (N 9)); (70%nat, Div (Neg (N 8)) (N 9)); (71%nat, Div (Neg (N 8)) (N 9))];
  [(41%nat, Div (Neg (N 8)) (N 9)); (42%nat, Div (Neg (N 8)) (N 9)); (43%nat, Div (Neg (N 8)) (N 9)); (44%nat, Div (Neg (N 8)) (N 9)); (45%nat, Div (Neg (N 8)) (N 9)); (46%nat, Div (Neg (N 8)) (N 9)); (50%nat, Div (Neg (N 8)) (N 3)); (51%nat, Div (Neg (N 8)) (N 3)); (52%nat, Div (Neg (N 8)) (N 3)); (54%nat, Div (Neg (N 8)) (N 3)); (55%nat, Div (Neg (N 8)) (N 3)); (56%nat, Div (Neg (N 8)) (N 3)); (64%nat, Div (Neg (N 56)) (N 9)); (65%nat, Div (N 16) (N 9)); (66%nat, Div (N 16) (N 9)); (67%nat, Div (N 16) (N 9))];
  [(41%nat, Div (Neg (N 8)) (N 9)); (42%nat, Div (Neg (N 8)) (N 9)); (43%nat, Div (Neg (N 8)) (N 9)); (44%nat, Div (Neg (N 8)) (N 9)); (45%nat, Div (Neg (N 8)) (N 9)); (46%nat, Div (Neg (N 8)) (N 9)); (50%nat, Div (Neg (N 8)) (N 3)); (51%nat, Div (Neg (N 8)) (N 3)); (52%nat, Div (Neg (N 8)) (N 3)); (54%nat, Div (Neg (N 8)) (N 3)); (55%nat, Div (Neg (N 8)) (N 3)); (56%nat, Div (Neg (N 8)) (N 3)); (64%nat, Div (N 16) (N 9)); (65%nat, Div (Neg (N 56)) (N 9)); (66%nat, Div (N 16) (N 9)); (67%nat, Div (N 16) (N 9))];
  [(41%nat, Div (Neg (N 8)) (N 9)); (42%nat, Div (Neg (N 8)) (N 9)); (43%nat, Div (Neg (N 8)) (N 9)); (44%nat, Div (Neg (N 8)) (N 9)); (45%nat, Div (Neg (N 8)) (N 9)); (46%nat, Div (Neg (N 8)) (N 9)); (50%nat, Div (Neg (N 8)) (N 3)); (51%nat, Div (Neg (N 8)) (N 3)); (52%nat, Div (Neg (N 8)) (N 3)); (54%nat, Div (Neg (N 8)) (N 3)); (55%nat, Div (Neg (N 8)) (N 3)); (56%nat, Div (Neg (N 8)) (N 3)); (64%nat, Div (N 16) (N 9)); (65%nat, Div (N 16) (N 9)); (66%nat, Div (N 88) (N 9)); (67%nat, Div (N 16) (N 9))];
  [(41%nat, Div (Neg (N 8)) (N 9)); (42%nat, Div (Neg (N 8)) (N 9)); (43%nat, Div (Neg (N 8)) (N 9)); (44%nat, Div (Neg (N 8)) (N 9)); (45%nat, Div (Neg (N 8)) (N 9)); (46%nat, Div (Neg (N 8)) (N 9)); (50%nat, Div (Neg (N 8)) (N 3)); (51%nat, Div (Neg (N 8)) (N 3)); (52%nat, Div (Neg (N 8)) (N 3)); (54%nat, Div (Neg (N 8)) (N 3)); (55%nat, Div (Neg (N 8)) (N 3)); (56%nat, Div (Neg (N 8)) (N 3)); (64%nat, Div (N 16) (N 9)); (65%nat, Div (N 16) (N 9)); (66%nat, Div (N 16) (N 9)); (67%nat, Div (N 88) (N 9))];
  [(38%nat, Div (Neg (N 8)) (N 9)); (39%nat, Div (Neg (N 8)) (N 9)); (40%nat, Div (Neg (N 8)) (N 9)); (47%nat, Div (Neg (N 8)) (N 9)); (48%nat, Div (Neg (N 8)) (N 9)); (49%nat, Div (Neg (N 8)) (N 9)); (53%nat, Div (Neg (N 8)) (N 3)); (58%nat, Div (Neg (N 8)) (N 3)); (60%nat, Div (Neg (N 8)) (N 3)); (61%nat, Div (Neg (N 8)) (N 3)); (62%nat, Div (Neg (N 8)) (N 3)); (63%nat, Div (Neg (N 8)) (N 3)); (68%nat, Div (Neg (N 56)) (N 9)); (69%nat, Div (N 16) (N 9)); (70%nat, Div (N 16) (N 9)); (71%nat, Div (N 16) (N 9))];
  [(38%nat, Div (Neg (N 8)) (N 9)); (39%nat, Div (Neg (N 8)) (N 9)); (40%nat, Div (Neg (N 8)) (N 9)); (47%nat, Div (Neg (N 8)) (N 9)); (48%nat, Div (Neg (N 8)) (N 9)); (49%nat, Div (Neg (N 8)) (N 9)); (53%nat, Div (Neg (N 8)) (N 3)); (58%nat, Div (Neg (N 8)) (N 3)); (60%nat, Div (Neg (N 8)) (N 3)); (61%nat, Div (Neg (N 8)) (N 3)); (62%nat, Div (Neg (N 8)) (N 3)); (63%nat, Div (Neg (N 8)) (N 3)); (68%nat, Div (N 16) (N 9)); (69%nat, Div (Neg (N 56)) (N 9)); (70%nat, Div (N 16) (N 9)); (71%nat, Div (N 16) (N 9))];
  [(38%nat, Div (Neg (N 8)) (N 9)); (39%nat, Div (Neg (N 8)) (N 9)); (40%nat, Div (Neg (N 8)) (N 9)); (47%nat, Div (Neg (N 8)) (N 9)); (48%nat, Div (Neg (N 8)) (N 9)); (49%nat, Div (Neg (N 8)) (N 9)); (53%nat, Div (Neg (N 8)) (N 3)); (58%nat, Div (Neg (N 8)) (N 3)); (60%nat, Div (Neg (N 8)) (N 3)); (61%nat, Div (Neg (N 8)) (N 3)); (62%nat, Div (Neg (N 8)) (N 3)); (63%nat, Div (Neg (N 8)) (N 3)); (68%nat, Div (N 16) (N 9)); (69%nat, Div (N 16) (N 9)); (70%nat, Div (N 88) (N 9)); (71%nat, Div (N 16) (N 9))];
  [(38%nat, Div (Neg (N 8)) (N 9)); (39%nat, Div (Neg (N 8)) (N 9)); (40%nat, Div (Neg (N 8)) (N 9)); (47%nat, Div (Neg (N 8)) (N 9)); (48%nat, Div (Neg (N 8)) (N 9)); (49%nat, Div (Neg (N 8)) (N 9)); (53%nat, Div (Neg (N 8)) (N 3)); (58%nat, Div (Neg (N 8)) (N 3)); (60%nat, Div (Neg (N 8)) (N 3)); (61%nat, Div (Neg (N 8)) (N 3)); (62%nat, Div (Neg (N 8)) (N 3)); (63%nat, Div (Neg (N 8)) (N 3)); (68%nat, Div (N 16) (N 9)); (69%nat, Div (N 16) (N 9)); (70%nat, Div (N 16) (N 9)); (71%nat, Div (N 88) (N 9))];
  [(72%nat, N 16)];
  [(73%nat, N 16)]].

(* adm.py:1313-1389 *)
Definition adm_s_mue : amat := [
  [(0%nat, Neg (N 8))];
  [(1%nat, Neg (N 8))];
  [(2%nat, Neg (N 8))];
  [(3%nat, Neg (N 8))];
  [(4%nat, Neg (N 8))];
  [(5%nat, Neg (N 8))];
  [(6%nat, Neg (N 8))];
  [(7%nat, Neg (N 8))];
  [(8%nat, Neg (N 8))];
  [(9%nat, Neg (N 8))];
  [(10%nat, Neg (N 8))];
  [(11%nat, Neg (N 8))];
  [(72%nat, Div (Neg (V Me)) (V Mmu))];
  [(73%nat, Div (Neg (V Me)) (V Mmu))];
  [(72%nat, Neg (N 1))];
  [];
  [(72%nat, Div (Neg (V Mtau)) (V Mmu))];
  [(73%nat, Neg (N 1))];
  [];
  [(73%nat, Div (Neg (V Mtau)) (V Mmu))];
  [(20%nat, Neg (N 8))];
  [(21%nat, Neg (N 8))];
  [(22%nat, Neg (N 8))];
  [(23%nat, Neg (N 8))];
  [(24%nat, Neg (N 8))];
  [(25%nat, Neg (N 8))];
  [(26%nat, Neg (N 8))];
  [(27%nat, Neg (N 8))];
  [(28%nat, Div (N 8) (N 3)); (72%nat, Div (Mul (N 8) (V Md)) (V Mmu))];
  [(29%nat, Div (N 8) (N 3)); (72%nat, Div (Mul (N 8) (V Ms)) (V Mmu))];
  [(30%nat, Div (N 8) (N 3)); (72%nat, Div (Mul (N 8) (V Mb)) (V Mmu))];
  [(31%nat, Div (N 8) (N 3)); (73%nat, Div (Mul (N 8) (V Md)) (V Mmu))];
  [(32%nat, Div (N 8) (N 3)); (73%nat, Div (Mul (N 8) (V Ms)) (V Mmu))];
  [(33%nat, Div (N 8) (N 3)); (73%nat, Div (Mul (N 8) (V Mb)) (V Mmu))];
  [(34%nat, Div (N 8) (N 3)); (72%nat, Div (Mul (Neg (N 16)) (V Mu)) (V Mmu))];
  [(35%nat, Div (N 8) (N 3)); (72%nat, Div (Mul (Neg (N 16)) (V Mc)) (V Mmu))];
  [(36%nat, Div (N 8) (N 3)); (73%nat, Div (Mul (Neg (N 16)) (V Mu)) (V Mmu))];
  [(37%nat, Div (N 8) (N 3)); (73%nat, Div (Mul (Neg (N 16)) (V Mc)) (V Mmu))];
  [];
  [];
  [];
  [];
  [];
  [];
  [];
  [];
  [];
  [];
  [];
  [];
  [];
  [];
  [];
  [];
  [];
  [];
  [];
  [];
  [];
  [];
  [];
  [];
  [];
  [];
  [];
  [];
  [];
  [];
  [];
  [];
  [];
  [];
  [(72%nat, Mul (Neg (N 2)) B0)];
  [(73%nat, Mul (Neg (N 2)) B0)]].

(* adm.py:1391-1466 *)
Definition adm_e_mutau : amat := [
  [(0%nat, Div (Neg (N 20)) (N 3))];
  [(1%nat, Div (Neg (N 20)) (N 3))];
  [(2%nat, Div (Neg (N 20)) (N 3))];
  [(3%nat, Div (Neg (N 20)) (N 3))];
  [(4%nat, Div (Neg (N 20)) (N 3))];
  [(5%nat, Div (Neg (N 20)) (N 3))];
  [(6%nat, Div (Neg (N 20)) (N 3)); (28%nat, Div (Neg (N 2)) (N 3))];
  [(7%nat, Div (Neg (N 20)) (N 3)); (29%nat, Div (Neg (N 2)) (N 3))];
  [(8%nat, Div (Neg (N 20)) (N 3)); (30%nat, Div (Neg (N 2)) (N 3))];
  [(9%nat, Div (Neg (N 20)) (N 3)); (31%nat, Div (Neg (N 2)) (N 3))];
  [(10%nat, Div (Neg (N 20)) (N 3)); (32%nat, Div (Neg (N 2)) (N 3))];
  [(11%nat, Div (Neg (N 20)) (N 3)); (33%nat, Div (Neg (N 2)) (N 3))];
  [(12%nat, Neg (N 4)); (15%nat, N 16)];
  [(13%nat, Neg (N 4)); (14%nat, N 16)];
  [(13%nat, N 16); (14%nat, Neg (N 4))];
  [(12%nat, N 16); (15%nat, Neg (N 4))];
  [(16%nat, N 12)];
  [(17%nat, N 12)];
  [(18%nat, N 12)];
  [(19%nat, N 12)];
  [(20%nat, Div (Neg (N 26)) (N 3))];
  [(21%nat, Div (Neg (N 26)) (N 3))];
  [(22%nat, Div (Neg (N 26)) (N 3))];
  [(23%nat, Div (Neg (N 26)) (N 3))];
  [(24%nat, Div (Neg (N 26)) (N 3)); (34%nat, Div (N 4) (N 3))];
  [(25%nat, Div (Neg (N 26)) (N 3)); (35%nat, Div (N 4) (N 3))];
  [(26%nat, Div (Neg (N 26)) (N 3)); (36%nat, Div (N 4) (N 3))];
  [(27%nat, Div (Neg (N 26)) (N 3)); (37%nat, Div (N 4) (N 3))];
  [(6%nat, Neg (N 32)); (28%nat, Div (N 20) (N 9))];
  [(7%nat, Neg (N 32)); (29%nat, Div (N 20) (N 9))];
  [(8%nat, Neg (N 32)); (30%nat, Div (N 20) (N 9))];
  [(9%nat, Neg (N 32)); (31%nat, Div (N 20) (N 9))];
  [(10%nat, Neg (N 32)); (32%nat, Div (N 20) (N 9))];
  [(11%nat, Neg (N 32)); (33%nat, Div (N 20) (N 9))];
  [(24%nat, N 64); (34%nat, Div (N 26) (N 9))];
  [(25%nat, N 64); (35%nat, Div (N 26) (N 9))];
  [(26%nat, N 64); (36%nat, Div (N 26) (N 9))];
  [(27%nat, N 64); (37%nat, Div (N 26) (N 9))];
  [(38%nat, Div (Neg (N 32)) (N 9)); (39%nat, Div (N 4) (N 9)); (40%nat, Div (N 4) (N 9)); (47%nat, Div (N 4) (N 9)); (48%nat, Div (N 4) (N 9)); (49%nat, Div (N 4) (N 9)); (53%nat, Div (N 4) (N 3)); (56%nat, Div (N 4) (N 3)); (60%nat, Div (N 4) (N 3)); (61%nat, Div (N 4) (N 3)); (62%nat, Div (N 4) (N 3)); (63%nat, Div (N 4) (N 3)); (68%nat, Div (Neg (N 8)) (N 9)); (69%nat, Div (Neg (N 8)) (N 9)); (70%nat, Div (Neg (N 8)) (N 9)); (71%nat, Div (Neg (N 8)) (N 9))];
  [(38%nat, Div (N 4) (N 9)); (39%nat, Div (Neg (N 32)) (N 9)); (40%nat, Div (N 4) (N 9)); (47%nat, Div (N 4) (N 9)); (48%nat, Div (N 4) (N 9)); (49%nat, Div (N 4) (N 9)); (53%nat, Div (N 4) (N 3)); (56%nat, Div (N 4) (N 3)); (60%nat, Div (N 4) (N 3)); (61%nat, Div (N 4) (N 3)); (62%nat, Div (N 4) (N 3)); (63%nat, Div (N 4) (N 3)); (68%nat, Div (Neg (N 8)) (N 9)); (69%nat, Div (Neg (N 8)) (N 9)); (70%nat, Div (Neg (N 8)) (N 9)); (71%nat, Div (Neg (N 8)) (N 9))];
  [(38%nat, Div (N 4) (N 9)); (39%nat, Div (N 4) (N 9)); (40%nat, Div (Neg (N 32)) (N 9)); (47%nat, Div (N 4) (N 9)); (48%nat, Div (N 4) (N 9)); (49%nat, Div (N 4) (N 9)); (53%nat, Div (N 4) (N 3)); (56%nat, Div (N 4) (N 3)); (60%nat, Div (N 4) (N 3)); (61%nat, Div (N 4) (N 3)); (62%nat, Div (N 4) (N 3)); (63%nat, Div (N 4) (N 3)); (68%nat, Div (Neg (N 8)) (N 9)); (69%nat, Div (Neg (N 8)) (N 9)); (70%nat, Div (Neg (N 8)) (N 9)); (71%nat, Div (Neg (N 8)) (N 9))];
  [(41%nat, Div (N 40) (N 9)); (42%nat, Div (N 4) (N 9)); (43%nat, Div (N 4) (N 9)); (44%nat, Div (N 4) (N 9)); (45%nat, Div (N 4) (N 9)); (46%nat, Div (N 4) (N 9)); (50%nat, Div (N 4) (N 3)); (51%nat, Div (N 4) (N 3)); (52%nat, Div (N 4) (N 3)); (57%nat, Div (N 4) (N 3)); (58%nat, Div (N 4) (N 3)); (59%nat, Div (N 4) (N 3)); (64%nat, Div (Neg (N 8)) (N 9)); (65%nat, Div (Neg (N 8)) (N 9)); (66%nat, Div (Neg (N 8)) (N 9)); (67%nat, Div (Neg (N 8)) (N 9))];
  [(41%nat, Div (N 4) (N 9)); (42%nat, Div (N 40) (N 9)); (43%nat, Div (N 4) (N 9)); (44%nat, Div (N 4) (N 9)); (45%nat, Div (N 4) (N 9)); (46%nat, Div (N 4) (N 9)); (50%nat, Div (N 4) (N 3)); (51%nat, Div (N 4) (N 3)); (52%nat, Div (N 4) (N 3)); (57%nat, Div (N 4) (N 3)); (58%nat, Div (N 4) (N 3)); (59%nat, Div (N 4) (N 3)); (64%nat, Div (Neg (N 8)) (N 9)); (65%nat, Div (Neg (N 8)) (N 9)); (66%nat, Div (Neg (N 8)) (N 9)); (67%nat, Div (Neg (N 8)) (N 9))];
  [(41%nat, Div (N 4) (N 9)); (42%nat, Div (N 4) (N 9)); (43%nat, Div (N 40) (N 9)); (44%nat, Div (N 4) (N 9)); (45%nat, Div (N 4) (N 9)); (46%nat, Div (N 4) (N 9)); (50%nat, Div (N 4) (N 3)); (51%nat, Div (N 4) (N 3)); (52%nat, Div (N 4) (N 3)); (57%nat, Div (N 4) (N 3)); (58%nat, Div (N 4) (N 3)); (59%nat, Div (N 4) (N 3)); (64%nat, Div (Neg (N 8)) (N 9)); (65%nat, Div (Neg (N 8)) (N 9)); (66%nat, Div (Neg (N 8)) (N 9)); (67%nat, Div (Neg (N 8)) (N 9))];
  [(41%nat, Div (N 4) (N 9)); (42%nat, Div (N 4) (N 9)); (43%nat, Div (N 4) (N 9)); (44%nat, Div (Neg (N 32)) (N 9)); (45%nat, Div (N 4) (N 9)); (46%nat, Div (N 4) (N 9)); (50%nat, Div (N 4) (N 3)); (51%nat, Div (N 4) (N 3)); (52%nat, Div (N 4) (N 3)); (57%nat, Div (N 4) (N 3)); (58%nat, Div (N 4) (N 3)); (59%nat, Div (N 4) (N 3)); (64%nat, Div (Neg (N 8)) (N 9)); (65%nat, Div (Neg (N 8)) (N 9)); (66%nat, Div (Neg (N 8)) (N 9)); (67%nat, Div (Neg (N 8)) (N 9))];
  [(41%nat, Div (N 4) (N 9)); (42%nat, Div (N 4) (N 9)); (43%nat, Div (N 4) (N 9)); (44%nat, Div (N 4) (N 9)); (45%nat, Div (Neg (N 32)) (N 9)); (46%nat, Div (N 4) (N 9)); (50%nat, Div (N 4) (N 3)); (51%nat, Div (N 4) (N 3)); (52%nat, Div (N 4) (N 3)); (57%nat, Div (N 4) (N 3)); (58%nat, Div (N 4) (N 3)); (59%nat, Div (N 4) (N 3)); (64%nat, Div (Neg (N 8)) (N 9)); (65%nat, Div (Neg (N 8)) (N 9)); (66%nat, Div (Neg (N 8)) (N 9)); (67%nat, Div (Neg (N 8)) (N 9))];
  [(41%nat, Div (N 4) (N 9)); (42%nat, Div (N 4) (N 9)); (43%nat, Div (N 4) (N 9)); (44%nat, Div (N 4) (N 9)); (45%nat, Div (N 4) (N 9)); (46%nat, Div (Neg (N 32)) (N 9)); (50%nat, Div (N 4) (N 3)); (51%nat, Div (N 4) (N 3)); (52%nat, Div (N 4) (N 3)); (57%nat, Div (N 4) (N 3)); (58%nat, Div (N 4) (N 3)); (59%nat, Div (N 4) (N 3)); (64%nat, Div (Neg (N 8)) (N 9)); (65%nat, Div (Neg (N 8)) (N 9)); (66%nat, Div (Neg (N 8)) (N 9)); (67%nat, Div (Neg (N 8)) (N 9))];
  [(38%nat, Div (N 4) (N 9)); (39%nat, Div (N 4) (N 9)); (40%nat, Div (N 4) (N 9)); (47%nat, Div (N 40) (N 9)); (48%nat, Div (N 4) (N 9)); (49%nat, Div (N 4) (N 9)); (53%nat, Div (N 4) (N 3)); (56%nat, Div (N 4) (N 3)); (60%nat, Div (N 4) (N 3)); (61%nat, Div (N 4) (N 3)); (62%nat, Div (N 4) (N 3)); (63%nat, Div (N 4) (N 3)); (68%nat, Div (Neg (N 8)) (N 9)); (69%nat, Div (Neg (N 8)) (N 9)); (70%nat, Div (Neg (N 8)) (N 9)); (71%nat, Div (Neg (N 8)) (N 9))];
  [(38%nat, Div (N 4) (N 9)); (39%nat, Div (N 4) (N 9)); (40%nat, Div (N 4) (N 9)); (47%nat, Div (N 4) (N 9)); (48%nat, Div (N 40) (N 9)); (49%nat, Div (N 4) (N 9)); (53%nat, Div (N 4) (N 3)); (56%nat, Div (N 4) (N 3)); (60%nat, Div (N 4) (N 3)); (61%nat, Div (N 4) (N 3)); (62%nat, Div (N 4) (N 3)); (63%nat, Div (N 4) (N 3)); (68%nat, Div (Neg (N 8)) (N 9)); (69%nat, Div (Neg (N 8)) (N 9)); (70%nat, Div (Neg (N 8)) (N 9)); (71%nat, Div (Neg (N 8)) (N 9))];
  [(38%nat, Div (N 4) (N 9)); (39%nat, Div (N 4) (N 9)); (40%nat, Div (N 4) (N 9)); (47%nat, Div (N 4) (N 9)); (48%nat, Div (N 4) (N 9)); (49%nat, Div (N 40) (N 9)); (53%nat, Div (N 4) (N 3)); (56%nat, Div (N 4) (N 3)); (60%nat, Div (N 4) (N 3)); (61%nat, Div (N 4) (N 3)); (62%nat, Div (N 4) (N 3)); (63%nat, Div (N 4) (N 3)); (68%nat, Div (Neg (N 8)) (N 9)); (69%nat, Div (Neg (N 8)) (N 9)); (70%nat, Div (Neg (N 8)) (N 9)); (71%nat, Div (Neg (N 8)) (N 9))];
  [(41%nat, Div (N 4) (N 9)); (42%nat, Div (N 4) (N 9)); (43%nat, Div (N 4) (N 9)); (44%nat, Div (N 4) (N 9)); (45%nat, Div (N 4) (N 9)); (46%nat, Div (N 4) (N 9)); (50%nat, Div (N 40) (N 3)); (51%nat, Div (N 4) (N 3)); (52%nat, Div (N 4) (N 3)); (57%nat, Div (N 4) (N 3)); (58%nat, Div (N 4) (N 3)); (59%nat, Div (N 4) (N 3)); (64%nat, Div (Neg (N 8)) (N 9)); (65%nat, Div (Neg (N 8)) (N 9)); (66%nat, Div (Neg (N 8)) (N 9)); (67%nat, Div (Neg (N 8)) (N 9))];
  [(41%nat, Div (N 8) (N 9)); (42%nat, Div (N 8) (N 9)); (43%nat, Div (N 8) (N 9)); (44%nat, Div (N 8) (N 9)); (45%nat, Div (N 8) (N 9)); (46%nat, Div (N 8) (N 9)); (50%nat, Div (N 8) (N 3)); (51%nat, Div (N 44) (N 3)); (52%nat, Div (N 8) (N 3)); (57%nat, Div (N 8) (N 3)); (58%nat, Div (N 8) (N 3)); (59%nat, Div (N 8) (N 3)); (64%nat, Div (Neg (N 16)) (N 9)); (65%nat, Div (Neg (N 16)) (N 9)); (66%nat, Div (Neg (N 16)) (N 9)); (67%nat, Div (Neg (N 16)) (N 9))];
  [(41%nat, Div (N 8) (N 9)); (42%nat, Div (N 8) (N 9)); (43%nat, Div (N 8) (N 9)); (44%nat, Div (N 8) (N 9)); (45%nat, Div (N 8) (N 9)); (46%nat, Div (N 8) (N 9)); (50%nat, Div (N 8) (N 3)); (51%nat, Div (N 8) (N 3)); (52%nat, Div (N 44) (N 3)); (57%nat, Div (N 8) (N 3)); (58%nat, Div (N 8) (N 3)); (59%nat, Div (N 8) (N 3)); (64%nat, Div (Neg (N 16)) (N 9)); (65%nat, Div (Neg (N 16)) (N 9)); (66%nat, Div (Neg (N 16)) (N 9)); (67%nat, Div (Neg (N 16)) (N 9))];
  [(38%nat, Div (N 4) (N 9)); (39%nat, Div (N 4) (N 9)); (40%nat, Div (N 4) (N 9)); (47%nat, Div (N 4) (N 9)); (48%nat, Div (N 4) (N 9)); (49%nat, Div (N 4) (N 9)); (53%nat, Div (Neg (N 32)) (N 3)); (56%nat, Div (N 4) (N 3)); (60%nat, Div (N 4) (N 3)); (61%nat, Div (N 4) (N 3)); (62%nat, Div (N 4) (N 3)); (63%nat, Div (N 4) (N 3)); (68%nat, Div (Neg (N 8)) (N 9)); (69%nat, Div (Neg (N 8)) (N 9)); (70%nat, Div (Neg (N 8)) (N 9)); (71%nat, Div (Neg (N 8)) (N 9))];
  [(54%nat, Neg (N 12))];
  [(55%nat, Neg (N 12))];
  [(38%nat, Div (N 4) (N 9)); (39%nat, Div (N 4) (N 9)); (40%nat, Div (N 4) (N 9)); (47%nat, Div (N 4) (N 9)); (48%nat, Div (N 4) (N 9)); (49%nat, Div (N 4) (N 9)); (53%nat, Div (N 4) (N 3)); (56%nat, Div (Neg (N 32)) (N 3)); (60%nat, Div (N 4) (N 3)); (61%nat, Div (N 4) (N 3)); (62%nat, Div (N 4) (N 3)); (63%nat, Div (N 4) (N 3)); (68%nat, Div (Neg (N 8)) (N 9)); (69%nat, Div (Neg (N 8)) (N 9)); (70%nat, Div (Neg (N 8)) (N 9)); (71%nat, Div (Neg (N 8)) (N 9))];
  [(41%nat, Div (N 4) (N 9)); (42%nat, Div (N 4) (N 9)); (43%nat, Div (N 4) (N 9)); (44%nat, Div (N 4) (N 9)); (45%nat, Div (N 4) (N 9)); (46%nat, Div (N 4) (N 9)); (50%nat, Div (N 4) (N 3)); (51%nat, Div (N 4) (N 3)); (52%nat, Div (N 4) (N 3)); (57%nat, Div (Neg (N 32)) (N 3)); (58%nat, Div (N 4) (N 3)); (59%nat, Div (N 4) (N 3)); (64%nat, Div (Neg (N 8)) (N 9)); (65%nat, Div (Neg (N 8)) (N 9)); (66%nat, Div (Neg (N 8)) (N 9)); (67%nat, Div (Neg (N 8)) (N 9))];
  [(41%nat, Div (N 4) (N 9)); (42%nat, Div (N 4) (N 9)); (43%nat, Div (N 4) (N 9)); (44%nat, Div (N 4) (N 9)); (45%nat, Div (N 4) (N 9)); (46%nat, Div (N 4) (N 9)); (50%nat, Div (N 4) (N 3)); (51%nat, Div (N 4) (N 3)); (52%nat, Div (N 4) (N 3)); (57%nat, Div (N 4) (N 3)); (58%nat, Div (Neg (N 32)) (N 3)); (59%nat, Div (N 4) (N 3)); (64%nat, Div (Neg (N 8)) (N 9)); (65%nat, Div (Neg (N 8)) (N 9)); (66%nat, Div (Neg (N 8)) (N 9)); (67%nat, Div (Neg (N 8)) (N 9))];
  [(41%nat, Div (N 4) (N 9)); (42%nat, Div (N 4) (N 9)); (43%nat, Div (N 4) (N 9)); (44%nat, Div (N 4) (N 9)); (45%nat, Div (N 4) (N 9)); (46%nat, Div (N 4) (N 9)); (50%nat, Div (N 4) (N 3)); (51%nat, Div (N 4) (N 3)); (52%nat, Div (N 4) (N 3)); (57%nat, Div (N 4) (N 3)); (58%nat, Div (N 4) (N 3)); (59%nat, Div (Neg (N 32)) (N 3)); (64%nat, Div (Neg (N 8)) (N 9)); (65%nat, Div (Neg (N 8)) (N 9)); (66%nat, Div (Neg (N 8)) (N 9)); (67%nat, Div (Neg (N 8)) (N 9))];
  [(38%nat, Div (N 4) (N 9)); (39%nat, Div (N 4) (N 9)); (40%nat, Div (N 4) (N 9)); (47%nat, Div (N 4) (N 9)); (48%nat, Div (N 4) (N 9)); (49%nat, Div (N 4) (N 9)); (53%nat, Div (N 4) (N 3)); (56%nat, Div (N 4) (N 3)); (60%nat, Div (Neg (N 32)) (N 3)); (61%nat, Div (N 4) (N 3)); (62%nat, Div (N 4) (N 3)); (63%nat, Div (N 4) (N 3)); (68%nat, Div (Neg (N 8)) (N 9)); (69%nat, Div (Neg (N 8)) (N 9)); (70%nat, Div (Neg (N 8)) (N 9)); (71%nat, Div (Neg (N 8)) (N 9))];
  [(38%nat, Div (N 4) (N 9)); (39%nat, Div (N 4) (N 9)); (40%nat, Div (N 4) (N 9)); (47%nat, Div (N 4) (N 9)); (48%nat, Div (N 4) (N 9)); (49%nat, Div (N 4) (N 9)); (53%nat, Div (N 4) (N 3)); (56%nat, Div (N 4) (N 3)); (60%nat, Div (N 4) (N 3)); (61%nat, Div (N 40) (N 3)); (62%nat, Div (N 4) (N 3)); (63%nat, Div (N 4) (N 3)); (68%nat, Div (Neg (N 8)) (N 9)); (69%nat, Div (Neg (N 8)) (N 9)); (70%nat, Div (Neg (N 8)) (N 9)); (71%nat, Div (Neg (N 8)) (N 9))];
  [(38%nat, Div (N 8) (N 9)); (39%nat, Div (N 8) (N 9)); (40%nat, Div (N 8) (N 9)); (47%nat, Div (N 8) (N 9)); (48%nat, Div (N 8) (N 9)); (49%nat, Div (N 8) (N 9)); (53%nat, Div (N 8) (N 3)); (56%nat, Div (N 8) (N 3)); (60%nat, Div (N 8) (N 3)); (61%nat, Div (N 8) (N 3)); (62%nat, Div (N 44) (N 3)); (63%nat, Div (N 8) (N 3)); (68%nat, Div (Neg (N 16)) (N 9)); (69%nat, Div (Neg (N 16)) (N 9)); (70%nat, Div (Neg (N 16)) (N 9)); (71%nat, Div (Neg (N 16)) (N 9))];
  [(38%nat, Div (N 8) (N 9)); (39%nat, Div (N 8) (N 9)); (40%nat, Div (N 8) (N 9)); (47%nat, Div (N 8) (N 9)); (48%nat, Div (N 8) (N 9)); (49%nat, Div (N 8) (N 9)); (53%nat, Div (N 8) (N 3)); (56%nat, Div (N 8) (N 3)); (60%nat, Div (N 8) (N 3)); (61%nat, Div (N 8) (N 3)); (62%nat, Div (N 8) (N 3)); (63%nat, Div (N 44) (N 3)); (68%nat, Div (Neg (N 16)) (N 9)); (69%nat, Div (Neg (N 16)) (N 9)); (70%nat, Div (Neg (N 16)) (N 9)); (71%nat, Div (Neg (N 16)) (N 9))];
  [(41%nat, Div (Neg (N 8)) (N 9)); (42%nat, Div (Neg (N 8)) (N 9)); (43%nat, Div (Neg (N 8)) (N 9)); (44%nat, Div (Neg (N 8)) (N 9)); (45%nat, Div (Neg (N 8)) (N 9)); (46%nat, Div (Neg (N 8)) (N 9)); (50%nat, Div (Neg (N 8)) (N 3)); (51%nat, Div (Neg (N 8)) (N 3)); (52%nat, Div (Neg (N 8)) (N 3)); (57%nat, Div (Neg (N 8)) (N 3)); (58%nat, Div (Neg (N 8)) (N 3)); (59%nat, Div (Neg (N 8)) (N 3)); (64%nat, Div (Neg (N 56)) (N 9)); (65%nat, Div (N 16) (N 9)); (66%nat, Div (N 16) (N 9)); (67%nat, Div (N 16) (N 9))];
  [(41%nat, Div (Neg (N 8)) (N 9)); (42%nat, Div (Neg (N 8)) (N 9)); (43%nat, Div (Neg (N 8)) (N 9)); (44%nat, Div (Neg (N 8)) (N 9)); (45%nat, Div (Neg (N 8)) (N 9)); (46%nat, Div (Neg (N 8)) (N 9)); (50%nat, Div (Neg (N 8)) (N 3)); (51%nat, Div (Neg (N 8)) (N 3)); (52%nat, Div (Neg (N 8)) (N 3)); (57%nat, Div (Neg (N 8)) (N 3)); (58%nat, Div (Neg (N 8)) (N 3)); (59%nat, Div (Neg (N 8)) (N 3)); (64%nat, Div (N 16) (N 9)); (65%nat, Div (Neg (N 56)) (N 9)); (66%nat, Div (N 16) (N 9)); (67%nat, Div (N 16) (N 9))];
  [(41%nat, Div (Neg (N 8)) (N 9)); (42%nat, Div (Neg (N 8)) (N 9)); (43%nat, Div (Neg (N 8)) (N 9)); (44%nat, Div (Neg (N 8)) (N 9)); (45%nat, Div (Neg (N 8)) (N 9)); (46%nat, Div (Neg (N 8)) (N 9)); (50%nat, Div (Neg (N 8)) (N 3)); (51%nat, Div (Neg (N 8)) (N 3)); (52%nat, Div (Neg (N 8)) (N 3)); (57%nat, Div (Neg (N 8)) (N 3)); (58%nat, Div (Neg (N 8)) (N 3)); (59%nat, Div (Neg (N 8)) (N 3)); (64%nat, Div (N 16) (N 9)); (65%nat, Div (N 16) (N 9)); (66%nat, Div (N 88) (N 9)); (67%nat, Div (N 16) (N 9))];
  [(41%nat, Div (Neg (N 8)) (N 9)); (42%nat, Div (Neg (N 8)) (N 9)); (43%nat, Div (Neg (N 8)) (N 9)); (44%nat, Div (Neg (N 8)) (N 9)); (45%nat, Div (Neg (N 8)) (N 9)); (46%nat, Div (Neg (N 8)) (N 9)); (50%nat, Div (Neg (N 8)) (N 3)); (51%nat, Div (Neg (N 8)) (N 3)); (52%nat, Div (Neg (N 8)) (N 3)); (57%nat, Div (Neg (N 8)) (N 3)); (58%nat, Div (Neg (N 8)) (N 3)); (59%nat, Div (Neg (N 8)) (N 3)); (64%nat, Div (N 16) (N 9)); (65%nat, Div (N 16) (N 9)); (66%nat, Div (N 16) (N 9)); (67%nat, Div (N 88) (N 9))];
  [(38%nat, Div (Neg (N 8)) (N 9)); (39%nat, Div (Neg (N 8)) (N 9)); (40%nat, Div (Neg (N 8)) (N 9)); (47%nat, Div (Neg (N 8)) (N 9)); (48%nat, Div (Neg (N 8)) (N 9)); (49%nat, Div (Neg (N 8)) (N 9)); (53%nat, Div (Neg (N 8)) (N 3)); (56%nat, Div (Neg (N 8)) (N 3)); (60%nat, Div (Neg (N 8)) (N 3)); (61%nat, Div (Neg (N 8)) (N 3)); (62%nat, Div (Neg (N 8)) (N 3)); (63%nat, Div (Neg (N 8)) (N 3)); (68%nat, Div (Neg (N 56)) (N 9)); (69%nat, Div (N 16) (N 9)); (70%nat, Div (N 16) (N 9)); (71%nat, Div (N 16) (N 9))];
  [(38%nat, Div (Neg (N 8)) (N 9)); (39%nat, Div (Neg (N 8)) (N 9)); (40%nat, Div (Neg (N 8)) (N 9)); (47%nat, Div (Neg (N 8)) (N 9)); (48%nat, Div (Neg (N 8)) (N 9)); (49%nat, Div (Neg (N 8)) (N 9)); (53%nat, Div (Neg (N 8)) (N 3)); (56%nat, Div (Neg (N 8)) (N 3)); (60%nat, Div (Neg (N 8)) (N 3)); (61%nat, Div (Neg (N 8)) (N 3)); (62%nat, Div (Neg (N 8)) (N 3)); (63%nat, Div (Neg (N 8)) (N 3)); (68%nat, Div (N 16) (N 9)); (69%nat, Div (Neg (N 56)) (N 9)); (70%nat, Div (N 16) (N 9)); (71%nat, Div (N 16) (N 9))];
  [(38%nat, Div (Neg (N 8)) (N 9)); (39%nat, Div (Neg (N 8)) (N 9)); (40%nat, Div (Neg (N 8)) (N 9)); (47%nat, Div (Neg (N 8)) (N 9)); (48%nat, Div (Neg (N 8)) (N 9)); (49%nat, Div (Neg (N 8)) (N 9)); (53%nat, Div (Neg (N 8)) (N 3)); (56%nat, Div (Neg (N 8)) (N 3)); (60%nat, Div (Neg (N 8)) (N 3)); (61%nat, Div (Neg (N 8)) (N 3)); (62%nat, Div (Neg (N 8)) (N 3)); (63%nat, Div (Neg (N 8)) (N 3)); (68%nat, Div (N 16) (N 9)); (69%nat, Div (N 16) (N 9)); (70%nat, Div (N 88) (N 9)); (71%nat, Div (N 16) (N 9))];
  [(38%nat, Div (Neg (N 8)) (N 9)); (39%nat, Div (Neg (N 8)) (N 9)); (40%nat, Div (Neg (N 8)) (N 9)); (47%nat, Div (Neg (N 8)) (N 9)); (48%nat, Div (Neg (N 8)) (N 9)); (49%nat, Div (Neg (N 8)) (N 9)); (53%nat, Div (Neg (N 8)) (N 3)); (56%nat, Div (Neg (N 8)) (N 3)); (60%nat, Div (Neg (N 8)) (N 3)); (61%nat, Div (Neg (N 8)) (N 3)); (62%nat, Div (Neg (N 8)) (N 3)); (63%nat, Div (Neg (N 8)) (N 3)); (68%nat, Div (N 16) (N 9)); (69%nat, Div (N 16) (N 9)); (70%nat, Div (N 16) (N 9)); (71%nat, Div (N 88) (N 9))];
  [(72%nat, N 16)];
  [(73%nat, N 16)]].

(* adm.py:1468-1544 *)
Definition adm_s_mutau : amat := [
  [(0%nat, Neg (N 8))];
  [(1%nat, Neg (N 8))];
  [(2%nat, Neg (N 8))];
  [(3%nat, Neg (N 8))];
  [(4%nat, Neg (N 8))];
  [(5%nat, Neg (N 8))];
  [(6%nat, Neg (N 8))];
  [(7%nat, Neg (N 8))];
  [(8%nat, Neg (N 8))];
  [(9%nat, Neg (N 8))];
  [(10%nat, Neg (N 8))];
  [(11%nat, Neg (N 8))];
  [];
  [];
  [(73%nat, Div (Neg (V Me)) (V Mtau))];
  [(72%nat, Div (Neg (V Me)) (V Mtau))];
  [(72%nat, Div (Neg (V Mmu)) (V Mtau))];
  [(73%nat, Div (Neg (V Mmu)) (V Mtau))];
  [(72%nat, Neg (N 1))];
  [(73%nat, Neg (N 1))];
  [(20%nat, Neg (N 8))];
  [(21%nat, Neg (N 8))];
  [(22%nat, Neg (N 8))];
  [(23%nat, Neg (N 8))];
  [(24%nat, Neg (N 8))];
  [(25%nat, Neg (N 8))];
  [(26%nat, Neg (N 8))];
  [(27%nat, Neg (N 8))];
  [(28%nat, Div (N 8) (N 3)); (72%nat, Div (Mul (N 8) (V Md)) (V Mtau))];
  [(29%nat, Div (N 8) (N 3)); (72%nat, Div (Mul (N 8) (V Ms)) (V Mtau))];
  [(30%nat, Div (N 8) (N 3)); (72%nat, Div (Mul (N 8) (V Mb)) (V Mtau))];
  [(31%nat, Div (N 8) (N 3)); (73%nat, Div (Mul (N 8) (V Md)) (V Mtau))];
  [(32%nat, Div (N 8) (N 3)); (73%nat, Div (Mul (N 8) (V Ms)) (V Mtau))];
  [(33%nat, Div (N 8) (N 3)); (73%nat, Div (Mul (N 8) (V Mb)) (V Mtau))];
  [(34%nat, Div (N 8) (N 3)); (72%nat, Div (Mul (Neg (N 16)) (V Mu)) (V Mtau))];
  [(35%nat, Div (N 8) (N 3)); (72%nat, Div (Mul (Neg (N 16)) (V Mc)) (V Mtau))];
  [(36%nat, Div (N 8) (N 3)); (73%nat, Div (Mul (Neg (N 16)) (V Mu)) (V Mtau))];
  [(37%nat, Div (N 8) (N 3)); (73%nat, Div (Mul (Neg (N 16)) (V Mc)) (V Mtau))];
  [];
  [];
  [];
  [];
  [];
  [];
  [];
  [];
  [];
  [];
  [];
  [];
  [];
  [];
  [];
  [];
  [];
  [];
  [];
  [];
  [];
  [];
  [];
  [];
  [];
  [];
  [];
  [];
  [];
  [];
  [];
  [];
  [];
  [];
  [(72%nat, Mul (Neg (N 2)) B0)];
  [(73%nat, Mul (Neg (N 2)) B0)]].

(* adm.py:1546-1621 *)
Definition adm_e_taue : amat := [
  [(0%nat, Div (Neg (N 20)) (N 3))];
  [(1%nat, Div (Neg (N 20)) (N 3))];
  [(2%nat, Div (Neg (N 20)) (N 3))];
  [(3%nat, Div (Neg (N 20)) (N 3))];
  [(4%nat, Div (Neg (N 20)) (N 3))];
  [(5%nat, Div (Neg (N 20)) (N 3))];
  [(6%nat, Div (Neg (N 20)) (N 3)); (28%nat, Div (Neg (N 2)) (N 3))];
  [(7%nat, Div (Neg (N 20)) (N 3)); (29%nat, Div (Neg (N 2)) (N 3))];
  [(8%nat, Div (Neg (N 20)) (N 3)); (30%nat, Div (Neg (N 2)) (N 3))];
  [(9%nat, Div (Neg (N 20)) (N 3)); (31%nat, Div (Neg (N 2)) (N 3))];
  [(10%nat, Div (Neg (N 20)) (N 3)); (32%nat, Div (Neg (N 2)) (N 3))];
  [(11%nat, Div (Neg (N 20)) (N 3)); (33%nat, Div (Neg (N 2)) (N 3))];
  [(12%nat, N 12)];
  [(13%nat, N 12)];
  [(14%nat, Neg (N 4)); (15%nat, N 16)];
  [(14%nat, N 16); (15%nat, Neg (N 4))];
  [(16%nat, N 12)];
  [(17%nat, Neg (N 4)); (18%nat, N 16)];
  [(17%nat, N 16); (18%nat, Neg (N 4))];
  [(19%nat, N 12)];
  [(20%nat, Div (Neg (N 26)) (N 3))];
  [(21%nat, Div (Neg (N 26)) (N 3))];
  [(22%nat, Div (Neg (N 26)) (N 3))];
  [(23%nat, Div (Neg (N 26)) (N 3))];
  [(24%nat, Div (Neg (N 26)) (N 3)); (34%nat, Div (N 4) (N 3))];
  [(25%nat, Div (Neg (N 26)) (N 3)); (35%nat, Div (N 4) (N 3))];
  [(26%nat, Div (Neg (N 26)) (N 3)); (36%nat, Div (N 4) (N 3))];
  [(27%nat, Div (Neg (N 26)) (N 3)); (37%nat, Div (N 4) (N 3))];
  [(6%nat, Neg (N 32)); (28%nat, Div (N 20) (N 9))];
  [(7%nat, Neg (N 32)); (29%nat, Div (N 20) (N 9))];
  [(8%nat, Neg (N 32)); (30%nat, Div (N 20) (N 9))];
  [(9%nat, Neg (N 32)); (31%nat, Div (N 20) (N 9))];
  [(10%nat, Neg (N 32)); (32%nat, Div (N 20) (N 9))];
  [(11%nat, Neg (N 32)); (33%nat, Div (N 20) (N 9))];
  [(24%nat, N 64); (34%nat, Div (N 26) (N 9))];
  [(25%nat, N 64); (35%nat, Div (N 26) (N 9))];
  [(26%nat, N 64); (36%nat, Div (N 26) (N 9))];
  [(27%nat, N 64); (37%nat, Div (N 26) (N 9))];
  [(38%nat, Div (Neg (N 32)) (N 9)); (39%nat, Div (N 4) (N 9)); (40%nat, Div (N 4) (N 9)); (47%nat, Div (N 4) (N 9)); (48%nat, Div (N 4) (N 9)); (49%nat, Div (N 4) (N 9)); (53%nat, Div (N 4) (N 3)); (58%nat, Div (N 4) (N 3)); (60%nat, Div (N 4) (N 3)); (61%nat, Div (N 4) (N 3)); (62%nat, Div (N 4) (N 3)); (63%nat, Div (N 4) (N 3)); (68%nat, Div (Neg (N 8)) (N 9)); (69%nat, Div (Neg (N 8)) (N 9)); (70%nat, Div (Neg (N 8)) (N 9)); (71%nat, Div (Neg (N 8)) (N 9))];
  [(38%nat, Div (N 4) (N 9)); (39%nat, Div (Neg (N 32)) (N 9)); (40%nat, Div (N 4) (N 9)); (47%nat, Div (N 4) (N 9)); (48%nat, Div (N 4) (N 9)); (49%nat, Div (N 4) (N 9)); (53%nat, Div (N 4) (N 3)); (58%nat, Div (N 4) (N 3)); (60%nat, Div (N 4) (N 3)); (61%nat, Div (N 4) (N 3)); (62%nat, Div (N 4) (N 3)); (63%nat, Div (N 4) (N 3)); (68%nat, Div (Neg (N 8)) (N 9)); (69%nat, Div (Neg (N 8)) (N 9)); (70%nat, Div (Neg (N 8)) (N 9)); (71%nat, Div (Neg (N 8)) (N 9))];
  [(38%nat, Div (N 4) (N 9)); (39%nat, Div (N 4) (N 9)); (40%nat, Div (Neg (N 32)) (N 9)); (47%nat, Div (N 4) (N 9)); (48%nat, Div (N 4) (N 9)); (49%nat, Div (N 4) (N 9)); (53%nat, Div (N 4) (N 3)); (58%nat, Div (N 4) (N 3)); (60%nat, Div (N 4) (N 3)); (61%nat, Div (N 4) (N 3)); (62%nat, Div (N 4) (N 3)); (63%nat, Div (N 4) (N 3)); (68%nat, Div (Neg (N 8)) (N 9)); (69%nat, Div (Neg (N 8)) (N 9)); (70%nat, Div (Neg (N 8)) (N 9)); (71%nat, Div (Neg (N 8)) (N 9))];
  [(41%nat, Div (N 40) (N 9)); (42%nat, Div (N 4) (N 9)); (43%nat, Div (N 4) (N 9)); (44%nat, Div (N 4) (N 9)); (45%nat, Div (N 4) (N 9)); (46%nat, Div (N 4) (N 9)); (50%nat, Div (N 4) (N 3)); (51%nat, Div (N 4) (N 3)); (52%nat, Div (N 4) (N 3)); (55%nat, Div (N 4) (N 3)); (56%nat, Div (N 4) (N 3)); (57%nat, Div (N 4) (N 3)); (64%nat, Div (Neg (N 8)) (N 9)); (65%nat, Div (Neg (N 8)) (N 9)); (66%nat, Div (Neg (N 8)) (N 9)); (67%nat, Div (Neg (N 8)) (N 9))];
  [(41%nat, Div (N 4) (N 9)); (42%nat, Div (N 40) (N 9)); (43%nat, Div (N 4) (N 9)); (44%nat, Div (N 4) (N 9)); (45%nat, Div (N 4) (N 9)); (46%nat, Div (N 4) (N 9)); (50%nat, Div (N 4) (N 3)); (51%nat, Div (N 4) (N 3)); (52%nat, Div (N 4) (N 3)); (55%nat, Div (N 4) (N 3)); (56%nat, Div (N 4) (N 3)); (57%nat, Div (N 4) (N 3)); (64%nat, Div (Neg (N 8)) (N 9)); (65%nat, Div (Neg (N 8)) (N 9)); (66%nat, Div (Neg (N 8)) (N 9)); (67%nat, Div (Neg (N 8)) (N 9))];
  [(41%nat, Div (N 4) (N 9)); (42%nat, Div (N 4) (N 9)); (43%nat, Div (N 40) (N 9)); (44%nat, Div (N 4) (N 9)); (45%nat, Div (N 4) (N 9)); (46%nat, Div (N 4) (N 9)); (50%nat, Div (N 4) (N 3)); (51%nat, Div (N 4) (N 3)); (52%nat, Div (N 4) (N 3)); (55%nat, Div (N 4) (N 3)); (56%nat, Div (N 4) (N 3)); (57%nat, Div (N 4) (N 3)); (64%nat, Div (Neg (N 8)) (N 9)); (65%nat, Div (Neg (N 8)) (N 9)); (66%nat, Div (Neg (N 8)) (N 9)); (67%nat, Div (Neg (N 8)) (N 9))];
  [(41%nat, Div (N 4) (N 9)); (42%nat, Div (N 4) (N 9)); (43%nat, Div (N 4) (N 9)); (44%nat, Div (Neg (N 32)) (N 9)); (45%nat, Div (N 4) (N 9)); (46%nat, Div (N 4) (N 9)); (50%nat, Div (N 4) (N 3)); (51%nat, Div (N 4) (N 3)); (52%nat, Div (N 4) (N 3)); (55%nat, Div (N 4) (N 3)); (56%nat, Div (N 4) (N 3)); (57%nat, Div (N 4) (N 3)); (64%nat, Div (Neg (N 8)) (N 9)); (65%nat, Div (Neg (N 8)) (N 9)); (66%nat, Div (Neg (N 8)) (N 9)); (67%nat, Div (Neg (N 8)) (N 9))];
  [(41%nat, Div (N 4) (N 9)); (42%nat, Div (N 4) (N 9)); (43%nat, Div (N 4) (N 9)); (44%nat, Div (N 4) (N 9)); (45%nat, Div (Neg (N 32)) (N 9)); (46%nat, Div (N 4) (N 9)); (50%nat, Div (N 4) (N 3)); (51%nat, Div (N 4) (N 3)); (52%nat, Div (N 4) (N 3)); (55%nat, Div (N 4) (N 3)); (56%nat, Div (N 4) (N 3)); (57%nat, Div (N 4) (N 3)); (64%nat, Div (Neg (N 8)) (N 9)); (65%nat, Div (Neg (N 8)) (N 9)); (66%nat, Div (Neg (N 8)) (N 9)); (67%nat, Div (Neg (N 8)) (N 9))];
  [(41%nat, Div (N 4) (N 9)); (42%nat, Div (N 4) (N 9)); (43%nat, Div (N 4) (N 9)); (44%nat, Div (N 4) (N 9)); (45%nat, Div (N 4) (N 9)); (46%nat, Div (Neg (N 32)) (N 9)); (50%nat, Div (N 4) (N 3)); (51%nat, Div (N 4) (N 3)); (52%nat, Div (N 4) (N 3)); (55%nat, Div (N 4) (N 3)); (56%nat, Div (N 4) (N 3)); (57%nat, Div (N 4) (N 3)); (64%nat, Div (Neg (N 8)) (N 9)); (65%nat, Div (Neg (N 8)) (N 9)); (66%nat, Div (Neg (N 8)) (N 9)); (67%nat, Div (Neg (N 8)) (N 9))];
  [(38%nat, Div (N 4) (N 9)); (39%nat, Div (N 4) (N 9)); (40%nat, Div (N 4) (N 9)); (47%nat, Div (N 40) (N 9)); (48%nat, Div (N 4) (N 9)); (49%nat, Div (N 4) (N 9)); (53%nat, Div (N 4) (N 3)); (58%nat, Div (N 4) (N 3)); (60%nat, Div (N 4) (N 3)); (61%nat, Div (N 4) (N 3)); (62%nat, Div (N 4) (N 3)); (63%nat, Div (N 4) (N 3)); (68%nat, Div (Neg (N 8)) (N 9)); (69%nat, Div (Neg (N 8)) (N 9)); (70%nat, Div (Neg (N 8)) (N 9)); (71%nat, Div (Neg (N 8)) (N 9))];
  [(38%nat, Div (N 4) (N 9)); (39%nat, Div (N 4) (N 9)); (40%nat, Div (N 4) (N 9)); (47%nat, Div (N 4) (N 9)); (48%nat, Div (N 40) (N 9)); (49%nat, Div (N 4) (N 9)); (53%nat, Div (N 4) (N 3)); (58%nat, Div (N 4) (N 3)); (60%nat, Div (N 4) (N 3)); (61%nat, Div (N 4) (N 3)); (62%nat, Div (N 4) (N 3)); (63%nat, Div (N 4) (N 3)); (68%nat, Div (Neg (N 8)) (N 9)); (69%nat, Div (Neg (N 8)) (N 9)); (70%nat, Div (Neg (N 8)) (N 9)); (71%nat, Div (Neg (N 8)) (N 9))];
  [(38%nat, Div (N 4) (N 9)); (39%nat, Div (N 4) (N 9)); (40%nat, Div (N 4) (N 9)); (47%nat, Div (N 4) (N 9)); (48%nat, Div (N 4) (N 9)); (49%nat, Div (N 40) (N 9)); (53%nat, Div (N 4) (N 3)); (58%nat, Div (N 4) (N 3)); (60%nat, Div (N 4) (N 3)); (61%nat, Div (N 4) (N 3)); (62%nat, Div (N 4) (N 3)); (63%nat, Div (N 4) (N 3)); (68%nat, Div (Neg (N 8)) (N 9)); (69%nat, Div (Neg (N 8)) (N 9)); (70%nat, Div (Neg (N 8)) (N 9)); (71%nat, Div (Neg (N 8)) (N 9))];
  [(41%nat, Div (N 8) (N 9)); (42%nat, Div (N 8) (N 9)); (43%nat, Div (N 8) (N 9)); (44%nat, Div (N 8) (N 9)); (45%nat, Div (N 8) (N 9)); (46%nat, Div (N 8) (N 9)); (50%nat, Div (N 44) (N 3)); (51%nat, Div (N 8) (N 3)); (52%nat, Div (N 8) (N 3)); (55%nat, Div (N 8) (N 3)); (56%nat, Div (N 8) (N 3)); (57%nat, Div (N 8) (N 3)); (64%nat, Div (Neg (N 16)) (N 9)); (65%nat, Div (Neg (N 16)) (N 9)); (66%nat, Div (Neg (N 16)) (N 9)); (67%nat, Div (Neg (N 16)) (N 9))];
  [(41%nat, Div (N 4) (N 9)); (42%nat, Div (N 4) (N 9)); (43%nat, Div (N 4) (N 9)); (44%nat, Div (N 4) (N 9)); (45%nat, Div (N 4) (N 9)); (46%nat, Div (N 4) (N 9)); (50%nat, Div (N 4) (N 3)); (51%nat, Div (N 40) (N 3)); (52%nat, Div (N 4) (N 3)); (55%nat, Div (N 4) (N 3)); (56%nat, Div (N 4) (N 3)); (57%nat, Div (N 4) (N 3)); (64%nat, Div (Neg (N 8)) (N 9)); (65%nat, Div (Neg (N 8)) (N 9)); (66%nat, Div (Neg (N 8)) (N 9)); (67%nat, Div (Neg (N 8)) (N 9))];
  [(41%nat, Div (N 8) (N 9)); (42%nat, Div (N 8) (N 9)); (43%nat, Div (N 8) (N 9)); (44%nat, Div (N 8) (N 9)); (45%nat, Div (N 8) (N 9)); (46%nat, Div (N 8) (N 9)); (50%nat, Div (N 8) (N 3)); (51%nat, Div (N 8) (N 3)); (52%nat, Div (N 44) (N 3)); (55%nat, Div (N 8) (N 3)); (56%nat, Div (N 8) (N 3)); (57%nat, Div (N 8) (N 3)); (64%nat, Div (Neg (N 16)) (N 9)); (65%nat, Div (Neg (N 16)) (N 9)); (66%nat, Div (Neg (N 16)) (N 9)); (67%nat, Div (Neg (N 16)) (N 9))];
  [(38%nat, Div (N 4) (N 9)); (39%nat, Div (N 4) (N 9)); (40%nat, Div (N 4) (N 9)); (47%nat, Div (N 4) (N 9)); (48%nat, Div (N 4) (N 9)); (49%nat, Div (N 4) (N 9)); (53%nat, Div (Neg (N 32)) (N 3)); (58%nat, Div (N 4) (N 3)); (60%nat, Div (N 4) (N 3)); (61%nat, Div (N 4) (N 3)); (62%nat, Div (N 4) (N 3)); (63%nat, Div (N 4) (N 3)); (68%nat, Div (Neg (N 8)) (N 9)); (69%nat, Div (Neg (N 8)) (N 9)); (70%nat, Div (Neg (N 8)) (N 9)); (71%nat, Div (Neg (N 8)) (N 9))];
  [(54%nat, Neg (N 12))];
  [(41%nat, Div (N 4) (N 9)); (42%nat, Div (N 4) (N 9)); (43%nat, Div (N 4) (N 9)); (44%nat, Div (N 4) (N 9)); (45%nat, Div (N 4) (N 9)); (46%nat, Div (N 4) (N 9)); (50%nat, Div (N 4) (N 3)); (51%nat, Div (N 4) (N 3)); (52%nat, Div (N 4) (N 3)); (55%nat, Div (Neg (N 32)) (N 3)); (56%nat, Div (N 4) (N 3)); (57%nat, Div (N 4) (N 3)); (64%nat, Div (Neg (N 8)) (N 9)); (65%nat, Div (Neg (N 8)) (N 9)); (66%nat, Div (Neg (N 8)) (N 9)); (67%nat, Div (Neg (N 8)) (N 9))];
  [(41%nat, Div (N 4) (N 9)); (42%nat, Div (N 4) (N 9)); (43%nat, Div (N 4) (N 9)); (44%nat, Div (N 4) (N 9)); (45%nat, Div (N 4) (N 9)); (46%nat, Div (N 4) (N 9)); (50%nat, Div (N 4) (N 3)); (51%nat, Div (N 4) (N 3)); (52%nat, Div (N 4) (N 3)); (55%nat, Div (N 4) (N 3)); (56%nat, Div (Neg (N 32)) (N 3)); (57%nat, Div (N 4) (N 3)); (64%nat, Div (Neg (N 8)) (N 9)); (65%nat, Div (Neg (N 8)) (N 9)); (66%nat, Div (Neg (N 8)) (N 9)); (67%nat, Div (Neg (N 8)) (N 9))];
  [(41%nat, Div (N 4) (N 9)); (42%nat, Div (N 4) (N 9)); (43%nat, Div (N 4) (N 9)); (44%nat, Div (N 4) (N 9)); (45%nat, Div (N 4) (N 9)); (46%nat, Div (N 4) (N 9)); (50%nat, Div (N 4) (N 3)); (51%nat, Div (N 4) (N 3)); (52%nat, Div (N 4) (N 3)); (55%nat, Div (N 4) (N 3)); (56%nat, Div (N 4) (N 3)); (57%nat, Div (Neg (N 32)) (N 3)); (64%nat, Div (Neg (N 8)) (N 9)); (65%nat, Div (Neg (N 8)) (N 9)); (66%nat, Div (Neg (N 8)) (N 9)); (67%nat, Div (Neg (N 8)) (N 9))];
  [(38%nat, Div (N 4) (N 9)); (39%nat, Div (N 4) (N 9)); (40%nat, Div (N 4) (N 9)); (47%nat, Div (N 4) (N 9)); (48%nat, Div (N 4) (N 9)); (49%nat, Div (N 4) (N 9)); (53%nat, Div (N 4) (N 3)); (58%nat, Div (Neg (N 32)) (N 3)); (60%nat, Div (N 4) (N 3)); (61%nat, Div (N 4) (N 3)); (62%nat, Div (N 4) (N 3)); (63%nat, Div (N 4) (N 3)); (68%nat, Div (Neg (N 8)) (N 9)); (69%nat, Div (Neg (N 8)) (N 9)); (70%nat, Div (Neg (N 8)) (N 9)); (71%nat, Div (Neg (N 8)) (N 9))];
  [(59%nat, Neg (N 12))];
  [(38%nat, Div (N 4) (N 9)); (39%nat, Div (N 4) (N 9)); (40%nat, Div (N 4) (N 9)); (47%nat, Div (N 4) (N 9)); (48%nat, Div (N 4) (N 9)); (49%nat, Div (N 4) (N 9)); (53%nat, Div (N 4) (N 3)); (58%nat, Div (N 4) (N 3)); (60%nat, Div (Neg (N 32)) (N 3)); (61%nat, Div (N 4) (N 3)); (62%nat, Div (N 4) (N 3)); (63%nat, Div (N 4) (N 3)); (68%nat, Div (Neg (N 8)) (N 9)); (69%nat, Div (Neg (N 8)) (N 9)); (70%nat, Div (Neg (N 8)) (N 9)); (71%nat, Div (Neg (N 8)) (N 9))];
  [(38%nat, Div (N 8) (N 9)); (39%nat, Div (N 8) (N 9)); (40%nat, Div (N 8) (N 9)); (47%nat, Div (N 8) (N 9)); (48%nat, Div (N 8) (N 9)); (49%nat, Div (N 8) (N 9)); (53%nat, Div (N 8) (N 3)); (58%nat, Div (N 8) (N 3)); (60%nat, Div (N 8) (N 3)); (61%nat, Div (N 44) (N 3)); (62%nat, Div (N 8) (N 3)); (63%nat, Div (N 8) (N 3)); (68%nat, Div (Neg (N 16)) (N 9)); (69%nat, Div (Neg (N 16)) (N 9)); (70%nat, Div (Neg (N 16)) (N 9)); (71%nat, Div (Neg (N 16)) (N 9))];
  [(38%nat, Div (N 4) (N 9)); (39%nat, Div (N 4) (N 9)); (40%nat, Div (N 4) (N 9)); (47%nat, Div (N 4) (N 9)); (48%nat, Div (N 4) (N 9)); (49%nat, Div (N 4) (N 9)); (53%nat, Div (N 4) (N 3)); (58%nat, Div (N 4) (N 3)); (60%nat, Div (N 4) (N 3)); (61%nat, Div (N 4) (N 3)); (62%nat, Div (N 40) (N 3)); (63%nat, Div (N 4) (N 3)); (68%nat, Div (Neg (N 8)) (N 9)); (69%nat, Div (Neg (N 8)) (N 9)); (70%nat, Div (Neg (N 8)) (N 9)); (71%nat, Div (Neg (N 8)) (N 9))];
  [(38%nat, Div (N 8) (N 9)); (39%nat, Div (N 8) (N 9)); (40%nat, Div (N 8) (N 9)); (47%nat, Div (N 8) (N 9)); (48%nat, Div (N 8) (N 9)); (49%nat, Div (N 8) (N 9)); (53%nat, Div (N 8) (N 3)); (58%nat, Div (N 8) (N 3)); (60%nat, Div (N 8) (N 3)); (61%nat, Div (N 8) (N 3)); (62%nat, Div (N 8) (N 3)); (63%nat, Div (N 44) (N 3)); (68%nat, Div (Neg (N 16)) (N 9)); (69%nat, Div (Neg (N 16)) (N 9)); (70%nat, Div (Neg (N 16)) (N 9)); (71%nat, Div (Neg (N 16)) (N 9))];
  [(41%nat, Div (Neg (N 8)) (N 9)); (42%nat, Div (Neg (N 8)) (N 9)); (43%nat, Div (Neg (N 8)) (N 9)); (44%nat, Div (Neg (N 8)) (N 9)); (45%nat, Div (Neg (N 8)) (N 9)); (46%nat, Div (Neg (N 8)) (N 9)); (50%nat, Div (Neg (N 8)) (N 3)); (51%nat, Div (Neg (N 8)) (N 3)); (52%nat, Div (Neg (N 8)) (N 3)); (55%nat, Div (Neg (N 8)) (N 3)); (56%nat, Div (Neg (N 8)) (N 3)); (57%nat, Div (Neg (N 8)) (N 3)); (64%nat, Div (Neg (N 56)) (N 9)); (65%nat, Div (N 16) (N 9)); (66%nat, Div (N 16) (N 9)); (67%nat, Div (N 16) (N 9))];
  [(41%nat, Div (Neg (N 8)) (N 9)); (42%nat, Div (Neg (N 8)) (N 9)); (43%nat, Div (Neg (N 8)) (N 9)); (44%nat, Div (Neg (N 8)) (N 9)); (45%nat, Div (Neg (N 8)) (N 9)); (46%nat, Div (Neg (N 8)) (N 9)); (50%nat, Div (Neg (N 8)) (N 3)); (51%nat, Div (Neg (N 8)) (N 3)); (52%nat, Div (Neg (N 8)) (N 3)); (55%nat, Div (Neg (N 8)) (N 3)); (56%nat, Div (Neg (N 8)) (N 3)); (57%nat, Div (Neg (N 8)) (N 3)); (64%nat, Div (N 16) (N 9)); (65%nat, Div (Neg (N 56)) (N 9)); (66%nat, Div (N 16) (N 9)); (67%nat, Div (N 16) (N 9))];
  [(41%nat, Div (Neg (N 8)) (N 9)); (42%nat, Div (Neg (N 8)) (N 9)); (43%nat, Div (Neg (N 8)) (N 9)); (44%nat, Div (Neg (N 8)) (N 9)); (45%nat, Div (Neg (N 8)) (N 9)); (46%nat, Div (Neg (N 8)) (N 9)); (50%nat, Div (Neg (N 8)) (N 3)); (51%nat, Div (Neg (N 8)) (N 3)); (52%nat, Div (Neg (N 8)) (N 3)); (55%nat, Div (Neg (N 8)) (N 3)); (56%nat, Div (Neg (N 8)) (N 3)); (57%nat, Div (Neg (N 8)) (N 3)); (64%nat, Div (N 16) (N 9)); (65%nat, Div (N 16) (N 9)); (66%nat, Div (N 88) (N 9)); (67%nat, Div (N 16) (N 9))];
  [(41%nat, Div (Neg (N 8)) (N 9)); (42%nat, Div (Neg (N 8)) (N 9)); (43%nat, Div (Neg (N 8)) (N 9)); (44%nat, Div (Neg (N 8)) (N 9)); (45%nat, Div (Neg (N 8)) (N 9)); (46%nat, Div (Neg (N 8)) (N 9)); (50%nat, Div (Neg (N 8)) (N 3)); (51%nat, Div (Neg (N 8)) (N 3)); (52%nat, Div (Neg (N 8)) (N 3)); (55%nat, Div (Neg (N 8)) (N 3)); (56%nat, Div (Neg (N 8)) (N 3)); (57%nat, Div (Neg (N 8)) (N 3)); (64%nat, Div (N 16) (N 9)); (65%nat, Div (N 16) (N 9)); (66%nat, Div (N 16) (N 9)); (67%nat, Div (N 88) (N 9))];
  [(38%nat, Div (Neg (N 8)) (N 9)); (39%nat, Div (Neg (N 8)) (N 9)); (40%nat, Div (Neg (N 8)) (N 9)); (47%nat, Div (Neg (N 8)) (N 9)); (48%nat, Div (Neg (N 8)) (N 9)); (49%nat, Div (Neg (N 8)) (N 9)); (53%nat, Div (Neg (N 8)) (N 3)); (58%nat, Div (Neg (N 8)) (N 3)); (60%nat, Div (Neg (N 8)) (N 3)); (61%nat, Div (Neg (N 8)) (N 3)); (62%nat, Div (Neg (N 8)) (N 3)); (63%nat, Div (Neg (N 8)) (N 3)); (68%nat, Div (Neg (N 56)) (N 9)); (69%nat, Div (N 16) (N 9)); (70%nat, Div (N 16) (N 9)); (71%nat, Div (N 16) (N 9))];
  [(38%nat, Div (Neg (N 8)) (N 9)); (39%nat, Div (Neg (N 8)) (N 9)); (40%nat, Div (Neg (N 8)) (N 9)); (47%nat, Div (Neg (N 8)) (N 9)); (48%nat, Div (Neg (N 8)) (N 9)); (49%nat, Div (Neg (N 8)) (N 9)); (53%nat, Div (Neg (N 8)) (N 3)); (58%nat, Div (Neg (N 8)) (N 3)); (60%nat, Div (Neg (N 8)) (N 3)); (61%nat, Div (Neg (N 8)) (N 3)); (62%nat, Div (Neg (N 8)) (N 3)); (63%nat, Div (Neg (N 8)) (N 3)); (68%nat, Div (N 16) (N 9)); (69%nat, Div (Neg (N 56)) (N 9)); (70%nat, Div (N 16) (N 9)); (71%nat, Div (N 16) (N 9))];
  [(38%nat, Div (Neg (N 8)) (N 9)); (39%nat, Div (Neg (N 8)) (N 9)); (40%nat, Div (Neg (N 8)) (N 9)); (47%nat, Div (Neg (N 8)) (N 9)); (48%nat, Div (Neg (N 8)) (N 9)); (49%nat, Div (Neg (N 8)) (N 9)); (53%nat, Div (Neg (N 8)) (N 3)); (58%nat, Div (Neg (N 8)) (N 3)); (60%nat, Div (Neg (N 8)) (N 3)); (61%nat, Div (Neg (N 8)) (N 3)); (62%nat, Div (Neg (N 8)) (N 3)); (63%nat, Div (Neg (N 8)) (N 3)); (68%nat, Div (N 16) (N 9)); (69%nat, Div (N 16) (N 9)); (70%nat, Div (N 88) (N 9)); (71%nat, Div (N 16) (N 9))];
  [(38%nat, Div (Neg (N 8)) (N 9)); (39%nat, Div (Neg (N 8)) (N 9)); (40%nat, Div (Neg (N 8)) (N 9)); (47%nat, Div (Neg (N 8)) (N 9)); (48%nat, Div (Neg (N 8)) (N 9)); (49%nat, Div (Neg (N 8)) (N 9)); (53%nat, Div (Neg (N 8)) (N 3)); (58%nat, Div (Neg (N 8)) (N 3)); (60%nat, Div (Neg (N 8)) (N 3)); (61%nat, Div (Neg (N 8)) (N 3)); (62%nat, Div (Neg (N 8)) (N 3)); (63%nat, Div (Neg (N 8)) (N 3)); (68%nat, Div (N 16) (N 9)); (69%nat, Div (N 16) (N 9)); (70%nat, Div (N 16) (N 9)); (71%nat, Div (N 88) (N 9))];
  [(72%nat, N 16)];
  [(73%nat, N 16)]].

(* adm.py:1623-1699 *)
Definition adm_s_taue : amat := [
  [(0%nat, Neg (N 8))];
  [(1%nat, Neg (N 8))];
  [(2%nat, Neg (N 8))];
  [(3%nat, Neg (N 8))];
  [(4%nat, Neg (N 8))];
  [(5%nat, Neg (N 8))];
  [(6%nat, Neg (N 8))];
  [(7%nat, Neg (N 8))];
  [(8%nat, Neg (N 8))];
  [(9%nat, Neg (N 8))];
  [(10%nat, Neg (N 8))];
  [(11%nat, Neg (N 8))];
  [(72%nat, Div (Neg (V Me)) (V Mtau))];
  [(73%nat, Div (Neg (V Me)) (V Mtau))];
  [(72%nat, Div (Neg (V Mmu)) (V Mtau))];
  [];
  [(72%nat, Neg (N 1))];
  [(73%nat, Div (Neg (V Mmu)) (V Mtau))];
  [];
  [(73%nat, Neg (N 1))];
  [(20%nat, Neg (N 8))];
  [(21%nat, Neg (N 8))];
  [(22%nat, Neg (N 8))];
  [(23%nat, Neg (N 8))];
  [(24%nat, Neg (N 8))];
  [(25%nat, Neg (N 8))];
  [(26%nat, Neg (N 8))];
  [(27%nat, Neg (N 8))];
  [(28%nat, Div (N 8) (N 3)); (72%nat, Div (Mul (N 8) (V Md)) (V Mtau))];
  [(29%nat, Div (N 8) (N 3)); (72%nat, Div (Mul (N 8) (V Ms)) (V Mtau))];
  [(30%nat, Div (N 8) (N 3)); (72%nat, Div (Mul (N 8) (V Mb)) (V Mtau))];
  [(31%nat, Div (N 8) (N 3)); (73%nat, Div (Mul (N 8) (V Md)) (V Mtau))];
  [(32%nat, Div (N 8) (N 3)); (73%nat, Div (Mul (N 8) (V Ms)) (V Mtau))];
  [(33%nat, Div (N 8) (N 3)); (73%nat, Div (Mul (N 8) (V Mb)) (V Mtau))];
  [(34%nat, Div (N 8) (N 3)); (72%nat, Div (Mul (Neg (N 16)) (V Mu)) (V Mtau))];
  [(35%nat, Div (N 8) (N 3)); (72%nat, Div (Mul (Neg (N 16)) (V Mc)) (V Mtau))];
  [(36%nat, Div (N 8) (N 3)); (73%nat, Div (Mul (Neg (N 16)) (V Mu)) (V Mtau))];
  [(37%nat, Div (N 8) (N 3)); (73%nat, Div (Mul (Neg (N 16)) (V Mc)) (V Mtau))];
  [];
  [];
  [];
  [];
  [];
  [];
  [];
  [];
  [];
  [];
  [];
  [];
  [];
  [];
  [];
  [];
  [];
  [];
  [];
  [];
  [];
  [];
  [];
  [];
  [];
  [];
  [];
  [];
  [];
  [];
  [];
  [];
  [];
  [];
  [(72%nat, Mul (Neg (N 2)) B0)];
  [(73%nat, Mul (Neg (N 2)) B0)]].

(* adm.py:1701-2025 *)
Definition adm_e_dF0 : amat := [
  [];
  [];
  [(2%nat, Div (N 4) (N 27)); (27%nat, Div (N 32) (N 9))];
  [(3%nat, Div (Neg (N 4)) (N 9)); (5%nat, Div (N 16) (N 27)); (30%nat, Div (N 32) (N 9))];
  [(4%nat, Div (Neg (N 4)) (N 9)); (6%nat, Div (N 16) (N 27)); (31%nat, Div (N 32) (N 9))];
  [(3%nat, Div (N 16) (N 27)); (5%nat, Div (Neg (N 4)) (N 9)); (28%nat, Div (N 32) (N 9))];
  [(4%nat, Div (N 16) (N 27)); (6%nat, Div (Neg (N 4)) (N 9)); (29%nat, Div (N 32) (N 9))];
  [(7%nat, Div (N 4) (N 27)); (32%nat, Div (N 32) (N 9))];
  [(8%nat, Div (Neg (N 4)) (N 9)); (9%nat, Div (N 16) (N 27)); (34%nat, Div (N 32) (N 9))];
  [(8%nat, Div (N 16) (N 27)); (9%nat, Div (Neg (N 4)) (N 9)); (33%nat, Div (N 32) (N 9))];
  [(10%nat, Div (N 4) (N 27)); (35%nat, Div (N 32) (N 9))];
  [(11%nat, Div (Neg (N 46)) (N 9)); (17%nat, Div (Neg (N 32)) (N 27)); (42%nat, Div (Neg (N 64)) (N 9))];
  [(12%nat, Div (Neg (N 46)) (N 9)); (18%nat, Div (Neg (N 32)) (N 27)); (43%nat, Div (Neg (N 64)) (N 9))];
  [(13%nat, Div (Neg (N 46)) (N 9)); (19%nat, Div (Neg (N 32)) (N 27)); (44%nat, Div (Neg (N 64)) (N 9))];
  [(14%nat, Div (Neg (N 46)) (N 9)); (20%nat, Div (Neg (N 32)) (N 27)); (45%nat, Div (Neg (N 64)) (N 9))];
  [(15%nat, Div (Neg (N 46)) (N 9)); (21%nat, Div (Neg (N 32)) (N 27)); (46%nat, Div (Neg (N 64)) (N 9))];
  [(16%nat, Div (Neg (N 46)) (N 9)); (22%nat, Div (Neg (N 32)) (N 27)); (47%nat, Div (Neg (N 64)) (N 9))];
  [(11%nat, Div (N 4) (N 27)); (17%nat, Div (N 26) (N 9)); (36%nat, Div (N 8) (N 9))];
  [(12%nat, Div (N 4) (N 27)); (18%nat, Div (N 26) (N 9)); (37%nat, Div (N 8) (N 9))];
  [(13%nat, Div (N 4) (N 27)); (19%nat, Div (N 26) (N 9)); (38%nat, Div (N 8) (N 9))];
  [(14%nat, Div (N 4) (N 27)); (20%nat, Div (N 26) (N 9)); (39%nat, Div (N 8) (N 9))];
  [(15%nat, Div (N 4) (N 27)); (21%nat, Div (N 26) (N 9)); (40%nat, Div (N 8) (N 9))];
  [(16%nat, Div (N 4) (N 27)); (22%nat, Div (N 26) (N 9)); (41%nat, Div (N 8) (N 9))];
  [(23%nat, Div (N 16) (N 27)); (48%nat, Div (N 128) (N 9))];
  [(24%nat, Div (Neg (N 16)) (N 9)); (25%nat, Div (N 64) (N 27)); (50%nat, Div (N 128) (N 9))];
  [(24%nat, Div (N 64) (N 27)); (25%nat, Div (Neg (N 16)) (N 9)); (49%nat, Div (N 128) (N 9))];
  [(26%nat, Div (N 16) (N 27)); (51%nat, Div (N 128) (N 9))];
  [(2%nat, Div (N 64) (N 81)); (27%nat, Div (Neg (N 28)) (N 27))];
  [(5%nat, Div (N 64) (N 81)); (28%nat, Div (Neg (N 4)) (N 9)); (30%nat, Div (Neg (N 16)) (N 27))];
  [(6%nat, Div (N 64) (N 81)); (29%nat, Div (Neg (N 4)) (N 9)); (31%nat, Div (Neg (N 16)) (N 27))];
  [(3%nat, Div (N 64) (N 81)); (28%nat, Div (Neg (N 16)) (N 27)); (30%nat, Div (Neg (N 4)) (N 9))];
  [(4%nat, Div (N 64) (N 81)); (29%nat, Div (Neg (N 16)) (N 27)); (31%nat, Div (Neg (N 4)) (N 9))];
  [(7%nat, Div (N 64) (N 81)); (32%nat, Div (Neg (N 28)) (N 27))];
  [(9%nat, Div (N 64) (N 81)); (33%nat, Div (Neg (N 4)) (N 9)); (34%nat, Div (Neg (N 16)) (N 27))];
  [(8%nat, Div (N 64) (N 81)); (33%nat, Div (Neg (N 16)) (N 27)); (34%nat, Div (Neg (N 4)) (N 9))];
  [(10%nat, Div (N 64) (N 81)); (35%nat, Div (Neg (N 28)) (N 27))];
  [(17%nat, Div (Neg (N 128)) (N 81)); (36%nat, Div (Neg (N 46)) (N 9)); (42%nat, Div (N 32) (N 27))];
  [(18%nat, Div (Neg (N 128)) (N 81)); (37%nat, Div (Neg (N 46)) (N 9)); (43%nat, Div (N 32) (N 27))];
  [(19%nat, Div (Neg (N 128)) (N 81)); (38%nat, Div (Neg (N 46)) (N 9)); (44%nat, Div (N 32) (N 27))];
  [(20%nat, Div (Neg (N 128)) (N 81)); (39%nat, Div (Neg (N 46)) (N 9)); (45%nat, Div (N 32) (N 27))];
  [(21%nat, Div (Neg (N 128)) (N 81)); (40%nat, Div (Neg (N 46)) (N 9)); (46%nat, Div (N 32) (N 27))];
  [(22%nat, Div (Neg (N 128)) (N 81)); (41%nat, Div (Neg (N 46)) (N 9)); (47%nat, Div (N 32) (N 27))];
  [(11%nat, Div (N 16) (N 81)); (36%nat, Div (Neg (N 4)) (N 27)); (42%nat, Div (N 26) (N 9))];
  [(12%nat, Div (N 16) (N 81)); (37%nat, Div (Neg (N 4)) (N 27)); (43%nat, Div (N 26) (N 9))];
  [(13%nat, Div (N 16) (N 81)); (38%nat, Div (Neg (N 4)) (N 27)); (44%nat, Div (N 26) (N 9))];
  [(14%nat, Div (N 16) (N 81)); (39%nat, Div (Neg (N 4)) (N 27)); (45%nat, Div (N 26) (N 9))];
  [(15%nat, Div (N 16) (N 81)); (40%nat, Div (Neg (N 4)) (N 27)); (46%nat, Div (N 26) (N 9))];
  [(16%nat, Div (N 16) (N 81)); (41%nat, Div (Neg (N 4)) (N 27)); (47%nat, Div (N 26) (N 9))];
  [(23%nat, Div (N 256) (N 81)); (48%nat, Div (Neg (N 112)) (N 27))];
  [(25%nat, Div (N 256) (N 81)); (49%nat, Div (Neg (N 16)) (N 9)); (50%nat, Div (Neg (N 64)) (N 27))];
  [(24%nat, Div (N 256) (N 81)); (49%nat, Div (Neg (N 64)) (N 27)); (50%nat, Div (Neg (N 16)) (N 9))];
  [(26%nat, Div (N 256) (N 81)); (51%nat, Div (Neg (N 112)) (N 27))];
  [(52%nat, Div (Neg (N 20)) (N 3))];
  [(53%nat, Div (Neg (N 20)) (N 3))];
  [(54%nat, Div (Neg (N 20)) (N 3))];
  [(55%nat, Div (Neg (N 20)) (N 3))];
  [(56%nat, Div (Neg (N 20)) (N 3))];
  [(57%nat, Div (Neg (N 20)) (N 3))];
  [(58%nat, Div (Neg (N 20)) (N 3))];
  [(59%nat, Div (Neg (N 20)) (N 3))];
  [(60%nat, Div (Neg (N 20)) (N 3))];
  [(61%nat, Div (Neg (N 20)) (N 3)); (91%nat, Div (Neg (N 2)) (N 3))];
  [(62%nat, Div (Neg (N 20)) (N 3)); (92%nat, Div (Neg (N 2)) (N 3))];
  [(63%nat, Div (Neg (N 20)) (N 3)); (93%nat, Div (Neg (N 2)) (N 3))];
  [(64%nat, Div (Neg (N 20)) (N 3)); (94%nat, Div (Neg (N 2)) (N 3))];
  [(65%nat, Div (Neg (N 20)) (N 3)); (95%nat, Div (Neg (N 2)) (N 3))];
  [(66%nat, Div (Neg (N 20)) (N 3)); (96%nat, Div (Neg (N 2)) (N 3))];
  [(67%nat, Div (Neg (N 20)) (N 3)); (97%nat, Div (Neg (N 2)) (N 3))];
  [(68%nat, Div (Neg (N 20)) (N 3)); (98%nat, Div (Neg (N 2)) (N 3))];
  [(69%nat, Div (Neg (N 20)) (N 3)); (99%nat, Div (Neg (N 2)) (N 3))];
  [(70%nat, N 12)];
  [(71%nat, Neg (N 4)); (73%nat, N 16)];
  [(72%nat, Neg (N 4)); (74%nat, N 16)];
  [(71%nat, N 16); (73%nat, Neg (N 4))];
  [(72%nat, N 16); (74%nat, Neg (N 4))];
  [(75%nat, N 12)];
  [(76%nat, Neg (N 4)); (77%nat, N 16)];
  [(76%nat, N 16); (77%nat, Neg (N 4))];
  [(78%nat, N 12)];
  [(79%nat, Div (Neg (N 26)) (N 3))];
  [(80%nat, Div (Neg (N 26)) (N 3))];
  [(81%nat, Div (Neg (N 26)) (N 3))];
  [(82%nat, Div (Neg (N 26)) (N 3))];
  [(83%nat, Div (Neg (N 26)) (N 3))];
  [(84%nat, Div (Neg (N 26)) (N 3))];
  [(85%nat, Div (Neg (N 26)) (N 3)); (100%nat, Div (N 4) (N 3))];
  [(86%nat, Div (Neg (N 26)) (N 3)); (101%nat, Div (N 4) (N 3))];
  [(87%nat, Div (Neg (N 26)) (N 3)); (102%nat, Div (N 4) (N 3))];
  [(88%nat, Div (Neg (N 26)) (N 3)); (103%nat, Div (N 4) (N 3))];
  [(89%nat, Div (Neg (N 26)) (N 3)); (104%nat, Div (N 4) (N 3))];
  [(90%nat, Div (Neg (N 26)) (N 3)); (105%nat, Div (N 4) (N 3))];
  [(61%nat, Neg (N 32)); (91%nat, Div (N 20) (N 9))];
  [(62%nat, Neg (N 32)); (92%nat, Div (N 20) (N 9))];
  [(63%nat, Neg (N 32)); (93%nat, Div (N 20) (N 9))];
  [(64%nat, Neg (N 32)); (94%nat, Div (N 20) (N 9))];
  [(65%nat, Neg (N 32)); (95%nat, Div (N 20) (N 9))];
  [(66%nat, Neg (N 32)); (96%nat, Div (N 20) (N 9))];
  [(67%nat, Neg (N 32)); (97%nat, Div (N 20) (N 9))];
  [(68%nat, Neg (N 32)); (98%nat, Div (N 20) (N 9))];
  [(69%nat, Neg (N 32)); (99%nat, Div (N 20) (N 9))];
  [(85%nat, N 64); (100%nat, Div (N 26) (N 9))];
  [(86%nat, N 64); (101%nat, Div (N 26) (N 9))];
  [(87%nat, N 64); (102%nat, Div (N 26) (N 9))];
  [(88%nat, N 64); (103%nat, Div (N 26) (N 9))];
  [(89%nat, N 64); (104%nat, Div (N 26) (N 9))];
  [(90%nat, N 64); (105%nat, Div (N 26) (N 9))];
  [(106%nat, Div (Neg (N 4)) (N 9)); (107%nat, Div (N 4) (N 9)); (108%nat, Div (N 4) (N 9)); (111%nat, Div (N 4) (N 9)); (115%nat, Div (N 4) (N 9)); (118%nat, Div (Neg (N 8)) (N 9)); (119%nat, Div (Neg (N 8)) (N 9)); (124%nat, Div (Neg (N 8)) (N 9)); (127%nat, Div (Neg (N 8)) (N 9)); (130%nat, Div (Neg (N 8)) (N 9)); (133%nat, Div (Neg (N 8)) (N 9)); (136%nat, Div (Neg (N 8)) (N 9)); (139%nat, Div (Neg (N 8)) (N 9)); (200%nat, Div (N 4) (N 9)); (201%nat, Div (N 4) (N 9)); (202%nat, Div (N 4) (N 9)); (209%nat, Div (N 4) (N 9)); (210%nat, Div (N 4) (N 9)); (211%nat, Div (N 4) (N 9)); (218%nat, Div (N 4) (N 3)); (219%nat, Div (N 4) (N 3)); (220%nat, Div (N 4) (N 3)); (227%nat, Div (N 4) (N 3)); (230%nat, Div (N 4) (N 3)); (233%nat, Div (N 4) (N 3)); (236%nat, Div (N 4) (N 3)); (239%nat, Div (N 4) (N 3)); (242%nat, Div (N 4) (N 3)); (245%nat, Div (N 4) (N 3)); (248%nat, Div (N 4) (N 3)); (251%nat, Div (N 4) (N 3))];
  [(106%nat, Div (N 4) (N 9)); (107%nat, Div (Neg (N 4)) (N 9)); (108%nat, Div (N 4) (N 9)); (112%nat, Div (N 4) (N 9)); (116%nat, Div (N 4) (N 9)); (118%nat, Div (Neg (N 8)) (N 9)); (119%nat, Div (Neg (N 8)) (N 9)); (124%nat, Div (Neg (N 8)) (N 9)); (127%nat, Div (Neg (N 8)) (N 9)); (131%nat, Div (Neg (N 8)) (N 9)); (134%nat, Div (Neg (N 8)) (N 9)); (137%nat, Div (Neg (N 8)) (N 9)); (140%nat, Div (Neg (N 8)) (N 9)); (200%nat, Div (N 4) (N 9)); (201%nat, Div (N 4) (N 9)); (202%nat, Div (N 4) (N 9)); (210%nat, Div (N 4) (N 9)); (214%nat, Div (N 4) (N 9)); (215%nat, Div (N 4) (N 9)); (218%nat, Div (N 4) (N 3)); (219%nat, Div (N 4) (N 3)); (220%nat, Div (N 4) (N 3)); (227%nat, Div (N 4) (N 3)); (230%nat, Div (N 4) (N 3)); (233%nat, Div (N 4) (N 3)); (237%nat, Div (N 4) (N 3)); (240%nat, Div (N 4) (N 3)); (243%nat, Div (N 4) (N 3)); (246%nat, Div (N 4) (N 3)); (249%nat, Div (N 4) (N 3)); (252%nat, Div (N 4) (N 3))];
  [(106%nat, Div (N 4) (N 9)); (107%nat, Div (N 4) (N 9)); (108%nat, Div (Neg (N 4)) (N 9)); (113%nat, Div (N 4) (N 9)); (117%nat, Div (N 4) (N 9)); (118%nat, Div (Neg (N 8)) (N 9)); (119%nat, Div (Neg (N 8)) (N 9)); (124%nat, Div (Neg (N 8)) (N 9)); (127%nat, Div (Neg (N 8)) (N 9)); (132%nat, Div (Neg (N 8)) (N 9)); (135%nat, Div (Neg (N 8)) (N 9)); (138%nat, Div (Neg (N 8)) (N 9)); (141%nat, Div (Neg (N 8)) (N 9)); (200%nat, Div (N 4) (N 9)); (201%nat, Div (N 4) (N 9)); (202%nat, Div (N 4) (N 9)); (211%nat, Div (N 4) (N 9)); (215%nat, Div (N 4) (N 9)); (217%nat, Div (N 4) (N 9)); (218%nat, Div (N 4) (N 3)); (219%nat, Div (N 4) (N 3)); (220%nat, Div (N 4) (N 3)); (227%nat, Div (N 4) (N 3)); (230%nat, Div (N 4) (N 3)); (233%nat, Div (N 4) (N 3)); (238%nat, Div (N 4) (N 3)); (241%nat, Div (N 4) (N 3)); (244%nat, Div (N 4) (N 3)); (247%nat, Div (N 4) (N 3)); (250%nat, Div (N 4) (N 3)); (253%nat, Div (N 4) (N 3))];
  [(109%nat, Div (Neg (N 4)) (N 3))];
  [(110%nat, Div (Neg (N 4)) (N 3))];
  [(106%nat, Div (N 4) (N 9)); (111%nat, Div (Neg (N 4)) (N 9)); (112%nat, Div (N 4) (N 9)); (113%nat, Div (N 4) (N 9)); (115%nat, Div (N 4) (N 9)); (120%nat, Div (Neg (N 8)) (N 9)); (121%nat, Div (Neg (N 8)) (N 9)); (125%nat, Div (Neg (N 8)) (N 9)); (128%nat, Div (Neg (N 8)) (N 9)); (130%nat, Div (Neg (N 8)) (N 9)); (133%nat, Div (Neg (N 8)) (N 9)); (136%nat, Div (Neg (N 8)) (N 9)); (139%nat, Div (Neg (N 8)) (N 9)); (201%nat, Div (N 4) (N 9)); (205%nat, Div (N 4) (N 9)); (206%nat, Div (N 4) (N 9)); (209%nat, Div (N 4) (N 9)); (210%nat, Div (N 4) (N 9)); (211%nat, Div (N 4) (N 9)); (221%nat, Div (N 4) (N 3)); (222%nat, Div (N 4) (N 3)); (223%nat, Div (N 4) (N 3)); (228%nat, Div (N 4) (N 3)); (231%nat, Div (N 4) (N 3)); (234%nat, Div (N 4) (N 3)); (236%nat, Div (N 4) (N 3)); (239%nat, Div (N 4) (N 3)); (242%nat, Div (N 4) (N 3)); (245%nat, Div (N 4) (N 3)); (248%nat, Div (N 4) (N 3)); (251%nat, Div (N 4) (N 3))];
  [(107%nat, Div (N 4) (N 9)); (111%nat, Div (N 4) (N 9)); (112%nat, Div (Neg (N 4)) (N 9)); (113%nat, Div (N 4) (N 9)); (116%nat, Div (N 4) (N 9)); (120%nat, Div (Neg (N 8)) (N 9)); (121%nat, Div (Neg (N 8)) (N 9)); (125%nat, Div (Neg (N 8)) (N 9)); (128%nat, Div (Neg (N 8)) (N 9)); (131%nat, Div (Neg (N 8)) (N 9)); (134%nat, Div (Neg (N 8)) (N 9)); (137%nat, Div (Neg (N 8)) (N 9)); (140%nat, Div (Neg (N 8)) (N 9)); (201%nat, Div (N 4) (N 9)); (205%nat, Div (N 4) (N 9)); (206%nat, Div (N 4) (N 9)); (210%nat, Div (N 4) (N 9)); (214%nat, Div (N 4) (N 9)); (215%nat, Div (N 4) (N 9)); (221%nat, Div (N 4) (N 3)); (222%nat, Div (N 4) (N 3)); (223%nat, Div (N 4) (N 3)); (228%nat, Div (N 4) (N 3)); (231%nat, Div (N 4) (N 3)); (234%nat, Div (N 4) (N 3)); (237%nat, Div (N 4) (N 3)); (240%nat, Div (N 4) (N 3)); (243%nat, Div (N 4) (N 3)); (246%nat, Div (N 4) (N 3)); (249%nat, Div (N 4) (N 3)); (252%nat, Div (N 4) (N 3))];
  [(108%nat, Div (N 4) (N 9)); (111%nat, Div (N 4) (N 9)); (112%nat, Div (N 4) (N 9)); (113%nat, Div (Neg (N 4)) (N 9)); (117%nat, Div (N 4) (N 9)); (120%nat, Div (Neg (N 8)) (N 9)); (121%nat, Div (Neg (N 8)) (N 9)); (125%nat, Div (Neg (N 8)) (N 9)); (128%nat, Div (Neg (N 8)) (N 9)); (132%nat, Div (Neg (N 8)) (N 9)); (135%nat, Div (Neg (N 8)) (N 9)); (138%nat, Div (Neg (N 8)) (N 9)); (141%nat, Div (Neg (N 8)) (N 9)); (201%nat, Div (N 4) (N 9)); (205%nat, Div (N 4) (N 9)); (206%nat, Div (N 4) (N 9)); (211%nat, Div (N 4) (N 9)); (215%nat, Div (N 4) (N 9)); (217%nat, Div (N 4) (N 9)); (221%nat, Div (N 4) (N 3)); (222%nat, Div (N 4) (N 3)); (223%nat, Div (N 4) (N 3)); (228%nat, Div (N 4) (N 3)); (231%nat, Div (N 4) (N 3)); (234%nat, Div (N 4) (N 3)); (238%nat, Div (N 4) (N 3)); (241%nat, Div (N 4) (N 3)); (244%nat, Div (N 4) (N 3)); (247%nat, Div (N 4) (N 3)); (250%nat, Div (N 4) (N 3)); (253%nat, Div (N 4) (N 3))];
  [(114%nat, Div (Neg (N 4)) (N 3))];
  [(106%nat, Div (N 4) (N 9)); (111%nat, Div (N 4) (N 9)); (115%nat, Div (Neg (N 4)) (N 9)); (116%nat, Div (N 4) (N 9)); (117%nat, Div (N 4) (N 9)); (122%nat, Div (Neg (N 8)) (N 9)); (123%nat, Div (Neg (N 8)) (N 9)); (126%nat, Div (Neg (N 8)) (N 9)); (129%nat, Div (Neg (N 8)) (N 9)); (130%nat, Div (Neg (N 8)) (N 9)); (133%nat, Div (Neg (N 8)) (N 9)); (136%nat, Div (Neg (N 8)) (N 9)); (139%nat, Div (Neg (N 8)) (N 9)); (202%nat, Div (N 4) (N 9)); (206%nat, Div (N 4) (N 9)); (208%nat, Div (N 4) (N 9)); (209%nat, Div (N 4) (N 9)); (210%nat, Div (N 4) (N 9)); (211%nat, Div (N 4) (N 9)); (224%nat, Div (N 4) (N 3)); (225%nat, Div (N 4) (N 3)); (226%nat, Div (N 4) (N 3)); (229%nat, Div (N 4) (N 3)); (232%nat, Div (N 4) (N 3)); (235%nat, Div (N 4) (N 3)); (236%nat, Div (N 4) (N 3)); (239%nat, Div (N 4) (N 3)); (242%nat, Div (N 4) (N 3)); (245%nat, Div (N 4) (N 3)); (248%nat, Div (N 4) (N 3)); (251%nat, Div (N 4) (N 3))];
  [(107%nat, Div (N 4) (N 9)); (112%nat, Div (N 4) (N 9)); (115%nat, Div (N 4) (N 9)); (116%nat, Div (Neg (N 4)) (N 9)); (117%nat, Div (N 4) (N 9)); (122%nat, Div (Neg (N 8)) (N 9)); (123%nat, Div (Neg (N 8)) (N 9)); (126%nat, Div (Neg (N 8)) (N 9)); (129%nat, Div (Neg (N 8)) (N 9)); (131%nat, Div (Neg (N 8)) (N 9)); (134%nat, Div (Neg (N 8)) (N 9)); (137%nat, Div (Neg (N 8)) (N 9)); (140%nat, Div (Neg (N 8)) (N 9)); (202%nat, Div (N 4) (N 9)); (206%nat, Div (N 4) (N 9)); (208%nat, Div (N 4) (N 9)); (210%nat, Div (N 4) (N 9)); (214%nat, Div (N 4) (N 9)); (215%nat, Div (N 4) (N 9)); (224%nat, Div (N 4) (N 3)); (225%nat, Div (N 4) (N 3)); (226%nat, Div (N 4) (N 3)); (229%nat, Div (N 4) (N 3)); (232%nat, Div (N 4) (N 3)); (235%nat, Div (N 4) (N 3)); (237%nat, Div (N 4) (N 3)); (240%nat, Div (N 4) (N 3)); (243%nat, Div (N 4) (N 3)); (246%nat, Div (N 4) (N 3)); (249%nat, Div (N 4) (N 3)); (252%nat, Div (N 4) (N 3))];
  [(108%nat, Div (N 4) (N 9)); (113%nat, Div (N 4) (N 9)); (115%nat, Div (N 4) (N 9)); (116%nat, Div (N 4) (N 9)); (117%nat, Div (Neg (N 4)) (N 9)); (122%nat, Div (Neg (N 8)) (N 9)); (123%nat, Div (Neg (N 8)) (N 9)); (126%nat, Div (Neg (N 8)) (N 9)); (129%nat, Div (Neg (N 8)) (N 9)); (132%nat, Div (Neg (N 8)) (N 9)); (135%nat, Div (Neg (N 8)) (N 9)); (138%nat, Div (Neg (N 8)) (N 9)); (141%nat, Div (Neg (N 8)) (N 9)); (202%nat, Div (N 4) (N 9)); (206%nat, Div (N 4) (N 9)); (208%nat, Div (N 4) (N 9)); (211%nat, Div (N 4) (N 9)); (215%nat, Div (N 4) (N 9)); (217%nat, Div (N 4) (N 9)); (224%nat, Div (N 4) (N 3)); (225%nat, Div (N 4) (N 3)); (226%nat, Div (N 4) (N 3)); (229%nat, Div (N 4) (N 3)); (232%nat, Div (N 4) (N 3)); (235%nat, Div (N 4) (N 3)); (238%nat, Div (N 4) (N 3)); (241%nat, Div (N 4) (N 3)); (244%nat, Div (N 4) (N 3)); (247%nat, Div (N 4) (N 3)); (250%nat, Div (N 4) (N 3)); (253%nat, Div (N 4) (N 3))];
  [(106%nat, Div (Neg (N 8)) (N 9)); (107%nat, Div (Neg (N 8)) (N 9)); (108%nat, Div (Neg (N 8)) (N 9)); (118%nat, Div (N 44) (N 9)); (119%nat, Div (N 16) (N 9)); (120%nat, Div (N 4) (N 9)); (122%nat, Div (N 4) (N 9)); (124%nat, Div (N 16) (N 9)); (127%nat, Div (N 16) (N 9)); (136%nat, Div (N 4) (N 9)); (137%nat, Div (N 4) (N 9)); (138%nat, Div (N 4) (N 9)); (148%nat, Div (Neg (N 8)) (N 9)); (151%nat, Div (Neg (N 8)) (N 9)); (200%nat, Div (Neg (N 8)) (N 9)); (201%nat, Div (Neg (N 8)) (N 9)); (202%nat, Div (Neg (N 8)) (N 9)); (218%nat, Div (Neg (N 8)) (N 3)); (219%nat, Div (Neg (N 8)) (N 3)); (220%nat, Div (Neg (N 8)) (N 3)); (227%nat, Div (Neg (N 8)) (N 3)); (230%nat, Div (Neg (N 8)) (N 3)); (233%nat, Div (Neg (N 8)) (N 3)); (284%nat, Div (N 4) (N 3)); (286%nat, Div (N 4) (N 3)); (288%nat, Div (N 4) (N 3)); (290%nat, Div (N 4) (N 3)); (292%nat, Div (N 4) (N 3)); (294%nat, Div (N 4) (N 3)); (306%nat, Div (Neg (N 8)) (N 9)); (307%nat, Div (Neg (N 8)) (N 9))];
  [(106%nat, Div (Neg (N 8)) (N 9)); (107%nat, Div (Neg (N 8)) (N 9)); (108%nat, Div (Neg (N 8)) (N 9)); (118%nat, Div (N 16) (N 9)); (119%nat, Div (N 44) (N 9)); (121%nat, Div (N 4) (N 9)); (123%nat, Div (N 4) (N 9)); (124%nat, Div (N 16) (N 9)); (127%nat, Div (N 16) (N 9)); (139%nat, Div (N 4) (N 9)); (140%nat, Div (N 4) (N 9)); (141%nat, Div (N 4) (N 9)); (149%nat, Div (Neg (N 8)) (N 9)); (152%nat, Div (Neg (N 8)) (N 9)); (200%nat, Div (Neg (N 8)) (N 9)); (201%nat, Div (Neg (N 8)) (N 9)); (202%nat, Div (Neg (N 8)) (N 9)); (218%nat, Div (Neg (N 8)) (N 3)); (219%nat, Div (Neg (N 8)) (N 3)); (220%nat, Div (Neg (N 8)) (N 3)); (227%nat, Div (Neg (N 8)) (N 3)); (230%nat, Div (Neg (N 8)) (N 3)); (233%nat, Div (Neg (N 8)) (N 3)); (285%nat, Div (N 4) (N 3)); (287%nat, Div (N 4) (N 3)); (289%nat, Div (N 4) (N 3)); (291%nat, Div (N 4) (N 3)); (293%nat, Div (N 4) (N 3)); (295%nat, Div (N 4) (N 3)); (307%nat, Div (Neg (N 8)) (N 9)); (309%nat, Div (Neg (N 8)) (N 9))];
  [(111%nat, Div (Neg (N 8)) (N 9)); (112%nat, Div (Neg (N 8)) (N 9)); (113%nat, Div (Neg (N 8)) (N 9)); (118%nat, Div (N 4) (N 9)); (120%nat, Div (N 44) (N 9)); (121%nat, Div (N 16) (N 9)); (122%nat, Div (N 4) (N 9)); (125%nat, Div (N 16) (N 9)); (128%nat, Div (N 16) (N 9)); (136%nat, Div (N 4) (N 9)); (137%nat, Div (N 4) (N 9)); (138%nat, Div (N 4) (N 9)); (148%nat, Div (Neg (N 8)) (N 9)); (151%nat, Div (Neg (N 8)) (N 9)); (201%nat, Div (Neg (N 8)) (N 9)); (205%nat, Div (Neg (N 8)) (N 9)); (206%nat, Div (Neg (N 8)) (N 9)); (221%nat, Div (Neg (N 8)) (N 3)); (222%nat, Div (Neg (N 8)) (N 3)); (223%nat, Div (Neg (N 8)) (N 3)); (228%nat, Div (Neg (N 8)) (N 3)); (231%nat, Div (Neg (N 8)) (N 3)); (234%nat, Div (Neg (N 8)) (N 3)); (284%nat, Div (N 4) (N 3)); (286%nat, Div (N 4) (N 3)); (288%nat, Div (N 4) (N 3)); (290%nat, Div (N 4) (N 3)); (292%nat, Div (N 4) (N 3)); (294%nat, Div (N 4) (N 3)); (306%nat, Div (Neg (N 8)) (N 9)); (307%nat, Div (Neg (N 8)) (N 9))];
  [(111%nat, Div (Neg (N 8)) (N 9)); (112%nat, Div (Neg (N 8)) (N 9)); (113%nat, Div (Neg (N 8)) (N 9)); (119%nat, Div (N 4) (N 9)); (120%nat, Div (N 16) (N 9)); (121%nat, Div (N 44) (N 9)); (123%nat, Div (N 4) (N 9)); (125%nat, Div (N 16) (N 9)); (128%nat, Div (N 16) (N 9)); (139%nat, Div (N 4) (N 9)); (140%nat, Div (N 4) (N 9)); (141%nat, Div (N 4) (N 9)); (149%nat, Div (Neg (N 8)) (N 9)); (152%nat, Div (Neg (N 8)) (N 9)); (201%nat, Div (Neg (N 8)) (N 9)); (205%nat, Div (Neg (N 8)) (N 9)); (206%nat, Div (Neg (N 8)) (N 9)); (221%nat, Div (Neg (N 8)) (N 3)); (222%nat, Div (Neg (N 8)) (N 3)); (223%nat, Div (Neg (N 8)) (N 3)); (228%nat, Div (Neg (N 8)) (N 3)); (231%nat, Div (Neg (N 8)) (N 3)); (234%nat, Div (Neg (N 8)) (N 3)); (285%nat, Div (N 4) (N 3)); (287%nat, Div (N 4) (N 3)); (289%nat, Div (N 4) (N 3)); (291%nat, Div (N 4) (N 3)); (293%nat, Div (N 4) (N 3)); (295%nat, Div (N 4) (N 3)); (307%nat, Div (Neg (N 8)) (N 9)); (309%nat, Div (Neg (N 8)) (N 9))];
  [(115%nat, Div (Neg (N 8)) (N 9)); (116%nat, Div (Neg (N 8)) (N 9)); (117%nat, Div (Neg (N 8)) (N 9)); (118%nat, Div (N 4) (N 9)); (120%nat, Div (N 4) (N 9)); (122%nat, Div (N 44) (N 9)); (123%nat, Div (N 16) (N 9)); (126%nat, Div (N 16) (N 9)); (129%nat, Div (N 16) (N 9)); (136%nat, Div (N 4) (N 9)); (137%nat, Div (N 4) (N 9)); (138%nat, Div (N 4) (N 9)); (148%nat, Div (Neg (N 8)) (N 9)); (151%nat, Div (Neg (N 8)) (N 9)); (202%nat, Div (Neg (N 8)) (N 9)); (206%nat, Div (Neg (N 8)) (N 9)); (208%nat, Div (Neg (N 8)) (N 9)); (224%nat, Div (Neg (N 8)) (N 3)); (225%nat, Div (Neg (N 8)) (N 3)); (226%nat, Div (Neg (N 8)) (N 3)); (229%nat, Div (Neg (N 8)) (N 3)); (232%nat, Div (Neg (N 8)) (N 3)); (235%nat, Div (Neg (N 8)) (N 3)); (284%nat, Div (N 4) (N 3)); (286%nat, Div (N 4) (N 3)); (288%nat, Div (N 4) (N 3)); (290%nat, Div (N 4) (N 3)); (292%nat, Div (N 4) (N 3)); (294%nat, Div (N 4) (N 3)); (306%nat, Div (Neg (N 8)) (N 9)); (307%nat, Div (Neg (N 8)) (N 9))];
  [(115%nat, Div (Neg (N 8)) (N 9)); (116%nat, Div (Neg (N 8)) (N 9)); (117%nat, Div (Neg (N 8)) (N 9)); (119%nat, Div (N 4) (N 9)); (121%nat, Div (N 4) (N 9)); (122%nat, Div (N 16) (N 9)); (123%nat, Div (N 44) (N 9)); (126%nat, Div (N 16) (N 9)); (129%nat, Div (N 16) (N 9)); (139%nat, Div (N 4) (N 9)); (140%nat, Div (N 4) (N 9)); (141%nat, Div (N 4) (N 9)); (149%nat, Div (Neg (N 8)) (N 9)); (152%nat, Div (Neg (N 8)) (N 9)); (202%nat, Div (Neg (N 8)) (N 9)); (206%nat, Div (Neg (N 8)) (N 9)); (208%nat, Div (Neg (N 8)) (N 9)); (224%nat, Div (Neg (N 8)) (N 3)); (225%nat, Div (Neg (N 8)) (N 3)); (226%nat, Div (Neg (N 8)) (N 3)); (229%nat, Div (Neg (N 8)) (N 3)); (232%nat, Div (Neg (N 8)) (N 3)); (235%nat, Div (Neg (N 8)) (N 3)); (285%nat, Div (N 4) (N 3)); (287%nat, Div (N 4) (N 3)); (289%nat, Div (N 4) (N 3)); (291%nat, Div (N 4) (N 3)); (293%nat, Div (N 4) (N 3)); (295%nat, Div (N 4) (N 3)); (307%nat, Div (Neg (N 8)) (N 9)); (309%nat, Div (Neg (N 8)) (N 9))];
  [(106%nat, Div (Neg (N 8)) (N 9)); (107%nat, Div (Neg (N 8)) (N 9)); (108%nat, Div (Neg (N 8)) (N 9)); (118%nat, Div (N 16) (N 9)); (119%nat, Div (N 16) (N 9)); (124%nat, Div (Neg (N 4)) (N 9)); (125%nat, Div (N 4) (N 9)); (126%nat, Div (N 4) (N 9)); (127%nat, Div (N 16) (N 9)); (130%nat, Div (N 4) (N 9)); (131%nat, Div (N 4) (N 9)); (132%nat, Div (N 4) (N 9)); (148%nat, Div (Neg (N 8)) (N 9)); (149%nat, Div (Neg (N 8)) (N 9)); (200%nat, Div (Neg (N 8)) (N 9)); (201%nat, Div (Neg (N 8)) (N 9)); (202%nat, Div (Neg (N 8)) (N 9)); (218%nat, Div (Neg (N 8)) (N 3)); (219%nat, Div (Neg (N 8)) (N 3)); (220%nat, Div (Neg (N 8)) (N 3)); (227%nat, Div (Neg (N 8)) (N 3)); (230%nat, Div (Neg (N 8)) (N 3)); (233%nat, Div (Neg (N 8)) (N 3)); (278%nat, Div (N 4) (N 3)); (280%nat, Div (N 4) (N 3)); (282%nat, Div (N 4) (N 3)); (296%nat, Div (N 4) (N 3)); (297%nat, Div (N 4) (N 3)); (298%nat, Div (N 4) (N 3)); (302%nat, Div (Neg (N 8)) (N 9)); (303%nat, Div (Neg (N 8)) (N 9))];
  [(111%nat, Div (Neg (N 8)) (N 9)); (112%nat, Div (Neg (N 8)) (N 9)); (113%nat, Div (Neg (N 8)) (N 9)); (120%nat, Div (N 16) (N 9)); (121%nat, Div (N 16) (N 9)); (124%nat, Div (N 4) (N 9)); (125%nat, Div (Neg (N 4)) (N 9)); (126%nat, Div (N 4) (N 9)); (128%nat, Div (N 16) (N 9)); (130%nat, Div (N 4) (N 9)); (131%nat, Div (N 4) (N 9)); (132%nat, Div (N 4) (N 9)); (148%nat, Div (Neg (N 8)) (N 9)); (149%nat, Div (Neg (N 8)) (N 9)); (201%nat, Div (Neg (N 8)) (N 9)); (205%nat, Div (Neg (N 8)) (N 9)); (206%nat, Div (Neg (N 8)) (N 9)); (221%nat, Div (Neg (N 8)) (N 3)); (222%nat, Div (Neg (N 8)) (N 3)); (223%nat, Div (Neg (N 8)) (N 3)); (228%nat, Div (Neg (N 8)) (N 3)); (231%nat, Div (Neg (N 8)) (N 3)); (234%nat, Div (Neg (N 8)) (N 3)); (278%nat, Div (N 4) (N 3)); (280%nat, Div (N 4) (N 3)); (282%nat, Div (N 4) (N 3)); (296%nat, Div (N 4) (N 3)); (297%nat, Div (N 4) (N 3)); (298%nat, Div (N 4) (N 3)); (302%nat, Div (Neg (N 8)) (N 9)); (303%nat, Div (Neg (N 8)) (N 9))];
  [(115%nat, Div (Neg (N 8)) (N 9)); (116%nat, Div (Neg (N 8)) (N 9)); (117%nat, Div (Neg (N 8)) (N 9)); (122%nat, Div (N 16) (N 9)); (123%nat, Div (N 16) (N 9)); (124%nat, Div (N 4) (N 9)); (125%nat, Div (N 4) (N 9)); (126%nat, Div (Neg (N 4)) (N 9)); (129%nat, Div (N 16) (N 9)); (130%nat, Div (N 4) (N 9)); (131%nat, Div (N 4) (N 9)); (132%nat, Div (N 4) (N 9)); (148%nat, Div (Neg (N 8)) (N 9)); (149%nat, Div (Neg (N 8)) (N 9)); (202%nat, Div (Neg (N 8)) (N 9)); (206%nat, Div (Neg (N 8)) (N 9)); (208%nat, Div (Neg (N 8)) (N 9)); (224%nat, Div (Neg (N 8)) (N 3)); (225%nat, Div (Neg (N 8)) (N 3)); (226%nat, Div (Neg (N 8)) (N 3)); (229%nat, Div (Neg (N 8)) (N 3)); (232%nat, Div (Neg (N 8)) (N 3)); (235%nat, Div (Neg (N 8)) (N 3)); (278%nat, Div (N 4) (N 3)); (280%nat, Div (N 4) (N 3)); (282%nat, Div (N 4) (N 3)); (296%nat, Div (N 4) (N 3)); (297%nat, Div (N 4) (N 3)); (298%nat, Div (N 4) (N 3)); (302%nat, Div (Neg (N 8)) (N 9)); (303%nat, Div (Neg (N 8)) (N 9))];
  [(106%nat, Div (Neg (N 8)) (N 9)); (107%nat, Div (Neg (N 8)) (N 9)); (108%nat, Div (Neg (N 8)) (N 9)); (118%nat, Div (N 16) (N 9)); (119%nat, Div (N 16) (N 9)); (124%nat, Div (N 16) (N 9)); (127%nat, Div (Neg (N 4)) (N 9)); (128%nat, Div (N 4) (N 9)); (129%nat, Div (N 4) (N 9)); (133%nat, Div (N 4) (N 9)); (134%nat, Div (N 4) (N 9)); (135%nat, Div (N 4) (N 9)); (151%nat, Div (Neg (N 8)) (N 9)); (152%nat, Div (Neg (N 8)) (N 9)); (200%nat, Div (Neg (N 8)) (N 9)); (201%nat, Div (Neg (N 8)) (N 9)); (202%nat, Div (Neg (N 8)) (N 9)); (218%nat, Div (Neg (N 8)) (N 3)); (219%nat, Div (Neg (N 8)) (N 3)); (220%nat, Div (Neg (N 8)) (N 3)); (227%nat, Div (Neg (N 8)) (N 3)); (230%nat, Div (Neg (N 8)) (N 3)); (233%nat, Div (Neg (N 8)) (N 3)); (279%nat, Div (N 4) (N 3)); (281%nat, Div (N 4) (N 3)); (283%nat, Div (N 4) (N 3)); (299%nat, Div (N 4) (N 3)); (300%nat, Div (N 4) (N 3)); (301%nat, Div (N 4) (N 3)); (303%nat, Div (Neg (N 8)) (N 9)); (305%nat, Div (Neg (N 8)) (N 9))];
  [(111%nat, Div (Neg (N 8)) (N 9)); (112%nat, Div (Neg (N 8)) (N 9)); (113%nat, Div (Neg (N 8)) (N 9)); (120%nat, Div (N 16) (N 9)); (121%nat, Div (N 16) (N 9)); (125%nat, Div (N 16) (N 9)); (127%nat, Div (N 4) (N 9)); (128%nat, Div (Neg (N 4)) (N 9)); (129%nat, Div (N 4) (N 9)); (133%nat, Div (N 4) (N 9)); (134%nat, Div (N 4) (N 9)); (135%nat, Div (N 4) (N 9)); (151%nat, Div (Neg (N 8)) (N 9)); (152%nat, Div (Neg (N 8)) (N 9)); (201%nat, Div (Neg (N 8)) (N 9)); (205%nat, Div (Neg (N 8)) (N 9)); (206%nat, Div (Neg (N 8)) (N 9)); (221%nat, Div (Neg (N 8)) (N 3)); (222%nat, Div (Neg (N 8)) (N 3)); (223%nat, Div (Neg (N 8)) (N 3)); (228%nat, Div (Neg (N 8)) (N 3)); (231%nat, Div (Neg (N 8)) (N 3)); (234%nat, Div (Neg (N 8)) (N 3)); (279%nat, Div (N 4) (N 3)); (281%nat, Div (N 4) (N 3)); (283%nat, Div (N 4) (N 3)); (299%nat, Div (N 4) (N 3)); (300%nat, Div (N 4) (N 3)); (301%nat, Div (N 4) (N 3)); (303%nat, Div (Neg (N 8)) (N 9)); (305%nat, Div (Neg (N 8)) (N 9))];
  [(115%nat, Div (Neg (N 8)) (N 9)); (116%nat, Div (Neg (N 8)) (N 9)); (117%nat, Div (Neg (N 8)) (N 9)); (122%nat, Div (N 16) (N 9)); (123%nat, Div (N 16) (N 9)); (126%nat, Div (N 16) (N 9)); (127%nat, Div (N 4) (N 9)); (128%nat, Div (N 4) (N 9)); (129%nat, Div (Neg (N 4)) (N 9)); (133%nat, Div (N 4) (N 9)); (134%nat, Div (N 4) (N 9)); (135%nat, Div (N 4) (N 9)); (151%nat, Div (Neg (N 8)) (N 9)); (152%nat, Div (Neg (N 8)) (N 9)); (202%nat, Div (Neg (N 8)) (N 9)); (206%nat, Div (Neg (N 8)) (N 9)); (208%nat, Div (Neg (N 8)) (N 9)); (224%nat, Div (Neg (N 8)) (N 3)); (225%nat, Div (Neg (N 8)) (N 3)); (226%nat, Div (Neg (N 8)) (N 3)); (229%nat, Div (Neg (N 8)) (N 3)); (232%nat, Div (Neg (N 8)) (N 3)); (235%nat, Div (Neg (N 8)) (N 3)); (279%nat, Div (N 4) (N 3)); (281%nat, Div (N 4) (N 3)); (283%nat, Div (N 4) (N 3)); (299%nat, Div (N 4) (N 3)); (300%nat, Div (N 4) (N 3)); (301%nat, Div (N 4) (N 3)); (303%nat, Div (Neg (N 8)) (N 9)); (305%nat, Div (Neg (N 8)) (N 9))];
  [(106%nat, Div (Neg (N 8)) (N 9)); (111%nat, Div (Neg (N 8)) (N 9)); (115%nat, Div (Neg (N 8)) (N 9)); (124%nat, Div (N 4) (N 9)); (125%nat, Div (N 4) (N 9)); (126%nat, Div (N 4) (N 9)); (130%nat, Div (N 44) (N 9)); (131%nat, Div (N 4) (N 9)); (132%nat, Div (N 4) (N 9)); (133%nat, Div (N 16) (N 9)); (136%nat, Div (N 16) (N 9)); (139%nat, Div (N 16) (N 9)); (148%nat, Div (Neg (N 8)) (N 9)); (149%nat, Div (Neg (N 8)) (N 9)); (209%nat, Div (Neg (N 8)) (N 9)); (210%nat, Div (Neg (N 8)) (N 9)); (211%nat, Div (Neg (N 8)) (N 9)); (236%nat, Div (Neg (N 8)) (N 3)); (239%nat, Div (Neg (N 8)) (N 3)); (242%nat, Div (Neg (N 8)) (N 3)); (245%nat, Div (Neg (N 8)) (N 3)); (248%nat, Div (Neg (N 8)) (N 3)); (251%nat, Div (Neg (N 8)) (N 3)); (278%nat, Div (N 4) (N 3)); (280%nat, Div (N 4) (N 3)); (282%nat, Div (N 4) (N 3)); (296%nat, Div (N 4) (N 3)); (297%nat, Div (N 4) (N 3)); (298%nat, Div (N 4) (N 3)); (302%nat, Div (Neg (N 8)) (N 9)); (303%nat, Div (Neg (N 8)) (N 9))];
  [(107%nat, Div (Neg (N 8)) (N 9)); (112%nat, Div (Neg (N 8)) (N 9)); (116%nat, Div (Neg (N 8)) (N 9)); (124%nat, Div (N 4) (N 9)); (125%nat, Div (N 4) (N 9)); (126%nat, Div (N 4) (N 9)); (130%nat, Div (N 4) (N 9)); (131%nat, Div (N 44) (N 9)); (132%nat, Div (N 4) (N 9)); (134%nat, Div (N 16) (N 9)); (137%nat, Div (N 16) (N 9)); (140%nat, Div (N 16) (N 9)); (148%nat, Div (Neg (N 8)) (N 9)); (149%nat, Div (Neg (N 8)) (N 9)); (210%nat, Div (Neg (N 8)) (N 9)); (214%nat, Div (Neg (N 8)) (N 9)); (215%nat, Div (Neg (N 8)) (N 9)); (237%nat, Div (Neg (N 8)) (N 3)); (240%nat, Div (Neg (N 8)) (N 3)); (243%nat, Div (Neg (N 8)) (N 3)); (246%nat, Div (Neg (N 8)) (N 3)); (249%nat, Div (Neg (N 8)) (N 3)); (252%nat, Div (Neg (N 8)) (N 3)); (278%nat, Div (N 4) (N 3)); (280%nat, Div (N 4) (N 3)); (282%nat, Div (N 4) (N 3)); (296%nat, Div (N 4) (N 3)); (297%nat, Div (N 4) (N 3)); (298%nat, Div (N 4) (N 3)); (302%nat, Div (Neg (N 8)) (N 9)); (303%nat, Div (Neg (N 8)) (N 9))];
  [(108%nat, Div (Neg (N 8)) (N 9)); (113%nat, Div (Neg (N 8)) (N 9)); (117%nat, Div (Neg (N 8)) (N 9)); (124%nat, Div (N 4) (N 9)); (125%nat, Div (N 4) (N 9)); (126%nat, Div (N 4) (N 9)); (130%nat, Div (N 4) (N 9)); (131%nat, Div (N 4) (N 9)); (132%nat, Div (N 44) (N 9)); (135%nat, Div (N 16) (N 9)); (138%nat, Div (N 16) (N 9)); (141%nat, Div (N 16) (N 9)); (148%nat, Div (Neg (N 8)) (N 9)); (149%nat, Div (Neg (N 8)) (N 9)); (211%nat, Div (Neg (N 8)) (N 9)); (215%nat, Div (Neg (N 8)) (N 9)); (217%nat, Div (Neg (N 8)) (N 9)); (238%nat, Div (Neg (N 8)) (N 3)); (241%nat, Div (Neg (N 8)) (N 3)); (244%nat, Div (Neg (N 8)) (N 3)); (247%nat, Div (Neg (N 8)) (N 3)); (250%nat, Div (Neg (N 8)) (N 3)); (253%nat, Div (Neg (N 8)) (N 3)); (278%nat, Div (N 4) (N 3)); (280%nat, Div (N 4) (N 3)); (282%nat, Div (N 4) (N 3)); (296%nat, Div (N 4) (N 3)); (297%nat, Div (N 4) (N 3)); (298%nat, Div (N 4) (N 3)); (302%nat, Div (Neg (N 8)) (N 9)); (303%nat, Div (Neg (N 8)) (N 9))];
  [(106%nat, Div (Neg (N 8)) (N 9)); (111%nat, Div (Neg (N 8)) (N 9)); (115%nat, Div (Neg (N 8)) (N 9)); (127%nat, Div (N 4) (N 9)); (128%nat, Div (N 4) (N 9)); (129%nat, Div (N 4) (N 9)); (130%nat, Div (N 16) (N 9)); (133%nat, Div (N 44) (N 9)); (134%nat, Div (N 4) (N 9)); (135%nat, Div (N 4) (N 9)); (136%nat, Div (N 16) (N 9)); (139%nat, Div (N 16) (N 9)); (151%nat, Div (Neg (N 8)) (N 9)); (152%nat, Div (Neg (N 8)) (N 9)); (209%nat, Div (Neg (N 8)) (N 9)); (210%nat, Div (Neg (N 8)) (N 9)); (211%nat, Div (Neg (N 8)) (N 9)); (236%nat, Div (Neg (N 8)) (N 3)); (239%nat, Div (Neg (N 8)) (N 3)); (242%nat, Div (Neg (N 8)) (N 3)); (245%nat, Div (Neg (N 8)) (N 3)); (248%nat, Div (Neg (N 8)) (N 3)); (251%nat, Div (Neg (N 8)) (N 3)); (279%nat, Div (N 4) (N 3)); (281%nat, Div (N 4) (N 3)); (283%nat, Div (N 4) (N 3)); (299%nat, Div (N 4) (N 3)); (300%nat, Div (N 4) (N 3)); (301%nat, Div (N 4) (N 3)); (303%nat, Div (Neg (N 8)) (N 9)); (305%nat, Div (Neg (N 8)) (N 9))];
  [(107%nat, Div (Neg (N 8)) (N 9)); (112%nat, Div (Neg (N 8)) (N 9)); (116%nat, Div (Neg (N 8)) (N 9)); (127%nat, Div (N 4) (N 9)); (128%nat, Div (N 4) (N 9)); (129%nat, Div (N 4) (N 9)); (131%nat, Div (N 16) (N 9)); (133%nat, Div (N 4) (N 9)); (134%nat, Div (N 44) (N 9)); (135%nat, Div (N 4) (N 9)); (137%nat, Div (N 16) (N 9)); (140%nat, Div (N 16) (N 9)); (151%nat, Div (Neg (N 8)) (N 9)); (152%nat, Div (Neg (N 8)) (N 9)); (210%nat, Div (Neg (N 8)) (N 9)); (214%nat, Div (Neg (N 8)) (N 9)); (215%nat, Div (Neg (N 8)) (N 9)); (237%nat, Div (Neg (N 8)) (N 3)); (240%nat, Div (Neg (N 8)) (N 3)); (243%nat, Div (Neg (N 8)) (N 3)); (246%nat, Div (Neg (N 8)) (N 3)); (249%nat, Div (Neg (N 8)) (N 3)); (252%nat, Div (Neg (N 8)) (N 3)); (279%nat, Div (N 4) (N 3)); (281%nat, Div (N 4) (N 3)); (283%nat, Div (N 4) (N 3)); (299%nat, Div (N 4) (N 3)); (300%nat, Div (N 4) (N 3)); (301%nat, Div (N 4) (N 3)); (303%nat, Div (Neg (N 8)) (N 9)); (305%nat, Div (Neg (N 8)) (N 9))];
  [(108%nat, Div (Neg (N 8)) (N 9)); (113%nat, Div (Neg (N 8)) (N 9)); (117%nat, Div (Neg (N 8)) (N 9)); (127%nat, Div (N 4) (N 9)); (128%nat, Div (N 4) (N 9)); (129%nat, Div (N 4) (N 9)); (132%nat, Div (N 16) (N 9)); (133%nat, Div (N 4) (N 9)); (134%nat, Div (N 4) (N 9)); (135%nat, Div (N 44) (N 9)); (138%nat, Div (N 16) (N 9)); (141%nat, Div (N 16) (N 9)); (151%nat, Div (Neg (N 8)) (N 9)); (152%nat, Div (Neg (N 8)) (N 9)); (211%nat, Div (Neg (N 8)) (N 9)); (215%nat, Div (Neg (N 8)) (N 9)); (217%nat, Div (Neg (N 8)) (N 9)); (238%nat, Div (Neg (N 8)) (N 3)); (241%nat, Div (Neg (N 8)) (N 3)); (244%nat, Div (Neg (N 8)) (N 3)); (247%nat, Div (Neg (N 8)) (N 3)); (250%nat, Div (Neg (N 8)) (N 3)); (253%nat, Div (Neg (N 8)) (N 3)); (279%nat, Div (N 4) (N 3)); (281%nat, Div (N 4) (N 3)); (283%nat, Div (N 4) (N 3)); (299%nat, Div (N 4) (N 3)); (300%nat, Div (N 4) (N 3)); (301%nat, Div (N 4) (N 3)); (303%nat, Div (Neg (N 8)) (N 9)); (305%nat, Div (Neg (N 8)) (N 9))];
  [(106%nat, Div (Neg (N 8)) (N 9)); (111%nat, Div (Neg (N 8)) (N 9)); (115%nat, Div (Neg (N 8)) (N 9)); (118%nat, Div (N 4) (N 9)); (120%nat, Div (N 4) (N 9)); (122%nat, Div (N 4) (N 9)); (130%nat, Div (N 16) (N 9)); (133%nat, Div (N 16) (N 9)); (136%nat, Div (Neg (N 4)) (N 9)); (137%nat, Div (N 4) (N 9)); (138%nat, Div (N 4) (N 9)); (139%nat, Div (N 16) (N 9)); (148%nat, Div (Neg (N 8)) (N 9)); (151%nat, Div (Neg (N 8)) (N 9)); (209%nat, Div (Neg (N 8)) (N 9)); (210%nat, Div (Neg (N 8)) (N 9)); (211%nat, Div (Neg (N 8)) (N 9)); (236%nat, Div (Neg (N 8)) (N 3)); (239%nat, Div (Neg (N 8)) (N 3)); (242%nat, Div (Neg (N 8)) (N 3)); (245%nat, Div (Neg (N 8)) (N 3)); (248%nat, Div (Neg (N 8)) (N 3)); (251%nat, Div (Neg (N 8)) (N 3)); (284%nat, Div (N 4) (N 3)); (286%nat, Div (N 4) (N 3)); (288%nat, Div (N 4) (N 3)); (290%nat, Div (N 4) (N 3)); (292%nat, Div (N 4) (N 3)); (294%nat, Div (N 4) (N 3)); (306%nat, Div (Neg (N 8)) (N 9)); (307%nat, Div (Neg (N 8)) (N 9))];
  [(107%nat, Div (Neg (N 8)) (N 9)); (112%nat, Div (Neg (N 8)) (N 9)); (116%nat, Div (Neg (N 8)) (N 9)); (118%nat, Div (N 4) (N 9)); (120%nat, Div (N 4) (N 9)); (122%nat, Div (N 4) (N 9)); (131%nat, Div (N 16) (N 9)); (134%nat, Div (N 16) (N 9)); (136%nat, Div (N 4) (N 9)); (137%nat, Div (Neg (N 4)) (N 9)); (138%nat, Div (N 4) (N 9)); (140%nat, Div (N 16) (N 9)); (148%nat, Div (Neg (N 8)) (N 9)); (151%nat, Div (Neg (N 8)) (N 9)); (210%nat, Div (Neg (N 8)) (N 9)); (214%nat, Div (Neg (N 8)) (N 9)); (215%nat, Div (Neg (N 8)) (N 9)); (237%nat, Div (Neg (N 8)) (N 3)); (240%nat, Div (Neg (N 8)) (N 3)); (243%nat, Div (Neg (N 8)) (N 3)); (246%nat, Div (Neg (N 8)) (N 3)); (249%nat, Div (Neg (N 8)) (N 3)); (252%nat, Div (Neg (N 8)) (N 3)); (284%nat, Div (N 4) (N 3)); (286%nat, Div (N 4) (N 3)); (288%nat, Div (N 4) (N 3)); (290%nat, Div (N 4) (N 3)); (292%nat, Div (N 4) (N 3)); (294%nat, Div (N 4) (N 3)); (306%nat, Div (Neg (N 8)) (N 9)); (307%nat, Div (Neg (N 8)) (N 9))];
  [(108%nat, Div (Neg (N 8)) (N 9)); (113%nat, Div (Neg (N 8)) (N 9)); (117%nat, Div (Neg (N 8)) (N 9)); (118%nat, Div (N 4) (N 9)); (120%nat, Div (N 4) (N 9)); (122%nat, Div (N 4) (N 9)); (132%nat, Div (N 16) (N 9)); (135%nat, Div (N 16) (N 9)); (136%nat, Div (N 4) (N 9)); (137%nat, Div (N 4) (N 9)); (138%nat, Div (Neg (N 4)) (N 9)); (141%nat, Div (N 16) (N 9)); (148%nat, Div (Neg (N 8)) (N 9)); (151%nat, Div (Neg (N 8)) (N 9)); (211%nat, Div (Neg (N 8)) (N 9)); (215%nat, Div (Neg (N 8)) (N 9)); (217%nat, Div (Neg (N 8)) (N 9)); (238%nat, Div (Neg (N 8)) (N 3)); (241%nat, Div (Neg (N 8)) (N 3)); (244%nat, Div (Neg (N 8)) (N 3)); (247%nat, Div (Neg (N 8)) (N 3)); (250%nat, Div (Neg (N 8)) (N 3)); (253%nat, Div (Neg (N 8)) (N 3)); (284%nat, Div (N 4) (N 3)); (286%nat, Div (N 4) (N 3)); (288%nat, Div (N 4) (N 3)); (290%nat, Div (N 4) (N 3)); (292%nat, Div (N 4) (N 3)); (294%nat, Div (N 4) (N 3)); (306%nat, Div (Neg (N 8)) (N 9)); (307%nat, Div (Neg (N 8)) (N 9))];
  [(106%nat, Div (Neg (N 8)) (N 9)); (111%nat, Div (Neg (N 8)) (N 9)); (115%nat, Div (Neg (N 8)) (N 9)); (119%nat, Div (N 4) (N 9)); (121%nat, Div (N 4) (N 9)); (123%nat, Div (N 4) (N 9)); (130%nat, Div (N 16) (N 9)); (133%nat, Div (N 16) (N 9)); (136%nat, Div (N 16) (N 9)); (139%nat, Div (Neg (N 4)) (N 9)); (140%nat, Div (N 4) (N 9)); (141%nat, Div (N 4) (N 9)); (149%nat, Div (Neg (N 8)) (N 9)); (152%nat, Div (Neg (N 8)) (N 9)); (209%nat, Div (Neg (N 8)) (N 9)); (210%nat, Div (Neg (N 8)) (N 9)); (211%nat, Div (Neg (N 8)) (N 9)); (236%nat, Div (Neg (N 8)) (N 3)); (239%nat, Div (Neg (N 8)) (N 3)); (242%nat, Div (Neg (N 8)) (N 3)); (245%nat, Div (Neg (N 8)) (N 3)); (248%nat, Div (Neg (N 8)) (N 3)); (251%nat, Div (Neg (N 8)) (N 3)); (285%nat, Div (N 4) (N 3)); (287%nat, Div (N 4) (N 3)); (289%nat, Div (N 4) (N 3)); (291%nat, Div (N 4) (N 3)); (293%nat, Div (N 4) (N 3)); (295%nat, Div (N 4) (N 3)); (307%nat, Div (Neg (N 8)) (N 9)); (309%nat, Div (Neg (N 8)) (N 9))];
  [(107%nat, Div (Neg (N 8)) (N 9)); (112%nat, Div (Neg (N 8)) (N 9)); (116%nat, Div (Neg (N 8)) (N 9)); (119%nat, Div (N 4) (N 9)); (121%nat, Div (N 4) (N 9)); (123%nat, Div (N 4) (N 9)); (131%nat, Div (N 16) (N 9)); (134%nat, Div (N 16) (N 9)); (137%nat, Div (N 16) (N 9)); (139%nat, Div (N 4) (N 9)); (140%nat, Div (Neg (N 4)) (N 9)); (141%nat, Div (N 4) (N 9)); (149%nat, Div (Neg (N 8)) (N 9)); (152%nat, Div (Neg (N 8)) (N 9)); (210%nat, Div (Neg (N 8)) (N 9)); (214%nat, Div (Neg (N 8)) (N 9)); (215%nat, Div (Neg (N 8)) (N 9)); (237%nat, Div (Neg (N 8)) (N 3)); (240%nat, Div (Neg (N 8)) (N 3)); (243%nat, Div (Neg (N 8)) (N 3)); (246%nat, Div (Neg (N 8)) (N 3)); (249%nat, Div (Neg (N 8)) (N 3)); (252%nat, Div (Neg (N 8)) (N 3)); (285%nat, Div (N 4) (N 3)); (287%nat, Div (N 4) (N 3)); (289%nat, Div (N 4) (N 3)); (291%nat, Div (N 4) (N 3)); (293%nat, Div (N 4) (N 3)); (295%nat, Div (N 4) (N 3)); (307%nat, Div (Neg (N 8)) (N 9)); (309%nat, Div (Neg (N 8)) (N 9))];
  [(108%nat, Div (Neg (N 8)) (N 9)); (113%nat, Div (Neg (N 8)) (N 9)); (117%nat, Div (Neg (N 8)) (N 9)); (119%nat, Div (N 4) (N 9)); (121%nat, Div (N 4) (N 9)); (123%nat, Div (N 4) (N 9)); (132%nat, Div (N 16) (N 9)); (135%nat, Div (N 16) (N 9)); (138%nat, Div (N 16) (N 9)); (139%nat, Div (N 4) (N 9)); (140%nat, Div (N 4) (N 9)); (141%nat, Div (Neg (N 4)) (N 9)); (149%nat, Div (Neg (N 8)) (N 9)); (152%nat, Div (Neg (N 8)) (N 9)); (211%nat, Div (Neg (N 8)) (N 9)); (215%nat, Div (Neg (N 8)) (N 9)); (217%nat, Div (Neg (N 8)) (N 9)); (238%nat, Div (Neg (N 8)) (N 3)); (241%nat, Div (Neg (N 8)) (N 3)); (244%nat, Div (Neg (N 8)) (N 3)); (247%nat, Div (Neg (N 8)) (N 3)); (250%nat, Div (Neg (N 8)) (N 3)); (253%nat, Div (Neg (N 8)) (N 3)); (285%nat, Div (N 4) (N 3)); (287%nat, Div (N 4) (N 3)); (289%nat, Div (N 4) (N 3)); (291%nat, Div (N 4) (N 3)); (293%nat, Div (N 4) (N 3)); (295%nat, Div (N 4) (N 3)); (307%nat, Div (Neg (N 8)) (N 9)); (309%nat, Div (Neg (N 8)) (N 9))];
  [(142%nat, Div (Neg (N 10)) (N 3))];
  [(143%nat, Div (Neg (N 10)) (N 3))];
  [(144%nat, Div (Neg (N 10)) (N 3))];
  [(145%nat, Div (Neg (N 10)) (N 3))];
  [(146%nat, Div (Neg (N 10)) (N 3))];
  [(147%nat, Div (Neg (N 10)) (N 3))];
  [(118%nat, Div (Neg (N 8)) (N 9)); (120%nat, Div (Neg (N 8)) (N 9)); (122%nat, Div (Neg (N 8)) (N 9)); (124%nat, Div (Neg (N 8)) (N 9)); (125%nat, Div (Neg (N 8)) (N 9)); (126%nat, Div (Neg (N 8)) (N 9)); (130%nat, Div (Neg (N 8)) (N 9)); (131%nat, Div (Neg (N 8)) (N 9)); (132%nat, Div (Neg (N 8)) (N 9)); (136%nat, Div (Neg (N 8)) (N 9)); (137%nat, Div (Neg (N 8)) (N 9)); (138%nat, Div (Neg (N 8)) (N 9)); (148%nat, Div (Neg (N 16)) (N 9)); (149%nat, Div (N 16) (N 9)); (151%nat, Div (N 16) (N 9)); (278%nat, Div (Neg (N 8)) (N 3)); (280%nat, Div (Neg (N 8)) (N 3)); (282%nat, Div (Neg (N 8)) (N 3)); (284%nat, Div (Neg (N 8)) (N 3)); (286%nat, Div (Neg (N 8)) (N 3)); (288%nat, Div (Neg (N 8)) (N 3)); (290%nat, Div (Neg (N 8)) (N 3)); (292%nat, Div (Neg (N 8)) (N 3)); (294%nat, Div (Neg (N 8)) (N 3)); (296%nat, Div (Neg (N 8)) (N 3)); (297%nat, Div (Neg (N 8)) (N 3)); (298%nat, Div (Neg (N 8)) (N 3)); (302%nat, Div (N 16) (N 9)); (303%nat, Div (N 16) (N 9)); (306%nat, Div (N 16) (N 9)); (307%nat, Div (N 16) (N 9))];
  [(119%nat, Div (Neg (N 8)) (N 9)); (121%nat, Div (Neg (N 8)) (N 9)); (123%nat, Div (Neg (N 8)) (N 9)); (124%nat, Div (Neg (N 8)) (N 9)); (125%nat, Div (Neg (N 8)) (N 9)); (126%nat, Div (Neg (N 8)) (N 9)); (130%nat, Div (Neg (N 8)) (N 9)); (131%nat, Div (Neg (N 8)) (N 9)); (132%nat, Div (Neg (N 8)) (N 9)); (139%nat, Div (Neg (N 8)) (N 9)); (140%nat, Div (Neg (N 8)) (N 9)); (141%nat, Div (Neg (N 8)) (N 9)); (148%nat, Div (N 16) (N 9)); (149%nat, Div (Neg (N 16)) (N 9)); (152%nat, Div (N 16) (N 9)); (278%nat, Div (Neg (N 8)) (N 3)); (280%nat, Div (Neg (N 8)) (N 3)); (282%nat, Div (Neg (N 8)) (N 3)); (285%nat, Div (Neg (N 8)) (N 3)); (287%nat, Div (Neg (N 8)) (N 3)); (289%nat, Div (Neg (N 8)) (N 3)); (291%nat, Div (Neg (N 8)) (N 3)); (293%nat, Div (Neg (N 8)) (N 3)); (295%nat, Div (Neg (N 8)) (N 3)); (296%nat, Div (Neg (N 8)) (N 3)); (297%nat, Div (Neg (N 8)) (N 3)); (298%nat, Div (Neg (N 8)) (N 3)); (302%nat, Div (N 16) (N 9)); (303%nat, Div (N 16) (N 9)); (307%nat, Div (N 16) (N 9)); (309%nat, Div (N 16) (N 9))];
  [(150%nat, Div (Neg (N 16)) (N 3))];
  [(118%nat, Div (Neg (N 8)) (N 9)); (120%nat, Div (Neg (N 8)) (N 9)); (122%nat, Div (Neg (N 8)) (N 9)); (127%nat, Div (Neg (N 8)) (N 9)); (128%nat, Div (Neg (N 8)) (N 9)); (129%nat, Div (Neg (N 8)) (N 9)); (133%nat, Div (Neg (N 8)) (N 9)); (134%nat, Div (Neg (N 8)) (N 9)); (135%nat, Div (Neg (N 8)) (N 9)); (136%nat, Div (Neg (N 8)) (N 9)); (137%nat, Div (Neg (N 8)) (N 9)); (138%nat, Div (Neg (N 8)) (N 9)); (148%nat, Div (N 16) (N 9)); (151%nat, Div (Neg (N 16)) (N 9)); (152%nat, Div (N 16) (N 9)); (279%nat, Div (Neg (N 8)) (N 3)); (281%nat, Div (Neg (N 8)) (N 3)); (283%nat, Div (Neg (N 8)) (N 3)); (284%nat, Div (Neg (N 8)) (N 3)); (286%nat, Div (Neg (N 8)) (N 3)); (288%nat, Div (Neg (N 8)) (N 3)); (290%nat, Div (Neg (N 8)) (N 3)); (292%nat, Div (Neg (N 8)) (N 3)); (294%nat, Div (Neg (N 8)) (N 3)); (299%nat, Div (Neg (N 8)) (N 3)); (300%nat, Div (Neg (N 8)) (N 3)); (301%nat, Div (Neg (N 8)) (N 3)); (303%nat, Div (N 16) (N 9)); (305%nat, Div (N 16) (N 9)); (306%nat, Div (N 16) (N 9)); (307%nat, Div (N 16) (N 9))];
  [(119%nat, Div (Neg (N 8)) (N 9)); (121%nat, Div (Neg (N 8)) (N 9)); (123%nat, Div (Neg (N 8)) (N 9)); (127%nat, Div (Neg (N 8)) (N 9)); (128%nat, Div (Neg (N 8)) (N 9)); (129%nat, Div (Neg (N 8)) (N 9)); (133%nat, Div (Neg (N 8)) (N 9)); (134%nat, Div (Neg (N 8)) (N 9)); (135%nat, Div (Neg (N 8)) (N 9)); (139%nat, Div (Neg (N 8)) (N 9)); (140%nat, Div (Neg (N 8)) (N 9)); (141%nat, Div (Neg (N 8)) (N 9)); (149%nat, Div (N 16) (N 9)); (151%nat, Div (N 16) (N 9)); (152%nat, Div (Neg (N 16)) (N 9)); (279%nat, Div (Neg (N 8)) (N 3)); (281%nat, Div (Neg (N 8)) (N 3)); (283%nat, Div (Neg (N 8)) (N 3)); (285%nat, Div (Neg (N 8)) (N 3)); (287%nat, Div (Neg (N 8)) (N 3)); (289%nat, Div (Neg (N 8)) (N 3)); (291%nat, Div (Neg (N 8)) (N 3)); (293%nat, Div (Neg (N 8)) (N 3)); (295%nat, Div (Neg (N 8)) (N 3)); (299%nat, Div (Neg (N 8)) (N 3)); (300%nat, Div (Neg (N 8)) (N 3)); (301%nat, Div (Neg (N 8)) (N 3)); (303%nat, Div (N 16) (N 9)); (305%nat, Div (N 16) (N 9)); (307%nat, Div (N 16) (N 9)); (309%nat, Div (N 16) (N 9))];
  [(153%nat, Div (Neg (N 4)) (N 3))];
  [(154%nat, Div (Neg (N 4)) (N 3))];
  [(155%nat, Div (Neg (N 4)) (N 3))];
  [(156%nat, Div (Neg (N 4)) (N 3))];
  [(157%nat, Div (Neg (N 4)) (N 3))];
  [(158%nat, Div (Neg (N 4)) (N 3))];
  [(159%nat, Div (Neg (N 4)) (N 3))];
  [(160%nat, Div (Neg (N 4)) (N 3))];
  [(161%nat, Div (Neg (N 4)) (N 3))];
  [(162%nat, Div (Neg (N 4)) (N 3))];
  [(163%nat, Div (Neg (N 4)) (N 3))];
  [(164%nat, Div (Neg (N 4)) (N 3))];
  [(165%nat, Div (N 8) (N 3))];
  [(166%nat, Div (N 8) (N 3))];
  [(167%nat, Div (N 8) (N 3))];
  [(168%nat, Div (N 8) (N 3))];
  [(169%nat, Div (N 8) (N 3))];
  [(170%nat, Div (N 8) (N 3))];
  [(171%nat, Div (Neg (N 8)) (N 3))];
  [(172%nat, Div (Neg (N 8)) (N 3))];
  [(173%nat, Div (Neg (N 8)) (N 3))];
  [(174%nat, Div (Neg (N 8)) (N 3))];
  [(175%nat, Div (Neg (N 8)) (N 3))];
  [(176%nat, Div (Neg (N 8)) (N 3))];
  [(177%nat, Div (N 8) (N 3))];
  [(178%nat, Div (N 8) (N 3))];
  [(179%nat, Div (N 8) (N 3))];
  [(180%nat, Div (N 8) (N 3))];
  [(181%nat, Div (N 8) (N 3))];
  [(182%nat, Div (N 8) (N 3))];
  [(183%nat, Div (Neg (N 8)) (N 3))];
  [(184%nat, Div (Neg (N 8)) (N 3))];
  [(185%nat, Div (Neg (N 8)) (N 3))];
  [(186%nat, Div (Neg (N 8)) (N 3))];
  [(187%nat, Div (Neg (N 8)) (N 3))];
  [(188%nat, Div (Neg (N 8)) (N 3))];
  [(189%nat, Div (Neg (N 10)) (N 3))];
  [(190%nat, Div (Neg (N 10)) (N 3))];
  [(191%nat, Div (Neg (N 10)) (N 3))];
  [(192%nat, Div (Neg (N 10)) (N 3))];
  [(193%nat, Div (Neg (N 10)) (N 3))];
  [(194%nat, Div (Neg (N 10)) (N 3))];
  [(195%nat, Div (Neg (N 16)) (N 3))];
  [(196%nat, Div (Neg (N 16)) (N 3))];
  [(197%nat, Div (Neg (N 16)) (N 3))];
  [(198%nat, Div (Neg (N 16)) (N 3))];
  [(199%nat, Div (Neg (N 16)) (N 3))];
  [(106%nat, Div (N 32) (N 27)); (107%nat, Div (N 32) (N 27)); (108%nat, Div (N 32) (N 27)); (118%nat, Div (Neg (N 64)) (N 27)); (119%nat, Div (Neg (N 64)) (N 27)); (124%nat, Div (Neg (N 64)) (N 27)); (127%nat, Div (Neg (N 64)) (N 27)); (200%nat, Div (N 68) (N 27)); (201%nat, Div (N 32) (N 27)); (202%nat, Div (N 32) (N 27)); (218%nat, Div (N 32) (N 9)); (219%nat, Div (N 32) (N 9)); (220%nat, Div (N 32) (N 9)); (227%nat, Div (N 32) (N 9)); (230%nat, Div (N 32) (N 9)); (233%nat, Div (N 32) (N 9))];
  [(106%nat, Div (N 4) (N 9)); (107%nat, Div (N 4) (N 9)); (108%nat, Div (N 4) (N 9)); (111%nat, Div (N 4) (N 9)); (112%nat, Div (N 4) (N 9)); (113%nat, Div (N 4) (N 9)); (118%nat, Div (Neg (N 8)) (N 9)); (119%nat, Div (Neg (N 8)) (N 9)); (120%nat, Div (Neg (N 8)) (N 9)); (121%nat, Div (Neg (N 8)) (N 9)); (124%nat, Div (Neg (N 8)) (N 9)); (125%nat, Div (Neg (N 8)) (N 9)); (127%nat, Div (Neg (N 8)) (N 9)); (128%nat, Div (Neg (N 8)) (N 9)); (200%nat, Div (N 4) (N 9)); (201%nat, Div (N 20) (N 9)); (202%nat, Div (N 4) (N 9)); (205%nat, Div (N 4) (N 9)); (206%nat, Div (N 4) (N 9)); (218%nat, Div (N 4) (N 3)); (219%nat, Div (N 4) (N 3)); (220%nat, Div (N 4) (N 3)); (221%nat, Div (N 4) (N 3)); (222%nat, Div (N 4) (N 3)); (223%nat, Div (N 4) (N 3)); (227%nat, Div (N 4) (N 3)); (228%nat, Div (N 4) (N 3)); (230%nat, Div (N 4) (N 3)); (231%nat, Div (N 4) (N 3)); (233%nat, Div (N 4) (N 3)); (234%nat, Div (N 4) (N 3))];
  [(106%nat, Div (N 4) (N 9)); (107%nat, Div (N 4) (N 9)); (108%nat, Div (N 4) (N 9)); (115%nat, Div (N 4) (N 9)); (116%nat, Div (N 4) (N 9)); (117%nat, Div (N 4) (N 9)); (118%nat, Div (Neg (N 8)) (N 9)); (119%nat, Div (Neg (N 8)) (N 9)); (122%nat, Div (Neg (N 8)) (N 9)); (123%nat, Div (Neg (N 8)) (N 9)); (124%nat, Div (Neg (N 8)) (N 9)); (126%nat, Div (Neg (N 8)) (N 9)); (127%nat, Div (Neg (N 8)) (N 9)); (129%nat, Div (Neg (N 8)) (N 9)); (200%nat, Div (N 4) (N 9)); (201%nat, Div (N 4) (N 9)); (202%nat, Div (N 20) (N 9)); (206%nat, Div (N 4) (N 9)); (208%nat, Div (N 4) (N 9)); (218%nat, Div (N 4) (N 3)); (219%nat, Div (N 4) (N 3)); (220%nat, Div (N 4) (N 3)); (224%nat, Div (N 4) (N 3)); (225%nat, Div (N 4) (N 3)); (226%nat, Div (N 4) (N 3)); (227%nat, Div (N 4) (N 3)); (229%nat, Div (N 4) (N 3)); (230%nat, Div (N 4) (N 3)); (232%nat, Div (N 4) (N 3)); (233%nat, Div (N 4) (N 3)); (235%nat, Div (N 4) (N 3))];
  [(106%nat, Div (N 4) (N 27)); (107%nat, Div (N 4) (N 27)); (108%nat, Div (N 4) (N 27)); (111%nat, Div (N 4) (N 27)); (112%nat, Div (N 4) (N 27)); (113%nat, Div (N 4) (N 27)); (118%nat, Div (Neg (N 8)) (N 27)); (119%nat, Div (Neg (N 8)) (N 27)); (120%nat, Div (Neg (N 8)) (N 27)); (121%nat, Div (Neg (N 8)) (N 27)); (124%nat, Div (Neg (N 8)) (N 27)); (125%nat, Div (Neg (N 8)) (N 27)); (127%nat, Div (Neg (N 8)) (N 27)); (128%nat, Div (Neg (N 8)) (N 27)); (200%nat, Div (N 4) (N 27)); (201%nat, Div (N 8) (N 27)); (202%nat, Div (N 4) (N 27)); (203%nat, Div (N 4) (N 3)); (205%nat, Div (N 4) (N 27)); (206%nat, Div (N 4) (N 27)); (218%nat, Div (N 4) (N 9)); (219%nat, Div (N 4) (N 9)); (220%nat, Div (N 4) (N 9)); (221%nat, Div (N 4) (N 9)); (222%nat, Div (N 4) (N 9)); (223%nat, Div (N 4) (N 9)); (227%nat, Div (N 4) (N 9)); (228%nat, Div (N 4) (N 9)); (230%nat, Div (N 4) (N 9)); (231%nat, Div (N 4) (N 9)); (233%nat, Div (N 4) (N 9)); (234%nat, Div (N 4) (N 9))];
  [(106%nat, Div (N 4) (N 27)); (107%nat, Div (N 4) (N 27)); (108%nat, Div (N 4) (N 27)); (115%nat, Div (N 4) (N 27)); (116%nat, Div (N 4) (N 27)); (117%nat, Div (N 4) (N 27)); (118%nat, Div (Neg (N 8)) (N 27)); (119%nat, Div (Neg (N 8)) (N 27)); (122%nat, Div (Neg (N 8)) (N 27)); (123%nat, Div (Neg (N 8)) (N 27)); (124%nat, Div (Neg (N 8)) (N 27)); (126%nat, Div (Neg (N 8)) (N 27)); (127%nat, Div (Neg (N 8)) (N 27)); (129%nat, Div (Neg (N 8)) (N 27)); (200%nat, Div (N 4) (N 27)); (201%nat, Div (N 4) (N 27)); (202%nat, Div (N 8) (N 27)); (204%nat, Div (N 4) (N 3)); (206%nat, Div (N 4) (N 27)); (208%nat, Div (N 4) (N 27)); (218%nat, Div (N 4) (N 9)); (219%nat, Div (N 4) (N 9)); (220%nat, Div (N 4) (N 9)); (224%nat, Div (N 4) (N 9)); (225%nat, Div (N 4) (N 9)); (226%nat, Div (N 4) (N 9)); (227%nat, Div (N 4) (N 9)); (229%nat, Div (N 4) (N 9)); (230%nat, Div (N 4) (N 9)); (232%nat, Div (N 4) (N 9)); (233%nat, Div (N 4) (N 9)); (235%nat, Div (N 4) (N 9))];
  [(111%nat, Div (N 32) (N 27)); (112%nat, Div (N 32) (N 27)); (113%nat, Div (N 32) (N 27)); (120%nat, Div (Neg (N 64)) (N 27)); (121%nat, Div (Neg (N 64)) (N 27)); (125%nat, Div (Neg (N 64)) (N 27)); (128%nat, Div (Neg (N 64)) (N 27)); (201%nat, Div (N 32) (N 27)); (205%nat, Div (N 68) (N 27)); (206%nat, Div (N 32) (N 27)); (221%nat, Div (N 32) (N 9)); (222%nat, Div (N 32) (N 9)); (223%nat, Div (N 32) (N 9)); (228%nat, Div (N 32) (N 9)); (231%nat, Div (N 32) (N 9)); (234%nat, Div (N 32) (N 9))];
  [(111%nat, Div (N 4) (N 9)); (112%nat, Div (N 4) (N 9)); (113%nat, Div (N 4) (N 9)); (115%nat, Div (N 4) (N 9)); (116%nat, Div (N 4) (N 9)); (117%nat, Div (N 4) (N 9)); (120%nat, Div (Neg (N 8)) (N 9)); (121%nat, Div (Neg (N 8)) (N 9)); (122%nat, Div (Neg (N 8)) (N 9)); (123%nat, Div (Neg (N 8)) (N 9)); (125%nat, Div (Neg (N 8)) (N 9)); (126%nat, Div (Neg (N 8)) (N 9)); (128%nat, Div (Neg (N 8)) (N 9)); (129%nat, Div (Neg (N 8)) (N 9)); (201%nat, Div (N 4) (N 9)); (202%nat, Div (N 4) (N 9)); (205%nat, Div (N 4) (N 9)); (206%nat, Div (N 20) (N 9)); (208%nat, Div (N 4) (N 9)); (221%nat, Div (N 4) (N 3)); (222%nat, Div (N 4) (N 3)); (223%nat, Div (N 4) (N 3)); (224%nat, Div (N 4) (N 3)); (225%nat, Div (N 4) (N 3)); (226%nat, Div (N 4) (N 3)); (228%nat, Div (N 4) (N 3)); (229%nat, Div (N 4) (N 3)); (231%nat, Div (N 4) (N 3)); (232%nat, Div (N 4) (N 3)); (234%nat, Div (N 4) (N 3)); (235%nat, Div (N 4) (N 3))];
  [(111%nat, Div (N 4) (N 27)); (112%nat, Div (N 4) (N 27)); (113%nat, Div (N 4) (N 27)); (115%nat, Div (N 4) (N 27)); (116%nat, Div (N 4) (N 27)); (117%nat, Div (N 4) (N 27)); (120%nat, Div (Neg (N 8)) (N 27)); (121%nat, Div (Neg (N 8)) (N 27)); (122%nat, Div (Neg (N 8)) (N 27)); (123%nat, Div (Neg (N 8)) (N 27)); (125%nat, Div (Neg (N 8)) (N 27)); (126%nat, Div (Neg (N 8)) (N 27)); (128%nat, Div (Neg (N 8)) (N 27)); (129%nat, Div (Neg (N 8)) (N 27)); (201%nat, Div (N 4) (N 27)); (202%nat, Div (N 4) (N 27)); (205%nat, Div (N 4) (N 27)); (206%nat, Div (N 8) (N 27)); (207%nat, Div (N 4) (N 3)); (208%nat, Div (N 4) (N 27)); (221%nat, Div (N 4) (N 9)); (222%nat, Div (N 4) (N 9)); (223%nat, Div (N 4) (N 9)); (224%nat, Div (N 4) (N 9)); (225%nat, Div (N 4) (N 9)); (226%nat, Div (N 4) (N 9)); (228%nat, Div (N 4) (N 9)); (229%nat, Div (N 4) (N 9)); (231%nat, Div (N 4) (N 9)); (232%nat, Div (N 4) (N 9)); (234%nat, Div (N 4) (N 9)); (235%nat, Div (N 4) (N 9))];
  [(115%nat, Div (N 32) (N 27)); (116%nat, Div (N 32) (N 27)); (117%nat, Div (N 32) (N 27)); (122%nat, Div (Neg (N 64)) (N 27)); (123%nat, Div (Neg (N 64)) (N 27)); (126%nat, Div (Neg (N 64)) (N 27)); (129%nat, Div (Neg (N 64)) (N 27)); (202%nat, Div (N 32) (N 27)); (206%nat, Div (N 32) (N 27)); (208%nat, Div (N 68) (N 27)); (224%nat, Div (N 32) (N 9)); (225%nat, Div (N 32) (N 9)); (226%nat, Div (N 32) (N 9)); (229%nat, Div (N 32) (N 9)); (232%nat, Div (N 32) (N 9)); (235%nat, Div (N 32) (N 9))];
  [(106%nat, Div (N 32) (N 27)); (111%nat, Div (N 32) (N 27)); (115%nat, Div (N 32) (N 27)); (130%nat, Div (Neg (N 64)) (N 27)); (133%nat, Div (Neg (N 64)) (N 27)); (136%nat, Div (Neg (N 64)) (N 27)); (139%nat, Div (Neg (N 64)) (N 27)); (209%nat, Div (N 68) (N 27)); (210%nat, Div (N 32) (N 27)); (211%nat, Div (N 32) (N 27)); (236%nat, Div (N 32) (N 9)); (239%nat, Div (N 32) (N 9)); (242%nat, Div (N 32) (N 9)); (245%nat, Div (N 32) (N 9)); (248%nat, Div (N 32) (N 9)); (251%nat, Div (N 32) (N 9))];
  [(106%nat, Div (N 4) (N 9)); (107%nat, Div (N 4) (N 9)); (111%nat, Div (N 4) (N 9)); (112%nat, Div (N 4) (N 9)); (115%nat, Div (N 4) (N 9)); (116%nat, Div (N 4) (N 9)); (130%nat, Div (Neg (N 8)) (N 9)); (131%nat, Div (Neg (N 8)) (N 9)); (133%nat, Div (Neg (N 8)) (N 9)); (134%nat, Div (Neg (N 8)) (N 9)); (136%nat, Div (Neg (N 8)) (N 9)); (137%nat, Div (Neg (N 8)) (N 9)); (139%nat, Div (Neg (N 8)) (N 9)); (140%nat, Div (Neg (N 8)) (N 9)); (209%nat, Div (N 4) (N 9)); (210%nat, Div (N 20) (N 9)); (211%nat, Div (N 4) (N 9)); (214%nat, Div (N 4) (N 9)); (215%nat, Div (N 4) (N 9)); (236%nat, Div (N 4) (N 3)); (237%nat, Div (N 4) (N 3)); (239%nat, Div (N 4) (N 3)); (240%nat, Div (N 4) (N 3)); (242%nat, Div (N 4) (N 3)); (243%nat, Div (N 4) (N 3)); (245%nat, Div (N 4) (N 3)); (246%nat, Div (N 4) (N 3)); (248%nat, Div (N 4) (N 3)); (249%nat, Div (N 4) (N 3)); (251%nat, Div (N 4) (N 3)); (252%nat, Div (N 4) (N 3))];
  [(106%nat, Div (N 4) (N 9)); (108%nat, Div (N 4) (N 9)); (111%nat, Div (N 4) (N 9)); (113%nat, Div (N 4) (N 9)); (115%nat, Div (N 4) (N 9)); (117%nat, Div (N 4) (N 9)); (130%nat, Div (Neg (N 8)) (N 9)); (132%nat, Div (Neg (N 8)) (N 9)); (133%nat, Div (Neg (N 8)) (N 9)); (135%nat, Div (Neg (N 8)) (N 9)); (136%nat, Div (Neg (N 8)) (N 9)); (138%nat, Div (Neg (N 8)) (N 9)); (139%nat, Div (Neg (N 8)) (N 9)); (141%nat, Div (Neg (N 8)) (N 9)); (209%nat, Div (N 4) (N 9)); (210%nat, Div (N 4) (N 9)); (211%nat, Div (N 20) (N 9)); (215%nat, Div (N 4) (N 9)); (217%nat, Div (N 4) (N 9)); (236%nat, Div (N 4) (N 3)); (238%nat, Div (N 4) (N 3)); (239%nat, Div (N 4) (N 3)); (241%nat, Div (N 4) (N 3)); (242%nat, Div (N 4) (N 3)); (244%nat, Div (N 4) (N 3)); (245%nat, Div (N 4) (N 3)); (247%nat, Div (N 4) (N 3)); (248%nat, Div (N 4) (N 3)); (250%nat, Div (N 4) (N 3)); (251%nat, Div (N 4) (N 3)); (253%nat, Div (N 4) (N 3))];
  [(106%nat, Div (N 4) (N 27)); (107%nat, Div (N 4) (N 27)); (111%nat, Div (N 4) (N 27)); (112%nat, Div (N 4) (N 27)); (115%nat, Div (N 4) (N 27)); (116%nat, Div (N 4) (N 27)); (130%nat, Div (Neg (N 8)) (N 27)); (131%nat, Div (Neg (N 8)) (N 27)); (133%nat, Div (Neg (N 8)) (N 27)); (134%nat, Div (Neg (N 8)) (N 27)); (136%nat, Div (Neg (N 8)) (N 27)); (137%nat, Div (Neg (N 8)) (N 27)); (139%nat, Div (Neg (N 8)) (N 27)); (140%nat, Div (Neg (N 8)) (N 27)); (209%nat, Div (N 4) (N 27)); (210%nat, Div (N 8) (N 27)); (211%nat, Div (N 4) (N 27)); (212%nat, Div (N 4) (N 3)); (214%nat, Div (N 4) (N 27)); (215%nat, Div (N 4) (N 27)); (236%nat, Div (N 4) (N 9)); (237%nat, Div (N 4) (N 9)); (239%nat, Div (N 4) (N 9)); (240%nat, Div (N 4) (N 9)); (242%nat, Div (N 4) (N 9)); (243%nat, Div (N 4) (N 9)); (245%nat, Div (N 4) (N 9)); (246%nat, Div (N 4) (N 9)); (248%nat, Div (N 4) (N 9)); (249%nat, Div (N 4) (N 9)); (251%nat, Div (N 4) (N 9)); (252%nat, Div (N 4) (N 9))];
  [(106%nat, Div (N 4) (N 27)); (108%nat, Div (N 4) (N 27)); (111%nat, Div (N 4) (N 27)); (113%nat, Div (N 4) (N 27)); (115%nat, Div (N 4) (N 27)); (117%nat, Div (N 4) (N 27)); (130%nat, Div (Neg (N 8)) (N 27)); (132%nat, Div (Neg (N 8)) (N 27)); (133%nat, Div (Neg (N 8)) (N 27)); (135%nat, Div (Neg (N 8)) (N 27)); (136%nat, Div (Neg (N 8)) (N 27)); (138%nat, Div (Neg (N 8)) (N 27)); (139%nat, Div (Neg (N 8)) (N 27)); (141%nat, Div (Neg (N 8)) (N 27)); (209%nat, Div (N 4) (N 27)); (210%nat, Div (N 4) (N 27)); (211%nat, Div (N 8) (N 27)); (213%nat, Div (N 4) (N 3)); (215%nat, Div (N 4) (N 27)); (217%nat, Div (N 4) (N 27)); (236%nat, Div (N 4) (N 9)); (238%nat, Div (N 4) (N 9)); (239%nat, Div (N 4) (N 9)); (241%nat, Div (N 4) (N 9)); (242%nat, Div (N 4) (N 9)); (244%nat, Div (N 4) (N 9)); (245%nat, Div (N 4) (N 9)); (247%nat, Div (N 4) (N 9)); (248%nat, Div (N 4) (N 9)); (250%nat, Div (N 4) (N 9)); (251%nat, Div (N 4) (N 9)); (253%nat, Div (N 4) (N 9))];
  [(107%nat, Div (N 32) (N 27)); (112%nat, Div (N 32) (N 27)); (116%nat, Div (N 32) (N 27)); (131%nat, Div (Neg (N 64)) (N 27)); (134%nat, Div (Neg (N 64)) (N 27)); (137%nat, Div (Neg (N 64)) (N 27)); (140%nat, Div (Neg (N 64)) (N 27)); (210%nat, Div (N 32) (N 27)); (214%nat, Div (N 68) (N 27)); (215%nat, Div (N 32) (N 27)); (237%nat, Div (N 32) (N 9)); (240%nat, Div (N 32) (N 9)); (243%nat, Div (N 32) (N 9)); (246%nat, Div (N 32) (N 9)); (249%nat, Div (N 32) (N 9)); (252%nat, Div (N 32) (N 9))];
  [(107%nat, Div (N 4) (N 9)); (108%nat, Div (N 4) (N 9)); (112%nat, Div (N 4) (N 9)); (113%nat, Div (N 4) (N 9)); (116%nat, Div (N 4) (N 9)); (117%nat, Div (N 4) (N 9)); (131%nat, Div (Neg (N 8)) (N 9)); (132%nat, Div (Neg (N 8)) (N 9)); (134%nat, Div (Neg (N 8)) (N 9)); (135%nat, Div (Neg (N 8)) (N 9)); (137%nat, Div (Neg (N 8)) (N 9)); (138%nat, Div (Neg (N 8)) (N 9)); (140%nat, Div (Neg (N 8)) (N 9)); (141%nat, Div (Neg (N 8)) (N 9)); (210%nat, Div (N 4) (N 9)); (211%nat, Div (N 4) (N 9)); (214%nat, Div (N 4) (N 9)); (215%nat, Div (N 20) (N 9)); (217%nat, Div (N 4) (N 9)); (237%nat, Div (N 4) (N 3)); (238%nat, Div (N 4) (N 3)); (240%nat, Div (N 4) (N 3)); (241%nat, Div (N 4) (N 3)); (243%nat, Div (N 4) (N 3)); (244%nat, Div (N 4) (N 3)); (246%nat, Div (N 4) (N 3)); (247%nat, Div (N 4) (N 3)); (249%nat, Div (N 4) (N 3)); (250%nat, Div (N 4) (N 3)); (252%nat, Div (N 4) (N 3)); (253%nat, Div (N 4) (N 3))];
  [(107%nat, Div (N 4) (N 27)); (108%nat, Div (N 4) (N 27)); (112%nat, Div (N 4) (N 27)); (113%nat, Div (N 4) (N 27)); (116%nat, Div (N 4) (N 27)); (117%nat, Div (N 4) (N 27)); (131%nat, Div (Neg (N 8)) (N 27)); (132%nat, Div (Neg (N 8)) (N 27)); (134%nat, Div (Neg (N 8)) (N 27)); (135%nat, Div (Neg (N 8)) (N 27)); (137%nat, Div (Neg (N 8)) (N 27)); (138%nat, Div (Neg (N 8)) (N 27)); (140%nat, Div (Neg (N 8)) (N 27)); (141%nat, Div (Neg (N 8)) (N 27)); (210%nat, Div (N 4) (N 27)); (211%nat, Div (N 4) (N 27)); (214%nat, Div (N 4) (N 27)); (215%nat, Div (N 8) (N 27)); (216%nat, Div (N 4) (N 3)); (217%nat, Div (N 4) (N 27)); (237%nat, Div (N 4) (N 9)); (238%nat, Div (N 4) (N 9)); (240%nat, Div (N 4) (N 9)); (241%nat, Div (N 4) (N 9)); (243%nat, Div (N 4) (N 9)); (244%nat, Div (N 4) (N 9)); (246%nat, Div (N 4) (N 9)); (247%nat, Div (N 4) (N 9)); (249%nat, Div (N 4) (N 9)); (250%nat, Div (N 4) (N 9)); (252%nat, Div (N 4) (N 9)); (253%nat, Div (N 4) (N 9))];
  [(108%nat, Div (N 32) (N 27)); (113%nat, Div (N 32) (N 27)); (117%nat, Div (N 32) (N 27)); (132%nat, Div (Neg (N 64)) (N 27)); (135%nat, Div (Neg (N 64)) (N 27)); (138%nat, Div (Neg (N 64)) (N 27)); (141%nat, Div (Neg (N 64)) (N 27)); (211%nat, Div (N 32) (N 27)); (215%nat, Div (N 32) (N 27)); (217%nat, Div (N 68) (N 27)); (238%nat, Div (N 32) (N 9)); (241%nat, Div (N 32) (N 9)); (244%nat, Div (N 32) (N 9)); (247%nat, Div (N 32) (N 9)); (250%nat, Div (N 32) (N 9)); (253%nat, Div (N 32) (N 9))];
  [(106%nat, Div (N 4) (N 9)); (107%nat, Div (N 4) (N 9)); (108%nat, Div (N 4) (N 9)); (118%nat, Div (Neg (N 8)) (N 9)); (119%nat, Div (Neg (N 8)) (N 9)); (124%nat, Div (Neg (N 8)) (N 9)); (127%nat, Div (Neg (N 8)) (N 9)); (200%nat, Div (N 4) (N 9)); (201%nat, Div (N 4) (N 9)); (202%nat, Div (N 4) (N 9)); (218%nat, Div (Neg (N 20)) (N 9)); (219%nat, Div (N 4) (N 3)); (220%nat, Div (N 4) (N 3)); (221%nat, Div (N 4) (N 9)); (224%nat, Div (N 4) (N 9)); (227%nat, Div (N 4) (N 3)); (230%nat, Div (N 4) (N 3)); (233%nat, Div (N 4) (N 3)); (245%nat, Div (N 4) (N 9)); (246%nat, Div (N 4) (N 9)); (247%nat, Div (N 4) (N 9)); (260%nat, Div (N 4) (N 3)); (265%nat, Div (N 4) (N 3)); (269%nat, Div (N 4) (N 3)); (272%nat, Div (N 4) (N 3)); (273%nat, Div (N 4) (N 3)); (274%nat, Div (N 4) (N 3)); (290%nat, Div (Neg (N 8)) (N 9)); (291%nat, Div (Neg (N 8)) (N 9)); (296%nat, Div (Neg (N 8)) (N 9)); (299%nat, Div (Neg (N 8)) (N 9))];
  [(106%nat, Div (N 4) (N 9)); (107%nat, Div (N 4) (N 9)); (108%nat, Div (N 4) (N 9)); (118%nat, Div (Neg (N 8)) (N 9)); (119%nat, Div (Neg (N 8)) (N 9)); (124%nat, Div (Neg (N 8)) (N 9)); (127%nat, Div (Neg (N 8)) (N 9)); (200%nat, Div (N 4) (N 9)); (201%nat, Div (N 4) (N 9)); (202%nat, Div (N 4) (N 9)); (218%nat, Div (N 4) (N 3)); (219%nat, Div (Neg (N 20)) (N 9)); (220%nat, Div (N 4) (N 3)); (222%nat, Div (N 4) (N 9)); (225%nat, Div (N 4) (N 9)); (227%nat, Div (N 4) (N 3)); (230%nat, Div (N 4) (N 3)); (233%nat, Div (N 4) (N 3)); (248%nat, Div (N 4) (N 9)); (249%nat, Div (N 4) (N 9)); (250%nat, Div (N 4) (N 9)); (261%nat, Div (N 4) (N 3)); (266%nat, Div (N 4) (N 3)); (270%nat, Div (N 4) (N 3)); (273%nat, Div (N 4) (N 3)); (275%nat, Div (N 4) (N 3)); (276%nat, Div (N 4) (N 3)); (292%nat, Div (Neg (N 8)) (N 9)); (293%nat, Div (Neg (N 8)) (N 9)); (297%nat, Div (Neg (N 8)) (N 9)); (300%nat, Div (Neg (N 8)) (N 9))];
  [(106%nat, Div (N 4) (N 9)); (107%nat, Div (N 4) (N 9)); (108%nat, Div (N 4) (N 9)); (118%nat, Div (Neg (N 8)) (N 9)); (119%nat, Div (Neg (N 8)) (N 9)); (124%nat, Div (Neg (N 8)) (N 9)); (127%nat, Div (Neg (N 8)) (N 9)); (200%nat, Div (N 4) (N 9)); (201%nat, Div (N 4) (N 9)); (202%nat, Div (N 4) (N 9)); (218%nat, Div (N 4) (N 3)); (219%nat, Div (N 4) (N 3)); (220%nat, Div (Neg (N 20)) (N 9)); (223%nat, Div (N 4) (N 9)); (226%nat, Div (N 4) (N 9)); (227%nat, Div (N 4) (N 3)); (230%nat, Div (N 4) (N 3)); (233%nat, Div (N 4) (N 3)); (251%nat, Div (N 4) (N 9)); (252%nat, Div (N 4) (N 9)); (253%nat, Div (N 4) (N 9)); (262%nat, Div (N 4) (N 3)); (267%nat, Div (N 4) (N 3)); (271%nat, Div (N 4) (N 3)); (274%nat, Div (N 4) (N 3)); (276%nat, Div (N 4) (N 3)); (277%nat, Div (N 4) (N 3)); (294%nat, Div (Neg (N 8)) (N 9)); (295%nat, Div (Neg (N 8)) (N 9)); (298%nat, Div (Neg (N 8)) (N 9)); (301%nat, Div (Neg (N 8)) (N 9))];
  [(111%nat, Div (N 4) (N 9)); (112%nat, Div (N 4) (N 9)); (113%nat, Div (N 4) (N 9)); (120%nat, Div (Neg (N 8)) (N 9)); (121%nat, Div (Neg (N 8)) (N 9)); (125%nat, Div (Neg (N 8)) (N 9)); (128%nat, Div (Neg (N 8)) (N 9)); (201%nat, Div (N 4) (N 9)); (205%nat, Div (N 4) (N 9)); (206%nat, Div (N 4) (N 9)); (218%nat, Div (N 4) (N 9)); (221%nat, Div (Neg (N 20)) (N 9)); (222%nat, Div (N 4) (N 3)); (223%nat, Div (N 4) (N 3)); (224%nat, Div (N 4) (N 9)); (228%nat, Div (N 4) (N 3)); (231%nat, Div (N 4) (N 3)); (234%nat, Div (N 4) (N 3)); (245%nat, Div (N 4) (N 9)); (246%nat, Div (N 4) (N 9)); (247%nat, Div (N 4) (N 9)); (260%nat, Div (N 4) (N 3)); (265%nat, Div (N 4) (N 3)); (269%nat, Div (N 4) (N 3)); (272%nat, Div (N 4) (N 3)); (273%nat, Div (N 4) (N 3)); (274%nat, Div (N 4) (N 3)); (290%nat, Div (Neg (N 8)) (N 9)); (291%nat, Div (Neg (N 8)) (N 9)); (296%nat, Div (Neg (N 8)) (N 9)); (299%nat, Div (Neg (N 8)) (N 9))];
  [(111%nat, Div (N 4) (N 9)); (112%nat, Div (N 4) (N 9)); (113%nat, Div (N 4) (N 9)); (120%nat, Div (Neg (N 8)) (N 9)); (121%nat, Div (Neg (N 8)) (N 9)); (125%nat, Div (Neg (N 8)) (N 9)); (128%nat, Div (Neg (N 8)) (N 9)); (201%nat, Div (N 4) (N 9)); (205%nat, Div (N 4) (N 9)); (206%nat, Div (N 4) (N 9)); (219%nat, Div (N 4) (N 9)); (221%nat, Div (N 4) (N 3)); (222%nat, Div (Neg (N 20)) (N 9)); (223%nat, Div (N 4) (N 3)); (225%nat, Div (N 4) (N 9)); (228%nat, Div (N 4) (N 3)); (231%nat, Div (N 4) (N 3)); (234%nat, Div (N 4) (N 3)); (248%nat, Div (N 4) (N 9)); (249%nat, Div (N 4) (N 9)); (250%nat, Div (N 4) (N 9)); (261%nat, Div (N 4) (N 3)); (266%nat, Div (N 4) (N 3)); (270%nat, Div (N 4) (N 3)); (273%nat, Div (N 4) (N 3)); (275%nat, Div (N 4) (N 3)); (276%nat, Div (N 4) (N 3)); (292%nat, Div (Neg (N 8)) (N 9)); (293%nat, Div (Neg (N 8)) (N 9)); (297%nat, Div (Neg (N 8)) (N 9)); (300%nat, Div (Neg (N 8)) (N 9))];
  [(111%nat, Div (N 4) (N 9)); (112%nat, Div (N 4) (N 9)); (113%nat, Div (N 4) (N 9)); (120%nat, Div (Neg (N 8)) (N 9)); (121%nat, Div (Neg (N 8)) (N 9)); (125%nat, Div (Neg (N 8)) (N 9)); (128%nat, Div (Neg (N 8)) (N 9)); (201%nat, Div (N 4) (N 9)); (205%nat, Div (N 4) (N 9)); (206%nat, Div (N 4) (N 9)); (220%nat, Div (N 4) (N 9)); (221%nat, Div (N 4) (N 3)); (222%nat, Div (N 4) (N 3)); (223%nat, Div (Neg (N 20)) (N 9)); (226%nat, Div (N 4) (N 9)); (228%nat, Div (N 4) (N 3)); (231%nat, Div (N 4) (N 3)); (234%nat, Div (N 4) (N 3)); (251%nat, Div (N 4) (N 9)); (252%nat, Div (N 4) (N 9)); (253%nat, Div (N 4) (N 9)); (262%nat, Div (N 4) (N 3)); (267%nat, Div (N 4) (N 3)); (271%nat, Div (N 4) (N 3)); (274%nat, Div (N 4) (N 3)); (276%nat, Div (N 4) (N 3)); (277%nat, Div (N 4) (N 3)); (294%nat, Div (Neg (N 8)) (N 9)); (295%nat, Div (Neg (N 8)) (N 9)); (298%nat, Div (Neg (N 8)) (N 9)); (301%nat, Div (Neg (N 8)) (N 9))];
  [(115%nat, Div (N 4) (N 9)); (116%nat, Div (N 4) (N 9)); (117%nat, Div (N 4) (N 9)); (122%nat, Div (Neg (N 8)) (N 9)); (123%nat, Div (Neg (N 8)) (N 9)); (126%nat, Div (Neg (N 8)) (N 9)); (129%nat, Div (Neg (N 8)) (N 9)); (202%nat, Div (N 4) (N 9)); (206%nat, Div (N 4) (N 9)); (208%nat, Div (N 4) (N 9)); (218%nat, Div (N 4) (N 9)); (221%nat, Div (N 4) (N 9)); (224%nat, Div (Neg (N 20)) (N 9)); (225%nat, Div (N 4) (N 3)); (226%nat, Div (N 4) (N 3)); (229%nat, Div (N 4) (N 3)); (232%nat, Div (N 4) (N 3)); (235%nat, Div (N 4) (N 3)); (245%nat, Div (N 4) (N 9)); (246%nat, Div (N 4) (N 9)); (247%nat, Div (N 4) (N 9)); (260%nat, Div (N 4) (N 3)); (265%nat, Div (N 4) (N 3)); (269%nat, Div (N 4) (N 3)); (272%nat, Div (N 4) (N 3)); (273%nat, Div (N 4) (N 3)); (274%nat, Div (N 4) (N 3)); (290%nat, Div (Neg (N 8)) (N 9)); (291%nat, Div (Neg (N 8)) (N 9)); (296%nat, Div (Neg (N 8)) (N 9)); (299%nat, Div (Neg (N 8)) (N 9))];
  [(115%nat, Div (N 4) (N 9)); (116%nat, Div (N 4) (N 9)); (117%nat, Div (N 4) (N 9)); (122%nat, Div (Neg (N 8)) (N 9)); (123%nat, Div (Neg (N 8)) (N 9)); (126%nat, Div (Neg (N 8)) (N 9)); (129%nat, Div (Neg (N 8)) (N 9)); (202%nat, Div (N 4) (N 9)); (206%nat, Div (N 4) (N 9)); (208%nat, Div (N 4) (N 9)); (219%nat, Div (N 4) (N 9)); (222%nat, Div (N 4) (N 9)); (224%nat, Div (N 4) (N 3)); (225%nat, Div (Neg (N 20)) (N 9)); (226%nat, Div (N 4) (N 3)); (229%nat, Div (N 4) (N 3)); (232%nat, Div (N 4) (N 3)); (235%nat, Div (N 4) (N 3)); (248%nat, Div (N 4) (N 9)); (249%nat, Div (N 4) (N 9)); (250%nat, Div (N 4) (N 9)); (261%nat, Div (N 4) (N 3)); (266%nat, Div (N 4) (N 3)); (270%nat, Div (N 4) (N 3)); (273%nat, Div (N 4) (N 3)); (275%nat, Div (N 4) (N 3)); (276%nat, Div (N 4) (N 3)); (292%nat, Div (Neg (N 8)) (N 9)); (293%nat, Div (Neg (N 8)) (N 9)); (297%nat, Div (Neg (N 8)) (N 9)); (300%nat, Div (Neg (N 8)) (N 9))];
  [(115%nat, Div (N 4) (N 9)); (116%nat, Div (N 4) (N 9)); (117%nat, Div (N 4) (N 9)); (122%nat, Div (Neg (N 8)) (N 9)); (123%nat, Div (Neg (N 8)) (N 9)); (126%nat, Div (Neg (N 8)) (N 9)); (129%nat, Div (Neg (N 8)) (N 9)); (202%nat, Div (N 4) (N 9)); (206%nat, Div (N 4) (N 9)); (208%nat, Div (N 4) (N 9)); (220%nat, Div (N 4) (N 9)); (223%nat, Div (N 4) (N 9)); (224%nat, Div (N 4) (N 3)); (225%nat, Div (N 4) (N 3)); (226%nat, Div (Neg (N 20)) (N 9)); (229%nat, Div (N 4) (N 3)); (232%nat, Div (N 4) (N 3)); (235%nat, Div (N 4) (N 3)); (251%nat, Div (N 4) (N 9)); (252%nat, Div (N 4) (N 9)); (253%nat, Div (N 4) (N 9)); (262%nat, Div (N 4) (N 3)); (267%nat, Div (N 4) (N 3)); (271%nat, Div (N 4) (N 3)); (274%nat, Div (N 4) (N 3)); (276%nat, Div (N 4) (N 3)); (277%nat, Div (N 4) (N 3)); (294%nat, Div (Neg (N 8)) (N 9)); (295%nat, Div (Neg (N 8)) (N 9)); (298%nat, Div (Neg (N 8)) (N 9)); (301%nat, Div (Neg (N 8)) (N 9))];
  [(106%nat, Div (N 4) (N 9)); (107%nat, Div (N 4) (N 9)); (108%nat, Div (N 4) (N 9)); (118%nat, Div (Neg (N 8)) (N 9)); (119%nat, Div (Neg (N 8)) (N 9)); (124%nat, Div (Neg (N 8)) (N 9)); (127%nat, Div (Neg (N 8)) (N 9)); (200%nat, Div (N 4) (N 9)); (201%nat, Div (N 4) (N 9)); (202%nat, Div (N 4) (N 9)); (218%nat, Div (N 4) (N 3)); (219%nat, Div (N 4) (N 3)); (220%nat, Div (N 4) (N 3)); (227%nat, Div (N 52) (N 9)); (228%nat, Div (N 4) (N 9)); (229%nat, Div (N 4) (N 9)); (230%nat, Div (N 4) (N 3)); (233%nat, Div (N 4) (N 3)); (236%nat, Div (N 4) (N 9)); (237%nat, Div (N 4) (N 9)); (238%nat, Div (N 4) (N 9)); (254%nat, Div (N 4) (N 3)); (255%nat, Div (N 4) (N 3)); (256%nat, Div (N 4) (N 3)); (260%nat, Div (N 4) (N 3)); (261%nat, Div (N 4) (N 3)); (262%nat, Div (N 4) (N 3)); (278%nat, Div (Neg (N 8)) (N 9)); (279%nat, Div (Neg (N 8)) (N 9)); (284%nat, Div (Neg (N 8)) (N 9)); (285%nat, Div (Neg (N 8)) (N 9))];
  [(111%nat, Div (N 4) (N 9)); (112%nat, Div (N 4) (N 9)); (113%nat, Div (N 4) (N 9)); (120%nat, Div (Neg (N 8)) (N 9)); (121%nat, Div (Neg (N 8)) (N 9)); (125%nat, Div (Neg (N 8)) (N 9)); (128%nat, Div (Neg (N 8)) (N 9)); (201%nat, Div (N 4) (N 9)); (205%nat, Div (N 4) (N 9)); (206%nat, Div (N 4) (N 9)); (221%nat, Div (N 4) (N 3)); (222%nat, Div (N 4) (N 3)); (223%nat, Div (N 4) (N 3)); (227%nat, Div (N 4) (N 9)); (228%nat, Div (N 52) (N 9)); (229%nat, Div (N 4) (N 9)); (231%nat, Div (N 4) (N 3)); (234%nat, Div (N 4) (N 3)); (236%nat, Div (N 4) (N 9)); (237%nat, Div (N 4) (N 9)); (238%nat, Div (N 4) (N 9)); (254%nat, Div (N 4) (N 3)); (255%nat, Div (N 4) (N 3)); (256%nat, Div (N 4) (N 3)); (260%nat, Div (N 4) (N 3)); (261%nat, Div (N 4) (N 3)); (262%nat, Div (N 4) (N 3)); (278%nat, Div (Neg (N 8)) (N 9)); (279%nat, Div (Neg (N 8)) (N 9)); (284%nat, Div (Neg (N 8)) (N 9)); (285%nat, Div (Neg (N 8)) (N 9))];
  [(115%nat, Div (N 4) (N 9)); (116%nat, Div (N 4) (N 9)); (117%nat, Div (N 4) (N 9)); (122%nat, Div (Neg (N 8)) (N 9)); (123%nat, Div (Neg (N 8)) (N 9)); (126%nat, Div (Neg (N 8)) (N 9)); (129%nat, Div (Neg (N 8)) (N 9)); (202%nat, Div (N 4) (N 9)); (206%nat, Div (N 4) (N 9)); (208%nat, Div (N 4) (N 9)); (224%nat, Div (N 4) (N 3)); (225%nat, Div (N 4) (N 3)); (226%nat, Div (N 4) (N 3)); (227%nat, Div (N 4) (N 9)); (228%nat, Div (N 4) (N 9)); (229%nat, Div (N 52) (N 9)); (232%nat, Div (N 4) (N 3)); (235%nat, Div (N 4) (N 3)); (236%nat, Div (N 4) (N 9)); (237%nat, Div (N 4) (N 9)); (238%nat, Div (N 4) (N 9)); (254%nat, Div (N 4) (N 3)); (255%nat, Div (N 4) (N 3)); (256%nat, Div (N 4) (N 3)); (260%nat, Div (N 4) (N 3)); (261%nat, Div (N 4) (N 3)); (262%nat, Div (N 4) (N 3)); (278%nat, Div (Neg (N 8)) (N 9)); (279%nat, Div (Neg (N 8)) (N 9)); (284%nat, Div (Neg (N 8)) (N 9)); (285%nat, Div (Neg (N 8)) (N 9))];
  [(106%nat, Div (N 4) (N 9)); (107%nat, Div (N 4) (N 9)); (108%nat, Div (N 4) (N 9)); (118%nat, Div (Neg (N 8)) (N 9)); (119%nat, Div (Neg (N 8)) (N 9)); (124%nat, Div (Neg (N 8)) (N 9)); (127%nat, Div (Neg (N 8)) (N 9)); (200%nat, Div (N 4) (N 9)); (201%nat, Div (N 4) (N 9)); (202%nat, Div (N 4) (N 9)); (218%nat, Div (N 4) (N 3)); (219%nat, Div (N 4) (N 3)); (220%nat, Div (N 4) (N 3)); (227%nat, Div (N 4) (N 3)); (230%nat, Div (N 52) (N 9)); (231%nat, Div (N 4) (N 9)); (232%nat, Div (N 4) (N 9)); (233%nat, Div (N 4) (N 3)); (239%nat, Div (N 4) (N 9)); (240%nat, Div (N 4) (N 9)); (241%nat, Div (N 4) (N 9)); (255%nat, Div (N 4) (N 3)); (257%nat, Div (N 4) (N 3)); (258%nat, Div (N 4) (N 3)); (265%nat, Div (N 4) (N 3)); (266%nat, Div (N 4) (N 3)); (267%nat, Div (N 4) (N 3)); (280%nat, Div (Neg (N 8)) (N 9)); (281%nat, Div (Neg (N 8)) (N 9)); (286%nat, Div (Neg (N 8)) (N 9)); (287%nat, Div (Neg (N 8)) (N 9))];
  [(111%nat, Div (N 4) (N 9)); (112%nat, Div (N 4) (N 9)); (113%nat, Div (N 4) (N 9)); (120%nat, Div (Neg (N 8)) (N 9)); (121%nat, Div (Neg (N 8)) (N 9)); (125%nat, Div (Neg (N 8)) (N 9)); (128%nat, Div (Neg (N 8)) (N 9)); (201%nat, Div (N 4) (N 9)); (205%nat, Div (N 4) (N 9)); (206%nat, Div (N 4) (N 9)); (221%nat, Div (N 4) (N 3)); (222%nat, Div (N 4) (N 3)); (223%nat, Div (N 4) (N 3)); (228%nat, Div (N 4) (N 3)); (230%nat, Div (N 4) (N 9)); (231%nat, Div (N 52) (N 9)); (232%nat, Div (N 4) (N 9)); (234%nat, Div (N 4) (N 3)); (239%nat, Div (N 4) (N 9)); (240%nat, Div (N 4) (N 9)); (241%nat, Div (N 4) (N 9)); (255%nat, Div (N 4) (N 3)); (257%nat, Div (N 4) (N 3)); (258%nat, Div (N 4) (N 3)); (265%nat, Div (N 4) (N 3)); (266%nat, Div (N 4) (N 3)); (267%nat, Div (N 4) (N 3)); (280%nat, Div (Neg (N 8)) (N 9)); (281%nat, Div (Neg (N 8)) (N 9)); (286%nat, Div (Neg (N 8)) (N 9)); (287%nat, Div (Neg (N 8)) (N 9))];
  [(115%nat, Div (N 4) (N 9)); (116%nat, Div (N 4) (N 9)); (117%nat, Div (N 4) (N 9)); (122%nat, Div (Neg (N 8)) (N 9)); (123%nat, Div (Neg (N 8)) (N 9)); (126%nat, Div (Neg (N 8)) (N 9)); (129%nat, Div (Neg (N 8)) (N 9)); (202%nat, Div (N 4) (N 9)); (206%nat, Div (N 4) (N 9)); (208%nat, Div (N 4) (N 9)); (224%nat, Div (N 4) (N 3)); (225%nat, Div (N 4) (N 3)); (226%nat, Div (N 4) (N 3)); (229%nat, Div (N 4) (N 3)); (230%nat, Div (N 4) (N 9)); (231%nat, Div (N 4) (N 9)); (232%nat, Div (N 52) (N 9)); (235%nat, Div (N 4) (N 3)); (239%nat, Div (N 4) (N 9)); (240%nat, Div (N 4) (N 9)); (241%nat, Div (N 4) (N 9)); (255%nat, Div (N 4) (N 3)); (257%nat, Div (N 4) (N 3)); (258%nat, Div (N 4) (N 3)); (265%nat, Div (N 4) (N 3)); (266%nat, Div (N 4) (N 3)); (267%nat, Div (N 4) (N 3)); (280%nat, Div (Neg (N 8)) (N 9)); (281%nat, Div (Neg (N 8)) (N 9)); (286%nat, Div (Neg (N 8)) (N 9)); (287%nat, Div (Neg (N 8)) (N 9))];
  [(106%nat, Div (N 4) (N 9)); (107%nat, Div (N 4) (N 9)); (108%nat, Div (N 4) (N 9)); (118%nat, Div (Neg (N 8)) (N 9)); (119%nat, Div (Neg (N 8)) (N 9)); (124%nat, Div (Neg (N 8)) (N 9)); (127%nat, Div (Neg (N 8)) (N 9)); (200%nat, Div (N 4) (N 9)); (201%nat, Div (N 4) (N 9)); (202%nat, Div (N 4) (N 9)); (218%nat, Div (N 4) (N 3)); (219%nat, Div (N 4) (N 3)); (220%nat, Div (N 4) (N 3)); (227%nat, Div (N 4) (N 3)); (230%nat, Div (N 4) (N 3)); (233%nat, Div (N 52) (N 9)); (234%nat, Div (N 4) (N 9)); (235%nat, Div (N 4) (N 9)); (242%nat, Div (N 4) (N 9)); (243%nat, Div (N 4) (N 9)); (244%nat, Div (N 4) (N 9)); (256%nat, Div (N 4) (N 3)); (258%nat, Div (N 4) (N 3)); (259%nat, Div (N 4) (N 3)); (269%nat, Div (N 4) (N 3)); (270%nat, Div (N 4) (N 3)); (271%nat, Div (N 4) (N 3)); (282%nat, Div (Neg (N 8)) (N 9)); (283%nat, Div (Neg (N 8)) (N 9)); (288%nat, Div (Neg (N 8)) (N 9)); (289%nat, Div (Neg (N 8)) (N 9))];
  [(111%nat, Div (N 4) (N 9)); (112%nat, Div (N 4) (N 9)); (113%nat, Div (N 4) (N 9)); (120%nat, Div (Neg (N 8)) (N 9)); (121%nat, Div (Neg (N 8)) (N 9)); (125%nat, Div (Neg (N 8)) (N 9)); (128%nat, Div (Neg (N 8)) (N 9)); (201%nat, Div (N 4) (N 9)); (205%nat, Div (N 4) (N 9)); (206%nat, Div (N 4) (N 9)); (221%nat, Div (N 4) (N 3)); (222%nat, Div (N 4) (N 3)); (223%nat, Div (N 4) (N 3)); (228%nat, Div (N 4) (N 3)); (231%nat, Div (N 4) (N 3)); (233%nat, Div (N 4) (N 9)); (234%nat, Div (N 52) (N 9)); (235%nat, Div (N 4) (N 9)); (242%nat, Div (N 4) (N 9)); (243%nat, Div (N 4) (N 9)); (244%nat, Div (N 4) (N 9)); (256%nat, Div (N 4) (N 3)); (258%nat, Div (N 4) (N 3)); (259%nat, Div (N 4) (N 3)); (269%nat, Div (N 4) (N 3)); (270%nat, Div (N 4) (N 3)); (271%nat, Div (N 4) (N 3)); (282%nat, Div (Neg (N 8)) (N 9)); (283%nat, Div (Neg (N 8)) (N 9)); (288%nat, Div (Neg (N 8)) (N 9)); (289%nat, Div (Neg (N 8)) (N 9))];
  [(115%nat, Div (N 4) (N 9)); (116%nat, Div (N 4) (N 9)); (117%nat, Div (N 4) (N 9)); (122%nat, Div (Neg (N 8)) (N 9)); (123%nat, Div (Neg (N 8)) (N 9)); (126%nat, Div (Neg (N 8)) (N 9)); (129%nat, Div (Neg (N 8)) (N 9)); (202%nat, Div (N 4) (N 9)); (206%nat, Div (N 4) (N 9)); (208%nat, Div (N 4) (N 9)); (224%nat, Div (N 4) (N 3)); (225%nat, Div (N 4) (N 3)); (226%nat, Div (N 4) (N 3)); (229%nat, Div (N 4) (N 3)); (232%nat, Div (N 4) (N 3)); (233%nat, Div (N 4) (N 9)); (234%nat, Div (N 4) (N 9)); (235%nat, Div (N 52) (N 9)); (242%nat, Div (N 4) (N 9)); (243%nat, Div (N 4) (N 9)); (244%nat, Div (N 4) (N 9)); (256%nat, Div (N 4) (N 3)); (258%nat, Div (N 4) (N 3)); (259%nat, Div (N 4) (N 3)); (269%nat, Div (N 4) (N 3)); (270%nat, Div (N 4) (N 3)); (271%nat, Div (N 4) (N 3)); (282%nat, Div (Neg (N 8)) (N 9)); (283%nat, Div (Neg (N 8)) (N 9)); (288%nat, Div (Neg (N 8)) (N 9)); (289%nat, Div (Neg (N 8)) (N 9))];
  [(106%nat, Div (N 4) (N 9)); (111%nat, Div (N 4) (N 9)); (115%nat, Div (N 4) (N 9)); (130%nat, Div (Neg (N 8)) (N 9)); (133%nat, Div (Neg (N 8)) (N 9)); (136%nat, Div (Neg (N 8)) (N 9)); (139%nat, Div (Neg (N 8)) (N 9)); (209%nat, Div (N 4) (N 9)); (210%nat, Div (N 4) (N 9)); (211%nat, Div (N 4) (N 9)); (227%nat, Div (N 4) (N 9)); (228%nat, Div (N 4) (N 9)); (229%nat, Div (N 4) (N 9)); (236%nat, Div (Neg (N 20)) (N 9)); (237%nat, Div (N 4) (N 9)); (238%nat, Div (N 4) (N 9)); (239%nat, Div (N 4) (N 3)); (242%nat, Div (N 4) (N 3)); (245%nat, Div (N 4) (N 3)); (248%nat, Div (N 4) (N 3)); (251%nat, Div (N 4) (N 3)); (254%nat, Div (N 4) (N 3)); (255%nat, Div (N 4) (N 3)); (256%nat, Div (N 4) (N 3)); (260%nat, Div (N 4) (N 3)); (261%nat, Div (N 4) (N 3)); (262%nat, Div (N 4) (N 3)); (278%nat, Div (Neg (N 8)) (N 9)); (279%nat, Div (Neg (N 8)) (N 9)); (284%nat, Div (Neg (N 8)) (N 9)); (285%nat, Div (Neg (N 8)) (N 9))];
  [(107%nat, Div (N 4) (N 9)); (112%nat, Div (N 4) (N 9)); (116%nat, Div (N 4) (N 9)); (131%nat, Div (Neg (N 8)) (N 9)); (134%nat, Div (Neg (N 8)) (N 9)); (137%nat, Div (Neg (N 8)) (N 9)); (140%nat, Div (Neg (N 8)) (N 9)); (210%nat, Div (N 4) (N 9)); (214%nat, Div (N 4) (N 9)); (215%nat, Div (N 4) (N 9)); (227%nat, Div (N 4) (N 9)); (228%nat, Div (N 4) (N 9)); (229%nat, Div (N 4) (N 9)); (236%nat, Div (N 4) (N 9)); (237%nat, Div (Neg (N 20)) (N 9)); (238%nat, Div (N 4) (N 9)); (240%nat, Div (N 4) (N 3)); (243%nat, Div (N 4) (N 3)); (246%nat, Div (N 4) (N 3)); (249%nat, Div (N 4) (N 3)); (252%nat, Div (N 4) (N 3)); (254%nat, Div (N 4) (N 3)); (255%nat, Div (N 4) (N 3)); (256%nat, Div (N 4) (N 3)); (260%nat, Div (N 4) (N 3)); (261%nat, Div (N 4) (N 3)); (262%nat, Div (N 4) (N 3)); (278%nat, Div (Neg (N 8)) (N 9)); (279%nat, Div (Neg (N 8)) (N 9)); (284%nat, Div (Neg (N 8)) (N 9)); (285%nat, Div (Neg (N 8)) (N 9))];
  [(108%nat, Div (N 4) (N 9)); (113%nat, Div (N 4) (N 9)); (117%nat, Div (N 4) (N 9)); (132%nat, Div (Neg (N 8)) (N 9)); (135%nat, Div (Neg (N 8)) (N 9)); (138%nat, Div (Neg (N 8)) (N 9)); (141%nat, Div (Neg (N 8)) (N 9)); (211%nat, Div (N 4) (N 9)); (215%nat, Div (N 4) (N 9)); (217%nat, Div (N 4) (N 9)); (227%nat, Div (N 4) (N 9)); (228%nat, Div (N 4) (N 9)); (229%nat, Div (N 4) (N 9)); (236%nat, Div (N 4) (N 9)); (237%nat, Div (N 4) (N 9)); (238%nat, Div (Neg (N 20)) (N 9)); (241%nat, Div (N 4) (N 3)); (244%nat, Div (N 4) (N 3)); (247%nat, Div (N 4) (N 3)); (250%nat, Div (N 4) (N 3)); (253%nat, Div (N 4) (N 3)); (254%nat, Div (N 4) (N 3)); (255%nat, Div (N 4) (N 3)); (256%nat, Div (N 4) (N 3)); (260%nat, Div (N 4) (N 3)); (261%nat, Div (N 4) (N 3)); (262%nat, Div (N 4) (N 3)); (278%nat, Div (Neg (N 8)) (N 9)); (279%nat, Div (Neg (N 8)) (N 9)); (284%nat, Div (Neg (N 8)) (N 9)); (285%nat, Div (Neg (N 8)) (N 9))];
  [(106%nat, Div (N 4) (N 9)); (111%nat, Div (N 4) (N 9)); (115%nat, Div (N 4) (N 9)); (130%nat, Div (Neg (N 8)) (N 9)); (133%nat, Div (Neg (N 8)) (N 9)); (136%nat, Div (Neg (N 8)) (N 9)); (139%nat, Div (Neg (N 8)) (N 9)); (209%nat, Div (N 4) (N 9)); (210%nat, Div (N 4) (N 9)); (211%nat, Div (N 4) (N 9)); (230%nat, Div (N 4) (N 9)); (231%nat, Div (N 4) (N 9)); (232%nat, Div (N 4) (N 9)); (236%nat, Div (N 4) (N 3)); (239%nat, Div (Neg (N 20)) (N 9)); (240%nat, Div (N 4) (N 9)); (241%nat, Div (N 4) (N 9)); (242%nat, Div (N 4) (N 3)); (245%nat, Div (N 4) (N 3)); (248%nat, Div (N 4) (N 3)); (251%nat, Div (N 4) (N 3)); (255%nat, Div (N 4) (N 3)); (257%nat, Div (N 4) (N 3)); (258%nat, Div (N 4) (N 3)); (265%nat, Div (N 4) (N 3)); (266%nat, Div (N 4) (N 3)); (267%nat, Div (N 4) (N 3)); (280%nat, Div (Neg (N 8)) (N 9)); (281%nat, Div (Neg (N 8)) (N 9)); (286%nat, Div (Neg (N 8)) (N 9)); (287%nat, Div (Neg (N 8)) (N 9))];
  [(107%nat, Div (N 4) (N 9)); (112%nat, Div (N 4) (N 9)); (116%nat, Div (N 4) (N 9)); (131%nat, Div (Neg (N 8)) (N 9)); (134%nat, Div (Neg (N 8)) (N 9)); (137%nat, Div (Neg (N 8)) (N 9)); (140%nat, Div (Neg (N 8)) (N 9)); (210%nat, Div (N 4) (N 9)); (214%nat, Div (N 4) (N 9)); (215%nat, Div (N 4) (N 9)); (230%nat, Div (N 4) (N 9)); (231%nat, Div (N 4) (N 9)); (232%nat, Div (N 4) (N 9)); (237%nat, Div (N 4) (N 3)); (239%nat, Div (N 4) (N 9)); (240%nat, Div (Neg (N 20)) (N 9)); (241%nat, Div (N 4) (N 9)); (243%nat, Div (N 4) (N 3)); (246%nat, Div (N 4) (N 3)); (249%nat, Div (N 4) (N 3)); (252%nat, Div (N 4) (N 3)); (255%nat, Div (N 4) (N 3)); (257%nat, Div (N 4) (N 3)); (258%nat, Div (N 4) (N 3)); (265%nat, Div (N 4) (N 3)); (266%nat, Div (N 4) (N 3)); (267%nat, Div (N 4) (N 3)); (280%nat, Div (Neg (N 8)) (N 9)); (281%nat, Div (Neg (N 8)) (N 9)); (286%nat, Div (Neg (N 8)) (N 9)); (287%nat, Div (Neg (N 8)) (N 9))];
  [(108%nat, Div (N 4) (N 9)); (113%nat, Div (N 4) (N 9)); (117%nat, Div (N 4) (N 9)); (132%nat, Div (Neg (N 8)) (N 9)); (135%nat, Div (Neg (N 8)) (N 9)); (138%nat, Div (Neg (N 8)) (N 9)); (141%nat, Div (Neg (N 8)) (N 9)); (211%nat, Div (N 4) (N 9)); (215%nat, Div (N 4) (N 9)); (217%nat, Div (N 4) (N 9)); (230%nat, Div (N 4) (N 9)); (231%nat, Div (N 4) (N 9)); (232%nat, Div (N 4) (N 9)); (238%nat, Div (N 4) (N 3)); (239%nat, Div (N 4) (N 9)); (240%nat, Div (N 4) (N 9)); (241%nat, Div (Neg (N 20)) (N 9)); (244%nat, Div (N 4) (N 3)); (247%nat, Div (N 4) (N 3)); (250%nat, Div (N 4) (N 3)); (253%nat, Div (N 4) (N 3)); (255%nat, Div (N 4) (N 3)); (257%nat, Div (N 4) (N 3)); (258%nat, Div (N 4) (N 3)); (265%nat, Div (N 4) (N 3)); (266%nat, Div (N 4) (N 3)); (267%nat, Div (N 4) (N 3)); (280%nat, Div (Neg (N 8)) (N 9)); (281%nat, Div (Neg (N 8)) (N 9)); (286%nat, Div (Neg (N 8)) (N 9)); (287%nat, Div (Neg (N 8)) (N 9))];
  [(106%nat, Div (N 4) (N 9)); (111%nat, Div (N 4) (N 9)); (115%nat, Div (N 4) (N 9)); (130%nat, Div (Neg (N 8)) (N 9)); (133%nat, Div (Neg (N 8)) (N 9)); (136%nat, Div (Neg (N 8)) (N 9)); (139%nat, Div (Neg (N 8)) (N 9)); (209%nat, Div (N 4) (N 9)); (210%nat, Div (N 4) (N 9)); (211%nat, Div (N 4) (N 9)); (233%nat, Div (N 4) (N 9)); (234%nat, Div (N 4) (N 9)); (235%nat, Div (N 4) (N 9)); (236%nat, Div (N 4) (N 3)); (239%nat, Div (N 4) (N 3)); (242%nat, Div (Neg (N 20)) (N 9)); (243%nat, Div (N 4) (N 9)); (244%nat, Div (N 4) (N 9)); (245%nat, Div (N 4) (N 3)); (248%nat, Div (N 4) (N 3)); (251%nat, Div (N 4) (N 3)); (256%nat, Div (N 4) (N 3)); (258%nat, Div (N 4) (N 3)); (259%nat, Div (N 4) (N 3)); (269%nat, Div (N 4) (N 3)); (270%nat, Div (N 4) (N 3)); (271%nat, Div (N 4) (N 3)); (282%nat, Div (Neg (N 8)) (N 9)); (283%nat, Div (Neg (N 8)) (N 9)); (288%nat, Div (Neg (N 8)) (N 9)); (289%nat, Div (Neg (N 8)) (N 9))];
  [(107%nat, Div (N 4) (N 9)); (112%nat, Div (N 4) (N 9)); (116%nat, Div (N 4) (N 9)); (131%nat, Div (Neg (N 8)) (N 9)); (134%nat, Div (Neg (N 8)) (N 9)); (137%nat, Div (Neg (N 8)) (N 9)); (140%nat, Div (Neg (N 8)) (N 9)); (210%nat, Div (N 4) (N 9)); (214%nat, Div (N 4) (N 9)); (215%nat, Div (N 4) (N 9)); (233%nat, Div (N 4) (N 9)); (234%nat, Div (N 4) (N 9)); (235%nat, Div (N 4) (N 9)); (237%nat, Div (N 4) (N 3)); (240%nat, Div (N 4) (N 3)); (242%nat, Div (N 4) (N 9)); (243%nat, Div (Neg (N 20)) (N 9)); (244%nat, Div (N 4) (N 9)); (246%nat, Div (N 4) (N 3)); (249%nat, Div (N 4) (N 3)); (252%nat, Div (N 4) (N 3)); (256%nat, Div (N 4) (N 3)); (258%nat, Div (N 4) (N 3)); (259%nat, Div (N 4) (N 3)); (269%nat, Div (N 4) (N 3)); (270%nat, Div (N 4) (N 3)); (271%nat, Div (N 4) (N 3)); (282%nat, Div (Neg (N 8)) (N 9)); (283%nat, Div (Neg (N 8)) (N 9)); (288%nat, Div (Neg (N 8)) (N 9)); (289%nat, Div (Neg (N 8)) (N 9))];
  [(108%nat, Div (N 4) (N 9)); (113%nat, Div (N 4) (N 9)); (117%nat, Div (N 4) (N 9)); (132%nat, Div (Neg (N 8)) (N 9)); (135%nat, Div (Neg (N 8)) (N 9)); (138%nat, Div (Neg (N 8)) (N 9)); (141%nat, Div (Neg (N 8)) (N 9)); (211%nat, Div (N 4) (N 9)); (215%nat, Div (N 4) (N 9)); (217%nat, Div (N 4) (N 9)); (233%nat, Div (N 4) (N 9)); (234%nat, Div (N 4) (N 9)); (235%nat, Div (N 4) (N 9)); (238%nat, Div (N 4) (N 3)); (241%nat, Div (N 4) (N 3)); (242%nat, Div (N 4) (N 9)); (243%nat, Div (N 4) (N 9)); (244%nat, Div (Neg (N 20)) (N 9)); (247%nat, Div (N 4) (N 3)); (250%nat, Div (N 4) (N 3)); (253%nat, Div (N 4) (N 3)); (256%nat, Div (N 4) (N 3)); (258%nat, Div (N 4) (N 3)); (259%nat, Div (N 4) (N 3)); (269%nat, Div (N 4) (N 3)); (270%nat, Div (N 4) (N 3)); (271%nat, Div (N 4) (N 3)); (282%nat, Div (Neg (N 8)) (N 9)); (283%nat, Div (Neg (N 8)) (N 9)); (288%nat, Div (Neg (N 8)) (N 9)); (289%nat, Div (Neg (N 8)) (N 9))];
  [(106%nat, Div (N 4) (N 9)); (111%nat, Div (N 4) (N 9)); (115%nat, Div (N 4) (N 9)); (130%nat, Div (Neg (N 8)) (N 9)); (133%nat, Div (Neg (N 8)) (N 9)); (136%nat, Div (Neg (N 8)) (N 9)); (139%nat, Div (Neg (N 8)) (N 9)); (209%nat, Div (N 4) (N 9)); (210%nat, Div (N 4) (N 9)); (211%nat, Div (N 4) (N 9)); (218%nat, Div (N 4) (N 9)); (221%nat, Div (N 4) (N 9)); (224%nat, Div (N 4) (N 9)); (236%nat, Div (N 4) (N 3)); (239%nat, Div (N 4) (N 3)); (242%nat, Div (N 4) (N 3)); (245%nat, Div (N 52) (N 9)); (246%nat, Div (N 4) (N 9)); (247%nat, Div (N 4) (N 9)); (248%nat, Div (N 4) (N 3)); (251%nat, Div (N 4) (N 3)); (260%nat, Div (N 4) (N 3)); (265%nat, Div (N 4) (N 3)); (269%nat, Div (N 4) (N 3)); (272%nat, Div (N 4) (N 3)); (273%nat, Div (N 4) (N 3)); (274%nat, Div (N 4) (N 3)); (290%nat, Div (Neg (N 8)) (N 9)); (291%nat, Div (Neg (N 8)) (N 9)); (296%nat, Div (Neg (N 8)) (N 9)); (299%nat, Div (Neg (N 8)) (N 9))];
  [(107%nat, Div (N 4) (N 9)); (112%nat, Div (N 4) (N 9)); (116%nat, Div (N 4) (N 9)); (131%nat, Div (Neg (N 8)) (N 9)); (134%nat, Div (Neg (N 8)) (N 9)); (137%nat, Div (Neg (N 8)) (N 9)); (140%nat, Div (Neg (N 8)) (N 9)); (210%nat, Div (N 4) (N 9)); (214%nat, Div (N 4) (N 9)); (215%nat, Div (N 4) (N 9)); (218%nat, Div (N 4) (N 9)); (221%nat, Div (N 4) (N 9)); (224%nat, Div (N 4) (N 9)); (237%nat, Div (N 4) (N 3)); (240%nat, Div (N 4) (N 3)); (243%nat, Div (N 4) (N 3)); (245%nat, Div (N 4) (N 9)); (246%nat, Div (N 52) (N 9)); (247%nat, Div (N 4) (N 9)); (249%nat, Div (N 4) (N 3)); (252%nat, Div (N 4) (N 3)); (260%nat, Div (N 4) (N 3)); (265%nat, Div (N 4) (N 3)); (269%nat, Div (N 4) (N 3)); (272%nat, Div (N 4) (N 3)); (273%nat, Div (N 4) (N 3)); (274%nat, Div (N 4) (N 3)); (290%nat, Div (Neg (N 8)) (N 9)); (291%nat, Div (Neg (N 8)) (N 9)); (296%nat, Div (Neg (N 8)) (N 9)); (299%nat, Div (Neg (N 8)) (N 9))];
  [(108%nat, Div (N 4) (N 9)); (113%nat, Div (N 4) (N 9)); (117%nat, Div (N 4) (N 9)); (132%nat, Div (Neg (N 8)) (N 9)); (135%nat, Div (Neg (N 8)) (N 9)); (138%nat, Div (Neg (N 8)) (N 9)); (141%nat, Div (Neg (N 8)) (N 9)); (211%nat, Div (N 4) (N 9)); (215%nat, Div (N 4) (N 9)); (217%nat, Div (N 4) (N 9)); (218%nat, Div (N 4) (N 9)); (221%nat, Div (N 4) (N 9)); (224%nat, Div (N 4) (N 9)); (238%nat, Div (N 4) (N 3)); (241%nat, Div (N 4) (N 3)); (244%nat, Div (N 4) (N 3)); (245%nat, Div (N 4) (N 9)); (246%nat, Div (N 4) (N 9)); (247%nat, Div (N 52) (N 9)); (250%nat, Div (N 4) (N 3)); (253%nat, Div (N 4) (N 3)); (260%nat, Div (N 4) (N 3)); (265%nat, Div (N 4) (N 3)); (269%nat, Div (N 4) (N 3)); (272%nat, Div (N 4) (N 3)); (273%nat, Div (N 4) (N 3)); (274%nat, Div (N 4) (N 3)); (290%nat, Div (Neg (N 8)) (N 9)); (291%nat, Div (Neg (N 8)) (N 9)); (296%nat, Div (Neg (N 8)) (N 9)); (299%nat, Div (Neg (N 8)) (N 9))];
  [(106%nat, Div (N 4) (N 9)); (111%nat, Div (N 4) (N 9)); (115%nat, Div (N 4) (N 9)); (130%nat, Div (Neg (N 8)) (N 9)); (133%nat, Div (Neg (N 8)) (N 9)); (136%nat, Div (Neg (N 8)) (N 9)); (139%nat, Div (Neg (N 8)) (N 9)); (209%nat, Div (N 4) (N 9)); (210%nat, Div (N 4) (N 9)); (211%nat, Div (N 4) (N 9)); (219%nat, Div (N 4) (N 9)); (222%nat, Div (N 4) (N 9)); (225%nat, Div (N 4) (N 9)); (236%nat, Div (N 4) (N 3)); (239%nat, Div (N 4) (N 3)); (242%nat, Div (N 4) (N 3)); (245%nat, Div (N 4) (N 3)); (248%nat, Div (N 52) (N 9)); (249%nat, Div (N 4) (N 9)); (250%nat, Div (N 4) (N 9)); (251%nat, Div (N 4) (N 3)); (261%nat, Div (N 4) (N 3)); (266%nat, Div (N 4) (N 3)); (270%nat, Div (N 4) (N 3)); (273%nat, Div (N 4) (N 3)); (275%nat, Div (N 4) (N 3)); (276%nat, Div (N 4) (N 3)); (292%nat, Div (Neg (N 8)) (N 9)); (293%nat, Div (Neg (N 8)) (N 9)); (297%nat, Div (Neg (N 8)) (N 9)); (300%nat, Div (Neg (N 8)) (N 9))];
  [(107%nat, Div (N 4) (N 9)); (112%nat, Div (N 4) (N 9)); (116%nat, Div (N 4) (N 9)); (131%nat, Div (Neg (N 8)) (N 9)); (134%nat, Div (Neg (N 8)) (N 9)); (137%nat, Div (Neg (N 8)) (N 9)); (140%nat, Div (Neg (N 8)) (N 9)); (210%nat, Div (N 4) (N 9)); (214%nat, Div (N 4) (N 9)); (215%nat, Div (N 4) (N 9)); (219%nat, Div (N 4) (N 9)); (222%nat, Div (N 4) (N 9)); (225%nat, Div (N 4) (N 9)); (237%nat, Div (N 4) (N 3)); (240%nat, Div (N 4) (N 3)); (243%nat, Div (N 4) (N 3)); (246%nat, Div (N 4) (N 3)); (248%nat, Div (N 4) (N 9)); (249%nat, Div (N 52) (N 9)); (250%nat, Div (N 4) (N 9)); (252%nat, Div (N 4) (N 3)); (261%nat, Div (N 4) (N 3)); (266%nat, Div (N 4) (N 3)); (270%nat, Div (N 4) (N 3)); (273%nat, Div (N 4) (N 3)); (275%nat, Div (N 4) (N 3)); (276%nat, Div (N 4) (N 3)); (292%nat, Div (Neg (N 8)) (N 9)); (293%nat, Div (Neg (N 8)) (N 9)); (297%nat, Div (Neg (N 8)) (N 9)); (300%nat, Div (Neg (N 8)) (N 9))];
  [(108%nat, Div (N 4) (N 9)); (113%nat, Div (N 4) (N 9)); (117%nat, Div (N 4) (N 9)); (132%nat, Div (Neg (N 8)) (N 9)); (135%nat, Div (Neg (N 8)) (N 9)); (138%nat, Div (Neg (N 8)) (N 9)); (141%nat, Div (Neg (N 8)) (N 9)); (211%nat, Div (N 4) (N 9)); (215%nat, Div (N 4) (N 9)); (217%nat, Div (N 4) (N 9)); (219%nat, Div (N 4) (N 9)); (222%nat, Div (N 4) (N 9)); (225%nat, Div (N 4) (N 9)); (238%nat, Div (N 4) (N 3)); (241%nat, Div (N 4) (N 3)); (244%nat, Div (N 4) (N 3)); (247%nat, Div (N 4) (N 3)); (248%nat, Div (N 4) (N 9)); (249%nat, Div (N 4) (N 9)); (250%nat, Div (N 52) (N 9)); (253%nat, Div (N 4) (N 3)); (261%nat, Div (N 4) (N 3)); (266%nat, Div (N 4) (N 3)); (270%nat, Div (N 4) (N 3)); (273%nat, Div (N 4) (N 3)); (275%nat, Div (N 4) (N 3)); (276%nat, Div (N 4) (N 3)); (292%nat, Div (Neg (N 8)) (N 9)); (293%nat, Div (Neg (N 8)) (N 9)); (297%nat, Div (Neg (N 8)) (N 9)); (300%nat, Div (Neg (N 8)) (N 9))];
  [(106%nat, Div (N 4) (N 9)); (111%nat, Div (N 4) (N 9)); (115%nat, Div (N 4) (N 9)); (130%nat, Div (Neg (N 8)) (N 9)); (133%nat, Div (Neg (N 8)) (N 9)); (136%nat, Div (Neg (N 8)) (N 9)); (139%nat, Div (Neg (N 8)) (N 9)); (209%nat, Div (N 4) (N 9)); (210%nat, Div (N 4) (N 9)); (211%nat, Div (N 4) (N 9)); (220%nat, Div (N 4) (N 9)); (223%nat, Div (N 4) (N 9)); (226%nat, Div (N 4) (N 9)); (236%nat, Div (N 4) (N 3)); (239%nat, Div (N 4) (N 3)); (242%nat, Div (N 4) (N 3)); (245%nat, Div (N 4) (N 3)); (248%nat, Div (N 4) (N 3)); (251%nat, Div (N 52) (N 9)); (252%nat, Div (N 4) (N 9)); (253%nat, Div (N 4) (N 9)); (262%nat, Div (N 4) (N 3)); (267%nat, Div (N 4) (N 3)); (271%nat, Div (N 4) (N 3)); (274%nat, Div (N 4) (N 3)); (276%nat, Div (N 4) (N 3)); (277%nat, Div (N 4) (N 3)); (294%nat, Div (Neg (N 8)) (N 9)); (295%nat, Div (Neg (N 8)) (N 9)); (298%nat, Div (Neg (N 8)) (N 9)); (301%nat, Div (Neg (N 8)) (N 9))];
  [(107%nat, Div (N 4) (N 9)); (112%nat, Div (N 4) (N 9)); (116%nat, Div (N 4) (N 9)); (131%nat, Div (Neg (N 8)) (N 9)); (134%nat, Div (Neg (N 8)) (N 9)); (137%nat, Div (Neg (N 8)) (N 9)); (140%nat, Div (Neg (N 8)) (N 9)); (210%nat, Div (N 4) (N 9)); (214%nat, Div (N 4) (N 9)); (215%nat, Div (N 4) (N 9)); (220%nat, Div (N 4) (N 9)); (223%nat, Div (N 4) (N 9)); (226%nat, Div (N 4) (N 9)); (237%nat, Div (N 4) (N 3)); (240%nat, Div (N 4) (N 3)); (243%nat, Div (N 4) (N 3)); (246%nat, Div (N 4) (N 3)); (249%nat, Div (N 4) (N 3)); (251%nat, Div (N 4) (N 9)); (252%nat, Div (N 52) (N 9)); (253%nat, Div (N 4) (N 9)); (262%nat, Div (N 4) (N 3)); (267%nat, Div (N 4) (N 3)); (271%nat, Div (N 4) (N 3)); (274%nat, Div (N 4) (N 3)); (276%nat, Div (N 4) (N 3)); (277%nat, Div (N 4) (N 3)); (294%nat, Div (Neg (N 8)) (N 9)); (295%nat, Div (Neg (N 8)) (N 9)); (298%nat, Div (Neg (N 8)) (N 9)); (301%nat, Div (Neg (N 8)) (N 9))];
  [(108%nat, Div (N 4) (N 9)); (113%nat, Div (N 4) (N 9)); (117%nat, Div (N 4) (N 9)); (132%nat, Div (Neg (N 8)) (N 9)); (135%nat, Div (Neg (N 8)) (N 9)); (138%nat, Div (Neg (N 8)) (N 9)); (141%nat, Div (Neg (N 8)) (N 9)); (211%nat, Div (N 4) (N 9)); (215%nat, Div (N 4) (N 9)); (217%nat, Div (N 4) (N 9)); (220%nat, Div (N 4) (N 9)); (223%nat, Div (N 4) (N 9)); (226%nat, Div (N 4) (N 9)); (238%nat, Div (N 4) (N 3)); (241%nat, Div (N 4) (N 3)); (244%nat, Div (N 4) (N 3)); (247%nat, Div (N 4) (N 3)); (250%nat, Div (N 4) (N 3)); (251%nat, Div (N 4) (N 9)); (252%nat, Div (N 4) (N 9)); (253%nat, Div (N 52) (N 9)); (262%nat, Div (N 4) (N 3)); (267%nat, Div (N 4) (N 3)); (271%nat, Div (N 4) (N 3)); (274%nat, Div (N 4) (N 3)); (276%nat, Div (N 4) (N 3)); (277%nat, Div (N 4) (N 3)); (294%nat, Div (Neg (N 8)) (N 9)); (295%nat, Div (Neg (N 8)) (N 9)); (298%nat, Div (Neg (N 8)) (N 9)); (301%nat, Div (Neg (N 8)) (N 9))];
  [(227%nat, Div (N 16) (N 9)); (228%nat, Div (N 16) (N 9)); (229%nat, Div (N 16) (N 9)); (236%nat, Div (N 16) (N 9)); (237%nat, Div (N 16) (N 9)); (238%nat, Div (N 16) (N 9)); (254%nat, Div (N 52) (N 3)); (255%nat, Div (N 16) (N 3)); (256%nat, Div (N 16) (N 3)); (260%nat, Div (N 16) (N 3)); (261%nat, Div (N 16) (N 3)); (262%nat, Div (N 16) (N 3)); (278%nat, Div (Neg (N 32)) (N 9)); (279%nat, Div (Neg (N 32)) (N 9)); (284%nat, Div (Neg (N 32)) (N 9)); (285%nat, Div (Neg (N 32)) (N 9))];
  [(227%nat, Div (N 4) (N 9)); (228%nat, Div (N 4) (N 9)); (229%nat, Div (N 4) (N 9)); (230%nat, Div (N 4) (N 9)); (231%nat, Div (N 4) (N 9)); (232%nat, Div (N 4) (N 9)); (236%nat, Div (N 4) (N 9)); (237%nat, Div (N 4) (N 9)); (238%nat, Div (N 4) (N 9)); (239%nat, Div (N 4) (N 9)); (240%nat, Div (N 4) (N 9)); (241%nat, Div (N 4) (N 9)); (254%nat, Div (N 4) (N 3)); (255%nat, Div (N 44) (N 3)); (256%nat, Div (N 4) (N 3)); (257%nat, Div (N 4) (N 3)); (258%nat, Div (N 4) (N 3)); (260%nat, Div (N 4) (N 3)); (261%nat, Div (N 4) (N 3)); (262%nat, Div (N 4) (N 3)); (265%nat, Div (N 4) (N 3)); (266%nat, Div (N 4) (N 3)); (267%nat, Div (N 4) (N 3)); (278%nat, Div (Neg (N 8)) (N 9)); (279%nat, Div (Neg (N 8)) (N 9)); (280%nat, Div (Neg (N 8)) (N 9)); (281%nat, Div (Neg (N 8)) (N 9)); (284%nat, Div (Neg (N 8)) (N 9)); (285%nat, Div (Neg (N 8)) (N 9)); (286%nat, Div (Neg (N 8)) (N 9)); (287%nat, Div (Neg (N 8)) (N 9))];
  [(227%nat, Div (N 4) (N 9)); (228%nat, Div (N 4) (N 9)); (229%nat, Div (N 4) (N 9)); (233%nat, Div (N 4) (N 9)); (234%nat, Div (N 4) (N 9)); (235%nat, Div (N 4) (N 9)); (236%nat, Div (N 4) (N 9)); (237%nat, Div (N 4) (N 9)); (238%nat, Div (N 4) (N 9)); (242%nat, Div (N 4) (N 9)); (243%nat, Div (N 4) (N 9)); (244%nat, Div (N 4) (N 9)); (254%nat, Div (N 4) (N 3)); (255%nat, Div (N 4) (N 3)); (256%nat, Div (N 44) (N 3)); (258%nat, Div (N 4) (N 3)); (259%nat, Div (N 4) (N 3)); (260%nat, Div (N 4) (N 3)); (261%nat, Div (N 4) (N 3)); (262%nat, Div (N 4) (N 3)); (269%nat, Div (N 4) (N 3)); (270%nat, Div (N 4) (N 3)); (271%nat, Div (N 4) (N 3)); (278%nat, Div (Neg (N 8)) (N 9)); (279%nat, Div (Neg (N 8)) (N 9)); (282%nat, Div (Neg (N 8)) (N 9)); (283%nat, Div (Neg (N 8)) (N 9)); (284%nat, Div (Neg (N 8)) (N 9)); (285%nat, Div (Neg (N 8)) (N 9)); (288%nat, Div (Neg (N 8)) (N 9)); (289%nat, Div (Neg (N 8)) (N 9))];
  [(230%nat, Div (N 16) (N 9)); (231%nat, Div (N 16) (N 9)); (232%nat, Div (N 16) (N 9)); (239%nat, Div (N 16) (N 9)); (240%nat, Div (N 16) (N 9)); (241%nat, Div (N 16) (N 9)); (255%nat, Div (N 16) (N 3)); (257%nat, Div (N 52) (N 3)); (258%nat, Div (N 16) (N 3)); (265%nat, Div (N 16) (N 3)); (266%nat, Div (N 16) (N 3)); (267%nat, Div (N 16) (N 3)); (280%nat, Div (Neg (N 32)) (N 9)); (281%nat, Div (Neg (N 32)) (N 9)); (286%nat, Div (Neg (N 32)) (N 9)); (287%nat, Div (Neg (N 32)) (N 9))];
  [(230%nat, Div (N 4) (N 9)); (231%nat, Div (N 4) (N 9)); (232%nat, Div (N 4) (N 9)); (233%nat, Div (N 4) (N 9)); (234%nat, Div (N 4) (N 9)); (235%nat, Div (N 4) (N 9)); (239%nat, Div (N 4) (N 9)); (240%nat, Div (N 4) (N 9)); (241%nat, Div (N 4) (N 9)); (242%nat, Div (N 4) (N 9)); (243%nat, Div (N 4) (N 9)); (244%nat, Div (N 4) (N 9)); (255%nat, Div (N 4) (N 3)); (256%nat, Div (N 4) (N 3)); (257%nat, Div (N 4) (N 3)); (258%nat, Div (N 44) (N 3)); (259%nat, Div (N 4) (N 3)); (265%nat, Div (N 4) (N 3)); (266%nat, Div (N 4) (N 3)); (267%nat, Div (N 4) (N 3)); (269%nat, Div (N 4) (N 3)); (270%nat, Div (N 4) (N 3)); (271%nat, Div (N 4) (N 3)); (280%nat, Div (Neg (N 8)) (N 9)); (281%nat, Div (Neg (N 8)) (N 9)); (282%nat, Div (Neg (N 8)) (N 9)); (283%nat, Div (Neg (N 8)) (N 9)); (286%nat, Div (Neg (N 8)) (N 9)); (287%nat, Div (Neg (N 8)) (N 9)); (288%nat, Div (Neg (N 8)) (N 9)); (289%nat, Div (Neg (N 8)) (N 9))];
  [(233%nat, Div (N 16) (N 9)); (234%nat, Div (N 16) (N 9)); (235%nat, Div (N 16) (N 9)); (242%nat, Div (N 16) (N 9)); (243%nat, Div (N 16) (N 9)); (244%nat, Div (N 16) (N 9)); (256%nat, Div (N 16) (N 3)); (258%nat, Div (N 16) (N 3)); (259%nat, Div (N 52) (N 3)); (269%nat, Div (N 16) (N 3)); (270%nat, Div (N 16) (N 3)); (271%nat, Div (N 16) (N 3)); (282%nat, Div (Neg (N 32)) (N 9)); (283%nat, Div (Neg (N 32)) (N 9)); (288%nat, Div (Neg (N 32)) (N 9)); (289%nat, Div (Neg (N 32)) (N 9))];
  [(218%nat, Div (N 4) (N 9)); (221%nat, Div (N 4) (N 9)); (224%nat, Div (N 4) (N 9)); (227%nat, Div (N 4) (N 9)); (228%nat, Div (N 4) (N 9)); (229%nat, Div (N 4) (N 9)); (236%nat, Div (N 4) (N 9)); (237%nat, Div (N 4) (N 9)); (238%nat, Div (N 4) (N 9)); (245%nat, Div (N 4) (N 9)); (246%nat, Div (N 4) (N 9)); (247%nat, Div (N 4) (N 9)); (254%nat, Div (N 4) (N 3)); (255%nat, Div (N 4) (N 3)); (256%nat, Div (N 4) (N 3)); (260%nat, Div (Neg (N 28)) (N 3)); (261%nat, Div (N 4) (N 3)); (262%nat, Div (N 4) (N 3)); (265%nat, Div (N 4) (N 3)); (269%nat, Div (N 4) (N 3)); (272%nat, Div (N 4) (N 3)); (273%nat, Div (N 4) (N 3)); (274%nat, Div (N 4) (N 3)); (278%nat, Div (Neg (N 8)) (N 9)); (279%nat, Div (Neg (N 8)) (N 9)); (284%nat, Div (Neg (N 8)) (N 9)); (285%nat, Div (Neg (N 8)) (N 9)); (290%nat, Div (Neg (N 8)) (N 9)); (291%nat, Div (Neg (N 8)) (N 9)); (296%nat, Div (Neg (N 8)) (N 9)); (299%nat, Div (Neg (N 8)) (N 9))];
  [(219%nat, Div (N 4) (N 9)); (222%nat, Div (N 4) (N 9)); (225%nat, Div (N 4) (N 9)); (227%nat, Div (N 4) (N 9)); (228%nat, Div (N 4) (N 9)); (229%nat, Div (N 4) (N 9)); (236%nat, Div (N 4) (N 9)); (237%nat, Div (N 4) (N 9)); (238%nat, Div (N 4) (N 9)); (248%nat, Div (N 4) (N 9)); (249%nat, Div (N 4) (N 9)); (250%nat, Div (N 4) (N 9)); (254%nat, Div (N 4) (N 3)); (255%nat, Div (N 4) (N 3)); (256%nat, Div (N 4) (N 3)); (260%nat, Div (N 4) (N 3)); (261%nat, Div (Neg (N 28)) (N 3)); (262%nat, Div (N 4) (N 3)); (266%nat, Div (N 4) (N 3)); (270%nat, Div (N 4) (N 3)); (273%nat, Div (N 4) (N 3)); (275%nat, Div (N 4) (N 3)); (276%nat, Div (N 4) (N 3)); (278%nat, Div (Neg (N 8)) (N 9)); (279%nat, Div (Neg (N 8)) (N 9)); (284%nat, Div (Neg (N 8)) (N 9)); (285%nat, Div (Neg (N 8)) (N 9)); (292%nat, Div (Neg (N 8)) (N 9)); (293%nat, Div (Neg (N 8)) (N 9)); (297%nat, Div (Neg (N 8)) (N 9)); (300%nat, Div (Neg (N 8)) (N 9))];
  [(220%nat, Div (N 4) (N 9)); (223%nat, Div (N 4) (N 9)); (226%nat, Div (N 4) (N 9)); (227%nat, Div (N 4) (N 9)); (228%nat, Div (N 4) (N 9)); (229%nat, Div (N 4) (N 9)); (236%nat, Div (N 4) (N 9)); (237%nat, Div (N 4) (N 9)); (238%nat, Div (N 4) (N 9)); (251%nat, Div (N 4) (N 9)); (252%nat, Div (N 4) (N 9)); (253%nat, Div (N 4) (N 9)); (254%nat, Div (N 4) (N 3)); (255%nat, Div (N 4) (N 3)); (256%nat, Div (N 4) (N 3)); (260%nat, Div (N 4) (N 3)); (261%nat, Div (N 4) (N 3)); (262%nat, Div (Neg (N 28)) (N 3)); (267%nat, Div (N 4) (N 3)); (271%nat, Div (N 4) (N 3)); (274%nat, Div (N 4) (N 3)); (276%nat, Div (N 4) (N 3)); (277%nat, Div (N 4) (N 3)); (278%nat, Div (Neg (N 8)) (N 9)); (279%nat, Div (Neg (N 8)) (N 9)); (284%nat, Div (Neg (N 8)) (N 9)); (285%nat, Div (Neg (N 8)) (N 9)); (294%nat, Div (Neg (N 8)) (N 9)); (295%nat, Div (Neg (N 8)) (N 9)); (298%nat, Div (Neg (N 8)) (N 9)); (301%nat, Div (Neg (N 8)) (N 9))];
  [(263%nat, Neg (N 12))];
  [(264%nat, Neg (N 12))];
  [(218%nat, Div (N 4) (N 9)); (221%nat, Div (N 4) (N 9)); (224%nat, Div (N 4) (N 9)); (230%nat, Div (N 4) (N 9)); (231%nat, Div (N 4) (N 9)); (232%nat, Div (N 4) (N 9)); (239%nat, Div (N 4) (N 9)); (240%nat, Div (N 4) (N 9)); (241%nat, Div (N 4) (N 9)); (245%nat, Div (N 4) (N 9)); (246%nat, Div (N 4) (N 9)); (247%nat, Div (N 4) (N 9)); (255%nat, Div (N 4) (N 3)); (257%nat, Div (N 4) (N 3)); (258%nat, Div (N 4) (N 3)); (260%nat, Div (N 4) (N 3)); (265%nat, Div (Neg (N 28)) (N 3)); (266%nat, Div (N 4) (N 3)); (267%nat, Div (N 4) (N 3)); (269%nat, Div (N 4) (N 3)); (272%nat, Div (N 4) (N 3)); (273%nat, Div (N 4) (N 3)); (274%nat, Div (N 4) (N 3)); (280%nat, Div (Neg (N 8)) (N 9)); (281%nat, Div (Neg (N 8)) (N 9)); (286%nat, Div (Neg (N 8)) (N 9)); (287%nat, Div (Neg (N 8)) (N 9)); (290%nat, Div (Neg (N 8)) (N 9)); (291%nat, Div (Neg (N 8)) (N 9)); (296%nat, Div (Neg (N 8)) (N 9)); (299%nat, Div (Neg (N 8)) (N 9))];
  [(219%nat, Div (N 4) (N 9)); (222%nat, Div (N 4) (N 9)); (225%nat, Div (N 4) (N 9)); (230%nat, Div (N 4) (N 9)); (231%nat, Div (N 4) (N 9)); (232%nat, Div (N 4) (N 9)); (239%nat, Div (N 4) (N 9)); (240%nat, Div (N 4) (N 9)); (241%nat, Div (N 4) (N 9)); (248%nat, Div (N 4) (N 9)); (249%nat, Div (N 4) (N 9)); (250%nat, Div (N 4) (N 9)); (255%nat, Div (N 4) (N 3)); (257%nat, Div (N 4) (N 3)); (258%nat, Div (N 4) (N 3)); (261%nat, Div (N 4) (N 3)); (265%nat, Div (N 4) (N 3)); (266%nat, Div (Neg (N 28)) (N 3)); (267%nat, Div (N 4) (N 3)); (270%nat, Div (N 4) (N 3)); (273%nat, Div (N 4) (N 3)); (275%nat, Div (N 4) (N 3)); (276%nat, Div (N 4) (N 3)); (280%nat, Div (Neg (N 8)) (N 9)); (281%nat, Div (Neg (N 8)) (N 9)); (286%nat, Div (Neg (N 8)) (N 9)); (287%nat, Div (Neg (N 8)) (N 9)); (292%nat, Div (Neg (N 8)) (N 9)); (293%nat, Div (Neg (N 8)) (N 9)); (297%nat, Div (Neg (N 8)) (N 9)); (300%nat, Div (Neg (N 8)) (N 9))];
  [(220%nat, Div (N 4) (N 9)); (223%nat, Div (N 4) (N 9)); (226%nat, Div (N 4) (N 9)); (230%nat, Div (N 4) (N 9)); (231%nat, Div (N 4) (N 9)); (232%nat, Div (N 4) (N 9)); (239%nat, Div (N 4) (N 9)); (240%nat, Div (N 4) (N 9)); (241%nat, Div (N 4) (N 9)); (251%nat, Div (N 4) (N 9)); (252%nat, Div (N 4) (N 9)); (253%nat, Div (N 4) (N 9)); (255%nat, Div (N 4) (N 3)); (257%nat, Div (N 4) (N 3)); (258%nat, Div (N 4) (N 3)); (262%nat, Div (N 4) (N 3)); (265%nat, Div (N 4) (N 3)); (266%nat, Div (N 4) (N 3)); (267%nat, Div (Neg (N 28)) (N 3)); (271%nat, Div (N 4) (N 3)); (274%nat, Div (N 4) (N 3)); (276%nat, Div (N 4) (N 3)); (277%nat, Div (N 4) (N 3)); (280%nat, Div (Neg (N 8)) (N 9)); (281%nat, Div (Neg (N 8)) (N 9)); (286%nat, Div (Neg (N 8)) (N 9)); (287%nat, Div (Neg (N 8)) (N 9)); (294%nat, Div (Neg (N 8)) (N 9)); (295%nat, Div (Neg (N 8)) (N 9)); (298%nat, Div (Neg (N 8)) (N 9)); (301%nat, Div (Neg (N 8)) (N 9))];
  [(268%nat, Neg (N 12))];
  [(218%nat, Div (N 4) (N 9)); (221%nat, Div (N 4) (N 9)); (224%nat, Div (N 4) (N 9)); (233%nat, Div (N 4) (N 9)); (234%nat, Div (N 4) (N 9)); (235%nat, Div (N 4) (N 9)); (242%nat, Div (N 4) (N 9)); (243%nat, Div (N 4) (N 9)); (244%nat, Div (N 4) (N 9)); (245%nat, Div (N 4) (N 9)); (246%nat, Div (N 4) (N 9)); (247%nat, Div (N 4) (N 9)); (256%nat, Div (N 4) (N 3)); (258%nat, Div (N 4) (N 3)); (259%nat, Div (N 4) (N 3)); (260%nat, Div (N 4) (N 3)); (265%nat, Div (N 4) (N 3)); (269%nat, Div (Neg (N 28)) (N 3)); (270%nat, Div (N 4) (N 3)); (271%nat, Div (N 4) (N 3)); (272%nat, Div (N 4) (N 3)); (273%nat, Div (N 4) (N 3)); (274%nat, Div (N 4) (N 3)); (282%nat, Div (Neg (N 8)) (N 9)); (283%nat, Div (Neg (N 8)) (N 9)); (288%nat, Div (Neg (N 8)) (N 9)); (289%nat, Div (Neg (N 8)) (N 9)); (290%nat, Div (Neg (N 8)) (N 9)); (291%nat, Div (Neg (N 8)) (N 9)); (296%nat, Div (Neg (N 8)) (N 9)); (299%nat, Div (Neg (N 8)) (N 9))];
  [(219%nat, Div (N 4) (N 9)); (222%nat, Div (N 4) (N 9)); (225%nat, Div (N 4) (N 9)); (233%nat, Div (N 4) (N 9)); (234%nat, Div (N 4) (N 9)); (235%nat, Div (N 4) (N 9)); (242%nat, Div (N 4) (N 9)); (243%nat, Div (N 4) (N 9)); (244%nat, Div (N 4) (N 9)); (248%nat, Div (N 4) (N 9)); (249%nat, Div (N 4) (N 9)); (250%nat, Div (N 4) (N 9)); (256%nat, Div (N 4) (N 3)); (258%nat, Div (N 4) (N 3)); (259%nat, Div (N 4) (N 3)); (261%nat, Div (N 4) (N 3)); (266%nat, Div (N 4) (N 3)); (269%nat, Div (N 4) (N 3)); (270%nat, Div (Neg (N 28)) (N 3)); (271%nat, Div (N 4) (N 3)); (273%nat, Div (N 4) (N 3)); (275%nat, Div (N 4) (N 3)); (276%nat, Div (N 4) (N 3)); (282%nat, Div (Neg (N 8)) (N 9)); (283%nat, Div (Neg (N 8)) (N 9)); (288%nat, Div (Neg (N 8)) (N 9)); (289%nat, Div (Neg (N 8)) (N 9)); (292%nat, Div (Neg (N 8)) (N 9)); (293%nat, Div (Neg (N 8)) (N 9)); (297%nat, Div (Neg (N 8)) (N 9)); (300%nat, Div (Neg (N 8)) (N 9))];
  [(220%nat, Div (N 4) (N 9)); (223%nat, Div (N 4) (N 9)); (226%nat, Div (N 4) (N 9)); (233%nat, Div (N 4) (N 9)); (234%nat, Div (N 4) (N 9)); (235%nat, Div (N 4) (N 9)); (242%nat, Div (N 4) (N 9)); (243%nat, Div (N 4) (N 9)); (244%nat, Div (N 4) (N 9)); (251%nat, Div (N 4) (N 9)); (252%nat, Div (N 4) (N 9)); (253%nat, Div (N 4) (N 9)); (256%nat, Div (N 4) (N 3)); (258%nat, Div (N 4) (N 3)); (259%nat, Div (N 4) (N 3)); (262%nat, Div (N 4) (N 3)); (267%nat, Div (N 4) (N 3)); (269%nat, Div (N 4) (N 3)); (270%nat, Div (N 4) (N 3)); (271%nat, Div (Neg (N 28)) (N 3)); (274%nat, Div (N 4) (N 3)); (276%nat, Div (N 4) (N 3)); (277%nat, Div (N 4) (N 3)); (282%nat, Div (Neg (N 8)) (N 9)); (283%nat, Div (Neg (N 8)) (N 9)); (288%nat, Div (Neg (N 8)) (N 9)); (289%nat, Div (Neg (N 8)) (N 9)); (294%nat, Div (Neg (N 8)) (N 9)); (295%nat, Div (Neg (N 8)) (N 9)); (298%nat, Div (Neg (N 8)) (N 9)); (301%nat, Div (Neg (N 8)) (N 9))];
  [(218%nat, Div (N 16) (N 9)); (221%nat, Div (N 16) (N 9)); (224%nat, Div (N 16) (N 9)); (245%nat, Div (N 16) (N 9)); (246%nat, Div (N 16) (N 9)); (247%nat, Div (N 16) (N 9)); (260%nat, Div (N 16) (N 3)); (265%nat, Div (N 16) (N 3)); (269%nat, Div (N 16) (N 3)); (272%nat, Div (N 52) (N 3)); (273%nat, Div (N 16) (N 3)); (274%nat, Div (N 16) (N 3)); (290%nat, Div (Neg (N 32)) (N 9)); (291%nat, Div (Neg (N 32)) (N 9)); (296%nat, Div (Neg (N 32)) (N 9)); (299%nat, Div (Neg (N 32)) (N 9))];
  [(218%nat, Div (N 4) (N 9)); (219%nat, Div (N 4) (N 9)); (221%nat, Div (N 4) (N 9)); (222%nat, Div (N 4) (N 9)); (224%nat, Div (N 4) (N 9)); (225%nat, Div (N 4) (N 9)); (245%nat, Div (N 4) (N 9)); (246%nat, Div (N 4) (N 9)); (247%nat, Div (N 4) (N 9)); (248%nat, Div (N 4) (N 9)); (249%nat, Div (N 4) (N 9)); (250%nat, Div (N 4) (N 9)); (260%nat, Div (N 4) (N 3)); (261%nat, Div (N 4) (N 3)); (265%nat, Div (N 4) (N 3)); (266%nat, Div (N 4) (N 3)); (269%nat, Div (N 4) (N 3)); (270%nat, Div (N 4) (N 3)); (272%nat, Div (N 4) (N 3)); (273%nat, Div (N 44) (N 3)); (274%nat, Div (N 4) (N 3)); (275%nat, Div (N 4) (N 3)); (276%nat, Div (N 4) (N 3)); (290%nat, Div (Neg (N 8)) (N 9)); (291%nat, Div (Neg (N 8)) (N 9)); (292%nat, Div (Neg (N 8)) (N 9)); (293%nat, Div (Neg (N 8)) (N 9)); (296%nat, Div (Neg (N 8)) (N 9)); (297%nat, Div (Neg (N 8)) (N 9)); (299%nat, Div (Neg (N 8)) (N 9)); (300%nat, Div (Neg (N 8)) (N 9))];
  [(218%nat, Div (N 4) (N 9)); (220%nat, Div (N 4) (N 9)); (221%nat, Div (N 4) (N 9)); (223%nat, Div (N 4) (N 9)); (224%nat, Div (N 4) (N 9)); (226%nat, Div (N 4) (N 9)); (245%nat, Div (N 4) (N 9)); (246%nat, Div (N 4) (N 9)); (247%nat, Div (N 4) (N 9)); (251%nat, Div (N 4) (N 9)); (252%nat, Div (N 4) (N 9)); (253%nat, Div (N 4) (N 9)); (260%nat, Div (N 4) (N 3)); (262%nat, Div (N 4) (N 3)); (265%nat, Div (N 4) (N 3)); (267%nat, Div (N 4) (N 3)); (269%nat, Div (N 4) (N 3)); (271%nat, Div (N 4) (N 3)); (272%nat, Div (N 4) (N 3)); (273%nat, Div (N 4) (N 3)); (274%nat, Div (N 44) (N 3)); (276%nat, Div (N 4) (N 3)); (277%nat, Div (N 4) (N 3)); (290%nat, Div (Neg (N 8)) (N 9)); (291%nat, Div (Neg (N 8)) (N 9)); (294%nat, Div (Neg (N 8)) (N 9)); (295%nat, Div (Neg (N 8)) (N 9)); (296%nat, Div (Neg (N 8)) (N 9)); (298%nat, Div (Neg (N 8)) (N 9)); (299%nat, Div (Neg (N 8)) (N 9)); (301%nat, Div (Neg (N 8)) (N 9))];
  [(219%nat, Div (N 16) (N 9)); (222%nat, Div (N 16) (N 9)); (225%nat, Div (N 16) (N 9)); (248%nat, Div (N 16) (N 9)); (249%nat, Div (N 16) (N 9)); (250%nat, Div (N 16) (N 9)); (261%nat, Div (N 16) (N 3)); (266%nat, Div (N 16) (N 3)); (270%nat, Div (N 16) (N 3)); (273%nat, Div (N 16) (N 3)); (275%nat, Div (N 52) (N 3)); (276%nat, Div (N 16) (N 3)); (292%nat, Div (Neg (N 32)) (N 9)); (293%nat, Div (Neg (N 32)) (N 9)); (297%nat, Div (Neg (N 32)) (N 9)); (300%nat, Div (Neg (N 32)) (N 9))];
  [(219%nat, Div (N 4) (N 9)); (220%nat, Div (N 4) (N 9)); (222%nat, Div (N 4) (N 9)); (223%nat, Div (N 4) (N 9)); (225%nat, Div (N 4) (N 9)); (226%nat, Div (N 4) (N 9)); (248%nat, Div (N 4) (N 9)); (249%nat, Div (N 4) (N 9)); (250%nat, Div (N 4) (N 9)); (251%nat, Div (N 4) (N 9)); (252%nat, Div (N 4) (N 9)); (253%nat, Div (N 4) (N 9)); (261%nat, Div (N 4) (N 3)); (262%nat, Div (N 4) (N 3)); (266%nat, Div (N 4) (N 3)); (267%nat, Div (N 4) (N 3)); (270%nat, Div (N 4) (N 3)); (271%nat, Div (N 4) (N 3)); (273%nat, Div (N 4) (N 3)); (274%nat, Div (N 4) (N 3)); (275%nat, Div (N 4) (N 3)); (276%nat, Div (N 44) (N 3)); (277%nat, Div (N 4) (N 3)); (292%nat, Div (Neg (N 8)) (N 9)); (293%nat, Div (Neg (N 8)) (N 9)); (294%nat, Div (Neg (N 8)) (N 9)); (295%nat, Div (Neg (N 8)) (N 9)); (297%nat, Div (Neg (N 8)) (N 9)); (298%nat, Div (Neg (N 8)) (N 9)); (300%nat, Div (Neg (N 8)) (N 9)); (301%nat, Div (Neg (N 8)) (N 9))];
  [(220%nat, Div (N 16) (N 9)); (223%nat, Div (N 16) (N 9)); (226%nat, Div (N 16) (N 9)); (251%nat, Div (N 16) (N 9)); (252%nat, Div (N 16) (N 9)); (253%nat, Div (N 16) (N 9)); (262%nat, Div (N 16) (N 3)); (267%nat, Div (N 16) (N 3)); (271%nat, Div (N 16) (N 3)); (274%nat, Div (N 16) (N 3)); (276%nat, Div (N 16) (N 3)); (277%nat, Div (N 52) (N 3)); (294%nat, Div (Neg (N 32)) (N 9)); (295%nat, Div (Neg (N 32)) (N 9)); (298%nat, Div (Neg (N 32)) (N 9)); (301%nat, Div (Neg (N 32)) (N 9))];
  [(124%nat, Div (N 4) (N 9)); (125%nat, Div (N 4) (N 9)); (126%nat, Div (N 4) (N 9)); (130%nat, Div (N 4) (N 9)); (131%nat, Div (N 4) (N 9)); (132%nat, Div (N 4) (N 9)); (148%nat, Div (Neg (N 8)) (N 9)); (149%nat, Div (Neg (N 8)) (N 9)); (227%nat, Div (Neg (N 8)) (N 9)); (228%nat, Div (Neg (N 8)) (N 9)); (229%nat, Div (Neg (N 8)) (N 9)); (236%nat, Div (Neg (N 8)) (N 9)); (237%nat, Div (Neg (N 8)) (N 9)); (238%nat, Div (Neg (N 8)) (N 9)); (254%nat, Div (Neg (N 8)) (N 3)); (255%nat, Div (Neg (N 8)) (N 3)); (256%nat, Div (Neg (N 8)) (N 3)); (260%nat, Div (Neg (N 8)) (N 3)); (261%nat, Div (Neg (N 8)) (N 3)); (262%nat, Div (Neg (N 8)) (N 3)); (278%nat, Div (Neg (N 44)) (N 9)); (279%nat, Div (N 16) (N 9)); (280%nat, Div (N 4) (N 3)); (282%nat, Div (N 4) (N 3)); (284%nat, Div (N 16) (N 9)); (285%nat, Div (N 16) (N 9)); (296%nat, Div (N 4) (N 3)); (297%nat, Div (N 4) (N 3)); (298%nat, Div (N 4) (N 3)); (302%nat, Div (Neg (N 8)) (N 9)); (303%nat, Div (Neg (N 8)) (N 9))];
  [(127%nat, Div (N 4) (N 9)); (128%nat, Div (N 4) (N 9)); (129%nat, Div (N 4) (N 9)); (133%nat, Div (N 4) (N 9)); (134%nat, Div (N 4) (N 9)); (135%nat, Div (N 4) (N 9)); (151%nat, Div (Neg (N 8)) (N 9)); (152%nat, Div (Neg (N 8)) (N 9)); (227%nat, Div (Neg (N 8)) (N 9)); (228%nat, Div (Neg (N 8)) (N 9)); (229%nat, Div (Neg (N 8)) (N 9)); (236%nat, Div (Neg (N 8)) (N 9)); (237%nat, Div (Neg (N 8)) (N 9)); (238%nat, Div (Neg (N 8)) (N 9)); (254%nat, Div (Neg (N 8)) (N 3)); (255%nat, Div (Neg (N 8)) (N 3)); (256%nat, Div (Neg (N 8)) (N 3)); (260%nat, Div (Neg (N 8)) (N 3)); (261%nat, Div (Neg (N 8)) (N 3)); (262%nat, Div (Neg (N 8)) (N 3)); (278%nat, Div (N 16) (N 9)); (279%nat, Div (Neg (N 44)) (N 9)); (281%nat, Div (N 4) (N 3)); (283%nat, Div (N 4) (N 3)); (284%nat, Div (N 16) (N 9)); (285%nat, Div (N 16) (N 9)); (299%nat, Div (N 4) (N 3)); (300%nat, Div (N 4) (N 3)); (301%nat, Div (N 4) (N 3)); (303%nat, Div (Neg (N 8)) (N 9)); (305%nat, Div (Neg (N 8)) (N 9))];
  [(124%nat, Div (N 4) (N 9)); (125%nat, Div (N 4) (N 9)); (126%nat, Div (N 4) (N 9)); (130%nat, Div (N 4) (N 9)); (131%nat, Div (N 4) (N 9)); (132%nat, Div (N 4) (N 9)); (148%nat, Div (Neg (N 8)) (N 9)); (149%nat, Div (Neg (N 8)) (N 9)); (230%nat, Div (Neg (N 8)) (N 9)); (231%nat, Div (Neg (N 8)) (N 9)); (232%nat, Div (Neg (N 8)) (N 9)); (239%nat, Div (Neg (N 8)) (N 9)); (240%nat, Div (Neg (N 8)) (N 9)); (241%nat, Div (Neg (N 8)) (N 9)); (255%nat, Div (Neg (N 8)) (N 3)); (257%nat, Div (Neg (N 8)) (N 3)); (258%nat, Div (Neg (N 8)) (N 3)); (265%nat, Div (Neg (N 8)) (N 3)); (266%nat, Div (Neg (N 8)) (N 3)); (267%nat, Div (Neg (N 8)) (N 3)); (278%nat, Div (N 4) (N 3)); (280%nat, Div (Neg (N 44)) (N 9)); (281%nat, Div (N 16) (N 9)); (282%nat, Div (N 4) (N 3)); (286%nat, Div (N 16) (N 9)); (287%nat, Div (N 16) (N 9)); (296%nat, Div (N 4) (N 3)); (297%nat, Div (N 4) (N 3)); (298%nat, Div (N 4) (N 3)); (302%nat, Div (Neg (N 8)) (N 9)); (303%nat, Div (Neg (N 8)) (N 9))];
  [(127%nat, Div (N 4) (N 9)); (128%nat, Div (N 4) (N 9)); (129%nat, Div (N 4) (N 9)); (133%nat, Div (N 4) (N 9)); (134%nat, Div (N 4) (N 9)); (135%nat, Div (N 4) (N 9)); (151%nat, Div (Neg (N 8)) (N 9)); (152%nat, Div (Neg (N 8)) (N 9)); (230%nat, Div (Neg (N 8)) (N 9)); (231%nat, Div (Neg (N 8)) (N 9)); (232%nat, Div (Neg (N 8)) (N 9)); (239%nat, Div (Neg (N 8)) (N 9)); (240%nat, Div (Neg (N 8)) (N 9)); (241%nat, Div (Neg (N 8)) (N 9)); (255%nat, Div (Neg (N 8)) (N 3)); (257%nat, Div (Neg (N 8)) (N 3)); (258%nat, Div (Neg (N 8)) (N 3)); (265%nat, Div (Neg (N 8)) (N 3)); (266%nat, Div (Neg (N 8)) (N 3)); (267%nat, Div (Neg (N 8)) (N 3)); (279%nat, Div (N 4) (N 3)); (280%nat, Div (N 16) (N 9)); (281%nat, Div (Neg (N 44)) (N 9)); (283%nat, Div (N 4) (N 3)); (286%nat, Div (N 16) (N 9)); (287%nat, Div (N 16) (N 9)); (299%nat, Div (N 4) (N 3)); (300%nat, Div (N 4) (N 3)); (301%nat, Div (N 4) (N 3)); (303%nat, Div (Neg (N 8)) (N 9)); (305%nat, Div (Neg (N 8)) (N 9))];
  [(124%nat, Div (N 4) (N 9)); (125%nat, Div (N 4) (N 9)); (126%nat, Div (N 4) (N 9)); (130%nat, Div (N 4) (N 9)); (131%nat, Div (N 4) (N 9)); (132%nat, Div (N 4) (N 9)); (148%nat, Div (Neg (N 8)) (N 9)); (149%nat, Div (Neg (N 8)) (N 9)); (233%nat, Div (Neg (N 8)) (N 9)); (234%nat, Div (Neg (N 8)) (N 9)); (235%nat, Div (Neg (N 8)) (N 9)); (242%nat, Div (Neg (N 8)) (N 9)); (243%nat, Div (Neg (N 8)) (N 9)); (244%nat, Div (Neg (N 8)) (N 9)); (256%nat, Div (Neg (N 8)) (N 3)); (258%nat, Div (Neg (N 8)) (N 3)); (259%nat, Div (Neg (N 8)) (N 3)); (269%nat, Div (Neg (N 8)) (N 3)); (270%nat, Div (Neg (N 8)) (N 3)); (271%nat, Div (Neg (N 8)) (N 3)); (278%nat, Div (N 4) (N 3)); (280%nat, Div (N 4) (N 3)); (282%nat, Div (Neg (N 44)) (N 9)); (283%nat, Div (N 16) (N 9)); (288%nat, Div (N 16) (N 9)); (289%nat, Div (N 16) (N 9)); (296%nat, Div (N 4) (N 3)); (297%nat, Div (N 4) (N 3)); (298%nat, Div (N 4) (N 3)); (302%nat, Div (Neg (N 8)) (N 9)); (303%nat, Div (Neg (N 8)) (N 9))];
  [(127%nat, Div (N 4) (N 9)); (128%nat, Div (N 4) (N 9)); (129%nat, Div (N 4) (N 9)); (133%nat, Div (N 4) (N 9)); (134%nat, Div (N 4) (N 9)); (135%nat, Div (N 4) (N 9)); (151%nat, Div (Neg (N 8)) (N 9)); (152%nat, Div (Neg (N 8)) (N 9)); (233%nat, Div (Neg (N 8)) (N 9)); (234%nat, Div (Neg (N 8)) (N 9)); (235%nat, Div (Neg (N 8)) (N 9)); (242%nat, Div (Neg (N 8)) (N 9)); (243%nat, Div (Neg (N 8)) (N 9)); (244%nat, Div (Neg (N 8)) (N 9)); (256%nat, Div (Neg (N 8)) (N 3)); (258%nat, Div (Neg (N 8)) (N 3)); (259%nat, Div (Neg (N 8)) (N 3)); (269%nat, Div (Neg (N 8)) (N 3)); (270%nat, Div (Neg (N 8)) (N 3)); (271%nat, Div (Neg (N 8)) (N 3)); (279%nat, Div (N 4) (N 3)); (281%nat, Div (N 4) (N 3)); (282%nat, Div (N 16) (N 9)); (283%nat, Div (Neg (N 44)) (N 9)); (288%nat, Div (N 16) (N 9)); (289%nat, Div (N 16) (N 9)); (299%nat, Div (N 4) (N 3)); (300%nat, Div (N 4) (N 3)); (301%nat, Div (N 4) (N 3)); (303%nat, Div (Neg (N 8)) (N 9)); (305%nat, Div (Neg (N 8)) (N 9))];
  [(118%nat, Div (N 4) (N 9)); (120%nat, Div (N 4) (N 9)); (122%nat, Div (N 4) (N 9)); (136%nat, Div (N 4) (N 9)); (137%nat, Div (N 4) (N 9)); (138%nat, Div (N 4) (N 9)); (148%nat, Div (Neg (N 8)) (N 9)); (151%nat, Div (Neg (N 8)) (N 9)); (227%nat, Div (Neg (N 8)) (N 9)); (228%nat, Div (Neg (N 8)) (N 9)); (229%nat, Div (Neg (N 8)) (N 9)); (236%nat, Div (Neg (N 8)) (N 9)); (237%nat, Div (Neg (N 8)) (N 9)); (238%nat, Div (Neg (N 8)) (N 9)); (254%nat, Div (Neg (N 8)) (N 3)); (255%nat, Div (Neg (N 8)) (N 3)); (256%nat, Div (Neg (N 8)) (N 3)); (260%nat, Div (Neg (N 8)) (N 3)); (261%nat, Div (Neg (N 8)) (N 3)); (262%nat, Div (Neg (N 8)) (N 3)); (278%nat, Div (N 16) (N 9)); (279%nat, Div (N 16) (N 9)); (284%nat, Div (N 100) (N 9)); (285%nat, Div (N 16) (N 9)); (286%nat, Div (N 4) (N 3)); (288%nat, Div (N 4) (N 3)); (290%nat, Div (N 4) (N 3)); (292%nat, Div (N 4) (N 3)); (294%nat, Div (N 4) (N 3)); (306%nat, Div (Neg (N 8)) (N 9)); (307%nat, Div (Neg (N 8)) (N 9))];
  [(119%nat, Div (N 4) (N 9)); (121%nat, Div (N 4) (N 9)); (123%nat, Div (N 4) (N 9)); (139%nat, Div (N 4) (N 9)); (140%nat, Div (N 4) (N 9)); (141%nat, Div (N 4) (N 9)); (149%nat, Div (Neg (N 8)) (N 9)); (152%nat, Div (Neg (N 8)) (N 9)); (227%nat, Div (Neg (N 8)) (N 9)); (228%nat, Div (Neg (N 8)) (N 9)); (229%nat, Div (Neg (N 8)) (N 9)); (236%nat, Div (Neg (N 8)) (N 9)); (237%nat, Div (Neg (N 8)) (N 9)); (238%nat, Div (Neg (N 8)) (N 9)); (254%nat, Div (Neg (N 8)) (N 3)); (255%nat, Div (Neg (N 8)) (N 3)); (256%nat, Div (Neg (N 8)) (N 3)); (260%nat, Div (Neg (N 8)) (N 3)); (261%nat, Div (Neg (N 8)) (N 3)); (262%nat, Div (Neg (N 8)) (N 3)); (278%nat, Div (N 16) (N 9)); (279%nat, Div (N 16) (N 9)); (284%nat, Div (N 16) (N 9)); (285%nat, Div (N 100) (N 9)); (287%nat, Div (N 4) (N 3)); (289%nat, Div (N 4) (N 3)); (291%nat, Div (N 4) (N 3)); (293%nat, Div (N 4) (N 3)); (295%nat, Div (N 4) (N 3)); (307%nat, Div (Neg (N 8)) (N 9)); (309%nat, Div (Neg (N 8)) (N 9))];
  [(118%nat, Div (N 4) (N 9)); (120%nat, Div (N 4) (N 9)); (122%nat, Div (N 4) (N 9)); (136%nat, Div (N 4) (N 9)); (137%nat, Div (N 4) (N 9)); (138%nat, Div (N 4) (N 9)); (148%nat, Div (Neg (N 8)) (N 9)); (151%nat, Div (Neg (N 8)) (N 9)); (230%nat, Div (Neg (N 8)) (N 9)); (231%nat, Div (Neg (N 8)) (N 9)); (232%nat, Div (Neg (N 8)) (N 9)); (239%nat, Div (Neg (N 8)) (N 9)); (240%nat, Div (Neg (N 8)) (N 9)); (241%nat, Div (Neg (N 8)) (N 9)); (255%nat, Div (Neg (N 8)) (N 3)); (257%nat, Div (Neg (N 8)) (N 3)); (258%nat, Div (Neg (N 8)) (N 3)); (265%nat, Div (Neg (N 8)) (N 3)); (266%nat, Div (Neg (N 8)) (N 3)); (267%nat, Div (Neg (N 8)) (N 3)); (280%nat, Div (N 16) (N 9)); (281%nat, Div (N 16) (N 9)); (284%nat, Div (N 4) (N 3)); (286%nat, Div (N 100) (N 9)); (287%nat, Div (N 16) (N 9)); (288%nat, Div (N 4) (N 3)); (290%nat, Div (N 4) (N 3)); (292%nat, Div (N 4) (N 3)); (294%nat, Div (N 4) (N 3)); (306%nat, Div (Neg (N 8)) (N 9)); (307%nat, Div (Neg (N 8)) (N 9))];
  [(119%nat, Div (N 4) (N 9)); (121%nat, Div (N 4) (N 9)); (123%nat, Div (N 4) (N 9)); (139%nat, Div (N 4) (N 9)); (140%nat, Div (N 4) (N 9)); (141%nat, Div (N 4) (N 9)); (149%nat, Div (Neg (N 8)) (N 9)); (152%nat, Div (Neg (N 8)) (N 9)); (230%nat, Div (Neg (N 8)) (N 9)); (231%nat, Div (Neg (N 8)) (N 9)); (232%nat, Div (Neg (N 8)) (N 9)); (239%nat, Div (Neg (N 8)) (N 9)); (240%nat, Div (Neg (N 8)) (N 9)); (241%nat, Div (Neg (N 8)) (N 9)); (255%nat, Div (Neg (N 8)) (N 3)); (257%nat, Div (Neg (N 8)) (N 3)); (258%nat, Div (Neg (N 8)) (N 3)); (265%nat, Div (Neg (N 8)) (N 3)); (266%nat, Div (Neg (N 8)) (N 3)); (267%nat, Div (Neg (N 8)) (N 3)); (280%nat, Div (N 16) (N 9)); (281%nat, Div (N 16) (N 9)); (285%nat, Div (N 4) (N 3)); (286%nat, Div (N 16) (N 9)); (287%nat, Div (N 100) (N 9)); (289%nat, Div (N 4) (N 3)); (291%nat, Div (N 4) (N 3)); (293%nat, Div (N 4) (N 3)); (295%nat, Div (N 4) (N 3)); (307%nat, Div (Neg (N 8)) (N 9)); (309%nat, Div (Neg (N 8)) (N 9))];
  [(118%nat, Div (N 4) (N 9)); (120%nat, Div (N 4) (N 9)); (122%nat, Div (N 4) (N 9)); (136%nat, Div (N 4) (N 9)); (137%nat, Div (N 4) (N 9)); (138%nat, Div (N 4) (N 9)); (148%nat, Div (Neg (N 8)) (N 9)); (151%nat, Div (Neg (N 8)) (N 9)); (233%nat, Div (Neg (N 8)) (N 9)); (234%nat, Div (Neg (N 8)) (N 9)); (235%nat, Div (Neg (N 8)) (N 9)); (242%nat, Div (Neg (N 8)) (N 9)); (243%nat, Div (Neg (N 8)) (N 9)); (244%nat, Div (Neg (N 8)) (N 9)); (256%nat, Div (Neg (N 8)) (N 3)); (258%nat, Div (Neg (N 8)) (N 3)); (259%nat, Div (Neg (N 8)) (N 3)); (269%nat, Div (Neg (N 8)) (N 3)); (270%nat, Div (Neg (N 8)) (N 3)); (271%nat, Div (Neg (N 8)) (N 3)); (282%nat, Div (N 16) (N 9)); (283%nat, Div (N 16) (N 9)); (284%nat, Div (N 4) (N 3)); (286%nat, Div (N 4) (N 3)); (288%nat, Div (N 100) (N 9)); (289%nat, Div (N 16) (N 9)); (290%nat, Div (N 4) (N 3)); (292%nat, Div (N 4) (N 3)); (294%nat, Div (N 4) (N 3)); (306%nat, Div (Neg (N 8)) (N 9)); (307%nat, Div (Neg (N 8)) (N 9))];
  [(119%nat, Div (N 4) (N 9)); (121%nat, Div (N 4) (N 9)); (123%nat, Div (N 4) (N 9)); (139%nat, Div (N 4) (N 9)); (140%nat, Div (N 4) (N 9)); (141%nat, Div (N 4) (N 9)); (149%nat, Div (Neg (N 8)) (N 9)); (152%nat, Div (Neg (N 8)) (N 9)); (233%nat, Div (Neg (N 8)) (N 9)); (234%nat, Div (Neg (N 8)) (N 9)); (235%nat, Div (Neg (N 8)) (N 9)); (242%nat, Div (Neg (N 8)) (N 9)); (243%nat, Div (Neg (N 8)) (N 9)); (244%nat, Div (Neg (N 8)) (N 9)); (256%nat, Div (Neg (N 8)) (N 3)); (258%nat, Div (Neg (N 8)) (N 3)); (259%nat, Div (Neg (N 8)) (N 3)); (269%nat, Div (Neg (N 8)) (N 3)); (270%nat, Div (Neg (N 8)) (N 3)); (271%nat, Div (Neg (N 8)) (N 3)); (282%nat, Div (N 16) (N 9)); (283%nat, Div (N 16) (N 9)); (285%nat, Div (N 4) (N 3)); (287%nat, Div (N 4) (N 3)); (288%nat, Div (N 16) (N 9)); (289%nat, Div (N 100) (N 9)); (291%nat, Div (N 4) (N 3)); (293%nat, Div (N 4) (N 3)); (295%nat, Div (N 4) (N 3)); (307%nat, Div (Neg (N 8)) (N 9)); (309%nat, Div (Neg (N 8)) (N 9))];
  [(118%nat, Div (N 4) (N 9)); (120%nat, Div (N 4) (N 9)); (122%nat, Div (N 4) (N 9)); (136%nat, Div (N 4) (N 9)); (137%nat, Div (N 4) (N 9)); (138%nat, Div (N 4) (N 9)); (148%nat, Div (Neg (N 8)) (N 9)); (151%nat, Div (Neg (N 8)) (N 9)); (218%nat, Div (Neg (N 8)) (N 9)); (221%nat, Div (Neg (N 8)) (N 9)); (224%nat, Div (Neg (N 8)) (N 9)); (245%nat, Div (Neg (N 8)) (N 9)); (246%nat, Div (Neg (N 8)) (N 9)); (247%nat, Div (Neg (N 8)) (N 9)); (260%nat, Div (Neg (N 8)) (N 3)); (265%nat, Div (Neg (N 8)) (N 3)); (269%nat, Div (Neg (N 8)) (N 3)); (272%nat, Div (Neg (N 8)) (N 3)); (273%nat, Div (Neg (N 8)) (N 3)); (274%nat, Div (Neg (N 8)) (N 3)); (284%nat, Div (N 4) (N 3)); (286%nat, Div (N 4) (N 3)); (288%nat, Div (N 4) (N 3)); (290%nat, Div (Neg (N 44)) (N 9)); (291%nat, Div (N 16) (N 9)); (292%nat, Div (N 4) (N 3)); (294%nat, Div (N 4) (N 3)); (296%nat, Div (N 16) (N 9)); (299%nat, Div (N 16) (N 9)); (306%nat, Div (Neg (N 8)) (N 9)); (307%nat, Div (Neg (N 8)) (N 9))];
  [(119%nat, Div (N 4) (N 9)); (121%nat, Div (N 4) (N 9)); (123%nat, Div (N 4) (N 9)); (139%nat, Div (N 4) (N 9)); (140%nat, Div (N 4) (N 9)); (141%nat, Div (N 4) (N 9)); (149%nat, Div (Neg (N 8)) (N 9)); (152%nat, Div (Neg (N 8)) (N 9)); (218%nat, Div (Neg (N 8)) (N 9)); (221%nat, Div (Neg (N 8)) (N 9)); (224%nat, Div (Neg (N 8)) (N 9)); (245%nat, Div (Neg (N 8)) (N 9)); (246%nat, Div (Neg (N 8)) (N 9)); (247%nat, Div (Neg (N 8)) (N 9)); (260%nat, Div (Neg (N 8)) (N 3)); (265%nat, Div (Neg (N 8)) (N 3)); (269%nat, Div (Neg (N 8)) (N 3)); (272%nat, Div (Neg (N 8)) (N 3)); (273%nat, Div (Neg (N 8)) (N 3)); (274%nat, Div (Neg (N 8)) (N 3)); (285%nat, Div (N 4) (N 3)); (287%nat, Div (N 4) (N 3)); (289%nat, Div (N 4) (N 3)); (290%nat, Div (N 16) (N 9)); (291%nat, Div (Neg (N 44)) (N 9)); (293%nat, Div (N 4) (N 3)); (295%nat, Div (N 4) (N 3)); (296%nat, Div (N 16) (N 9)); (299%nat, Div (N 16) (N 9)); (307%nat, Div (Neg (N 8)) (N 9)); (309%nat, Div (Neg (N 8)) (N 9))];
  [(118%nat, Div (N 4) (N 9)); (120%nat, Div (N 4) (N 9)); (122%nat, Div (N 4) (N 9)); (136%nat, Div (N 4) (N 9)); (137%nat, Div (N 4) (N 9)); (138%nat, Div (N 4) (N 9)); (148%nat, Div (Neg (N 8)) (N 9)); (151%nat, Div (Neg (N 8)) (N 9)); (219%nat, Div (Neg (N 8)) (N 9)); (222%nat, Div (Neg (N 8)) (N 9)); (225%nat, Div (Neg (N 8)) (N 9)); (248%nat, Div (Neg (N 8)) (N 9)); (249%nat, Div (Neg (N 8)) (N 9)); (250%nat, Div (Neg (N 8)) (N 9)); (261%nat, Div (Neg (N 8)) (N 3)); (266%nat, Div (Neg (N 8)) (N 3)); (270%nat, Div (Neg (N 8)) (N 3)); (273%nat, Div (Neg (N 8)) (N 3)); (275%nat, Div (Neg (N 8)) (N 3)); (276%nat, Div (Neg (N 8)) (N 3)); (284%nat, Div (N 4) (N 3)); (286%nat, Div (N 4) (N 3)); (288%nat, Div (N 4) (N 3)); (290%nat, Div (N 4) (N 3)); (292%nat, Div (Neg (N 44)) (N 9)); (293%nat, Div (N 16) (N 9)); (294%nat, Div (N 4) (N 3)); (297%nat, Div (N 16) (N 9)); (300%nat, Div (N 16) (N 9)); (306%nat, Div (Neg (N 8)) (N 9)); (307%nat, Div (Neg (N 8)) (N 9))];
  [(119%nat, Div (N 4) (N 9)); (121%nat, Div (N 4) (N 9)); (123%nat, Div (N 4) (N 9)); (139%nat, Div (N 4) (N 9)); (140%nat, Div (N 4) (N 9)); (141%nat, Div (N 4) (N 9)); (149%nat, Div (Neg (N 8)) (N 9)); (152%nat, Div (Neg (N 8)) (N 9)); (219%nat, Div (Neg (N 8)) (N 9)); (222%nat, Div (Neg (N 8)) (N 9)); (225%nat, Div (Neg (N 8)) (N 9)); (248%nat, Div (Neg (N 8)) (N 9)); (249%nat, Div (Neg (N 8)) (N 9)); (250%nat, Div (Neg (N 8)) (N 9)); (261%nat, Div (Neg (N 8)) (N 3)); (266%nat, Div (Neg (N 8)) (N 3)); (270%nat, Div (Neg (N 8)) (N 3)); (273%nat, Div (Neg (N 8)) (N 3)); (275%nat, Div (Neg (N 8)) (N 3)); (276%nat, Div (Neg (N 8)) (N 3)); (285%nat, Div (N 4) (N 3)); (287%nat, Div (N 4) (N 3)); (289%nat, Div (N 4) (N 3)); (291%nat, Div (N 4) (N 3)); (292%nat, Div (N 16) (N 9)); (293%nat, Div (Neg (N 44)) (N 9)); (295%nat, Div (N 4) (N 3)); (297%nat, Div (N 16) (N 9)); (300%nat, Div (N 16) (N 9)); (307%nat, Div (Neg (N 8)) (N 9)); (309%nat, Div (Neg (N 8)) (N 9))];
  [(118%nat, Div (N 4) (N 9)); (120%nat, Div (N 4) (N 9)); (122%nat, Div (N 4) (N 9)); (136%nat, Div (N 4) (N 9)); (137%nat, Div (N 4) (N 9)); (138%nat, Div (N 4) (N 9)); (148%nat, Div (Neg (N 8)) (N 9)); (151%nat, Div (Neg (N 8)) (N 9)); (220%nat, Div (Neg (N 8)) (N 9)); (223%nat, Div (Neg (N 8)) (N 9)); (226%nat, Div (Neg (N 8)) (N 9)); (251%nat, Div (Neg (N 8)) (N 9)); (252%nat, Div (Neg (N 8)) (N 9)); (253%nat, Div (Neg (N 8)) (N 9)); (262%nat, Div (Neg (N 8)) (N 3)); (267%nat, Div (Neg (N 8)) (N 3)); (271%nat, Div (Neg (N 8)) (N 3)); (274%nat, Div (Neg (N 8)) (N 3)); (276%nat, Div (Neg (N 8)) (N 3)); (277%nat, Div (Neg (N 8)) (N 3)); (284%nat, Div (N 4) (N 3)); (286%nat, Div (N 4) (N 3)); (288%nat, Div (N 4) (N 3)); (290%nat, Div (N 4) (N 3)); (292%nat, Div (N 4) (N 3)); (294%nat, Div (Neg (N 44)) (N 9)); (295%nat, Div (N 16) (N 9)); (298%nat, Div (N 16) (N 9)); (301%nat, Div (N 16) (N 9)); (306%nat, Div (Neg (N 8)) (N 9)); (307%nat, Div (Neg (N 8)) (N 9))];
  [(119%nat, Div (N 4) (N 9)); (121%nat, Div (N 4) (N 9)); (123%nat, Div (N 4) (N 9)); (139%nat, Div (N 4) (N 9)); (140%nat, Div (N 4) (N 9)); (141%nat, Div (N 4) (N 9)); (149%nat, Div (Neg (N 8)) (N 9)); (152%nat, Div (Neg (N 8)) (N 9)); (220%nat, Div (Neg (N 8)) (N 9)); (223%nat, Div (Neg (N 8)) (N 9)); (226%nat, Div (Neg (N 8)) (N 9)); (251%nat, Div (Neg (N 8)) (N 9)); (252%nat, Div (Neg (N 8)) (N 9)); (253%nat, Div (Neg (N 8)) (N 9)); (262%nat, Div (Neg (N 8)) (N 3)); (267%nat, Div (Neg (N 8)) (N 3)); (271%nat, Div (Neg (N 8)) (N 3)); (274%nat, Div (Neg (N 8)) (N 3)); (276%nat, Div (Neg (N 8)) (N 3)); (277%nat, Div (Neg (N 8)) (N 3)); (285%nat, Div (N 4) (N 3)); (287%nat, Div (N 4) (N 3)); (289%nat, Div (N 4) (N 3)); (291%nat, Div (N 4) (N 3)); (293%nat, Div (N 4) (N 3)); (294%nat, Div (N 16) (N 9)); (295%nat, Div (Neg (N 44)) (N 9)); (298%nat, Div (N 16) (N 9)); (301%nat, Div (N 16) (N 9)); (307%nat, Div (Neg (N 8)) (N 9)); (309%nat, Div (Neg (N 8)) (N 9))];
  [(124%nat, Div (N 4) (N 9)); (125%nat, Div (N 4) (N 9)); (126%nat, Div (N 4) (N 9)); (130%nat, Div (N 4) (N 9)); (131%nat, Div (N 4) (N 9)); (132%nat, Div (N 4) (N 9)); (148%nat, Div (Neg (N 8)) (N 9)); (149%nat, Div (Neg (N 8)) (N 9)); (218%nat, Div (Neg (N 8)) (N 9)); (221%nat, Div (Neg (N 8)) (N 9)); (224%nat, Div (Neg (N 8)) (N 9)); (245%nat, Div (Neg (N 8)) (N 9)); (246%nat, Div (Neg (N 8)) (N 9)); (247%nat, Div (Neg (N 8)) (N 9)); (260%nat, Div (Neg (N 8)) (N 3)); (265%nat, Div (Neg (N 8)) (N 3)); (269%nat, Div (Neg (N 8)) (N 3)); (272%nat, Div (Neg (N 8)) (N 3)); (273%nat, Div (Neg (N 8)) (N 3)); (274%nat, Div (Neg (N 8)) (N 3)); (278%nat, Div (N 4) (N 3)); (280%nat, Div (N 4) (N 3)); (282%nat, Div (N 4) (N 3)); (290%nat, Div (N 16) (N 9)); (291%nat, Div (N 16) (N 9)); (296%nat, Div (N 100) (N 9)); (297%nat, Div (N 4) (N 3)); (298%nat, Div (N 4) (N 3)); (299%nat, Div (N 16) (N 9)); (302%nat, Div (Neg (N 8)) (N 9)); (303%nat, Div (Neg (N 8)) (N 9))];
  [(124%nat, Div (N 4) (N 9)); (125%nat, Div (N 4) (N 9)); (126%nat, Div (N 4) (N 9)); (130%nat, Div (N 4) (N 9)); (131%nat, Div (N 4) (N 9)); (132%nat, Div (N 4) (N 9)); (148%nat, Div (Neg (N 8)) (N 9)); (149%nat, Div (Neg (N 8)) (N 9)); (219%nat, Div (Neg (N 8)) (N 9)); (222%nat, Div (Neg (N 8)) (N 9)); (225%nat, Div (Neg (N 8)) (N 9)); (248%nat, Div (Neg (N 8)) (N 9)); (249%nat, Div (Neg (N 8)) (N 9)); (250%nat, Div (Neg (N 8)) (N 9)); (261%nat, Div (Neg (N 8)) (N 3)); (266%nat, Div (Neg (N 8)) (N 3)); (270%nat, Div (Neg (N 8)) (N 3)); (273%nat, Div (Neg (N 8)) (N 3)); (275%nat, Div (Neg (N 8)) (N 3)); (276%nat, Div (Neg (N 8)) (N 3)); (278%nat, Div (N 4) (N 3)); (280%nat, Div (N 4) (N 3)); (282%nat, Div (N 4) (N 3)); (292%nat, Div (N 16) (N 9)); (293%nat, Div (N 16) (N 9)); (296%nat, Div (N 4) (N 3)); (297%nat, Div (N 100) (N 9)); (298%nat, Div (N 4) (N 3)); (300%nat, Div (N 16) (N 9)); (302%nat, Div (Neg (N 8)) (N 9)); (303%nat, Div (Neg (N 8)) (N 9))];
  [(124%nat, Div (N 4) (N 9)); (125%nat, Div (N 4) (N 9)); (126%nat, Div (N 4) (N 9)); (130%nat, Div (N 4) (N 9)); (131%nat, Div (N 4) (N 9)); (132%nat, Div (N 4) (N 9)); (148%nat, Div (Neg (N 8)) (N 9)); (149%nat, Div (Neg (N 8)) (N 9)); (220%nat, Div (Neg (N 8)) (N 9)); (223%nat, Div (Neg (N 8)) (N 9)); (226%nat, Div (Neg (N 8)) (N 9)); (251%nat, Div (Neg (N 8)) (N 9)); (252%nat, Div (Neg (N 8)) (N 9)); (253%nat, Div (Neg (N 8)) (N 9)); (262%nat, Div (Neg (N 8)) (N 3)); (267%nat, Div (Neg (N 8)) (N 3)); (271%nat, Div (Neg (N 8)) (N 3)); (274%nat, Div (Neg (N 8)) (N 3)); (276%nat, Div (Neg (N 8)) (N 3)); (277%nat, Div (Neg (N 8)) (N 3)); (278%nat, Div (N 4) (N 3)); (280%nat, Div (N 4) (N 3)); (282%nat, Div (N 4) (N 3)); (294%nat, Div (N 16) (N 9)); (295%nat, Div (N 16) (N 9)); (296%nat, Div (N 4) (N 3)); (297%nat, Div (N 4) (N 3)); (298%nat, Div (N 100) (N 9)); (301%nat, Div (N 16) (N 9)); (302%nat, Div (Neg (N 8)) (N 9)); (303%nat, Div (Neg (N 8)) (N 9))];
  [(127%nat, Div (N 4) (N 9)); (128%nat, Div (N 4) (N 9)); (129%nat, Div (N 4) (N 9)); (133%nat, Div (N 4) (N 9)); (134%nat, Div (N 4) (N 9)); (135%nat, Div (N 4) (N 9)); (151%nat, Div (Neg (N 8)) (N 9)); (152%nat, Div (Neg (N 8)) (N 9)); (218%nat, Div (Neg (N 8)) (N 9)); (221%nat, Div (Neg (N 8)) (N 9)); (224%nat, Div (Neg (N 8)) (N 9)); (245%nat, Div (Neg (N 8)) (N 9)); (246%nat, Div (Neg (N 8)) (N 9)); (247%nat, Div (Neg (N 8)) (N 9)); (260%nat, Div (Neg (N 8)) (N 3)); (265%nat, Div (Neg (N 8)) (N 3)); (269%nat, Div (Neg (N 8)) (N 3)); (272%nat, Div (Neg (N 8)) (N 3)); (273%nat, Div (Neg (N 8)) (N 3)); (274%nat, Div (Neg (N 8)) (N 3)); (279%nat, Div (N 4) (N 3)); (281%nat, Div (N 4) (N 3)); (283%nat, Div (N 4) (N 3)); (290%nat, Div (N 16) (N 9)); (291%nat, Div (N 16) (N 9)); (296%nat, Div (N 16) (N 9)); (299%nat, Div (N 100) (N 9)); (300%nat, Div (N 4) (N 3)); (301%nat, Div (N 4) (N 3)); (303%nat, Div (Neg (N 8)) (N 9)); (305%nat, Div (Neg (N 8)) (N 9))];
  [(127%nat, Div (N 4) (N 9)); (128%nat, Div (N 4) (N 9)); (129%nat, Div (N 4) (N 9)); (133%nat, Div (N 4) (N 9)); (134%nat, Div (N 4) (N 9)); (135%nat, Div (N 4) (N 9)); (151%nat, Div (Neg (N 8)) (N 9)); (152%nat, Div (Neg (N 8)) (N 9)); (219%nat, Div (Neg (N 8)) (N 9)); (222%nat, Div (Neg (N 8)) (N 9)); (225%nat, Div (Neg (N 8)) (N 9)); (248%nat, Div (Neg (N 8)) (N 9)); (249%nat, Div (Neg (N 8)) (N 9)); (250%nat, Div (Neg (N 8)) (N 9)); (261%nat, Div (Neg (N 8)) (N 3)); (266%nat, Div (Neg (N 8)) (N 3)); (270%nat, Div (Neg (N 8)) (N 3)); (273%nat, Div (Neg (N 8)) (N 3)); (275%nat, Div (Neg (N 8)) (N 3)); (276%nat, Div (Neg (N 8)) (N 3)); (279%nat, Div (N 4) (N 3)); (281%nat, Div (N 4) (N 3)); (283%nat, Div (N 4) (N 3)); (292%nat, Div (N 16) (N 9)); (293%nat, Div (N 16) (N 9)); (297%nat, Div (N 16) (N 9)); (299%nat, Div (N 4) (N 3)); (300%nat, Div (N 100) (N 9)); (301%nat, Div (N 4) (N 3)); (303%nat, Div (Neg (N 8)) (N 9)); (305%nat, Div (Neg (N 8)) (N 9))];
  [(127%nat, Div (N 4) (N 9)); (128%nat, Div (N 4) (N 9)); (129%nat, Div (N 4) (N 9)); (133%nat, Div (N 4) (N 9)); (134%nat, Div (N 4) (N 9)); (135%nat, Div (N 4) (N 9)); (151%nat, Div (Neg (N 8)) (N 9)); (152%nat, Div (Neg (N 8)) (N 9)); (220%nat, Div (Neg (N 8)) (N 9)); (223%nat, Div (Neg (N 8)) (N 9)); (226%nat, Div (Neg (N 8)) (N 9)); (251%nat, Div (Neg (N 8)) (N 9)); (252%nat, Div (Neg (N 8)) (N 9)); (253%nat, Div (Neg (N 8)) (N 9)); (262%nat, Div (Neg (N 8)) (N 3)); (267%nat, Div (Neg (N 8)) (N 3)); (271%nat, Div (Neg (N 8)) (N 3)); (274%nat, Div (Neg (N 8)) (N 3)); (276%nat, Div (Neg (N 8)) (N 3)); (277%nat, Div (Neg (N 8)) (N 3)); (279%nat, Div (N 4) (N 3)); (281%nat, Div (N 4) (N 3)); (283%nat, Div (N 4) (N 3)); (294%nat, Div (N 16) (N 9)); (295%nat, Div (N 16) (N 9)); (298%nat, Div (N 16) (N 9)); (299%nat, Div (N 4) (N 3)); (300%nat, Div (N 4) (N 3)); (301%nat, Div (N 100) (N 9)); (303%nat, Div (Neg (N 8)) (N 9)); (305%nat, Div (Neg (N 8)) (N 9))];
  [(124%nat, Div (Neg (N 64)) (N 27)); (125%nat, Div (Neg (N 64)) (N 27)); (126%nat, Div (Neg (N 64)) (N 27)); (130%nat, Div (Neg (N 64)) (N 27)); (131%nat, Div (Neg (N 64)) (N 27)); (132%nat, Div (Neg (N 64)) (N 27)); (148%nat, Div (N 128) (N 27)); (149%nat, Div (N 128) (N 27)); (278%nat, Div (Neg (N 64)) (N 9)); (280%nat, Div (Neg (N 64)) (N 9)); (282%nat, Div (Neg (N 64)) (N 9)); (296%nat, Div (Neg (N 64)) (N 9)); (297%nat, Div (Neg (N 64)) (N 9)); (298%nat, Div (Neg (N 64)) (N 9)); (302%nat, Div (N 272) (N 27)); (303%nat, Div (N 128) (N 27))];
  [(124%nat, Div (Neg (N 8)) (N 9)); (125%nat, Div (Neg (N 8)) (N 9)); (126%nat, Div (Neg (N 8)) (N 9)); (127%nat, Div (Neg (N 8)) (N 9)); (128%nat, Div (Neg (N 8)) (N 9)); (129%nat, Div (Neg (N 8)) (N 9)); (130%nat, Div (Neg (N 8)) (N 9)); (131%nat, Div (Neg (N 8)) (N 9)); (132%nat, Div (Neg (N 8)) (N 9)); (133%nat, Div (Neg (N 8)) (N 9)); (134%nat, Div (Neg (N 8)) (N 9)); (135%nat, Div (Neg (N 8)) (N 9)); (148%nat, Div (N 16) (N 9)); (149%nat, Div (N 16) (N 9)); (151%nat, Div (N 16) (N 9)); (152%nat, Div (N 16) (N 9)); (278%nat, Div (Neg (N 8)) (N 3)); (279%nat, Div (Neg (N 8)) (N 3)); (280%nat, Div (Neg (N 8)) (N 3)); (281%nat, Div (Neg (N 8)) (N 3)); (282%nat, Div (Neg (N 8)) (N 3)); (283%nat, Div (Neg (N 8)) (N 3)); (296%nat, Div (Neg (N 8)) (N 3)); (297%nat, Div (Neg (N 8)) (N 3)); (298%nat, Div (Neg (N 8)) (N 3)); (299%nat, Div (Neg (N 8)) (N 3)); (300%nat, Div (Neg (N 8)) (N 3)); (301%nat, Div (Neg (N 8)) (N 3)); (302%nat, Div (N 16) (N 9)); (303%nat, Div (N 80) (N 9)); (305%nat, Div (N 16) (N 9))];
  [(124%nat, Div (Neg (N 8)) (N 27)); (125%nat, Div (Neg (N 8)) (N 27)); (126%nat, Div (Neg (N 8)) (N 27)); (127%nat, Div (Neg (N 8)) (N 27)); (128%nat, Div (Neg (N 8)) (N 27)); (129%nat, Div (Neg (N 8)) (N 27)); (130%nat, Div (Neg (N 8)) (N 27)); (131%nat, Div (Neg (N 8)) (N 27)); (132%nat, Div (Neg (N 8)) (N 27)); (133%nat, Div (Neg (N 8)) (N 27)); (134%nat, Div (Neg (N 8)) (N 27)); (135%nat, Div (Neg (N 8)) (N 27)); (148%nat, Div (N 16) (N 27)); (149%nat, Div (N 16) (N 27)); (151%nat, Div (N 16) (N 27)); (152%nat, Div (N 16) (N 27)); (278%nat, Div (Neg (N 8)) (N 9)); (279%nat, Div (Neg (N 8)) (N 9)); (280%nat, Div (Neg (N 8)) (N 9)); (281%nat, Div (Neg (N 8)) (N 9)); (282%nat, Div (Neg (N 8)) (N 9)); (283%nat, Div (Neg (N 8)) (N 9)); (296%nat, Div (Neg (N 8)) (N 9)); (297%nat, Div (Neg (N 8)) (N 9)); (298%nat, Div (Neg (N 8)) (N 9)); (299%nat, Div (Neg (N 8)) (N 9)); (300%nat, Div (Neg (N 8)) (N 9)); (301%nat, Div (Neg (N 8)) (N 9)); (302%nat, Div (N 16) (N 27)); (303%nat, Div (N 32) (N 27)); (304%nat, Div (N 16) (N 3)); (305%nat, Div (N 16) (N 27))];
  [(127%nat, Div (Neg (N 64)) (N 27)); (128%nat, Div (Neg (N 64)) (N 27)); (129%nat, Div (Neg (N 64)) (N 27)); (133%nat, Div (Neg (N 64)) (N 27)); (134%nat, Div (Neg (N 64)) (N 27)); (135%nat, Div (Neg (N 64)) (N 27)); (151%nat, Div (N 128) (N 27)); (152%nat, Div (N 128) (N 27)); (279%nat, Div (Neg (N 64)) (N 9)); (281%nat, Div (Neg (N 64)) (N 9)); (283%nat, Div (Neg (N 64)) (N 9)); (299%nat, Div (Neg (N 64)) (N 9)); (300%nat, Div (Neg (N 64)) (N 9)); (301%nat, Div (Neg (N 64)) (N 9)); (303%nat, Div (N 128) (N 27)); (305%nat, Div (N 272) (N 27))];
  [(118%nat, Div (Neg (N 64)) (N 27)); (120%nat, Div (Neg (N 64)) (N 27)); (122%nat, Div (Neg (N 64)) (N 27)); (136%nat, Div (Neg (N 64)) (N 27)); (137%nat, Div (Neg (N 64)) (N 27)); (138%nat, Div (Neg (N 64)) (N 27)); (148%nat, Div (N 128) (N 27)); (151%nat, Div (N 128) (N 27)); (284%nat, Div (Neg (N 64)) (N 9)); (286%nat, Div (Neg (N 64)) (N 9)); (288%nat, Div (Neg (N 64)) (N 9)); (290%nat, Div (Neg (N 64)) (N 9)); (292%nat, Div (Neg (N 64)) (N 9)); (294%nat, Div (Neg (N 64)) (N 9)); (306%nat, Div (N 272) (N 27)); (307%nat, Div (N 128) (N 27))];
  [(118%nat, Div (Neg (N 8)) (N 9)); (119%nat, Div (Neg (N 8)) (N 9)); (120%nat, Div (Neg (N 8)) (N 9)); (121%nat, Div (Neg (N 8)) (N 9)); (122%nat, Div (Neg (N 8)) (N 9)); (123%nat, Div (Neg (N 8)) (N 9)); (136%nat, Div (Neg (N 8)) (N 9)); (137%nat, Div (Neg (N 8)) (N 9)); (138%nat, Div (Neg (N 8)) (N 9)); (139%nat, Div (Neg (N 8)) (N 9)); (140%nat, Div (Neg (N 8)) (N 9)); (141%nat, Div (Neg (N 8)) (N 9)); (148%nat, Div (N 16) (N 9)); (149%nat, Div (N 16) (N 9)); (151%nat, Div (N 16) (N 9)); (152%nat, Div (N 16) (N 9)); (284%nat, Div (Neg (N 8)) (N 3)); (285%nat, Div (Neg (N 8)) (N 3)); (286%nat, Div (Neg (N 8)) (N 3)); (287%nat, Div (Neg (N 8)) (N 3)); (288%nat, Div (Neg (N 8)) (N 3)); (289%nat, Div (Neg (N 8)) (N 3)); (290%nat, Div (Neg (N 8)) (N 3)); (291%nat, Div (Neg (N 8)) (N 3)); (292%nat, Div (Neg (N 8)) (N 3)); (293%nat, Div (Neg (N 8)) (N 3)); (294%nat, Div (Neg (N 8)) (N 3)); (295%nat, Div (Neg (N 8)) (N 3)); (306%nat, Div (N 16) (N 9)); (307%nat, Div (N 80) (N 9)); (309%nat, Div (N 16) (N 9))];
  [(118%nat, Div (Neg (N 8)) (N 27)); (119%nat, Div (Neg (N 8)) (N 27)); (120%nat, Div (Neg (N 8)) (N 27)); (121%nat, Div (Neg (N 8)) (N 27)); (122%nat, Div (Neg (N 8)) (N 27)); (123%nat, Div (Neg (N 8)) (N 27)); (136%nat, Div (Neg (N 8)) (N 27)); (137%nat, Div (Neg (N 8)) (N 27)); (138%nat, Div (Neg (N 8)) (N 27)); (139%nat, Div (Neg (N 8)) (N 27)); (140%nat, Div (Neg (N 8)) (N 27)); (141%nat, Div (Neg (N 8)) (N 27)); (148%nat, Div (N 16) (N 27)); (149%nat, Div (N 16) (N 27)); (151%nat, Div (N 16) (N 27)); (152%nat, Div (N 16) (N 27)); (284%nat, Div (Neg (N 8)) (N 9)); (285%nat, Div (Neg (N 8)) (N 9)); (286%nat, Div (Neg (N 8)) (N 9)); (287%nat, Div (Neg (N 8)) (N 9)); (288%nat, Div (Neg (N 8)) (N 9)); (289%nat, Div (Neg (N 8)) (N 9)); (290%nat, Div (Neg (N 8)) (N 9)); (291%nat, Div (Neg (N 8)) (N 9)); (292%nat, Div (Neg (N 8)) (N 9)); (293%nat, Div (Neg (N 8)) (N 9)); (294%nat, Div (Neg (N 8)) (N 9)); (295%nat, Div (Neg (N 8)) (N 9)); (306%nat, Div (N 16) (N 27)); (307%nat, Div (N 32) (N 27)); (308%nat, Div (N 16) (N 3)); (309%nat, Div (N 16) (N 27))];
  [(119%nat, Div (Neg (N 64)) (N 27)); (121%nat, Div (Neg (N 64)) (N 27)); (123%nat, Div (Neg (N 64)) (N 27)); (139%nat, Div (Neg (N 64)) (N 27)); (140%nat, Div (Neg (N 64)) (N 27)); (141%nat, Div (Neg (N 64)) (N 27)); (149%nat, Div (N 128) (N 27)); (152%nat, Div (N 128) (N 27)); (285%nat, Div (Neg (N 64)) (N 9)); (287%nat, Div (Neg (N 64)) (N 9)); (289%nat, Div (Neg (N 64)) (N 9)); (291%nat, Div (Neg (N 64)) (N 9)); (293%nat, Div (Neg (N 64)) (N 9)); (295%nat, Div (Neg (N 64)) (N 9)); (307%nat, Div (N 128) (N 27)); (309%nat, Div (N 272) (N 27))];
  [(310%nat, Div (N 8) (N 9))];
  [(311%nat, Div (N 8) (N 9))];
  [(312%nat, Div (N 8) (N 9))];
  [(310%nat, Div (Neg (N 8)) (N 3)); (313%nat, Dec 88888888888889 50000000000000)];
  [(311%nat, Div (Neg (N 8)) (N 3)); (314%nat, Dec 88888888888889 50000000000000)];
  [(312%nat, Div (Neg (N 8)) (N 3)); (315%nat, Dec 88888888888889 50000000000000)];
  [(316%nat, N 16)];
  [(317%nat, N 16)];
  [(318%nat, N 16)];
  [(319%nat, Div (N 32) (N 9))];
  [(320%nat, Div (N 32) (N 9))];
  [(319%nat, Div (N 16) (N 3)); (321%nat, Dec 711111111111111 100000000000000)];
  [(320%nat, Div (N 16) (N 3)); (322%nat, Dec 711111111111111 100000000000000)]].

(* adm.py:2027-2352 *)
Definition adm_s_dF0 : amat := [
  [(0%nat, Add (Mul (Neg (N 3)) B0) (N 36)); (310%nat, N 9); (311%nat, N 9); (312%nat, N 9); (319%nat, N 9); (320%nat, N 9)];
  [(1%nat, Add (Mul (Neg (N 3)) B0) (N 36)); (310%nat, Mul (N 9) AJ); (311%nat, Mul (N 9) AJ); (312%nat, Mul (N 9) AJ); (319%nat, Mul (N 9) AJ); (320%nat, Mul (N 9) AJ)];
  [(2%nat, Div (Neg (N 80)) (N 9)); (27%nat, Div (N 8) (N 3)); (310%nat, N 2); (313%nat, Div (Neg (N 2)) (N 3))];
  [(3%nat, Neg (N 16)); (5%nat, Div (N 64) (N 9)); (28%nat, N 8); (30%nat, Div (Neg (N 16)) (N 3))];
  [(4%nat, Neg (N 16)); (6%nat, Div (N 64) (N 9)); (29%nat, N 8); (31%nat, Div (Neg (N 16)) (N 3))];
  [(3%nat, Div (N 64) (N 9)); (5%nat, Neg (N 16)); (28%nat, Div (Neg (N 16)) (N 3)); (30%nat, N 8); (310%nat, Div (V Ms) (V Md)); (311%nat, Div (V Md) (V Ms)); (313%nat, Div (Neg (V Ms)) (Mul (N 3) (V Md))); (314%nat, Div (Neg (V Md)) (Mul (N 3) (V Ms)))];
  [(4%nat, Div (N 64) (N 9)); (6%nat, Neg (N 16)); (29%nat, Div (Neg (N 16)) (N 3)); (31%nat, N 8); (310%nat, Div (V Mb) (V Md)); (312%nat, Div (V Md) (V Mb)); (313%nat, Div (Neg (V Mb)) (Mul (N 3) (V Md))); (315%nat, Div (Neg (V Md)) (Mul (N 3) (V Mb)))];
  [(7%nat, Div (Neg (N 80)) (N 9)); (32%nat, Div (N 8) (N 3)); (311%nat, N 2); (314%nat, Div (Neg (N 2)) (N 3))];
  [(8%nat, Neg (N 16)); (9%nat, Div (N 64) (N 9)); (33%nat, N 8); (34%nat, Div (Neg (N 16)) (N 3))];
  [(8%nat, Div (N 64) (N 9)); (9%nat, Neg (N 16)); (33%nat, Div (Neg (N 16)) (N 3)); (34%nat, N 8); (311%nat, Div (V Mb) (V Ms)); (312%nat, Div (V Ms) (V Mb)); (314%nat, Div (Neg (V Mb)) (Mul (N 3) (V Ms))); (315%nat, Div (Neg (V Ms)) (Mul (N 3) (V Mb)))];
  [(10%nat, Div (Neg (N 80)) (N 9)); (35%nat, Div (N 8) (N 3)); (312%nat, N 2); (315%nat, Div (Neg (N 2)) (N 3))];
  [(11%nat, Neg (N 16)); (17%nat, Div (N 64) (N 9)); (36%nat, N 8); (42%nat, Div (Neg (N 16)) (N 3))];
  [(12%nat, Neg (N 16)); (18%nat, Div (N 64) (N 9)); (37%nat, N 8); (43%nat, Div (Neg (N 16)) (N 3))];
  [(13%nat, Neg (N 16)); (19%nat, Div (N 64) (N 9)); (38%nat, N 8); (44%nat, Div (Neg (N 16)) (N 3))];
  [(14%nat, Neg (N 16)); (20%nat, Div (N 64) (N 9)); (39%nat, N 8); (45%nat, Div (Neg (N 16)) (N 3))];
  [(15%nat, Neg (N 16)); (21%nat, Div (N 64) (N 9)); (40%nat, N 8); (46%nat, Div (Neg (N 16)) (N 3))];
  [(16%nat, Neg (N 16)); (22%nat, Div (N 64) (N 9)); (41%nat, N 8); (47%nat, Div (Neg (N 16)) (N 3))];
  [(11%nat, Div (N 64) (N 9)); (17%nat, Neg (N 16)); (36%nat, Div (Neg (N 16)) (N 3)); (42%nat, N 8); (310%nat, Div (V Mu) (V Md)); (313%nat, Div (Mul (N 2) (V Mu)) (Mul (N 3) (V Md))); (319%nat, Div (V Md) (V Mu)); (321%nat, Div (Neg (V Md)) (Mul (N 3) (V Mu)))];
  [(12%nat, Div (N 64) (N 9)); (18%nat, Neg (N 16)); (37%nat, Div (Neg (N 16)) (N 3)); (43%nat, N 8); (311%nat, Div (V Mu) (V Ms)); (314%nat, Div (Mul (N 2) (V Mu)) (Mul (N 3) (V Ms))); (319%nat, Div (V Ms) (V Mu)); (321%nat, Div (Neg (V Ms)) (Mul (N 3) (V Mu)))];
  [(13%nat, Div (N 64) (N 9)); (19%nat, Neg (N 16)); (38%nat, Div (Neg (N 16)) (N 3)); (44%nat, N 8); (312%nat, Div (V Mu) (V Mb)); (315%nat, Div (Mul (N 2) (V Mu)) (Mul (N 3) (V Mb))); (319%nat, Div (V Mb) (V Mu)); (321%nat, Div (Neg (V Mb)) (Mul (N 3) (V Mu)))];
  [(14%nat, Div (N 64) (N 9)); (20%nat, Neg (N 16)); (39%nat, Div (Neg (N 16)) (N 3)); (45%nat, N 8); (310%nat, Div (V Mc) (V Md)); (313%nat, Div (Mul (N 2) (V Mc)) (Mul (N 3) (V Md))); (320%nat, Div (V Md) (V Mc)); (322%nat, Div (Neg (V Md)) (Mul (N 3) (V Mc)))];
  [(15%nat, Div (N 64) (N 9)); (21%nat, Neg (N 16)); (40%nat, Div (Neg (N 16)) (N 3)); (46%nat, N 8); (311%nat, Div (V Mc) (V Ms)); (314%nat, Div (Mul (N 2) (V Mc)) (Mul (N 3) (V Ms))); (320%nat, Div (V Ms) (V Mc)); (322%nat, Div (Neg (V Ms)) (Mul (N 3) (V Mc)))];
  [(16%nat, Div (N 64) (N 9)); (22%nat, Neg (N 16)); (41%nat, Div (Neg (N 16)) (N 3)); (47%nat, N 8); (312%nat, Div (V Mc) (V Mb)); (315%nat, Div (Mul (N 2) (V Mc)) (Mul (N 3) (V Mb))); (320%nat, Div (V Mb) (V Mc)); (322%nat, Div (Neg (V Mb)) (Mul (N 3) (V Mc)))];
  [(23%nat, Div (Neg (N 80)) (N 9)); (48%nat, Div (N 8) (N 3)); (319%nat, N 2); (321%nat, Div (N 4) (N 3))];
  [(24%nat, Neg (N 16)); (25%nat, Div (N 64) (N 9)); (49%nat, N 8); (50%nat, Div (Neg (N 16)) (N 3))];
  [(24%nat, Div (N 64) (N 9)); (25%nat, Neg (N 16)); (49%nat, Div (Neg (N 16)) (N 3)); (50%nat, N 8); (319%nat, Div (V Mc) (V Mu)); (320%nat, Div (V Mu) (V Mc)); (321%nat, Div (Mul (N 2) (V Mc)) (Mul (N 3) (V Mu))); (322%nat, Div (Mul (N 2) (V Mu)) (Mul (N 3) (V Mc)))];
  [(26%nat, Div (Neg (N 80)) (N 9)); (51%nat, Div (N 8) (N 3)); (320%nat, N 2); (322%nat, Div (N 4) (N 3))];
  [(2%nat, Div (N 160) (N 27)); (27%nat, Div (N 92) (N 9)); (310%nat, Div (Neg (N 1)) (N 3)); (313%nat, Div (Neg (N 8)) (N 9))];
  [(3%nat, Div (N 16) (N 9)); (5%nat, Div (N 112) (N 27)); (28%nat, Div (N 16) (N 3)); (30%nat, Div (N 44) (N 9))];
  [(4%nat, Div (N 16) (N 9)); (6%nat, Div (N 112) (N 27)); (29%nat, Div (N 16) (N 3)); (31%nat, Div (N 44) (N 9))];
  [(3%nat, Div (N 112) (N 27)); (5%nat, Div (N 16) (N 9)); (28%nat, Div (N 44) (N 9)); (30%nat, Div (N 16) (N 3)); (310%nat, Div (Neg (V Ms)) (Mul (N 6) (V Md))); (311%nat, Div (Neg (V Md)) (Mul (N 6) (V Ms))); (313%nat, Div (Mul (Neg (N 4)) (V Ms)) (Mul (N 9) (V Md))); (314%nat, Div (Mul (Neg (N 4)) (V Md)) (Mul (N 9) (V Ms)))];
  [(4%nat, Div (N 112) (N 27)); (6%nat, Div (N 16) (N 9)); (29%nat, Div (N 44) (N 9)); (31%nat, Div (N 16) (N 3)); (310%nat, Div (Neg (V Mb)) (Mul (N 6) (V Md))); (312%nat, Div (Neg (V Md)) (Mul (N 6) (V Mb))); (313%nat, Div (Mul (Neg (N 4)) (V Mb)) (Mul (N 9) (V Md))); (315%nat, Div (Mul (Neg (N 4)) (V Md)) (Mul (N 9) (V Mb)))];
  [(7%nat, Div (N 160) (N 27)); (32%nat, Div (N 92) (N 9)); (311%nat, Div (Neg (N 1)) (N 3)); (314%nat, Div (Neg (N 8)) (N 9))];
  [(8%nat, Div (N 16) (N 9)); (9%nat, Div (N 112) (N 27)); (33%nat, Div (N 16) (N 3)); (34%nat, Div (N 44) (N 9))];
  [(8%nat, Div (N 112) (N 27)); (9%nat, Div (N 16) (N 9)); (33%nat, Div (N 44) (N 9)); (34%nat, Div (N 16) (N 3)); (311%nat, Div (Neg (V Mb)) (Mul (N 6) (V Ms))); (312%nat, Div (Neg (V Ms)) (Mul (N 6) (V Mb))); (314%nat, Div (Mul (Neg (N 4)) (V Mb)) (Mul (N 9) (V Ms))); (315%nat, Div (Mul (Neg (N 4)) (V Ms)) (Mul (N 9) (V Mb)))];
  [(10%nat, Div (N 160) (N 27)); (35%nat, Div (N 92) (N 9)); (312%nat, Div (Neg (N 1)) (N 3)); (315%nat, Div (Neg (N 8)) (N 9))];
  [(11%nat, Div (N 16) (N 9)); (17%nat, Div (N 112) (N 27)); (36%nat, Div (N 16) (N 3)); (42%nat, Div (N 44) (N 9))];
  [(12%nat, Div (N 16) (N 9)); (18%nat, Div (N 112) (N 27)); (37%nat, Div (N 16) (N 3)); (43%nat, Div (N 44) (N 9))];
  [(13%nat, Div (N 16) (N 9)); (19%nat, Div (N 112) (N 27)); (38%nat, Div (N 16) (N 3)); (44%nat, Div (N 44) (N 9))];
  [(14%nat, Div (N 16) (N 9)); (20%nat, Div (N 112) (N 27)); (39%nat, Div (N 16) (N 3)); (45%nat, Div (N 44) (N 9))];
  [(15%nat, Div (N 16) (N 9)); (21%nat, Div (N 112) (N 27)); (40%nat, Div (N 16) (N 3)); (46%nat, Div (N 44) (N 9))];
  [(16%nat, Div (N 16) (N 9)); (22%nat, Div (N 112) (N 27)); (41%nat, Div (N 16) (N 3)); (47%nat, Div (N 44) (N 9))];
  [(11%nat, Div (N 112) (N 27)); (17%nat, Div (N 16) (N 9)); (36%nat, Div (N 44) (N 9)); (42%nat, Div (N 16) (N 3)); (310%nat, Div (Neg (V Mu)) (Mul (N 6) (V Md))); (313%nat, Div (Mul (N 8) (V Mu)) (Mul (N 9) (V Md))); (319%nat, Div (Neg (V Md)) (Mul (N 6) (V Mu))); (321%nat, Div (Mul (Neg (N 4)) (V Md)) (Mul (N 9) (V Mu)))];
  [(12%nat, Div (N 112) (N 27)); (18%nat, Div (N 16) (N 9)); (37%nat, Div (N 44) (N 9)); (43%nat, Div (N 16) (N 3)); (311%nat, Div (Neg (V Mu)) (Mul (N 6) (V Ms))); (314%nat, Div (Mul (N 8) (V Mu)) (Mul (N 9) (V Ms))); (319%nat, Div (Neg (V Ms)) (Mul (N 6) (V Mu))); (321%nat, Div (Mul (Neg (N 4)) (V Ms)) (Mul (N 9) (V Mu)))];
  [(13%nat, Div (N 112) (N 27)); (19%nat, Div (N 16) (N 9)); (38%nat, Div (N 44) (N 9)); (44%nat, Div (N 16) (N 3)); (312%nat, Div (Neg (V Mu)) (Mul (N 6) (V Mb))); (315%nat, Div (Mul (N 8) (V Mu)) (Mul (N 9) (V Mb))); (319%nat, Div (Neg (V Mb)) (Mul (N 6) (V Mu))); (321%nat, Div (Mul (Neg (N 4)) (V Mb)) (Mul (N 9) (V Mu)))];
  [(14%nat, Div (N 112) (N 27)); (20%nat, Div (N 16) (N 9)); (39%nat, Div (N 44) (N 9)); (45%nat, Div (N 16) (N 3)); (310%nat, Div (Neg (V Mc)) (Mul (N 6) (V Md))); (313%nat, Div (Mul (N 8) (V Mc)) (Mul (N 9) (V Md))); (320%nat, Div (Neg (V Md)) (Mul (N 6) (V Mc))); (322%nat, Div (Mul (Neg (N 4)) (V Md)) (Mul (N 9) (V Mc)))];
  [(15%nat, Div (N 112) (N 27)); (21%nat, Div (N 16) (N 9)); (40%nat, Div (N 44) (N 9)); (46%nat, Div (N 16) (N 3)); (311%nat, Div (Neg (V Mc)) (Mul (N 6) (V Ms))); (314%nat, Div (Mul (N 8) (V Mc)) (Mul (N 9) (V Ms))); (320%nat, Div (Neg (V Ms)) (Mul (N 6) (V Mc))); (322%nat, Div (Mul (Neg (N 4)) (V Ms)) (Mul (N 9) (V Mc)))];
  [(16%nat, Div (N 112) (N 27)); (22%nat, Div (N 16) (N 9)); (41%nat, Div (N 44) (N 9)); (47%nat, Div (N 16) (N 3)); (312%nat, Div (Neg (V Mc)) (Mul (N 6) (V Mb))); (315%nat, Div (Mul (N 8) (V Mc)) (Mul (N 9) (V Mb))); (320%nat, Div (Neg (V Mb)) (Mul (N 6) (V Mc))); (322%nat, Div (Mul (Neg (N 4)) (V Mb)) (Mul (N 9) (V Mc)))];
  [(23%nat, Div (N 160) (N 27)); (48%nat, Div (N 92) (N 9)); (319%nat, Div (Neg (N 1)) (N 3)); (321%nat, Div (N 16) (N 9))];
  [(24%nat, Div (N 16) (N 9)); (25%nat, Div (N 112) (N 27)); (49%nat, Div (N 16) (N 3)); (50%nat, Div (N 44) (N 9))];
  [(24%nat, Div (N 112) (N 27)); (25%nat, Div (N 16) (N 9)); (49%nat, Div (N 44) (N 9)); (50%nat, Div (N 16) (N 3)); (319%nat, Div (Neg (V Mc)) (Mul (N 6) (V Mu))); (320%nat, Div (Neg (V Mu)) (Mul (N 6) (V Mc))); (321%nat, Div (Mul (N 8) (V Mc)) (Mul (N 9) (V Mu))); (322%nat, Div (Mul (N 8) (V Mu)) (Mul (N 9) (V Mc)))];
  [(26%nat, Div (N 160) (N 27)); (51%nat, Div (N 92) (N 9)); (320%nat, Div (Neg (N 1)) (N 3)); (322%nat, Div (N 16) (N 9))];
  [(52%nat, Neg (N 8))];
  [(53%nat, Neg (N 8))];
  [(54%nat, Neg (N 8))];
  [(55%nat, Neg (N 8))];
  [(56%nat, Neg (N 8))];
  [(57%nat, Neg (N 8))];
  [(58%nat, Neg (N 8))];
  [(59%nat, Neg (N 8))];
  [(60%nat, Neg (N 8))];
  [(61%nat, Neg (N 8))];
  [(62%nat, Neg (N 8))];
  [(63%nat, Neg (N 8))];
  [(64%nat, Neg (N 8))];
  [(65%nat, Neg (N 8))];
  [(66%nat, Neg (N 8))];
  [(67%nat, Neg (N 8))];
  [(68%nat, Neg (N 8))];
  [(69%nat, Neg (N 8))];
  [(316%nat, Neg (N 2))];
  [];
  [];
  [(316%nat, Div (Neg (V Mmu)) (V Me)); (317%nat, Div (Neg (V Me)) (V Mmu))];
  [(316%nat, Div (Neg (V Mtau)) (V Me)); (318%nat, Div (Neg (V Me)) (V Mtau))];
  [(317%nat, Neg (N 2))];
  [];
  [(317%nat, Div (Neg (V Mtau)) (V Mmu)); (318%nat, Div (Neg (V Mmu)) (V Mtau))];
  [(318%nat, Neg (N 2))];
  [(79%nat, Neg (N 8))];
  [(80%nat, Neg (N 8))];
  [(81%nat, Neg (N 8))];
  [(82%nat, Neg (N 8))];
  [(83%nat, Neg (N 8))];
  [(84%nat, Neg (N 8))];
  [(85%nat, Neg (N 8))];
  [(86%nat, Neg (N 8))];
  [(87%nat, Neg (N 8))];
  [(88%nat, Neg (N 8))];
  [(89%nat, Neg (N 8))];
  [(90%nat, Neg (N 8))];
  [(91%nat, Div (N 8) (N 3)); (313%nat, Div (Mul (N 8) (V Me)) (V Md)); (316%nat, Div (Mul (N 8) (V Md)) (V Me))];
  [(92%nat, Div (N 8) (N 3)); (314%nat, Div (Mul (N 8) (V Me)) (V Ms)); (316%nat, Div (Mul (N 8) (V Ms)) (V Me))];
  [(93%nat, Div (N 8) (N 3)); (315%nat, Div (Mul (N 8) (V Me)) (V Mb)); (316%nat, Div (Mul (N 8) (V Mb)) (V Me))];
  [(94%nat, Div (N 8) (N 3)); (313%nat, Div (Mul (N 8) (V Mmu)) (V Md)); (317%nat, Div (Mul (N 8) (V Md)) (V Mmu))];
  [(95%nat, Div (N 8) (N 3)); (314%nat, Div (Mul (N 8) (V Mmu)) (V Ms)); (317%nat, Div (Mul (N 8) (V Ms)) (V Mmu))];
  [(96%nat, Div (N 8) (N 3)); (315%nat, Div (Mul (N 8) (V Mmu)) (V Mb)); (317%nat, Div (Mul (N 8) (V Mb)) (V Mmu))];
  [(97%nat, Div (N 8) (N 3)); (313%nat, Div (Mul (N 8) (V Mtau)) (V Md)); (318%nat, Div (Mul (N 8) (V Md)) (V Mtau))];
  [(98%nat, Div (N 8) (N 3)); (314%nat, Div (Mul (N 8) (V Mtau)) (V Ms)); (318%nat, Div (Mul (N 8) (V Ms)) (V Mtau))];
  [(99%nat, Div (N 8) (N 3)); (315%nat, Div (Mul (N 8) (V Mtau)) (V Mb)); (318%nat, Div (Mul (N 8) (V Mb)) (V Mtau))];
  [(100%nat, Div (N 8) (N 3)); (316%nat, Div (Mul (Neg (N 16)) (V Mu)) (V Me)); (321%nat, Div (Mul (N 8) (V Me)) (V Mu))];
  [(101%nat, Div (N 8) (N 3)); (316%nat, Div (Mul (Neg (N 16)) (V Mc)) (V Me)); (322%nat, Div (Mul (N 8) (V Me)) (V Mc))];
  [(102%nat, Div (N 8) (N 3)); (317%nat, Div (Mul (Neg (N 16)) (V Mu)) (V Mmu)); (321%nat, Div (Mul (N 8) (V Mmu)) (V Mu))];
  [(103%nat, Div (N 8) (N 3)); (317%nat, Div (Mul (Neg (N 16)) (V Mc)) (V Mmu)); (322%nat, Div (Mul (N 8) (V Mmu)) (V Mc))];
  [(104%nat, Div (N 8) (N 3)); (318%nat, Div (Mul (Neg (N 16)) (V Mu)) (V Mtau)); (321%nat, Div (Mul (N 8) (V Mtau)) (V Mu))];
  [(105%nat, Div (N 8) (N 3)); (318%nat, Div (Mul (Neg (N 16)) (V Mc)) (V Mtau)); (322%nat, Div (Mul (N 8) (V Mtau)) (V Mc))];
  [(153%nat, Neg (N 12))];
  [(154%nat, Neg (N 12))];
  [(155%nat, Neg (N 12))];
  [(156%nat, Neg (N 12))];
  [(157%nat, Neg (N 12))];
  [(158%nat, Neg (N 12))];
  [(159%nat, Neg (N 12))];
  [(160%nat, Neg (N 12))];
  [(161%nat, Neg (N 12))];
  [(162%nat, Neg (N 12))];
  [(163%nat, Neg (N 12))];
  [(164%nat, Neg (N 12))];
  [(165%nat, Neg (N 12))];
  [(166%nat, Neg (N 12))];
  [(167%nat, Neg (N 12))];
  [(168%nat, Neg (N 12))];
  [(169%nat, Neg (N 12))];
  [(170%nat, Neg (N 12))];
  [(171%nat, N 12)];
  [(172%nat, N 12)];
  [(173%nat, N 12)];
  [(174%nat, N 12)];
  [(175%nat, N 12)];
  [(176%nat, N 12)];
  [(177%nat, Neg (N 12))];
  [(178%nat, Neg (N 12))];
  [(179%nat, Neg (N 12))];
  [(180%nat, Neg (N 12))];
  [(181%nat, Neg (N 12))];
  [(182%nat, Neg (N 12))];
  [(183%nat, N 12)];
  [(184%nat, N 12)];
  [(185%nat, N 12)];
  [(186%nat, N 12)];
  [(187%nat, N 12)];
  [(188%nat, N 12)];
  [(189%nat, Neg (N 12))];
  [(190%nat, Neg (N 12))];
  [(191%nat, Neg (N 12))];
  [(192%nat, Neg (N 12))];
  [(193%nat, Neg (N 12))];
  [(194%nat, Neg (N 12))];
  [(195%nat, Neg (N 12))];
  [(196%nat, Neg (N 12))];
  [(197%nat, Neg (N 12))];
  [(198%nat, Neg (N 12))];
  [(199%nat, Neg (N 12))];
  [(106%nat, Div (Neg (N 8)) (N 3)); (153%nat, Div (Neg (N 38)) (N 3)); (154%nat, Div (N 2) (N 3)); (155%nat, Div (N 2) (N 3)); (158%nat, Div (N 2) (N 3)); (162%nat, Div (N 2) (N 3)); (165%nat, Div (N 2) (N 3)); (166%nat, Div (N 2) (N 3)); (171%nat, Div (N 2) (N 3)); (174%nat, Div (N 2) (N 3)); (177%nat, Div (N 2) (N 3)); (180%nat, Div (N 2) (N 3)); (183%nat, Div (N 2) (N 3)); (186%nat, Div (N 2) (N 3)); (200%nat, Div (N 2) (N 9)); (201%nat, Div (Neg (N 1)) (N 9)); (202%nat, Div (Neg (N 1)) (N 9)); (203%nat, Div (N 1) (N 3)); (204%nat, Div (N 1) (N 3)); (209%nat, Div (N 2) (N 9)); (210%nat, Div (Neg (N 1)) (N 9)); (211%nat, Div (Neg (N 1)) (N 9)); (212%nat, Div (N 1) (N 3)); (213%nat, Div (N 1) (N 3))];
  [(107%nat, Div (Neg (N 8)) (N 3)); (153%nat, Div (N 2) (N 3)); (154%nat, Div (Neg (N 38)) (N 3)); (155%nat, Div (N 2) (N 3)); (159%nat, Div (N 2) (N 3)); (163%nat, Div (N 2) (N 3)); (165%nat, Div (N 2) (N 3)); (166%nat, Div (N 2) (N 3)); (171%nat, Div (N 2) (N 3)); (174%nat, Div (N 2) (N 3)); (178%nat, Div (N 2) (N 3)); (181%nat, Div (N 2) (N 3)); (184%nat, Div (N 2) (N 3)); (187%nat, Div (N 2) (N 3)); (200%nat, Div (N 2) (N 9)); (201%nat, Div (Neg (N 1)) (N 9)); (202%nat, Div (Neg (N 1)) (N 9)); (203%nat, Div (N 1) (N 3)); (204%nat, Div (N 1) (N 3)); (210%nat, Div (Neg (N 1)) (N 9)); (212%nat, Div (N 1) (N 3)); (214%nat, Div (N 2) (N 9)); (215%nat, Div (Neg (N 1)) (N 9)); (216%nat, Div (N 1) (N 3))];
  [(108%nat, Div (Neg (N 8)) (N 3)); (153%nat, Div (N 2) (N 3)); (154%nat, Div (N 2) (N 3)); (155%nat, Div (Neg (N 38)) (N 3)); (160%nat, Div (N 2) (N 3)); (164%nat, Div (N 2) (N 3)); (165%nat, Div (N 2) (N 3)); (166%nat, Div (N 2) (N 3)); (171%nat, Div (N 2) (N 3)); (174%nat, Div (N 2) (N 3)); (179%nat, Div (N 2) (N 3)); (182%nat, Div (N 2) (N 3)); (185%nat, Div (N 2) (N 3)); (188%nat, Div (N 2) (N 3)); (200%nat, Div (N 2) (N 9)); (201%nat, Div (Neg (N 1)) (N 9)); (202%nat, Div (Neg (N 1)) (N 9)); (203%nat, Div (N 1) (N 3)); (204%nat, Div (N 1) (N 3)); (211%nat, Div (Neg (N 1)) (N 9)); (213%nat, Div (N 1) (N 3)); (215%nat, Div (Neg (N 1)) (N 9)); (216%nat, Div (N 1) (N 3)); (217%nat, Div (N 2) (N 9))];
  [(109%nat, Div (Neg (N 8)) (N 3)); (156%nat, Neg (N 14))];
  [(110%nat, Div (Neg (N 8)) (N 3)); (157%nat, Neg (N 14))];
  [(111%nat, Div (Neg (N 8)) (N 3)); (153%nat, Div (N 2) (N 3)); (158%nat, Div (Neg (N 38)) (N 3)); (159%nat, Div (N 2) (N 3)); (160%nat, Div (N 2) (N 3)); (162%nat, Div (N 2) (N 3)); (167%nat, Div (N 2) (N 3)); (168%nat, Div (N 2) (N 3)); (172%nat, Div (N 2) (N 3)); (175%nat, Div (N 2) (N 3)); (177%nat, Div (N 2) (N 3)); (180%nat, Div (N 2) (N 3)); (183%nat, Div (N 2) (N 3)); (186%nat, Div (N 2) (N 3)); (201%nat, Div (Neg (N 1)) (N 9)); (203%nat, Div (N 1) (N 3)); (205%nat, Div (N 2) (N 9)); (206%nat, Div (Neg (N 1)) (N 9)); (207%nat, Div (N 1) (N 3)); (209%nat, Div (N 2) (N 9)); (210%nat, Div (Neg (N 1)) (N 9)); (211%nat, Div (Neg (N 1)) (N 9)); (212%nat, Div (N 1) (N 3)); (213%nat, Div (N 1) (N 3))];
  [(112%nat, Div (Neg (N 8)) (N 3)); (154%nat, Div (N 2) (N 3)); (158%nat, Div (N 2) (N 3)); (159%nat, Div (Neg (N 38)) (N 3)); (160%nat, Div (N 2) (N 3)); (163%nat, Div (N 2) (N 3)); (167%nat, Div (N 2) (N 3)); (168%nat, Div (N 2) (N 3)); (172%nat, Div (N 2) (N 3)); (175%nat, Div (N 2) (N 3)); (178%nat, Div (N 2) (N 3)); (181%nat, Div (N 2) (N 3)); (184%nat, Div (N 2) (N 3)); (187%nat, Div (N 2) (N 3)); (201%nat, Div (Neg (N 1)) (N 9)); (203%nat, Div (N 1) (N 3)); (205%nat, Div (N 2) (N 9)); (206%nat, Div (Neg (N 1)) (N 9)); (207%nat, Div (N 1) (N 3)); (210%nat, Div (Neg (N 1)) (N 9)); (212%nat, Div (N 1) (N 3)); (214%nat, Div (N 2) (N 9)); (215%nat, Div (Neg (N 1)) (N 9)); (216%nat, Div (N 1) (N 3))];
  [(113%nat, Div (Neg (N 8)) (N 3)); (155%nat, Div (N 2) (N 3)); (158%nat, Div (N 2) (N 3)); (159%nat, Div (N 2) (N 3)); (160%nat, Div (Neg (N 38)) (N 3)); (164%nat, Div (N 2) (N 3)); (167%nat, Div (N 2) (N 3)); (168%nat, Div (N 2) (N 3)); (172%nat, Div (N 2) (N 3)); (175%nat, Div (N 2) (N 3)); (179%nat, Div (N 2) (N 3)); (182%nat, Div (N 2) (N 3)); (185%nat, Div (N 2) (N 3)); (188%nat, Div (N 2) (N 3)); (201%nat, Div (Neg (N 1)) (N 9)); (203%nat, Div (N 1) (N 3)); (205%nat, Div (N 2) (N 9)); (206%nat, Div (Neg (N 1)) (N 9)); (207%nat, Div (N 1) (N 3)); (211%nat, Div (Neg (N 1)) (N 9)); (213%nat, Div (N 1) (N 3)); (215%nat, Div (Neg (N 1)) (N 9)); (216%nat, Div (N 1) (N 3)); (217%nat, Div (N 2) (N 9))];
  [(114%nat, Div (Neg (N 8)) (N 3)); (161%nat, Neg (N 14))];
  [(115%nat, Div (Neg (N 8)) (N 3)); (153%nat, Div (N 2) (N 3)); (158%nat, Div (N 2) (N 3)); (162%nat, Div (Neg (N 38)) (N 3)); (163%nat, Div (N 2) (N 3)); (164%nat, Div (N 2) (N 3)); (169%nat, Div (N 2) (N 3)); (170%nat, Div (N 2) (N 3)); (173%nat, Div (N 2) (N 3)); (176%nat, Div (N 2) (N 3)); (177%nat, Div (N 2) (N 3)); (180%nat, Div (N 2) (N 3)); (183%nat, Div (N 2) (N 3)); (186%nat, Div (N 2) (N 3)); (202%nat, Div (Neg (N 1)) (N 9)); (204%nat, Div (N 1) (N 3)); (206%nat, Div (Neg (N 1)) (N 9)); (207%nat, Div (N 1) (N 3)); (208%nat, Div (N 2) (N 9)); (209%nat, Div (N 2) (N 9)); (210%nat, Div (Neg (N 1)) (N 9)); (211%nat, Div (Neg (N 1)) (N 9)); (212%nat, Div (N 1) (N 3)); (213%nat, Div (N 1) (N 3))];
  [(116%nat, Div (Neg (N 8)) (N 3)); (154%nat, Div (N 2) (N 3)); (159%nat, Div (N 2) (N 3)); (162%nat, Div (N 2) (N 3)); (163%nat, Div (Neg (N 38)) (N 3)); (164%nat, Div (N 2) (N 3)); (169%nat, Div (N 2) (N 3)); (170%nat, Div (N 2) (N 3)); (173%nat, Div (N 2) (N 3)); (176%nat, Div (N 2) (N 3)); (178%nat, Div (N 2) (N 3)); (181%nat, Div (N 2) (N 3)); (184%nat, Div (N 2) (N 3)); (187%nat, Div (N 2) (N 3)); (202%nat, Div (Neg (N 1)) (N 9)); (204%nat, Div (N 1) (N 3)); (206%nat, Div (Neg (N 1)) (N 9)); (207%nat, Div (N 1) (N 3)); (208%nat, Div (N 2) (N 9)); (210%nat, Div (Neg (N 1)) (N 9)); (212%nat, Div (N 1) (N 3)); (214%nat, Div (N 2) (N 9)); (215%nat, Div (Neg (N 1)) (N 9)); (216%nat, Div (N 1) (N 3))];
  [(117%nat, Div (Neg (N 8)) (N 3)); (155%nat, Div (N 2) (N 3)); (160%nat, Div (N 2) (N 3)); (162%nat, Div (N 2) (N 3)); (163%nat, Div (N 2) (N 3)); (164%nat, Div (Neg (N 38)) (N 3)); (169%nat, Div (N 2) (N 3)); (170%nat, Div (N 2) (N 3)); (173%nat, Div (N 2) (N 3)); (176%nat, Div (N 2) (N 3)); (179%nat, Div (N 2) (N 3)); (182%nat, Div (N 2) (N 3)); (185%nat, Div (N 2) (N 3)); (188%nat, Div (N 2) (N 3)); (202%nat, Div (Neg (N 1)) (N 9)); (204%nat, Div (N 1) (N 3)); (206%nat, Div (Neg (N 1)) (N 9)); (207%nat, Div (N 1) (N 3)); (208%nat, Div (N 2) (N 9)); (211%nat, Div (Neg (N 1)) (N 9)); (213%nat, Div (N 1) (N 3)); (215%nat, Div (Neg (N 1)) (N 9)); (216%nat, Div (N 1) (N 3)); (217%nat, Div (N 2) (N 9))];
  [(118%nat, Div (Neg (N 8)) (N 3)); (153%nat, Div (N 2) (N 3)); (154%nat, Div (N 2) (N 3)); (155%nat, Div (N 2) (N 3)); (165%nat, Div (Neg (N 38)) (N 3)); (166%nat, Div (N 2) (N 3)); (167%nat, Div (N 2) (N 3)); (169%nat, Div (N 2) (N 3)); (171%nat, Div (N 2) (N 3)); (174%nat, Div (N 2) (N 3)); (183%nat, Div (N 2) (N 3)); (184%nat, Div (N 2) (N 3)); (185%nat, Div (N 2) (N 3)); (195%nat, Div (N 2) (N 3)); (198%nat, Div (N 2) (N 3)); (200%nat, Div (N 2) (N 9)); (201%nat, Div (Neg (N 1)) (N 9)); (202%nat, Div (Neg (N 1)) (N 9)); (203%nat, Div (N 1) (N 3)); (204%nat, Div (N 1) (N 3)); (306%nat, Div (N 2) (N 9)); (307%nat, Div (Neg (N 1)) (N 9)); (308%nat, Div (N 1) (N 3))];
  [(119%nat, Div (Neg (N 8)) (N 3)); (153%nat, Div (N 2) (N 3)); (154%nat, Div (N 2) (N 3)); (155%nat, Div (N 2) (N 3)); (165%nat, Div (N 2) (N 3)); (166%nat, Div (Neg (N 38)) (N 3)); (168%nat, Div (N 2) (N 3)); (170%nat, Div (N 2) (N 3)); (171%nat, Div (N 2) (N 3)); (174%nat, Div (N 2) (N 3)); (186%nat, Div (N 2) (N 3)); (187%nat, Div (N 2) (N 3)); (188%nat, Div (N 2) (N 3)); (196%nat, Div (N 2) (N 3)); (199%nat, Div (N 2) (N 3)); (200%nat, Div (N 2) (N 9)); (201%nat, Div (Neg (N 1)) (N 9)); (202%nat, Div (Neg (N 1)) (N 9)); (203%nat, Div (N 1) (N 3)); (204%nat, Div (N 1) (N 3)); (307%nat, Div (Neg (N 1)) (N 9)); (308%nat, Div (N 1) (N 3)); (309%nat, Div (N 2) (N 9))];
  [(120%nat, Div (Neg (N 8)) (N 3)); (158%nat, Div (N 2) (N 3)); (159%nat, Div (N 2) (N 3)); (160%nat, Div (N 2) (N 3)); (165%nat, Div (N 2) (N 3)); (167%nat, Div (Neg (N 38)) (N 3)); (168%nat, Div (N 2) (N 3)); (169%nat, Div (N 2) (N 3)); (172%nat, Div (N 2) (N 3)); (175%nat, Div (N 2) (N 3)); (183%nat, Div (N 2) (N 3)); (184%nat, Div (N 2) (N 3)); (185%nat, Div (N 2) (N 3)); (195%nat, Div (N 2) (N 3)); (198%nat, Div (N 2) (N 3)); (201%nat, Div (Neg (N 1)) (N 9)); (203%nat, Div (N 1) (N 3)); (205%nat, Div (N 2) (N 9)); (206%nat, Div (Neg (N 1)) (N 9)); (207%nat, Div (N 1) (N 3)); (306%nat, Div (N 2) (N 9)); (307%nat, Div (Neg (N 1)) (N 9)); (308%nat, Div (N 1) (N 3))];
  [(121%nat, Div (Neg (N 8)) (N 3)); (158%nat, Div (N 2) (N 3)); (159%nat, Div (N 2) (N 3)); (160%nat, Div (N 2) (N 3)); (166%nat, Div (N 2) (N 3)); (167%nat, Div (N 2) (N 3)); (168%nat, Div (Neg (N 38)) (N 3)); (170%nat, Div (N 2) (N 3)); (172%nat, Div (N 2) (N 3)); (175%nat, Div (N 2) (N 3)); (186%nat, Div (N 2) (N 3)); (187%nat, Div (N 2) (N 3)); (188%nat, Div (N 2) (N 3)); (196%nat, Div (N 2) (N 3)); (199%nat, Div (N 2) (N 3)); (201%nat, Div (Neg (N 1)) (N 9)); (203%nat, Div (N 1) (N 3)); (205%nat, Div (N 2) (N 9)); (206%nat, Div (Neg (N 1)) (N 9)); (207%nat, Div (N 1) (N 3)); (307%nat, Div (Neg (N 1)) (N 9)); (308%nat, Div (N 1) (N 3)); (309%nat, Div (N 2) (N 9))];
  [(122%nat, Div (Neg (N 8)) (N 3)); (162%nat, Div (N 2) (N 3)); (163%nat, Div (N 2) (N 3)); (164%nat, Div (N 2) (N 3)); (165%nat, Div (N 2) (N 3)); (167%nat, Div (N 2) (N 3)); (169%nat, Div (Neg (N 38)) (N 3)); (170%nat, Div (N 2) (N 3)); (173%nat, Div (N 2) (N 3)); (176%nat, Div (N 2) (N 3)); (183%nat, Div (N 2) (N 3)); (184%nat, Div (N 2) (N 3)); (185%nat, Div (N 2) (N 3)); (195%nat, Div (N 2) (N 3)); (198%nat, Div (N 2) (N 3)); (202%nat, Div (Neg (N 1)) (N 9)); (204%nat, Div (N 1) (N 3)); (206%nat, Div (Neg (N 1)) (N 9)); (207%nat, Div (N 1) (N 3)); (208%nat, Div (N 2) (N 9)); (306%nat, Div (N 2) (N 9)); (307%nat, Div (Neg (N 1)) (N 9)); (308%nat, Div (N 1) (N 3))];
  [(123%nat, Div (Neg (N 8)) (N 3)); (162%nat, Div (N 2) (N 3)); (163%nat, Div (N 2) (N 3)); (164%nat, Div (N 2) (N 3)); (166%nat, Div (N 2) (N 3)); (168%nat, Div (N 2) (N 3)); (169%nat, Div (N 2) (N 3)); (170%nat, Div (Neg (N 38)) (N 3)); (173%nat, Div (N 2) (N 3)); (176%nat, Div (N 2) (N 3)); (186%nat, Div (N 2) (N 3)); (187%nat, Div (N 2) (N 3)); (188%nat, Div (N 2) (N 3)); (196%nat, Div (N 2) (N 3)); (199%nat, Div (N 2) (N 3)); (202%nat, Div (Neg (N 1)) (N 9)); (204%nat, Div (N 1) (N 3)); (206%nat, Div (Neg (N 1)) (N 9)); (207%nat, Div (N 1) (N 3)); (208%nat, Div (N 2) (N 9)); (307%nat, Div (Neg (N 1)) (N 9)); (308%nat, Div (N 1) (N 3)); (309%nat, Div (N 2) (N 9))];
  [(124%nat, Div (N 8) (N 3)); (153%nat, Div (N 2) (N 3)); (154%nat, Div (N 2) (N 3)); (155%nat, Div (N 2) (N 3)); (165%nat, Div (N 2) (N 3)); (166%nat, Div (N 2) (N 3)); (171%nat, Div (Neg (N 8)) (N 3)); (172%nat, Div (N 2) (N 3)); (173%nat, Div (N 2) (N 3)); (174%nat, Div (N 2) (N 3)); (177%nat, Div (N 2) (N 3)); (178%nat, Div (N 2) (N 3)); (179%nat, Div (N 2) (N 3)); (195%nat, Div (N 2) (N 3)); (196%nat, Div (N 2) (N 3)); (200%nat, Div (N 2) (N 9)); (201%nat, Div (Neg (N 1)) (N 9)); (202%nat, Div (Neg (N 1)) (N 9)); (203%nat, Div (N 1) (N 3)); (204%nat, Div (N 1) (N 3)); (302%nat, Div (N 2) (N 9)); (303%nat, Div (Neg (N 1)) (N 9)); (304%nat, Div (N 1) (N 3))];
  [(125%nat, Div (N 8) (N 3)); (158%nat, Div (N 2) (N 3)); (159%nat, Div (N 2) (N 3)); (160%nat, Div (N 2) (N 3)); (167%nat, Div (N 2) (N 3)); (168%nat, Div (N 2) (N 3)); (171%nat, Div (N 2) (N 3)); (172%nat, Div (Neg (N 8)) (N 3)); (173%nat, Div (N 2) (N 3)); (175%nat, Div (N 2) (N 3)); (177%nat, Div (N 2) (N 3)); (178%nat, Div (N 2) (N 3)); (179%nat, Div (N 2) (N 3)); (195%nat, Div (N 2) (N 3)); (196%nat, Div (N 2) (N 3)); (201%nat, Div (Neg (N 1)) (N 9)); (203%nat, Div (N 1) (N 3)); (205%nat, Div (N 2) (N 9)); (206%nat, Div (Neg (N 1)) (N 9)); (207%nat, Div (N 1) (N 3)); (302%nat, Div (N 2) (N 9)); (303%nat, Div (Neg (N 1)) (N 9)); (304%nat, Div (N 1) (N 3))];
  [(126%nat, Div (N 8) (N 3)); (162%nat, Div (N 2) (N 3)); (163%nat, Div (N 2) (N 3)); (164%nat, Div (N 2) (N 3)); (169%nat, Div (N 2) (N 3)); (170%nat, Div (N 2) (N 3)); (171%nat, Div (N 2) (N 3)); (172%nat, Div (N 2) (N 3)); (173%nat, Div (Neg (N 8)) (N 3)); (176%nat, Div (N 2) (N 3)); (177%nat, Div (N 2) (N 3)); (178%nat, Div (N 2) (N 3)); (179%nat, Div (N 2) (N 3)); (195%nat, Div (N 2) (N 3)); (196%nat, Div (N 2) (N 3)); (202%nat, Div (Neg (N 1)) (N 9)); (204%nat, Div (N 1) (N 3)); (206%nat, Div (Neg (N 1)) (N 9)); (207%nat, Div (N 1) (N 3)); (208%nat, Div (N 2) (N 9)); (302%nat, Div (N 2) (N 9)); (303%nat, Div (Neg (N 1)) (N 9)); (304%nat, Div (N 1) (N 3))];
  [(127%nat, Div (N 8) (N 3)); (153%nat, Div (N 2) (N 3)); (154%nat, Div (N 2) (N 3)); (155%nat, Div (N 2) (N 3)); (165%nat, Div (N 2) (N 3)); (166%nat, Div (N 2) (N 3)); (171%nat, Div (N 2) (N 3)); (174%nat, Div (Neg (N 8)) (N 3)); (175%nat, Div (N 2) (N 3)); (176%nat, Div (N 2) (N 3)); (180%nat, Div (N 2) (N 3)); (181%nat, Div (N 2) (N 3)); (182%nat, Div (N 2) (N 3)); (198%nat, Div (N 2) (N 3)); (199%nat, Div (N 2) (N 3)); (200%nat, Div (N 2) (N 9)); (201%nat, Div (Neg (N 1)) (N 9)); (202%nat, Div (Neg (N 1)) (N 9)); (203%nat, Div (N 1) (N 3)); (204%nat, Div (N 1) (N 3)); (303%nat, Div (Neg (N 1)) (N 9)); (304%nat, Div (N 1) (N 3)); (305%nat, Div (N 2) (N 9))];
  [(128%nat, Div (N 8) (N 3)); (158%nat, Div (N 2) (N 3)); (159%nat, Div (N 2) (N 3)); (160%nat, Div (N 2) (N 3)); (167%nat, Div (N 2) (N 3)); (168%nat, Div (N 2) (N 3)); (172%nat, Div (N 2) (N 3)); (174%nat, Div (N 2) (N 3)); (175%nat, Div (Neg (N 8)) (N 3)); (176%nat, Div (N 2) (N 3)); (180%nat, Div (N 2) (N 3)); (181%nat, Div (N 2) (N 3)); (182%nat, Div (N 2) (N 3)); (198%nat, Div (N 2) (N 3)); (199%nat, Div (N 2) (N 3)); (201%nat, Div (Neg (N 1)) (N 9)); (203%nat, Div (N 1) (N 3)); (205%nat, Div (N 2) (N 9)); (206%nat, Div (Neg (N 1)) (N 9)); (207%nat, Div (N 1) (N 3)); (303%nat, Div (Neg (N 1)) (N 9)); (304%nat, Div (N 1) (N 3)); (305%nat, Div (N 2) (N 9))];
  [(129%nat, Div (N 8) (N 3)); (162%nat, Div (N 2) (N 3)); (163%nat, Div (N 2) (N 3)); (164%nat, Div (N 2) (N 3)); (169%nat, Div (N 2) (N 3)); (170%nat, Div (N 2) (N 3)); (173%nat, Div (N 2) (N 3)); (174%nat, Div (N 2) (N 3)); (175%nat, Div (N 2) (N 3)); (176%nat, Div (Neg (N 8)) (N 3)); (180%nat, Div (N 2) (N 3)); (181%nat, Div (N 2) (N 3)); (182%nat, Div (N 2) (N 3)); (198%nat, Div (N 2) (N 3)); (199%nat, Div (N 2) (N 3)); (202%nat, Div (Neg (N 1)) (N 9)); (204%nat, Div (N 1) (N 3)); (206%nat, Div (Neg (N 1)) (N 9)); (207%nat, Div (N 1) (N 3)); (208%nat, Div (N 2) (N 9)); (303%nat, Div (Neg (N 1)) (N 9)); (304%nat, Div (N 1) (N 3)); (305%nat, Div (N 2) (N 9))];
  [(130%nat, Div (Neg (N 8)) (N 3)); (153%nat, Div (N 2) (N 3)); (158%nat, Div (N 2) (N 3)); (162%nat, Div (N 2) (N 3)); (171%nat, Div (N 2) (N 3)); (172%nat, Div (N 2) (N 3)); (173%nat, Div (N 2) (N 3)); (177%nat, Div (Neg (N 38)) (N 3)); (178%nat, Div (N 2) (N 3)); (179%nat, Div (N 2) (N 3)); (180%nat, Div (N 2) (N 3)); (183%nat, Div (N 2) (N 3)); (186%nat, Div (N 2) (N 3)); (195%nat, Div (N 2) (N 3)); (196%nat, Div (N 2) (N 3)); (209%nat, Div (N 2) (N 9)); (210%nat, Div (Neg (N 1)) (N 9)); (211%nat, Div (Neg (N 1)) (N 9)); (212%nat, Div (N 1) (N 3)); (213%nat, Div (N 1) (N 3)); (302%nat, Div (N 2) (N 9)); (303%nat, Div (Neg (N 1)) (N 9)); (304%nat, Div (N 1) (N 3))];
  [(131%nat, Div (Neg (N 8)) (N 3)); (154%nat, Div (N 2) (N 3)); (159%nat, Div (N 2) (N 3)); (163%nat, Div (N 2) (N 3)); (171%nat, Div (N 2) (N 3)); (172%nat, Div (N 2) (N 3)); (173%nat, Div (N 2) (N 3)); (177%nat, Div (N 2) (N 3)); (178%nat, Div (Neg (N 38)) (N 3)); (179%nat, Div (N 2) (N 3)); (181%nat, Div (N 2) (N 3)); (184%nat, Div (N 2) (N 3)); (187%nat, Div (N 2) (N 3)); (195%nat, Div (N 2) (N 3)); (196%nat, Div (N 2) (N 3)); (210%nat, Div (Neg (N 1)) (N 9)); (212%nat, Div (N 1) (N 3)); (214%nat, Div (N 2) (N 9)); (215%nat, Div (Neg (N 1)) (N 9)); (216%nat, Div (N 1) (N 3)); (302%nat, Div (N 2) (N 9)); (303%nat, Div (Neg (N 1)) (N 9)); (304%nat, Div (N 1) (N 3))];
  [(132%nat, Div (Neg (N 8)) (N 3)); (155%nat, Div (N 2) (N 3)); (160%nat, Div (N 2) (N 3)); (164%nat, Div (N 2) (N 3)); (171%nat, Div (N 2) (N 3)); (172%nat, Div (N 2) (N 3)); (173%nat, Div (N 2) (N 3)); (177%nat, Div (N 2) (N 3)); (178%nat, Div (N 2) (N 3)); (179%nat, Div (Neg (N 38)) (N 3)); (182%nat, Div (N 2) (N 3)); (185%nat, Div (N 2) (N 3)); (188%nat, Div (N 2) (N 3)); (195%nat, Div (N 2) (N 3)); (196%nat, Div (N 2) (N 3)); (211%nat, Div (Neg (N 1)) (N 9)); (213%nat, Div (N 1) (N 3)); (215%nat, Div (Neg (N 1)) (N 9)); (216%nat, Div (N 1) (N 3)); (217%nat, Div (N 2) (N 9)); (302%nat, Div (N 2) (N 9)); (303%nat, Div (Neg (N 1)) (N 9)); (304%nat, Div (N 1) (N 3))];
  [(133%nat, Div (Neg (N 8)) (N 3)); (153%nat, Div (N 2) (N 3)); (158%nat, Div (N 2) (N 3)); (162%nat, Div (N 2) (N 3)); (174%nat, Div (N 2) (N 3)); (175%nat, Div (N 2) (N 3)); (176%nat, Div (N 2) (N 3)); (177%nat, Div (N 2) (N 3)); (180%nat, Div (Neg (N 38)) (N 3)); (181%nat, Div (N 2) (N 3)); (182%nat, Div (N 2) (N 3)); (183%nat, Div (N 2) (N 3)); (186%nat, Div (N 2) (N 3)); (198%nat, Div (N 2) (N 3)); (199%nat, Div (N 2) (N 3)); (209%nat, Div (N 2) (N 9)); (210%nat, Div (Neg (N 1)) (N 9)); (211%nat, Div (Neg (N 1)) (N 9)); (212%nat, Div (N 1) (N 3)); (213%nat, Div (N 1) (N 3)); (303%nat, Div (Neg (N 1)) (N 9)); (304%nat, Div (N 1) (N 3)); (305%nat, Div (N 2) (N 9))];
  [(134%nat, Div (Neg (N 8)) (N 3)); (154%nat, Div (N 2) (N 3)); (159%nat, Div (N 2) (N 3)); (163%nat, Div (N 2) (N 3)); (174%nat, Div (N 2) (N 3)); (175%nat, Div (N 2) (N 3)); (176%nat, Div (N 2) (N 3)); (178%nat, Div (N 2) (N 3)); (180%nat, Div (N 2) (N 3)); (181%nat, Div (Neg (N 38)) (N 3)); (182%nat, Div (N 2) (N 3)); (184%nat, Div (N 2) (N 3)); (187%nat, Div (N 2) (N 3)); (198%nat, Div (N 2) (N 3)); (199%nat, Div (N 2) (N 3)); (210%nat, Div (Neg (N 1)) (N 9)); (212%nat, Div (N 1) (N 3)); (214%nat, Div (N 2) (N 9)); (215%nat, Div (Neg (N 1)) (N 9)); (216%nat, Div (N 1) (N 3)); (303%nat, Div (Neg (N 1)) (N 9)); (304%nat, Div (N 1) (N 3)); (305%nat, Div (N 2) (N 9))];
  [(135%nat, Div (Neg (N 8)) (N 3)); (155%nat, Div (N 2) (N 3)); (160%nat, Div (N 2) (N 3)); (164%nat, Div (N 2) (N 3)); (174%nat, Div (N 2) (N 3)); (175%nat, Div (N 2) (N 3)); (176%nat, Div (N 2) (N 3)); (179%nat, Div (N 2) (N 3)); (180%nat, Div (N 2) (N 3)); (181%nat, Div (N 2) (N 3)); (182%nat, Div (Neg (N 38)) (N 3)); (185%nat, Div (N 2) (N 3)); (188%nat, Div (N 2) (N 3)); (198%nat, Div (N 2) (N 3)); (199%nat, Div (N 2) (N 3)); (211%nat, Div (Neg (N 1)) (N 9)); (213%nat, Div (N 1) (N 3)); (215%nat, Div (Neg (N 1)) (N 9)); (216%nat, Div (N 1) (N 3)); (217%nat, Div (N 2) (N 9)); (303%nat, Div (Neg (N 1)) (N 9)); (304%nat, Div (N 1) (N 3)); (305%nat, Div (N 2) (N 9))];
  [(136%nat, Div (N 8) (N 3)); (153%nat, Div (N 2) (N 3)); (158%nat, Div (N 2) (N 3)); (162%nat, Div (N 2) (N 3)); (165%nat, Div (N 2) (N 3)); (167%nat, Div (N 2) (N 3)); (169%nat, Div (N 2) (N 3)); (177%nat, Div (N 2) (N 3)); (180%nat, Div (N 2) (N 3)); (183%nat, Div (Neg (N 8)) (N 3)); (184%nat, Div (N 2) (N 3)); (185%nat, Div (N 2) (N 3)); (186%nat, Div (N 2) (N 3)); (195%nat, Div (N 2) (N 3)); (198%nat, Div (N 2) (N 3)); (209%nat, Div (N 2) (N 9)); (210%nat, Div (Neg (N 1)) (N 9)); (211%nat, Div (Neg (N 1)) (N 9)); (212%nat, Div (N 1) (N 3)); (213%nat, Div (N 1) (N 3)); (306%nat, Div (N 2) (N 9)); (307%nat, Div (Neg (N 1)) (N 9)); (308%nat, Div (N 1) (N 3))];
  [(137%nat, Div (N 8) (N 3)); (154%nat, Div (N 2) (N 3)); (159%nat, Div (N 2) (N 3)); (163%nat, Div (N 2) (N 3)); (165%nat, Div (N 2) (N 3)); (167%nat, Div (N 2) (N 3)); (169%nat, Div (N 2) (N 3)); (178%nat, Div (N 2) (N 3)); (181%nat, Div (N 2) (N 3)); (183%nat, Div (N 2) (N 3)); (184%nat, Div (Neg (N 8)) (N 3)); (185%nat, Div (N 2) (N 3)); (187%nat, Div (N 2) (N 3)); (195%nat, Div (N 2) (N 3)); (198%nat, Div (N 2) (N 3)); (210%nat, Div (Neg (N 1)) (N 9)); (212%nat, Div (N 1) (N 3)); (214%nat, Div (N 2) (N 9)); (215%nat, Div (Neg (N 1)) (N 9)); (216%nat, Div (N 1) (N 3)); (306%nat, Div (N 2) (N 9)); (307%nat, Div (Neg (N 1)) (N 9)); (308%nat, Div (N 1) (N 3))];
  [(138%nat, Div (N 8) (N 3)); (155%nat, Div (N 2) (N 3)); (160%nat, Div (N 2) (N 3)); (164%nat, Div (N 2) (N 3)); (165%nat, Div (N 2) (N 3)); (167%nat, Div (N 2) (N 3)); (169%nat, Div (N 2) (N 3)); (179%nat, Div (N 2) (N 3)); (182%nat, Div (N 2) (N 3)); (183%nat, Div (N 2) (N 3)); (184%nat, Div (N 2) (N 3)); (185%nat, Div (Neg (N 8)) (N 3)); (188%nat, Div (N 2) (N 3)); (195%nat, Div (N 2) (N 3)); (198%nat, Div (N 2) (N 3)); (211%nat, Div (Neg (N 1)) (N 9)); (213%nat, Div (N 1) (N 3)); (215%nat, Div (Neg (N 1)) (N 9)); (216%nat, Div (N 1) (N 3)); (217%nat, Div (N 2) (N 9)); (306%nat, Div (N 2) (N 9)); (307%nat, Div (Neg (N 1)) (N 9)); (308%nat, Div (N 1) (N 3))];
  [(139%nat, Div (N 8) (N 3)); (153%nat, Div (N 2) (N 3)); (158%nat, Div (N 2) (N 3)); (162%nat, Div (N 2) (N 3)); (166%nat, Div (N 2) (N 3)); (168%nat, Div (N 2) (N 3)); (170%nat, Div (N 2) (N 3)); (177%nat, Div (N 2) (N 3)); (180%nat, Div (N 2) (N 3)); (183%nat, Div (N 2) (N 3)); (186%nat, Div (Neg (N 8)) (N 3)); (187%nat, Div (N 2) (N 3)); (188%nat, Div (N 2) (N 3)); (196%nat, Div (N 2) (N 3)); (199%nat, Div (N 2) (N 3)); (209%nat, Div (N 2) (N 9)); (210%nat, Div (Neg (N 1)) (N 9)); (211%nat, Div (Neg (N 1)) (N 9)); (212%nat, Div (N 1) (N 3)); (213%nat, Div (N 1) (N 3)); (307%nat, Div (Neg (N 1)) (N 9)); (308%nat, Div (N 1) (N 3)); (309%nat, Div (N 2) (N 9))];
  [(140%nat, Div (N 8) (N 3)); (154%nat, Div (N 2) (N 3)); (159%nat, Div (N 2) (N 3)); (163%nat, Div (N 2) (N 3)); (166%nat, Div (N 2) (N 3)); (168%nat, Div (N 2) (N 3)); (170%nat, Div (N 2) (N 3)); (178%nat, Div (N 2) (N 3)); (181%nat, Div (N 2) (N 3)); (184%nat, Div (N 2) (N 3)); (186%nat, Div (N 2) (N 3)); (187%nat, Div (Neg (N 8)) (N 3)); (188%nat, Div (N 2) (N 3)); (196%nat, Div (N 2) (N 3)); (199%nat, Div (N 2) (N 3)); (210%nat, Div (Neg (N 1)) (N 9)); (212%nat, Div (N 1) (N 3)); (214%nat, Div (N 2) (N 9)); (215%nat, Div (Neg (N 1)) (N 9)); (216%nat, Div (N 1) (N 3)); (307%nat, Div (Neg (N 1)) (N 9)); (308%nat, Div (N 1) (N 3)); (309%nat, Div (N 2) (N 9))];
  [(141%nat, Div (N 8) (N 3)); (155%nat, Div (N 2) (N 3)); (160%nat, Div (N 2) (N 3)); (164%nat, Div (N 2) (N 3)); (166%nat, Div (N 2) (N 3)); (168%nat, Div (N 2) (N 3)); (170%nat, Div (N 2) (N 3)); (179%nat, Div (N 2) (N 3)); (182%nat, Div (N 2) (N 3)); (185%nat, Div (N 2) (N 3)); (186%nat, Div (N 2) (N 3)); (187%nat, Div (N 2) (N 3)); (188%nat, Div (Neg (N 8)) (N 3)); (196%nat, Div (N 2) (N 3)); (199%nat, Div (N 2) (N 3)); (211%nat, Div (Neg (N 1)) (N 9)); (213%nat, Div (N 1) (N 3)); (215%nat, Div (Neg (N 1)) (N 9)); (216%nat, Div (N 1) (N 3)); (217%nat, Div (N 2) (N 9)); (307%nat, Div (Neg (N 1)) (N 9)); (308%nat, Div (N 1) (N 3)); (309%nat, Div (N 2) (N 9))];
  [(142%nat, Div (Neg (N 8)) (N 3)); (189%nat, Neg (N 14))];
  [(143%nat, Div (Neg (N 8)) (N 3)); (190%nat, Neg (N 14))];
  [(144%nat, Div (Neg (N 8)) (N 3)); (191%nat, Neg (N 14))];
  [(145%nat, Div (Neg (N 8)) (N 3)); (192%nat, Neg (N 14))];
  [(146%nat, Div (Neg (N 8)) (N 3)); (193%nat, Neg (N 14))];
  [(147%nat, Div (Neg (N 8)) (N 3)); (194%nat, Neg (N 14))];
  [(148%nat, Div (Neg (N 8)) (N 3)); (165%nat, Div (N 2) (N 3)); (167%nat, Div (N 2) (N 3)); (169%nat, Div (N 2) (N 3)); (171%nat, Div (N 2) (N 3)); (172%nat, Div (N 2) (N 3)); (173%nat, Div (N 2) (N 3)); (177%nat, Div (N 2) (N 3)); (178%nat, Div (N 2) (N 3)); (179%nat, Div (N 2) (N 3)); (183%nat, Div (N 2) (N 3)); (184%nat, Div (N 2) (N 3)); (185%nat, Div (N 2) (N 3)); (195%nat, Div (Neg (N 38)) (N 3)); (196%nat, Div (N 2) (N 3)); (198%nat, Div (N 2) (N 3)); (302%nat, Div (N 2) (N 9)); (303%nat, Div (Neg (N 1)) (N 9)); (304%nat, Div (N 1) (N 3)); (306%nat, Div (N 2) (N 9)); (307%nat, Div (Neg (N 1)) (N 9)); (308%nat, Div (N 1) (N 3))];
  [(149%nat, Div (Neg (N 8)) (N 3)); (166%nat, Div (N 2) (N 3)); (168%nat, Div (N 2) (N 3)); (170%nat, Div (N 2) (N 3)); (171%nat, Div (N 2) (N 3)); (172%nat, Div (N 2) (N 3)); (173%nat, Div (N 2) (N 3)); (177%nat, Div (N 2) (N 3)); (178%nat, Div (N 2) (N 3)); (179%nat, Div (N 2) (N 3)); (186%nat, Div (N 2) (N 3)); (187%nat, Div (N 2) (N 3)); (188%nat, Div (N 2) (N 3)); (195%nat, Div (N 2) (N 3)); (196%nat, Div (Neg (N 38)) (N 3)); (199%nat, Div (N 2) (N 3)); (302%nat, Div (N 2) (N 9)); (303%nat, Div (Neg (N 1)) (N 9)); (304%nat, Div (N 1) (N 3)); (307%nat, Div (Neg (N 1)) (N 9)); (308%nat, Div (N 1) (N 3)); (309%nat, Div (N 2) (N 9))];
  [(150%nat, Div (Neg (N 8)) (N 3)); (197%nat, Neg (N 14))];
  [(151%nat, Div (Neg (N 8)) (N 3)); (165%nat, Div (N 2) (N 3)); (167%nat, Div (N 2) (N 3)); (169%nat, Div (N 2) (N 3)); (174%nat, Div (N 2) (N 3)); (175%nat, Div (N 2) (N 3)); (176%nat, Div (N 2) (N 3)); (180%nat, Div (N 2) (N 3)); (181%nat, Div (N 2) (N 3)); (182%nat, Div (N 2) (N 3)); (183%nat, Div (N 2) (N 3)); (184%nat, Div (N 2) (N 3)); (185%nat, Div (N 2) (N 3)); (195%nat, Div (N 2) (N 3)); (198%nat, Div (Neg (N 38)) (N 3)); (199%nat, Div (N 2) (N 3)); (303%nat, Div (Neg (N 1)) (N 9)); (304%nat, Div (N 1) (N 3)); (305%nat, Div (N 2) (N 9)); (306%nat, Div (N 2) (N 9)); (307%nat, Div (Neg (N 1)) (N 9)); (308%nat, Div (N 1) (N 3))];
  [(152%nat, Div (Neg (N 8)) (N 3)); (166%nat, Div (N 2) (N 3)); (168%nat, Div (N 2) (N 3)); (170%nat, Div (N 2) (N 3)); (174%nat, Div (N 2) (N 3)); (175%nat, Div (N 2) (N 3)); (176%nat, Div (N 2) (N 3)); (180%nat, Div (N 2) (N 3)); (181%nat, Div (N 2) (N 3)); (182%nat, Div (N 2) (N 3)); (186%nat, Div (N 2) (N 3)); (187%nat, Div (N 2) (N 3)); (188%nat, Div (N 2) (N 3)); (196%nat, Div (N 2) (N 3)); (198%nat, Div (N 2) (N 3)); (199%nat, Div (Neg (N 38)) (N 3)); (303%nat, Div (Neg (N 1)) (N 9)); (304%nat, Div (N 1) (N 3)); (305%nat, Div (N 2) (N 9)); (307%nat, Div (Neg (N 1)) (N 9)); (308%nat, Div (N 1) (N 3)); (309%nat, Div (N 2) (N 9))];
  [(153%nat, Div (N 8) (N 3)); (154%nat, Div (N 8) (N 3)); (155%nat, Div (N 8) (N 3)); (165%nat, Div (N 8) (N 3)); (166%nat, Div (N 8) (N 3)); (171%nat, Div (N 8) (N 3)); (174%nat, Div (N 8) (N 3)); (200%nat, Div (N 44) (N 9)); (201%nat, Div (Neg (N 4)) (N 9)); (202%nat, Div (Neg (N 4)) (N 9)); (203%nat, Div (N 4) (N 3)); (204%nat, Div (N 4) (N 3))];
  [(201%nat, Neg (N 2)); (203%nat, N 6)];
  [(202%nat, Neg (N 2)); (204%nat, N 6)];
  [(153%nat, Div (N 4) (N 3)); (154%nat, Div (N 4) (N 3)); (155%nat, Div (N 4) (N 3)); (158%nat, Div (N 4) (N 3)); (159%nat, Div (N 4) (N 3)); (160%nat, Div (N 4) (N 3)); (165%nat, Div (N 4) (N 3)); (166%nat, Div (N 4) (N 3)); (167%nat, Div (N 4) (N 3)); (168%nat, Div (N 4) (N 3)); (171%nat, Div (N 4) (N 3)); (172%nat, Div (N 4) (N 3)); (174%nat, Div (N 4) (N 3)); (175%nat, Div (N 4) (N 3)); (200%nat, Div (N 4) (N 9)); (201%nat, Div (N 50) (N 9)); (202%nat, Div (Neg (N 2)) (N 9)); (203%nat, Div (Neg (N 2)) (N 3)); (204%nat, Div (N 2) (N 3)); (205%nat, Div (N 4) (N 9)); (206%nat, Div (Neg (N 2)) (N 9)); (207%nat, Div (N 2) (N 3))];
  [(153%nat, Div (N 4) (N 3)); (154%nat, Div (N 4) (N 3)); (155%nat, Div (N 4) (N 3)); (162%nat, Div (N 4) (N 3)); (163%nat, Div (N 4) (N 3)); (164%nat, Div (N 4) (N 3)); (165%nat, Div (N 4) (N 3)); (166%nat, Div (N 4) (N 3)); (169%nat, Div (N 4) (N 3)); (170%nat, Div (N 4) (N 3)); (171%nat, Div (N 4) (N 3)); (173%nat, Div (N 4) (N 3)); (174%nat, Div (N 4) (N 3)); (176%nat, Div (N 4) (N 3)); (200%nat, Div (N 4) (N 9)); (201%nat, Div (Neg (N 2)) (N 9)); (202%nat, Div (N 50) (N 9)); (203%nat, Div (N 2) (N 3)); (204%nat, Div (Neg (N 2)) (N 3)); (206%nat, Div (Neg (N 2)) (N 9)); (207%nat, Div (N 2) (N 3)); (208%nat, Div (N 4) (N 9))];
  [(158%nat, Div (N 8) (N 3)); (159%nat, Div (N 8) (N 3)); (160%nat, Div (N 8) (N 3)); (167%nat, Div (N 8) (N 3)); (168%nat, Div (N 8) (N 3)); (172%nat, Div (N 8) (N 3)); (175%nat, Div (N 8) (N 3)); (201%nat, Div (Neg (N 4)) (N 9)); (203%nat, Div (N 4) (N 3)); (205%nat, Div (N 44) (N 9)); (206%nat, Div (Neg (N 4)) (N 9)); (207%nat, Div (N 4) (N 3))];
  [(206%nat, Neg (N 2)); (207%nat, N 6)];
  [(158%nat, Div (N 4) (N 3)); (159%nat, Div (N 4) (N 3)); (160%nat, Div (N 4) (N 3)); (162%nat, Div (N 4) (N 3)); (163%nat, Div (N 4) (N 3)); (164%nat, Div (N 4) (N 3)); (167%nat, Div (N 4) (N 3)); (168%nat, Div (N 4) (N 3)); (169%nat, Div (N 4) (N 3)); (170%nat, Div (N 4) (N 3)); (172%nat, Div (N 4) (N 3)); (173%nat, Div (N 4) (N 3)); (175%nat, Div (N 4) (N 3)); (176%nat, Div (N 4) (N 3)); (201%nat, Div (Neg (N 2)) (N 9)); (202%nat, Div (Neg (N 2)) (N 9)); (203%nat, Div (N 2) (N 3)); (204%nat, Div (N 2) (N 3)); (205%nat, Div (N 4) (N 9)); (206%nat, Div (N 50) (N 9)); (207%nat, Div (Neg (N 2)) (N 3)); (208%nat, Div (N 4) (N 9))];
  [(162%nat, Div (N 8) (N 3)); (163%nat, Div (N 8) (N 3)); (164%nat, Div (N 8) (N 3)); (169%nat, Div (N 8) (N 3)); (170%nat, Div (N 8) (N 3)); (173%nat, Div (N 8) (N 3)); (176%nat, Div (N 8) (N 3)); (202%nat, Div (Neg (N 4)) (N 9)); (204%nat, Div (N 4) (N 3)); (206%nat, Div (Neg (N 4)) (N 9)); (207%nat, Div (N 4) (N 3)); (208%nat, Div (N 44) (N 9))];
  [(153%nat, Div (N 8) (N 3)); (158%nat, Div (N 8) (N 3)); (162%nat, Div (N 8) (N 3)); (177%nat, Div (N 8) (N 3)); (180%nat, Div (N 8) (N 3)); (183%nat, Div (N 8) (N 3)); (186%nat, Div (N 8) (N 3)); (209%nat, Div (N 44) (N 9)); (210%nat, Div (Neg (N 4)) (N 9)); (211%nat, Div (Neg (N 4)) (N 9)); (212%nat, Div (N 4) (N 3)); (213%nat, Div (N 4) (N 3))];
  [(210%nat, Neg (N 2)); (212%nat, N 6)];
  [(211%nat, Neg (N 2)); (213%nat, N 6)];
  [(153%nat, Div (N 4) (N 3)); (154%nat, Div (N 4) (N 3)); (158%nat, Div (N 4) (N 3)); (159%nat, Div (N 4) (N 3)); (162%nat, Div (N 4) (N 3)); (163%nat, Div (N 4) (N 3)); (177%nat, Div (N 4) (N 3)); (178%nat, Div (N 4) (N 3)); (180%nat, Div (N 4) (N 3)); (181%nat, Div (N 4) (N 3)); (183%nat, Div (N 4) (N 3)); (184%nat, Div (N 4) (N 3)); (186%nat, Div (N 4) (N 3)); (187%nat, Div (N 4) (N 3)); (209%nat, Div (N 4) (N 9)); (210%nat, Div (N 50) (N 9)); (211%nat, Div (Neg (N 2)) (N 9)); (212%nat, Div (Neg (N 2)) (N 3)); (213%nat, Div (N 2) (N 3)); (214%nat, Div (N 4) (N 9)); (215%nat, Div (Neg (N 2)) (N 9)); (216%nat, Div (N 2) (N 3))];
  [(153%nat, Div (N 4) (N 3)); (155%nat, Div (N 4) (N 3)); (158%nat, Div (N 4) (N 3)); (160%nat, Div (N 4) (N 3)); (162%nat, Div (N 4) (N 3)); (164%nat, Div (N 4) (N 3)); (177%nat, Div (N 4) (N 3)); (179%nat, Div (N 4) (N 3)); (180%nat, Div (N 4) (N 3)); (182%nat, Div (N 4) (N 3)); (183%nat, Div (N 4) (N 3)); (185%nat, Div (N 4) (N 3)); (186%nat, Div (N 4) (N 3)); (188%nat, Div (N 4) (N 3)); (209%nat, Div (N 4) (N 9)); (210%nat, Div (Neg (N 2)) (N 9)); (211%nat, Div (N 50) (N 9)); (212%nat, Div (N 2) (N 3)); (213%nat, Div (Neg (N 2)) (N 3)); (215%nat, Div (Neg (N 2)) (N 9)); (216%nat, Div (N 2) (N 3)); (217%nat, Div (N 4) (N 9))];
  [(154%nat, Div (N 8) (N 3)); (159%nat, Div (N 8) (N 3)); (163%nat, Div (N 8) (N 3)); (178%nat, Div (N 8) (N 3)); (181%nat, Div (N 8) (N 3)); (184%nat, Div (N 8) (N 3)); (187%nat, Div (N 8) (N 3)); (210%nat, Div (Neg (N 4)) (N 9)); (212%nat, Div (N 4) (N 3)); (214%nat, Div (N 44) (N 9)); (215%nat, Div (Neg (N 4)) (N 9)); (216%nat, Div (N 4) (N 3))];
  [(215%nat, Neg (N 2)); (216%nat, N 6)];
  [(154%nat, Div (N 4) (N 3)); (155%nat, Div (N 4) (N 3)); (159%nat, Div (N 4) (N 3)); (160%nat, Div (N 4) (N 3)); (163%nat, Div (N 4) (N 3)); (164%nat, Div (N 4) (N 3)); (178%nat, Div (N 4) (N 3)); (179%nat, Div (N 4) (N 3)); (181%nat, Div (N 4) (N 3)); (182%nat, Div (N 4) (N 3)); (184%nat, Div (N 4) (N 3)); (185%nat, Div (N 4) (N 3)); (187%nat, Div (N 4) (N 3)); (188%nat, Div (N 4) (N 3)); (210%nat, Div (Neg (N 2)) (N 9)); (211%nat, Div (Neg (N 2)) (N 9)); (212%nat, Div (N 2) (N 3)); (213%nat, Div (N 2) (N 3)); (214%nat, Div (N 4) (N 9)); (215%nat, Div (N 50) (N 9)); (216%nat, Div (Neg (N 2)) (N 3)); (217%nat, Div (N 4) (N 9))];
  [(155%nat, Div (N 8) (N 3)); (160%nat, Div (N 8) (N 3)); (164%nat, Div (N 8) (N 3)); (179%nat, Div (N 8) (N 3)); (182%nat, Div (N 8) (N 3)); (185%nat, Div (N 8) (N 3)); (188%nat, Div (N 8) (N 3)); (211%nat, Div (Neg (N 4)) (N 9)); (213%nat, Div (N 4) (N 3)); (215%nat, Div (Neg (N 4)) (N 9)); (216%nat, Div (N 4) (N 3)); (217%nat, Div (N 44) (N 9))];
  [];
  [];
  [];
  [];
  [];
  [];
  [];
  [];
  [];
  [];
  [];
  [];
  [];
  [];
  [];
  [];
  [];
  [];
  [];
  [];
  [];
  [];
  [];
  [];
  [];
  [];
  [];
  [];
  [];
  [];
  [];
  [];
  [];
  [];
  [];
  [];
  [];
  [];
  [];
  [];
  [];
  [];
  [];
  [];
  [];
  [];
  [];
  [];
  [];
  [];
  [];
  [];
  [];
  [];
  [];
  [];
  [];
  [];
  [];
  [];
  [];
  [];
  [];
  [];
  [];
  [];
  [];
  [];
  [];
  [];
  [];
  [];
  [];
  [];
  [];
  [];
  [];
  [];
  [];
  [];
  [];
  [];
  [];
  [];
  [(171%nat, Div (N 8) (N 3)); (172%nat, Div (N 8) (N 3)); (173%nat, Div (N 8) (N 3)); (177%nat, Div (N 8) (N 3)); (178%nat, Div (N 8) (N 3)); (179%nat, Div (N 8) (N 3)); (195%nat, Div (N 8) (N 3)); (196%nat, Div (N 8) (N 3)); (302%nat, Div (N 44) (N 9)); (303%nat, Div (Neg (N 4)) (N 9)); (304%nat, Div (N 4) (N 3))];
  [(303%nat, Neg (N 2)); (304%nat, N 6)];
  [(171%nat, Div (N 4) (N 3)); (172%nat, Div (N 4) (N 3)); (173%nat, Div (N 4) (N 3)); (174%nat, Div (N 4) (N 3)); (175%nat, Div (N 4) (N 3)); (176%nat, Div (N 4) (N 3)); (177%nat, Div (N 4) (N 3)); (178%nat, Div (N 4) (N 3)); (179%nat, Div (N 4) (N 3)); (180%nat, Div (N 4) (N 3)); (181%nat, Div (N 4) (N 3)); (182%nat, Div (N 4) (N 3)); (195%nat, Div (N 4) (N 3)); (196%nat, Div (N 4) (N 3)); (198%nat, Div (N 4) (N 3)); (199%nat, Div (N 4) (N 3)); (302%nat, Div (N 4) (N 9)); (303%nat, Div (N 50) (N 9)); (304%nat, Div (Neg (N 2)) (N 3)); (305%nat, Div (N 4) (N 9))];
  [(174%nat, Div (N 8) (N 3)); (175%nat, Div (N 8) (N 3)); (176%nat, Div (N 8) (N 3)); (180%nat, Div (N 8) (N 3)); (181%nat, Div (N 8) (N 3)); (182%nat, Div (N 8) (N 3)); (198%nat, Div (N 8) (N 3)); (199%nat, Div (N 8) (N 3)); (303%nat, Div (Neg (N 4)) (N 9)); (304%nat, Div (N 4) (N 3)); (305%nat, Div (N 44) (N 9))];
  [(165%nat, Div (N 8) (N 3)); (167%nat, Div (N 8) (N 3)); (169%nat, Div (N 8) (N 3)); (183%nat, Div (N 8) (N 3)); (184%nat, Div (N 8) (N 3)); (185%nat, Div (N 8) (N 3)); (195%nat, Div (N 8) (N 3)); (198%nat, Div (N 8) (N 3)); (306%nat, Div (N 44) (N 9)); (307%nat, Div (Neg (N 4)) (N 9)); (308%nat, Div (N 4) (N 3))];
  [(307%nat, Neg (N 2)); (308%nat, N 6)];
  [(165%nat, Div (N 4) (N 3)); (166%nat, Div (N 4) (N 3)); (167%nat, Div (N 4) (N 3)); (168%nat, Div (N 4) (N 3)); (169%nat, Div (N 4) (N 3)); (170%nat, Div (N 4) (N 3)); (183%nat, Div (N 4) (N 3)); (184%nat, Div (N 4) (N 3)); (185%nat, Div (N 4) (N 3)); (186%nat, Div (N 4) (N 3)); (187%nat, Div (N 4) (N 3)); (188%nat, Div (N 4) (N 3)); (195%nat, Div (N 4) (N 3)); (196%nat, Div (N 4) (N 3)); (198%nat, Div (N 4) (N 3)); (199%nat, Div (N 4) (N 3)); (306%nat, Div (N 4) (N 9)); (307%nat, Div (N 50) (N 9)); (308%nat, Div (Neg (N 2)) (N 3)); (309%nat, Div (N 4) (N 9))];
  [(166%nat, Div (N 8) (N 3)); (168%nat, Div (N 8) (N 3)); (170%nat, Div (N 8) (N 3)); (186%nat, Div (N 8) (N 3)); (187%nat, Div (N 8) (N 3)); (188%nat, Div (N 8) (N 3)); (196%nat, Div (N 8) (N 3)); (199%nat, Div (N 8) (N 3)); (307%nat, Div (Neg (N 4)) (N 9)); (308%nat, Div (N 4) (N 3)); (309%nat, Div (N 44) (N 9))];
  [(310%nat, Add (Mul (Neg (N 2)) B0) (Div (N 28) (N 3))); (313%nat, Div (Neg (N 32)) (N 9))];
  [(311%nat, Add (Mul (Neg (N 2)) B0) (Div (N 28) (N 3))); (314%nat, Div (Neg (N 32)) (N 9))];
  [(312%nat, Add (Mul (Neg (N 2)) B0) (Div (N 28) (N 3))); (315%nat, Div (Neg (N 32)) (N 9))];
  [(313%nat, Add (Mul (Neg (N 2)) B0) (Div (N 32) (N 3)))];
  [(314%nat, Add (Mul (Neg (N 2)) B0) (Div (N 32) (N 3)))];
  [(315%nat, Add (Mul (Neg (N 2)) B0) (Div (N 32) (N 3)))];
  [(316%nat, Mul (Neg (N 2)) B0)];
  [(317%nat, Mul (Neg (N 2)) B0)];
  [(318%nat, Mul (Neg (N 2)) B0)];
  [(319%nat, Add (Mul (Neg (N 2)) B0) (Div (N 28) (N 3))); (321%nat, Div (N 64) (N 9))];
  [(320%nat, Add (Mul (Neg (N 2)) B0) (Div (N 28) (N 3))); (322%nat, Div (N 64) (N 9))];
  [(321%nat, Add (Mul (Neg (N 2)) B0) (Div (N 32) (N 3)))];
  [(322%nat, Add (Mul (Neg (N 2)) B0) (Div (N 32) (N 3)))]].

(* adm.py:2354-2451 *)
Definition adm_e_ffnunu : amat := [
  [(0%nat, Div (N 4) (N 9)); (1%nat, Div (N 4) (N 9)); (2%nat, Div (N 4) (N 9)); (18%nat, Div (N 4) (N 9)); (19%nat, Div (N 4) (N 9)); (20%nat, Div (N 4) (N 9)); (36%nat, Div (N 4) (N 3)); (37%nat, Div (N 4) (N 3)); (38%nat, Div (N 4) (N 3)); (54%nat, Div (N 4) (N 3)); (55%nat, Div (N 4) (N 3)); (56%nat, Div (N 4) (N 3)); (72%nat, Div (Neg (N 8)) (N 9)); (73%nat, Div (Neg (N 8)) (N 9)); (84%nat, Div (Neg (N 8)) (N 9)); (85%nat, Div (Neg (N 8)) (N 9))];
  [(0%nat, Div (N 4) (N 9)); (1%nat, Div (N 4) (N 9)); (2%nat, Div (N 4) (N 9)); (18%nat, Div (N 4) (N 9)); (19%nat, Div (N 4) (N 9)); (20%nat, Div (N 4) (N 9)); (36%nat, Div (N 4) (N 3)); (37%nat, Div (N 4) (N 3)); (38%nat, Div (N 4) (N 3)); (54%nat, Div (N 4) (N 3)); (55%nat, Div (N 4) (N 3)); (56%nat, Div (N 4) (N 3)); (72%nat, Div (Neg (N 8)) (N 9)); (73%nat, Div (Neg (N 8)) (N 9)); (84%nat, Div (Neg (N 8)) (N 9)); (85%nat, Div (Neg (N 8)) (N 9))];
  [(0%nat, Div (N 4) (N 9)); (1%nat, Div (N 4) (N 9)); (2%nat, Div (N 4) (N 9)); (18%nat, Div (N 4) (N 9)); (19%nat, Div (N 4) (N 9)); (20%nat, Div (N 4) (N 9)); (36%nat, Div (N 4) (N 3)); (37%nat, Div (N 4) (N 3)); (38%nat, Div (N 4) (N 3)); (54%nat, Div (N 4) (N 3)); (55%nat, Div (N 4) (N 3)); (56%nat, Div (N 4) (N 3)); (72%nat, Div (Neg (N 8)) (N 9)); (73%nat, Div (Neg (N 8)) (N 9)); (84%nat, Div (Neg (N 8)) (N 9)); (85%nat, Div (Neg (N 8)) (N 9))];
  [(3%nat, Div (N 4) (N 9)); (4%nat, Div (N 4) (N 9)); (5%nat, Div (N 4) (N 9)); (21%nat, Div (N 4) (N 9)); (22%nat, Div (N 4) (N 9)); (23%nat, Div (N 4) (N 9)); (39%nat, Div (N 4) (N 3)); (40%nat, Div (N 4) (N 3)); (41%nat, Div (N 4) (N 3)); (57%nat, Div (N 4) (N 3)); (58%nat, Div (N 4) (N 3)); (59%nat, Div (N 4) (N 3)); (74%nat, Div (Neg (N 8)) (N 9)); (75%nat, Div (Neg (N 8)) (N 9)); (86%nat, Div (Neg (N 8)) (N 9)); (87%nat, Div (Neg (N 8)) (N 9))];
  [(3%nat, Div (N 4) (N 9)); (4%nat, Div (N 4) (N 9)); (5%nat, Div (N 4) (N 9)); (21%nat, Div (N 4) (N 9)); (22%nat, Div (N 4) (N 9)); (23%nat, Div (N 4) (N 9)); (39%nat, Div (N 4) (N 3)); (40%nat, Div (N 4) (N 3)); (41%nat, Div (N 4) (N 3)); (57%nat, Div (N 4) (N 3)); (58%nat, Div (N 4) (N 3)); (59%nat, Div (N 4) (N 3)); (74%nat, Div (Neg (N 8)) (N 9)); (75%nat, Div (Neg (N 8)) (N 9)); (86%nat, Div (Neg (N 8)) (N 9)); (87%nat, Div (Neg (N 8)) (N 9))];
  [(3%nat, Div (N 4) (N 9)); (4%nat, Div (N 4) (N 9)); (5%nat, Div (N 4) (N 9)); (21%nat, Div (N 4) (N 9)); (22%nat, Div (N 4) (N 9)); (23%nat, Div (N 4) (N 9)); (39%nat, Div (N 4) (N 3)); (40%nat, Div (N 4) (N 3)); (41%nat, Div (N 4) (N 3)); (57%nat, Div (N 4) (N 3)); (58%nat, Div (N 4) (N 3)); (59%nat, Div (N 4) (N 3)); (74%nat, Div (Neg (N 8)) (N 9)); (75%nat, Div (Neg (N 8)) (N 9)); (86%nat, Div (Neg (N 8)) (N 9)); (87%nat, Div (Neg (N 8)) (N 9))];
  [(6%nat, Div (N 4) (N 9)); (7%nat, Div (N 4) (N 9)); (8%nat, Div (N 4) (N 9)); (24%nat, Div (N 4) (N 9)); (25%nat, Div (N 4) (N 9)); (26%nat, Div (N 4) (N 9)); (42%nat, Div (N 4) (N 3)); (43%nat, Div (N 4) (N 3)); (44%nat, Div (N 4) (N 3)); (60%nat, Div (N 4) (N 3)); (61%nat, Div (N 4) (N 3)); (62%nat, Div (N 4) (N 3)); (76%nat, Div (Neg (N 8)) (N 9)); (77%nat, Div (Neg (N 8)) (N 9)); (88%nat, Div (Neg (N 8)) (N 9)); (89%nat, Div (Neg (N 8)) (N 9))];
  [(6%nat, Div (N 4) (N 9)); (7%nat, Div (N 4) (N 9)); (8%nat, Div (N 4) (N 9)); (24%nat, Div (N 4) (N 9)); (25%nat, Div (N 4) (N 9)); (26%nat, Div (N 4) (N 9)); (42%nat, Div (N 4) (N 3)); (43%nat, Div (N 4) (N 3)); (44%nat, Div (N 4) (N 3)); (60%nat, Div (N 4) (N 3)); (61%nat, Div (N 4) (N 3)); (62%nat, Div (N 4) (N 3)); (76%nat, Div (Neg (N 8)) (N 9)); (77%nat, Div (Neg (N 8)) (N 9)); (88%nat, Div (Neg (N 8)) (N 9)); (89%nat, Div (Neg (N 8)) (N 9))];
  [(6%nat, Div (N 4) (N 9)); (7%nat, Div (N 4) (N 9)); (8%nat, Div (N 4) (N 9)); (24%nat, Div (N 4) (N 9)); (25%nat, Div (N 4) (N 9)); (26%nat, Div (N 4) (N 9)); (42%nat, Div (N 4) (N 3)); (43%nat, Div (N 4) (N 3)); (44%nat, Div (N 4) (N 3)); (60%nat, Div (N 4) (N 3)); (61%nat, Div (N 4) (N 3)); (62%nat, Div (N 4) (N 3)); (76%nat, Div (Neg (N 8)) (N 9)); (77%nat, Div (Neg (N 8)) (N 9)); (88%nat, Div (Neg (N 8)) (N 9)); (89%nat, Div (Neg (N 8)) (N 9))];
  [(9%nat, Div (N 4) (N 9)); (10%nat, Div (N 4) (N 9)); (11%nat, Div (N 4) (N 9)); (27%nat, Div (N 4) (N 9)); (28%nat, Div (N 4) (N 9)); (29%nat, Div (N 4) (N 9)); (45%nat, Div (N 4) (N 3)); (46%nat, Div (N 4) (N 3)); (47%nat, Div (N 4) (N 3)); (63%nat, Div (N 4) (N 3)); (64%nat, Div (N 4) (N 3)); (65%nat, Div (N 4) (N 3)); (78%nat, Div (Neg (N 8)) (N 9)); (79%nat, Div (Neg (N 8)) (N 9)); (90%nat, Div (Neg (N 8)) (N 9)); (91%nat, Div (Neg (N 8)) (N 9))];
  [(9%nat, Div (N 4) (N 9)); (10%nat, Div (N 4) (N 9)); (11%nat, Div (N 4) (N 9)); (27%nat, Div (N 4) (N 9)); (28%nat, Div (N 4) (N 9)); (29%nat, Div (N 4) (N 9)); (45%nat, Div (N 4) (N 3)); (46%nat, Div (N 4) (N 3)); (47%nat, Div (N 4) (N 3)); (63%nat, Div (N 4) (N 3)); (64%nat, Div (N 4) (N 3)); (65%nat, Div (N 4) (N 3)); (78%nat, Div (Neg (N 8)) (N 9)); (79%nat, Div (Neg (N 8)) (N 9)); (90%nat, Div (Neg (N 8)) (N 9)); (91%nat, Div (Neg (N 8)) (N 9))];
  [(9%nat, Div (N 4) (N 9)); (10%nat, Div (N 4) (N 9)); (11%nat, Div (N 4) (N 9)); (27%nat, Div (N 4) (N 9)); (28%nat, Div (N 4) (N 9)); (29%nat, Div (N 4) (N 9)); (45%nat, Div (N 4) (N 3)); (46%nat, Div (N 4) (N 3)); (47%nat, Div (N 4) (N 3)); (63%nat, Div (N 4) (N 3)); (64%nat, Div (N 4) (N 3)); (65%nat, Div (N 4) (N 3)); (78%nat, Div (Neg (N 8)) (N 9)); (79%nat, Div (Neg (N 8)) (N 9)); (90%nat, Div (Neg (N 8)) (N 9)); (91%nat, Div (Neg (N 8)) (N 9))];
  [(12%nat, Div (N 4) (N 9)); (13%nat, Div (N 4) (N 9)); (14%nat, Div (N 4) (N 9)); (30%nat, Div (N 4) (N 9)); (31%nat, Div (N 4) (N 9)); (32%nat, Div (N 4) (N 9)); (48%nat, Div (N 4) (N 3)); (49%nat, Div (N 4) (N 3)); (50%nat, Div (N 4) (N 3)); (66%nat, Div (N 4) (N 3)); (67%nat, Div (N 4) (N 3)); (68%nat, Div (N 4) (N 3)); (80%nat, Div (Neg (N 8)) (N 9)); (81%nat, Div (Neg (N 8)) (N 9)); (92%nat, Div (Neg (N 8)) (N 9)); (93%nat, Div (Neg (N 8)) (N 9))];
  [(12%nat, Div (N 4) (N 9)); (13%nat, Div (N 4) (N 9)); (14%nat, Div (N 4) (N 9)); (30%nat, Div (N 4) (N 9)); (31%nat, Div (N 4) (N 9)); (32%nat, Div (N 4) (N 9)); (48%nat, Div (N 4) (N 3)); (49%nat, Div (N 4) (N 3)); (50%nat, Div (N 4) (N 3)); (66%nat, Div (N 4) (N 3)); (67%nat, Div (N 4) (N 3)); (68%nat, Div (N 4) (N 3)); (80%nat, Div (Neg (N 8)) (N 9)); (81%nat, Div (Neg (N 8)) (N 9)); (92%nat, Div (Neg (N 8)) (N 9)); (93%nat, Div (Neg (N 8)) (N 9))];
  [(12%nat, Div (N 4) (N 9)); (13%nat, Div (N 4) (N 9)); (14%nat, Div (N 4) (N 9)); (30%nat, Div (N 4) (N 9)); (31%nat, Div (N 4) (N 9)); (32%nat, Div (N 4) (N 9)); (48%nat, Div (N 4) (N 3)); (49%nat, Div (N 4) (N 3)); (50%nat, Div (N 4) (N 3)); (66%nat, Div (N 4) (N 3)); (67%nat, Div (N 4) (N 3)); (68%nat, Div (N 4) (N 3)); (80%nat, Div (Neg (N 8)) (N 9)); (81%nat, Div (Neg (N 8)) (N 9)); (92%nat, Div (Neg (N 8)) (N 9)); (93%nat, Div (Neg (N 8)) (N 9))];
  [(15%nat, Div (N 4) (N 9)); (16%nat, Div (N 4) (N 9)); (17%nat, Div (N 4) (N 9)); (33%nat, Div (N 4) (N 9)); (34%nat, Div (N 4) (N 9)); (35%nat, Div (N 4) (N 9)); (51%nat, Div (N 4) (N 3)); (52%nat, Div (N 4) (N 3)); (53%nat, Div (N 4) (N 3)); (69%nat, Div (N 4) (N 3)); (70%nat, Div (N 4) (N 3)); (71%nat, Div (N 4) (N 3)); (82%nat, Div (Neg (N 8)) (N 9)); (83%nat, Div (Neg (N 8)) (N 9)); (94%nat, Div (Neg (N 8)) (N 9)); (95%nat, Div (Neg (N 8)) (N 9))];
  [(15%nat, Div (N 4) (N 9)); (16%nat, Div (N 4) (N 9)); (17%nat, Div (N 4) (N 9)); (33%nat, Div (N 4) (N 9)); (34%nat, Div (N 4) (N 9)); (35%nat, Div (N 4) (N 9)); (51%nat, Div (N 4) (N 3)); (52%nat, Div (N 4) (N 3)); (53%nat, Div (N 4) (N 3)); (69%nat, Div (N 4) (N 3)); (70%nat, Div (N 4) (N 3)); (71%nat, Div (N 4) (N 3)); (82%nat, Div (Neg (N 8)) (N 9)); (83%nat, Div (Neg (N 8)) (N 9)); (94%nat, Div (Neg (N 8)) (N 9)); (95%nat, Div (Neg (N 8)) (N 9))];
  [(15%nat, Div (N 4) (N 9)); (16%nat, Div (N 4) (N 9)); (17%nat, Div (N 4) (N 9)); (33%nat, Div (N 4) (N 9)); (34%nat, Div (N 4) (N 9)); (35%nat, Div (N 4) (N 9)); (51%nat, Div (N 4) (N 3)); (52%nat, Div (N 4) (N 3)); (53%nat, Div (N 4) (N 3)); (69%nat, Div (N 4) (N 3)); (70%nat, Div (N 4) (N 3)); (71%nat, Div (N 4) (N 3)); (82%nat, Div (Neg (N 8)) (N 9)); (83%nat, Div (Neg (N 8)) (N 9)); (94%nat, Div (Neg (N 8)) (N 9)); (95%nat, Div (Neg (N 8)) (N 9))];
  [(0%nat, Div (N 4) (N 9)); (1%nat, Div (N 4) (N 9)); (2%nat, Div (N 4) (N 9)); (18%nat, Div (N 4) (N 9)); (19%nat, Div (N 4) (N 9)); (20%nat, Div (N 4) (N 9)); (36%nat, Div (N 4) (N 3)); (37%nat, Div (N 4) (N 3)); (38%nat, Div (N 4) (N 3)); (54%nat, Div (N 4) (N 3)); (55%nat, Div (N 4) (N 3)); (56%nat, Div (N 4) (N 3)); (72%nat, Div (Neg (N 8)) (N 9)); (73%nat, Div (Neg (N 8)) (N 9)); (84%nat, Div (Neg (N 8)) (N 9)); (85%nat, Div (Neg (N 8)) (N 9))];
  [(0%nat, Div (N 4) (N 9)); (1%nat, Div (N 4) (N 9)); (2%nat, Div (N 4) (N 9)); (18%nat, Div (N 4) (N 9)); (19%nat, Div (N 4) (N 9)); (20%nat, Div (N 4) (N 9)); (36%nat, Div (N 4) (N 3)); (37%nat, Div (N 4) (N 3)); (38%nat, Div (N 4) (N 3)); (54%nat, Div (N 4) (N 3)); (55%nat, Div (N 4) (N 3)); (56%nat, Div (N 4) (N 3)); (72%nat, Div (Neg (N 8)) (N 9)); (73%nat, Div (Neg (N 8)) (N 9)); (84%nat, Div (Neg (N 8)) (N 9)); (85%nat, Div (Neg (N 8)) (N 9))];
  [(0%nat, Div (N 4) (N 9)); (1%nat, Div (N 4) (N 9)); (2%nat, Div (N 4) (N 9)); (18%nat, Div (N 4) (N 9)); (19%nat, Div (N 4) (N 9)); (20%nat, Div (N 4) (N 9)); (36%nat, Div (N 4) (N 3)); (37%nat, Div (N 4) (N 3)); (38%nat, Div (N 4) (N 3)); (54%nat, Div (N 4) (N 3)); (55%nat, Div (N 4) (N 3)); (56%nat, Div (N 4) (N 3)); (72%nat, Div (Neg (N 8)) (N 9)); (73%nat, Div (Neg (N 8)) (N 9)); (84%nat, Div (Neg (N 8)) (N 9)); (85%nat, Div (Neg (N 8)) (N 9))];
  [(3%nat, Div (N 4) (N 9)); (4%nat, Div (N 4) (N 9)); (5%nat, Div (N 4) (N 9)); (21%nat, Div (N 4) (N 9)); (22%nat, Div (N 4) (N 9)); (23%nat, Div (N 4) (N 9)); (39%nat, Div (N 4) (N 3)); (40%nat, Div (N 4) (N 3)); (41%nat, Div (N 4) (N 3)); (57%nat, Div (N 4) (N 3)); (58%nat, Div (N 4) (N 3)); (59%nat, Div (N 4) (N 3)); (74%nat, Div (Neg (N 8)) (N 9)); (75%nat, Div (Neg (N 8)) (N 9)); (86%nat, Div (Neg (N 8)) (N 9)); (87%nat, Div (Neg (N 8)) (N 9))];
  [(3%nat, Div (N 4) (N 9)); (4%nat, Div (N 4) (N 9)); (5%nat, Div (N 4) (N 9)); (21%nat, Div (N 4) (N 9)); (22%nat, Div (N 4) (N 9)); (23%nat, Div (N 4) (N 9)); (39%nat, Div (N 4) (N 3)); (40%nat, Div (N 4) (N 3)); (41%nat, Div (N 4) (N 3)); (57%nat, Div (N 4) (N 3)); (58%nat, Div (N 4) (N 3)); (59%nat, Div (N 4) (N 3)); (74%nat, Div (Neg (N 8)) (N 9)); (75%nat, Div (Neg (N 8)) (N 9)); (86%nat, Div (Neg (N 8)) (N 9)); (87%nat, Div (Neg (N 8)) (N 9))];
  [(3%nat, Div (N 4) (N 9)); (4%nat, Div (N 4) (N 9)); (5%nat, Div (N 4) (N 9)); (21%nat, Div (N 4) (N 9)); (22%nat, Div (N 4) (N 9)); (23%nat, Div (N 4) (N 9)); (39%nat, Div (N 4) (N 3)); (40%nat, Div (N 4) (N 3)); (41%nat, Div (N 4) (N 3)); (57%nat, Div (N 4) (N 3)); (58%nat, Div (N 4) (N 3)); (59%nat, Div (N 4) (N 3)); (74%nat, Div (Neg (N 8)) (N 9)); (75%nat, Div (Neg (N 8)) (N 9)); (86%nat, Div (Neg (N 8)) (N 9)); (87%nat, Div (Neg (N 8)) (N 9))];
  [(6%nat, Div (N 4) (N 9)); (7%nat, Div (N 4) (N 9)); (8%nat, Div (N 4) (N 9)); (24%nat, Div (N 4) (N 9)); (25%nat, Div (N 4) (N 9)); (26%nat, Div (N 4) (N 9)); (42%nat, Div (N 4) (N 3)); (43%nat, Div (N 4) (N 3)); (44%nat, Div (N 4) (N 3)); (60%nat, Div (N 4) (N 3)); (61%nat, Div (N 4) (N 3)); (62%nat, Div (N 4) (N 3)); (76%nat, Div (Neg (N 8)) (N 9)); (77%nat, Div (Neg (N 8)) (N 9)); (88%nat, Div (Neg (N 8)) (N 9)); (89%nat, Div (Neg (N 8)) (N 9))];
  [(6%nat, Div (N 4) (N 9)); (7%nat, Div (N 4) (N 9)); (8%nat, Div (N 4) (N 9)); (24%nat, Div (N 4) (N 9)); (25%nat, Div (N 4) (N 9)); (26%nat, Div (N 4) (N 9)); (42%nat, Div (N 4) (N 3)); (43%nat, Div (N 4) (N 3)); (44%nat, Div (N 4) (N 3)); (60%nat, Div (N 4) (N 3)); (61%nat, Div (N 4) (N 3)); (62%nat, Div (N 4) (N 3)); (76%nat, Div (Neg (N 8)) (N 9)); (77%nat, Div (Neg (N 8)) (N 9)); (88%nat, Div (Neg (N 8)) (N 9)); (89%nat, Div (Neg (N 8)) (N 9))];
  [(6%nat, Div (N 4) (N 9)); (7%nat, Div (N 4) (N 9)); (8%nat, Div (N 4) (N 9)); (24%nat, Div (N 4) (N 9)); (25%nat, Div (N 4) (N 9)); (26%nat, Div (N 4) (N 9)); (42%nat, Div (N 4) (N 3)); (43%nat, Div (N 4) (N 3)); (44%nat, Div (N 4) (N 3)); (60%nat, Div (N 4) (N 3)); (61%nat, Div (N 4) (N 3)); (62%nat, Div (N 4) (N 3)); (76%nat, Div (Neg (N 8)) (N 9)); (77%nat, Div (Neg (N 8)) (N 9)); (88%nat, Div (Neg (N 8)) (N 9)); (89%nat, Div (Neg (N 8)) (N 9))];
  [(9%nat, Div (N 4) (N 9)); (10%nat, Div (N 4) (N 9)); (11%nat, Div (N 4) (N 9)); (27%nat, Div (N 4) (N 9)); (28%nat, Div (N 4) (N 9)); (29%nat, Div (N 4) (N 9)); (45%nat, Div (N 4) (N 3)); (46%nat, Div (N 4) (N 3)); (47%nat, Div (N 4) (N 3)); (63%nat, Div (N 4) (N 3)); (64%nat, Div (N 4) (N 3)); (65%nat, Div (N 4) (N 3)); (78%nat, Div (Neg (N 8)) (N 9)); (79%nat, Div (Neg (N 8)) (N 9)); (90%nat, Div (Neg (N 8)) (N 9)); (91%nat, Div (Neg (N 8)) (N 9))];
  [(9%nat, Div (N 4) (N 9)); (10%nat, Div (N 4) (N 9)); (11%nat, Div (N 4) (N 9)); (27%nat, Div (N 4) (N 9)); (28%nat, Div (N 4) (N 9)); (29%nat, Div (N 4) (N 9)); (45%nat, Div (N 4) (N 3)); (46%nat, Div (N 4) (N 3)); (47%nat, Div (N 4) (N 3)); (63%nat, Div (N 4) (N 3)); (64%nat, Div (N 4) (N 3)); (65%nat, Div (N 4) (N 3)); (78%nat, Div (Neg (N 8)) (N 9)); (79%nat, Div (Neg (N 8)) (N 9)); (90%nat, Div (Neg (N 8)) (N 9)); (91%nat, Div (Neg (N 8)) (N 9))];
  [(9%nat, Div (N 4) (N 9)); (10%nat, Div (N 4) (N 9)); (11%nat, Div (N 4) (N 9)); (27%nat, Div (N 4) (N 9)); (28%nat, Div (N 4) (N 9)); (29%nat, Div (N 4) (N 9)); (45%nat, Div (N 4) (N 3)); (46%nat, Div (N 4) (N 3)); (47%nat, Div (N 4) (N 3)); (63%nat, Div (N 4) (N 3)); (64%nat, Div (N 4) (N 3)); (65%nat, Div (N 4) (N 3)); (78%nat, Div (Neg (N 8)) (N 9)); (79%nat, Div (Neg (N 8)) (N 9)); (90%nat, Div (Neg (N 8)) (N 9)); (91%nat, Div (Neg (N 8)) (N 9))];
  [(12%nat, Div (N 4) (N 9)); (13%nat, Div (N 4) (N 9)); (14%nat, Div (N 4) (N 9)); (30%nat, Div (N 4) (N 9)); (31%nat, Div (N 4) (N 9)); (32%nat, Div (N 4) (N 9)); (48%nat, Div (N 4) (N 3)); (49%nat, Div (N 4) (N 3)); (50%nat, Div (N 4) (N 3)); (66%nat, Div (N 4) (N 3)); (67%nat, Div (N 4) (N 3)); (68%nat, Div (N 4) (N 3)); (80%nat, Div (Neg (N 8)) (N 9)); (81%nat, Div (Neg (N 8)) (N 9)); (92%nat, Div (Neg (N 8)) (N 9)); (93%nat, Div (Neg (N 8)) (N 9))];
  [(12%nat, Div (N 4) (N 9)); (13%nat, Div (N 4) (N 9)); (14%nat, Div (N 4) (N 9)); (30%nat, Div (N 4) (N 9)); (31%nat, Div (N 4) (N 9)); (32%nat, Div (N 4) (N 9)); (48%nat, Div (N 4) (N 3)); (49%nat, Div (N 4) (N 3)); (50%nat, Div (N 4) (N 3)); (66%nat, Div (N 4) (N 3)); (67%nat, Div (N 4) (N 3)); (68%nat, Div (N 4) (N 3)); (80%nat, Div (Neg (N 8)) (N 9)); (81%nat, Div (Neg (N 8)) (N 9)); (92%nat, Div (Neg (N 8)) (N 9)); (93%nat, Div (Neg (N 8)) (N 9))];
  [(12%nat, Div (N 4) (N 9)); (13%nat, Div (N 4) (N 9)); (14%nat, Div (N 4) (N 9)); (30%nat, Div (N 4) (N 9)); (31%nat, Div (N 4) (N 9)); (32%nat, Div (N 4) (N 9)); (48%nat, Div (N 4) (N 3)); (49%nat, Div (N 4) (N 3)); (50%nat, Div (N 4) (N 3)); (66%nat, Div (N 4) (N 3)); (67%nat, Div (N 4) (N 3)); (68%nat, Div (N 4) (N 3)); (80%nat, Div (Neg (N 8)) (N 9)); (81%nat, Div (Neg (N 8)) (N 9)); (92%nat, Div (Neg (N 8)) (N 9)); (93%nat, Div (Neg (N 8)) (N 9))];
  [(15%nat, Div (N 4) (N 9)); (16%nat, Div (N 4) (N 9)); (17%nat, Div (N 4) (N 9)); (33%nat, Div (N 4) (N 9)); (34%nat, Div (N 4) (N 9)); (35%nat, Div (N 4) (N 9)); (51%nat, Div (N 4) (N 3)); (52%nat, Div (N 4) (N 3)); (53%nat, Div (N 4) (N 3)); (69%nat, Div (N 4) (N 3)); (70%nat, Div (N 4) (N 3)); (71%nat, Div (N 4) (N 3)); (82%nat, Div (Neg (N 8)) (N 9)); (83%nat, Div (Neg (N 8)) (N 9)); (94%nat, Div (Neg (N 8)) (N 9)); (95%nat, Div (Neg (N 8)) (N 9))];
  [(15%nat, Div (N 4) (N 9)); (16%nat, Div (N 4) (N 9)); (17%nat, Div (N 4) (N 9)); (33%nat, Div (N 4) (N 9)); (34%nat, Div (N 4) (N 9)); (35%nat, Div (N 4) (N 9)); (51%nat, Div (N 4) (N 3)); (52%nat, Div (N 4) (N 3)); (53%nat, Div (N 4) (N 3)); (69%nat, Div (N 4) (N 3)); (70%nat, Div (N 4) (N 3)); (71%nat, Div (N 4) (N 3)); (82%nat, Div (Neg (N 8)) (N 9)); (83%nat, Div (Neg (N 8)) (N 9)); (94%nat, Div (Neg (N 8)) (N 9)); (95%nat, Div (Neg (N 8)) (N 9))];
  [(15%nat, Div (N 4) (N 9)); (16%nat, Div (N 4) (N 9)); (17%nat, Div (N 4) (N 9)); (33%nat, Div (N 4) (N 9)); (34%nat, Div (N 4) (N 9)); (35%nat, Div (N 4) (N 9)); (51%nat, Div (N 4) (N 3)); (52%nat, Div (N 4) (N 3)); (53%nat, Div (N 4) (N 3)); (69%nat, Div (N 4) (N 3)); (70%nat, Div (N 4) (N 3)); (71%nat, Div (N 4) (N 3)); (82%nat, Div (Neg (N 8)) (N 9)); (83%nat, Div (Neg (N 8)) (N 9)); (94%nat, Div (Neg (N 8)) (N 9)); (95%nat, Div (Neg (N 8)) (N 9))];
  [(0%nat, Div (N 4) (N 9)); (1%nat, Div (N 4) (N 9)); (2%nat, Div (N 4) (N 9)); (18%nat, Div (N 4) (N 9)); (19%nat, Div (N 4) (N 9)); (20%nat, Div (N 4) (N 9)); (36%nat, Div (N 4) (N 3)); (37%nat, Div (N 4) (N 3)); (38%nat, Div (N 4) (N 3)); (54%nat, Div (N 4) (N 3)); (55%nat, Div (N 4) (N 3)); (56%nat, Div (N 4) (N 3)); (72%nat, Div (Neg (N 8)) (N 9)); (73%nat, Div (Neg (N 8)) (N 9)); (84%nat, Div (Neg (N 8)) (N 9)); (85%nat, Div (Neg (N 8)) (N 9))];
  [(0%nat, Div (N 4) (N 9)); (1%nat, Div (N 4) (N 9)); (2%nat, Div (N 4) (N 9)); (18%nat, Div (N 4) (N 9)); (19%nat, Div (N 4) (N 9)); (20%nat, Div (N 4) (N 9)); (36%nat, Div (N 4) (N 3)); (37%nat, Div (N 4) (N 3)); (38%nat, Div (N 4) (N 3)); (54%nat, Div (N 4) (N 3)); (55%nat, Div (N 4) (N 3)); (56%nat, Div (N 4) (N 3)); (72%nat, Div (Neg (N 8)) (N 9)); (73%nat, Div (Neg (N 8)) (N 9)); (84%nat, Div (Neg (N 8)) (N 9)); (85%nat, Div (Neg (N 8)) (N 9))];
  [(0%nat, Div (N 4) (N 9)); (1%nat, Div (N 4) (N 9)); (2%nat, Div (N 4) (N 9)); (18%nat, Div (N 4) (N 9)); (19%nat, Div (N 4) (N 9)); (20%nat, Div (N 4) (N 9)); (36%nat, Div (N 4) (N 3)); (37%nat, Div (N 4) (N 3)); (38%nat, Div (N 4) (N 3)); (54%nat, Div (N 4) (N 3)); (55%nat, Div (N 4) (N 3)); (56%nat, Div (N 4) (N 3)); (72%nat, Div (Neg (N 8)) (N 9)); (73%nat, Div (Neg (N 8)) (N 9)); (84%nat, Div (Neg (N 8)) (N 9)); (85%nat, Div (Neg (N 8)) (N 9))];
  [(3%nat, Div (N 4) (N 9)); (4%nat, Div (N 4) (N 9)); (5%nat, Div (N 4) (N 9)); (21%nat, Div (N 4) (N 9)); (22%nat, Div (N 4) (N 9)); (23%nat, Div (N 4) (N 9)); (39%nat, Div (N 4) (N 3)); (40%nat, Div (N 4) (N 3)); (41%nat, Div (N 4) (N 3)); (57%nat, Div (N 4) (N 3)); (58%nat, Div (N 4) (N 3)); (59%nat, Div (N 4) (N 3)); (74%nat, Div (Neg (N 8)) (N 9)); (75%nat, Div (Neg (N 8)) (N 9)); (86%nat, Div (Neg (N 8)) (N 9)); (87%nat, Div (Neg (N 8)) (N 9))];
  [(3%nat, Div (N 4) (N 9)); (4%nat, Div (N 4) (N 9)); (5%nat, Div (N 4) (N 9)); (21%nat, Div (N 4) (N 9)); (22%nat, Div (N 4) (N 9)); (23%nat, Div (N 4) (N 9)); (39%nat, Div (N 4) (N 3)); (40%nat, Div (N 4) (N 3)); (41%nat, Div (N 4) (N 3)); (57%nat, Div (N 4) (N 3)); (58%nat, Div (N 4) (N 3)); (59%nat, Div (N 4) (N 3)); (74%nat, Div (Neg (N 8)) (N 9)); (75%nat, Div (Neg (N 8)) (N 9)); (86%nat, Div (Neg (N 8)) (N 9)); (87%nat, Div (Neg (N 8)) (N 9))];
  [(3%nat, Div (N 4) (N 9)); (4%nat, Div (N 4) (N 9)); (5%nat, Div (N 4) (N 9)); (21%nat, Div (N 4) (N 9)); (22%nat, Div (N 4) (N 9)); (23%nat, Div (N 4) (N 9)); (39%nat, Div (N 4) (N 3)); (40%nat, Div (N 4) (N 3)); (41%nat, Div (N 4) (N 3)); (57%nat, Div (N 4) (N 3)); (58%nat, Div (N 4) (N 3)); (59%nat, Div (N 4) (N 3)); (74%nat, Div (Neg (N 8)) (N 9)); (75%nat, Div (Neg (N 8)) (N 9)); (86%nat, Div (Neg (N 8)) (N 9)); (87%nat, Div (Neg (N 8)) (N 9))];
  [(6%nat, Div (N 4) (N 9)); (7%nat, Div (N 4) (N 9)); (8%nat, Div (N 4) (N 9)); (24%nat, Div (N 4) (N 9)); (25%nat, Div (N 4) (N 9)); (26%nat, Div (N 4) (N 9)); (42%nat, Div (N 4) (N 3)); (43%nat, Div (N 4) (N 3)); (44%nat, Div (N 4) (N 3)); (60%nat, Div (N 4) (N 3)); (61%nat, Div (N 4) (N 3)); (62%nat, Div (N 4) (N 3)); (76%nat, Div (Neg (N 8)) (N 9)); (77%nat, Div (Neg (N 8)) (N 9)); (88%nat, Div (Neg (N 8)) (N 9)); (89%nat, Div (Neg (N 8)) (N 9))];
  [(6%nat, Div (N 4) (N 9)); (7%nat, Div (N 4) (N 9)); (8%nat, Div (N 4) (N 9)); (24%nat, Div (N 4) (N 9)); (25%nat, Div (N 4) (N 9)); (26%nat, Div (N 4) (N 9)); (42%nat, Div (N 4) (N 3)); (43%nat, Div (N 4) (N 3)); (44%nat, Div (N 4) (N 3)); (60%nat, Div (N 4) (N 3)); (61%nat, Div (N 4) (N 3)); (62%nat, Div (N 4) (N 3)); (76%nat, Div (Neg (N 8)) (N 9)); (77%nat, Div (Neg (N 8)) (N 9)); (88%nat, Div (Neg (N 8)) (N 9)); (89%nat, Div (Neg (N 8)) (N 9))];
  [(6%nat, Div (N 4) (N 9)); (7%nat, Div (N 4) (N 9)); (8%nat, Div (N 4) (N 9)); (24%nat, Div (N 4) (N 9)); (25%nat, Div (N 4) (N 9)); (26%nat, Div (N 4) (N 9)); (42%nat, Div (N 4) (N 3)); (43%nat, Div (N 4) (N 3)); (44%nat, Div (N 4) (N 3)); (60%nat, Div (N 4) (N 3)); (61%nat, Div (N 4) (N 3)); (62%nat, Div (N 4) (N 3)); (76%nat, Div (Neg (N 8)) (N 9)); (77%nat, Div (Neg (N 8)) (N 9)); (88%nat, Div (Neg (N 8)) (N 9)); (89%nat, Div (Neg (N 8)) (N 9))];
  [(9%nat, Div (N 4) (N 9)); (10%nat, Div (N 4) (N 9)); (11%nat, Div (N 4) (N 9)); (27%nat, Div (N 4) (N 9)); (28%nat, Div (N 4) (N 9)); (29%nat, Div (N 4) (N 9)); (45%nat, Div (N 4) (N 3)); (46%nat, Div (N 4) (N 3)); (47%nat, Div (N 4) (N 3)); (63%nat, Div (N 4) (N 3)); (64%nat, Div (N 4) (N 3)); (65%nat, Div (N 4) (N 3)); (78%nat, Div (Neg (N 8)) (N 9)); (79%nat, Div (Neg (N 8)) (N 9)); (90%nat, Div (Neg (N 8)) (N 9)); (91%nat, Div (Neg (N 8)) (N 9))];
  [(9%nat, Div (N 4) (N 9)); (10%nat, Div (N 4) (N 9)); (11%nat, Div (N 4) (N 9)); (27%nat, Div (N 4) (N 9)); (28%nat, Div (N 4) (N 9)); (29%nat, Div (N 4) (N 9)); (45%nat, Div (N 4) (N 3)); (46%nat, Div (N 4) (N 3)); (47%nat, Div (N 4) (N 3)); (63%nat, Div (N 4) (N 3)); (64%nat, Div (N 4) (N 3)); (65%nat, Div (N 4) (N 3)); (78%nat, Div (Neg (N 8)) (N 9)); (79%nat, Div (Neg (N 8)) (N 9)); (90%nat, Div (Neg (N 8)) (N 9)); (91%nat, Div (Neg (N 8)) (N 9))];
  [(9%nat, Div (N 4) (N 9)); (10%nat, Div (N 4) (N 9)); (11%nat, Div (N 4) (N 9)); (27%nat, Div (N 4) (N 9)); (28%nat, Div (N 4) (N 9)); (29%nat, Div (N 4) (N 9)); (45%nat, Div (N 4) (N 3)); (46%nat, Div (N 4) (N 3)); (47%nat, Div (N 4) (N 3)); (63%nat, Div (N 4) (N 3)); (64%nat, Div (N 4) (N 3)); (65%nat, Div (N 4) (N 3)); (78%nat, Div (Neg (N 8)) (N 9)); (79%nat, Div (Neg (N 8)) (N 9)); (90%nat, Div (Neg (N 8)) (N 9)); (91%nat, Div (Neg (N 8)) (N 9))];
  [(12%nat, Div (N 4) (N 9)); (13%nat, Div (N 4) (N 9)); (14%nat, Div (N 4) (N 9)); (30%nat, Div (N 4) (N 9)); (31%nat, Div (N 4) (N 9)); (32%nat, Div (N 4) (N 9)); (48%nat, Div (N 4) (N 3)); (49%nat, Div (N 4) (N 3)); (50%nat, Div (N 4) (N 3)); (66%nat, Div (N 4) (N 3)); (67%nat, Div (N 4) (N 3)); (68%nat, Div (N 4) (N 3)); (80%nat, Div (Neg (N 8)) (N 9)); (81%nat, Div (Neg (N 8)) (N 9)); (92%nat, Div (Neg (N 8)) (N 9)); (93%nat, Div (Neg (N 8)) (N 9))];
  [(12%nat, Div (N 4) (N 9)); (13%nat, Div (N 4) (N 9)); (14%nat, Div (N 4) (N 9)); (30%nat, Div (N 4) (N 9)); (31%nat, Div (N 4) (N 9)); (32%nat, Div (N 4) (N 9)); (48%nat, Div (N 4) (N 3)); (49%nat, Div (N 4) (N 3)); (50%nat, Div (N 4) (N 3)); (66%nat, Div (N 4) (N 3)); (67%nat, Div (N 4) (N 3)); (68%nat, Div (N 4) (N 3)); (80%nat, Div (Neg (N 8)) (N 9)); (81%nat, Div (Neg (N 8)) (N 9)); (92%nat, Div (Neg (N 8)) (N 9)); (93%nat, Div (Neg (N 8)) (N 9))];
  [(12%nat, Div (N 4) (N 9)); (13%nat, Div (N 4) (N 9)); (14%nat, Div (N 4) (N 9)); (30%nat, Div (N 4) (N 9)); (31%nat, Div (N 4) (N 9)); (32%nat, Div (N 4) (N 9)); (48%nat, Div (N 4) (N 3)); (49%nat, Div (N 4) (N 3)); (50%nat, Div (N 4) (N 3)); (66%nat, Div (N 4) (N 3)); (67%nat, Div (N 4) (N 3)); (68%nat, Div (N 4) (N 3)); (80%nat, Div (Neg (N 8)) (N 9)); (81%nat, Div (Neg (N 8)) (N 9)); (92%nat, Div (Neg (N 8)) (N 9)); (93%nat, Div (Neg (N 8)) (N 9))];
  [(15%nat, Div (N 4) (N 9)); (16%nat, Div (N 4) (N 9)); (17%nat, Div (N 4) (N 9)); (33%nat, Div (N 4) (N 9)); (34%nat, Div (N 4) (N 9)); (35%nat, Div (N 4) (N 9)); (51%nat, Div (N 4) (N 3)); (52%nat, Div (N 4) (N 3)); (53%nat, Div (N 4) (N 3)); (69%nat, Div (N 4) (N 3)); (70%nat, Div (N 4) (N 3)); (71%nat, Div (N 4) (N 3)); (82%nat, Div (Neg (N 8)) (N 9)); (83%nat, Div (Neg (N 8)) (N 9)); (94%nat, Div (Neg (N 8)) (N 9)); (95%nat, Div (Neg (N 8)) (N 9))];
  [(15%nat, Div (N 4) (N 9)); (16%nat, Div (N 4) (N 9)); (17%nat, Div (N 4) (N 9)); (33%nat, Div (N 4) (N 9)); (34%nat, Div (N 4) (N 9)); (35%nat, Div (N 4) (N 9)); (51%nat, Div (N 4) (N 3)); (52%nat, Div (N 4) (N 3)); (53%nat, Div (N 4) (N 3)); (69%nat, Div (N 4) (N 3)); (70%nat, Div (N 4) (N 3)); (71%nat, Div (N 4) (N 3)); (82%nat, Div (Neg (N 8)) (N 9)); (83%nat, Div (Neg (N 8)) (N 9)); (94%nat, Div (Neg (N 8)) (N 9)); (95%nat, Div (Neg (N 8)) (N 9))];
  [(15%nat, Div (N 4) (N 9)); (16%nat, Div (N 4) (N 9)); (17%nat, Div (N 4) (N 9)); (33%nat, Div (N 4) (N 9)); (34%nat, Div (N 4) (N 9)); (35%nat, Div (N 4) (N 9)); (51%nat, Div (N 4) (N 3)); (52%nat, Div (N 4) (N 3)); (53%nat, Div (N 4) (N 3)); (69%nat, Div (N 4) (N 3)); (70%nat, Div (N 4) (N 3)); (71%nat, Div (N 4) (N 3)); (82%nat, Div (Neg (N 8)) (N 9)); (83%nat, Div (Neg (N 8)) (N 9)); (94%nat, Div (Neg (N 8)) (N 9)); (95%nat, Div (Neg (N 8)) (N 9))];
  [(0%nat, Div (N 4) (N 9)); (1%nat, Div (N 4) (N 9)); (2%nat, Div (N 4) (N 9)); (18%nat, Div (N 4) (N 9)); (19%nat, Div (N 4) (N 9)); (20%nat, Div (N 4) (N 9)); (36%nat, Div (N 4) (N 3)); (37%nat, Div (N 4) (N 3)); (38%nat, Div (N 4) (N 3)); (54%nat, Div (N 4) (N 3)); (55%nat, Div (N 4) (N 3)); (56%nat, Div (N 4) (N 3)); (72%nat, Div (Neg (N 8)) (N 9)); (73%nat, Div (Neg (N 8)) (N 9)); (84%nat, Div (Neg (N 8)) (N 9)); (85%nat, Div (Neg (N 8)) (N 9))];
  [(0%nat, Div (N 4) (N 9)); (1%nat, Div (N 4) (N 9)); (2%nat, Div (N 4) (N 9)); (18%nat, Div (N 4) (N 9)); (19%nat, Div (N 4) (N 9)); (20%nat, Div (N 4) (N 9)); (36%nat, Div (N 4) (N 3)); (37%nat, Div (N 4) (N 3)); (38%nat, Div (N 4) (N 3)); (54%nat, Div (N 4) (N 3)); (55%nat, Div (N 4) (N 3)); (56%nat, Div (N 4) (N 3)); (72%nat, Div (Neg (N 8)) (N 9)); (73%nat, Div (Neg (N 8)) (N 9)); (84%nat, Div (Neg (N 8)) (N 9)); (85%nat, Div (Neg (N 8)) (N 9))];
  [(0%nat, Div (N 4) (N 9)); (1%nat, Div (N 4) (N 9)); (2%nat, Div (N 4) (N 9)); (18%nat, Div (N 4) (N 9)); (19%nat, Div (N 4) (N 9)); (20%nat, Div (N 4) (N 9)); (36%nat, Div (N 4) (N 3)); (37%nat, Div (N 4) (N 3)); (38%nat, Div (N 4) (N 3)); (54%nat, Div (N 4) (N 3)); (55%nat, Div (N 4) (N 3)); (56%nat, Div (N 4) (N 3)); (72%nat, Div (Neg (N 8)) (N 9)); (73%nat, Div (Neg (N 8)) (N 9)); (84%nat, Div (Neg (N 8)) (N 9)); (85%nat, Div (Neg (N 8)) (N 9))];
  [(3%nat, Div (N 4) (N 9)); (4%nat, Div (N 4) (N 9)); (5%nat, Div (N 4) (N 9)); (21%nat, Div (N 4) (N 9)); (22%nat, Div (N 4) (N 9)); (23%nat, Div (N 4) (N 9)); (39%nat, Div (N 4) (N 3)); (40%nat, Div (N 4) (N 3)); (41%nat, Div (N 4) (N 3)); (57%nat, Div (N 4) (N 3)); (58%nat, Div (N 4) (N 3)); (59%nat, Div (N 4) (N 3)); (74%nat, Div (Neg (N 8)) (N 9)); (75%nat, Div (Neg (N 8)) (N 9)); (86%nat, Div (Neg (N 8)) (N 9)); (87%nat, Div (Neg (N 8)) (N 9))];
  [(3%nat, Div (N 4) (N 9)); (4%nat, Div (N 4) (N 9)); (5%nat, Div (N 4) (N 9)); (21%nat, Div (N 4) (N 9)); (22%nat, Div (N 4) (N 9)); (23%nat, Div (N 4) (N 9)); (39%nat, Div (N 4) (N 3)); (40%nat, Div (N 4) (N 3)); (41%nat, Div (N 4) (N 3)); (57%nat, Div (N 4) (N 3)); (58%nat, Div (N 4) (N 3)); (59%nat, Div (N 4) (N 3)); (74%nat, Div (Neg (N 8)) (N 9)); (75%nat, Div (Neg (N 8)) (N 9)); (86%nat, Div (Neg (N 8)) (N 9)); (87%nat, Div (Neg (N 8)) (N 9))];
  [(3%nat, Div (N 4) (N 9)); (4%nat, Div (N 4) (N 9)); (5%nat, Div (N 4) (N 9)); (21%nat, Div (N 4) (N 9)); (22%nat, Div (N 4) (N 9)); (23%nat, Div (N 4) (N 9)); (39%nat, Div (N 4) (N 3)); (40%nat, Div (N 4) (N 3)); (41%nat, Div (N 4) (N 3)); (57%nat, Div (N 4) (N 3)); (58%nat, Div (N 4) (N 3)); (59%nat, Div (N 4) (N 3)); (74%nat, Div (Neg (N 8)) (N 9)); (75%nat, Div (Neg (N 8)) (N 9)); (86%nat, Div (Neg (N 8)) (N 9)); (87%nat, Div (Neg (N 8)) (N 9))];
  [(6%nat, Div (N 4) (N 9)); (7%nat, Div (N 4) (N 9)); (8%nat, Div (N 4) (N 9)); (24%nat, Div (N 4) (N 9)); (25%nat, Div (N 4) (N 9)); (26%nat, Div (N 4) (N 9)); (42%nat, Div (N 4) (N 3)); (43%nat, Div (N 4) (N 3)); (44%nat, Div (N 4) (N 3)); (60%nat, Div (N 4) (N 3)); (61%nat, Div (N 4) (N 3)); (62%nat, Div (N 4) (N 3)); (76%nat, Div (Neg (N 8)) (N 9)); (77%nat, Div (Neg (N 8)) (N 9)); (88%nat, Div (Neg (N 8)) (N 9)); (89%nat, Div (Neg (N 8)) (N 9))];
  [(6%nat, Div (N 4) (N 9)); (7%nat, Div (N 4) (N 9)); (8%nat, Div (N 4) (N 9)); (24%nat, Div (N 4) (N 9)); (25%nat, Div (N 4) (N 9)); (26%nat, Div (N 4) (N 9)); (42%nat, Div (N 4) (N 3)); (43%nat, Div (N 4) (N 3)); (44%nat, Div (N 4) (N 3)); (60%nat, Div (N 4) (N 3)); (61%nat, Div (N 4) (N 3)); (62%nat, Div (N 4) (N 3)); (76%nat, Div (Neg (N 8)) (N 9)); (77%nat, Div (Neg (N 8)) (N 9)); (88%nat, Div (Neg (N 8)) (N 9)); (89%nat, Div (Neg (N 8)) (N 9))];
  [(6%nat, Div (N 4) (N 9)); (7%nat, Div (N 4) (N 9)); (8%nat, Div (N 4) (N 9)); (24%nat, Div (N 4) (N 9)); (25%nat, Div (N 4) (N 9)); (26%nat, Div (N 4) (N 9)); (42%nat, Div (N 4) (N 3)); (43%nat, Div (N 4) (N 3)); (44%nat, Div (N 4) (N 3)); (60%nat, Div (N 4) (N 3)); (61%nat, Div (N 4) (N 3)); (62%nat, Div (N 4) (N 3)); (76%nat, Div (Neg (N 8)) (N 9)); (77%nat, Div (Neg (N 8)) (N 9)); (88%nat, Div (Neg (N 8)) (N 9)); (89%nat, Div (Neg (N 8)) (N 9))];
  [(9%nat, Div (N 4) (N 9)); (10%nat, Div (N 4) (N 9)); (11%nat, Div (N 4) (N 9)); (27%nat, Div (N 4) (N 9)); (28%nat, Div (N 4) (N 9)); (29%nat, Div (N 4) (N 9)); (45%nat, Div (N 4) (N 3)); (46%nat, Div (N 4) (N 3)); (47%nat, Div (N 4) (N 3)); (63%nat, Div (N 4) (N 3)); (64%nat, Div (N 4) (N 3)); (65%nat, Div (N 4) (N 3)); (78%nat, Div (Neg (N 8)) (N 9)); (79%nat, Div (Neg (N 8)) (N 9)); (90%nat, Div (Neg (N 8)) (N 9)); (91%nat, Div (Neg (N 8)) (N 9))];
  [(9%nat, Div (N 4) (N 9)); (10%nat, Div (N 4) (N 9)); (11%nat, Div (N 4) (N 9)); (27%nat, Div (N 4) (N 9)); (28%nat, Div (N 4) (N 9)); (29%nat, Div (N 4) (N 9)); (45%nat, Div (N 4) (N 3)); (46%nat, Div (N 4) (N 3)); (47%nat, Div (N 4) (N 3)); (63%nat, Div (N 4) (N 3)); (64%nat, Div (N 4) (N 3)); (65%nat, Div (N 4) (N 3)); (78%nat, Div (Neg (N 8)) (N 9)); (79%nat, Div (Neg (N 8)) (N 9)); (90%nat, Div (Neg (N 8)) (N 9)); (91%nat, Div (Neg (N 8)) (N 9))];
  [(9%nat, Div (N 4) (N 9)); (10%nat, Div (N 4) (N 9)); (11%nat, Div (N 4) (N 9)); (27%nat, Div (N 4) (N 9)); (28%nat, Div (N 4) (N 9)); (29%nat, Div (N 4) (N 9)); (45%nat, Div (N 4) (N 3)); (46%nat, Div (N 4) (N 3)); (47%nat, Div (N 4) (N 3)); (63%nat, Div (N 4) (N 3)); (64%nat, Div (N 4) (N 3)); (65%nat, Div (N 4) (N 3)); (78%nat, Div (Neg (N 8)) (N 9)); (79%nat, Div (Neg (N 8)) (N 9)); (90%nat, Div (Neg (N 8)) (N 9)); (91%nat, Div (Neg (N 8)) (N 9))];
  [(12%nat, Div (N 4) (N 9)); (13%nat, Div (N 4) (N 9)); (14%nat, Div (N 4) (N 9)); (30%nat, Div (N 4) (N 9)); (31%nat, Div (N 4) (N 9)); (32%nat, Div (N 4) (N 9)); (48%nat, Div (N 4) (N 3)); (49%nat, Div (N 4) (N 3)); (50%nat, Div (N 4) (N 3)); (66%nat, Div (N 4) (N 3)); (67%nat, Div (N 4) (N 3)); (68%nat, Div (N 4) (N 3)); (80%nat, Div (Neg (N 8)) (N 9)); (81%nat, Div (Neg (N 8)) (N 9)); (92%nat, Div (Neg (N 8)) (N 9)); (93%nat, Div (Neg (N 8)) (N 9))];
  [(12%nat, Div (N 4) (N 9)); (13%nat, Div (N 4) (N 9)); (14%nat, Div (N 4) (N 9)); (30%nat, Div (N 4) (N 9)); (31%nat, Div (N 4) (N 9)); (32%nat, Div (N 4) (N 9)); (48%nat, Div (N 4) (N 3)); (49%nat, Div (N 4) (N 3)); (50%nat, Div (N 4) (N 3)); (66%nat, Div (N 4) (N 3)); (67%nat, Div (N 4) (N 3)); (68%nat, Div (N 4) (N 3)); (80%nat, Div (Neg (N 8)) (N 9)); (81%nat, Div (Neg (N 8)) (N 9)); (92%nat, Div (Neg (N 8)) (N 9)); (93%nat, Div (Neg (N 8)) (N 9))];
  [(12%nat, Div (N 4) (N 9)); (13%nat, Div (N 4) (N 9)); (14%nat, Div (N 4) (N 9)); (30%nat, Div (N 4) (N 9)); (31%nat, Div (N 4) (N 9)); (32%nat, Div (N 4) (N 9)); (48%nat, Div (N 4) (N 3)); (49%nat, Div (N 4) (N 3)); (50%nat, Div (N 4) (N 3)); (66%nat, Div (N 4) (N 3)); (67%nat, Div (N 4) (N 3)); (68%nat, Div (N 4) (N 3)); (80%nat, Div (Neg (N 8)) (N 9)); (81%nat, Div (Neg (N 8)) (N 9)); (92%nat, Div (Neg (N 8)) (N 9)); (93%nat, Div (Neg (N 8)) (N 9))];
  [(15%nat, Div (N 4) (N 9)); (16%nat, Div (N 4) (N 9)); (17%nat, Div (N 4) (N 9)); (33%nat, Div (N 4) (N 9)); (34%nat, Div (N 4) (N 9)); (35%nat, Div (N 4) (N 9)); (51%nat, Div (N 4) (N 3)); (52%nat, Div (N 4) (N 3)); (53%nat, Div (N 4) (N 3)); (69%nat, Div (N 4) (N 3)); (70%nat, Div (N 4) (N 3)); (71%nat, Div (N 4) (N 3)); (82%nat, Div (Neg (N 8)) (N 9)); (83%nat, Div (Neg (N 8)) (N 9)); (94%nat, Div (Neg (N 8)) (N 9)); (95%nat, Div (Neg (N 8)) (N 9))];
  [(15%nat, Div (N 4) (N 9)); (16%nat, Div (N 4) (N 9)); (17%nat, Div (N 4) (N 9)); (33%nat, Div (N 4) (N 9)); (34%nat, Div (N 4) (N 9)); (35%nat, Div (N 4) (N 9)); (51%nat, Div (N 4) (N 3)); (52%nat, Div (N 4) (N 3)); (53%nat, Div (N 4) (N 3)); (69%nat, Div (N 4) (N 3)); (70%nat, Div (N 4) (N 3)); (71%nat, Div (N 4) (N 3)); (82%nat, Div (Neg (N 8)) (N 9)); (83%nat, Div (Neg (N 8)) (N 9)); (94%nat, Div (Neg (N 8)) (N 9)); (95%nat, Div (Neg (N 8)) (N 9))];
  [(15%nat, Div (N 4) (N 9)); (16%nat, Div (N 4) (N 9)); (17%nat, Div (N 4) (N 9)); (33%nat, Div (N 4) (N 9)); (34%nat, Div (N 4) (N 9)); (35%nat, Div (N 4) (N 9)); (51%nat, Div (N 4) (N 3)); (52%nat, Div (N 4) (N 3)); (53%nat, Div (N 4) (N 3)); (69%nat, Div (N 4) (N 3)); (70%nat, Div (N 4) (N 3)); (71%nat, Div (N 4) (N 3)); (82%nat, Div (Neg (N 8)) (N 9)); (83%nat, Div (Neg (N 8)) (N 9)); (94%nat, Div (Neg (N 8)) (N 9)); (95%nat, Div (Neg (N 8)) (N 9))];
  [(0%nat, Div (Neg (N 8)) (N 9)); (1%nat, Div (Neg (N 8)) (N 9)); (2%nat, Div (Neg (N 8)) (N 9)); (18%nat, Div (Neg (N 8)) (N 9)); (19%nat, Div (Neg (N 8)) (N 9)); (20%nat, Div (Neg (N 8)) (N 9)); (36%nat, Div (Neg (N 8)) (N 3)); (37%nat, Div (Neg (N 8)) (N 3)); (38%nat, Div (Neg (N 8)) (N 3)); (54%nat, Div (Neg (N 8)) (N 3)); (55%nat, Div (Neg (N 8)) (N 3)); (56%nat, Div (Neg (N 8)) (N 3)); (72%nat, Div (N 16) (N 9)); (73%nat, Div (N 16) (N 9)); (84%nat, Div (N 16) (N 9)); (85%nat, Div (N 16) (N 9))];
  [(0%nat, Div (Neg (N 8)) (N 9)); (1%nat, Div (Neg (N 8)) (N 9)); (2%nat, Div (Neg (N 8)) (N 9)); (18%nat, Div (Neg (N 8)) (N 9)); (19%nat, Div (Neg (N 8)) (N 9)); (20%nat, Div (Neg (N 8)) (N 9)); (36%nat, Div (Neg (N 8)) (N 3)); (37%nat, Div (Neg (N 8)) (N 3)); (38%nat, Div (Neg (N 8)) (N 3)); (54%nat, Div (Neg (N 8)) (N 3)); (55%nat, Div (Neg (N 8)) (N 3)); (56%nat, Div (Neg (N 8)) (N 3)); (72%nat, Div (N 16) (N 9)); (73%nat, Div (N 16) (N 9)); (84%nat, Div (N 16) (N 9)); (85%nat, Div (N 16) (N 9))];
  [(3%nat, Div (Neg (N 8)) (N 9)); (4%nat, Div (Neg (N 8)) (N 9)); (5%nat, Div (Neg (N 8)) (N 9)); (21%nat, Div (Neg (N 8)) (N 9)); (22%nat, Div (Neg (N 8)) (N 9)); (23%nat, Div (Neg (N 8)) (N 9)); (39%nat, Div (Neg (N 8)) (N 3)); (40%nat, Div (Neg (N 8)) (N 3)); (41%nat, Div (Neg (N 8)) (N 3)); (57%nat, Div (Neg (N 8)) (N 3)); (58%nat, Div (Neg (N 8)) (N 3)); (59%nat, Div (Neg (N 8)) (N 3)); (74%nat, Div (N 16) (N 9)); (75%nat, Div (N 16) (N 9)); (86%nat, Div (N 16) (N 9)); (87%nat, Div (N 16) (N 9))];
  [(3%nat, Div (Neg (N 8)) (N 9)); (4%nat, Div (Neg (N 8)) (N 9)); (5%nat, Div (Neg (N 8)) (N 9)); (21%nat, Div (Neg (N 8)) (N 9)); (22%nat, Div (Neg (N 8)) (N 9)); (23%nat, Div (Neg (N 8)) (N 9)); (39%nat, Div (Neg (N 8)) (N 3)); (40%nat, Div (Neg (N 8)) (N 3)); (41%nat, Div (Neg (N 8)) (N 3)); (57%nat, Div (Neg (N 8)) (N 3)); (58%nat, Div (Neg (N 8)) (N 3)); (59%nat, Div (Neg (N 8)) (N 3)); (74%nat, Div (N 16) (N 9)); (75%nat, Div (N 16) (N 9)); (86%nat, Div (N 16) (N 9)); (87%nat, Div (N 16) (N 9))];
  [(6%nat, Div (Neg (N 8)) (N 9)); (7%nat, Div (Neg (N 8)) (N 9)); (8%nat, Div (Neg (N 8)) (N 9)); (24%nat, Div (Neg (N 8)) (N 9)); (25%nat, Div (Neg (N 8)) (N 9)); (26%nat, Div (Neg (N 8)) (N 9)); (42%nat, Div (Neg (N 8)) (N 3)); (43%nat, Div (Neg (N 8)) (N 3)); (44%nat, Div (Neg (N 8)) (N 3)); (60%nat, Div (Neg (N 8)) (N 3)); (61%nat, Div (Neg (N 8)) (N 3)); (62%nat, Div (Neg (N 8)) (N 3)); (76%nat, Div (N 16) (N 9)); (77%nat, Div (N 16) (N 9)); (88%nat, Div (N 16) (N 9)); (89%nat, Div (N 16) (N 9))];
  [(6%nat, Div (Neg (N 8)) (N 9)); (7%nat, Div (Neg (N 8)) (N 9)); (8%nat, Div (Neg (N 8)) (N 9)); (24%nat, Div (Neg (N 8)) (N 9)); (25%nat, Div (Neg (N 8)) (N 9)); (26%nat, Div (Neg (N 8)) (N 9)); (42%nat, Div (Neg (N 8)) (N 3)); (43%nat, Div (Neg (N 8)) (N 3)); (44%nat, Div (Neg (N 8)) (N 3)); (60%nat, Div (Neg (N 8)) (N 3)); (61%nat, Div (Neg (N 8)) (N 3)); (62%nat, Div (Neg (N 8)) (N 3)); (76%nat, Div (N 16) (N 9)); (77%nat, Div (N 16) (N 9)); (88%nat, Div (N 16) (N 9)); (89%nat, Div (N 16) (N 9))];
  [(9%nat, Div (Neg (N 8)) (N 9)); (10%nat, Div (Neg (N 8)) (N 9)); (11%nat, Div (Neg (N 8)) (N 9)); (27%nat, Div (Neg (N 8)) (N 9)); (28%nat, Div (Neg (N 8)) (N 9)); (29%nat, Div (Neg (N 8)) (N 9)); (45%nat, Div (Neg (N 8)) (N 3)); (46%nat, Div (Neg (N 8)) (N 3)); (47%nat, Div (Neg (N 8)) (N 3)); (63%nat, Div (Neg (N 8)) (N 3)); (64%nat, Div (Neg (N 8)) (N 3)); (65%nat, Div (Neg (N 8)) (N 3)); (78%nat, Div (N 16) (N 9)); (79%nat, Div (N 16) (N 9)); (90%nat, Div (N 16) (N 9)); (91%nat, Div (N 16) (N 9))];
  [(9%nat, Div (Neg (N 8)) (N 9)); (10%nat, Div (Neg (N 8)) (N 9)); (11%nat, Div (Neg (N 8)) (N 9)); (27%nat, Div (Neg (N 8)) (N 9)); (28%nat, Div (Neg (N 8)) (N 9)); (29%nat, Div (Neg (N 8)) (N 9)); (45%nat, Div (Neg (N 8)) (N 3)); (46%nat, Div (Neg (N 8)) (N 3)); (47%nat, Div (Neg (N 8)) (N 3)); (63%nat, Div (Neg (N 8)) (N 3)); (64%nat, Div (Neg (N 8)) (N 3)); (65%nat, Div (Neg (N 8)) (N 3)); (78%nat, Div (N 16) (N 9)); (79%nat, Div (N 16) (N 9)); (90%nat, Div (N 16) (N 9)); (91%nat, Div (N 16) (N 9))];
  [(12%nat, Div (Neg (N 8)) (N 9)); (13%nat, Div (Neg (N 8)) (N 9)); (14%nat, Div (Neg (N 8)) (N 9)); (30%nat, Div (Neg (N 8)) (N 9)); (31%nat, Div (Neg (N 8)) (N 9)); (32%nat, Div (Neg (N 8)) (N 9)); (48%nat, Div (Neg (N 8)) (N 3)); (49%nat, Div (Neg (N 8)) (N 3)); (50%nat, Div (Neg (N 8)) (N 3)); (66%nat, Div (Neg (N 8)) (N 3)); (67%nat, Div (Neg (N 8)) (N 3)); (68%nat, Div (Neg (N 8)) (N 3)); (80%nat, Div (N 16) (N 9)); (81%nat, Div (N 16) (N 9)); (92%nat, Div (N 16) (N 9)); (93%nat, Div (N 16) (N 9))];
  [(12%nat, Div (Neg (N 8)) (N 9)); (13%nat, Div (Neg (N 8)) (N 9)); (14%nat, Div (Neg (N 8)) (N 9)); (30%nat, Div (Neg (N 8)) (N 9)); (31%nat, Div (Neg (N 8)) (N 9)); (32%nat, Div (Neg (N 8)) (N 9)); (48%nat, Div (Neg (N 8)) (N 3)); (49%nat, Div (Neg (N 8)) (N 3)); (50%nat, Div (Neg (N 8)) (N 3)); (66%nat, Div (Neg (N 8)) (N 3)); (67%nat, Div (Neg (N 8)) (N 3)); (68%nat, Div (Neg (N 8)) (N 3)); (80%nat, Div (N 16) (N 9)); (81%nat, Div (N 16) (N 9)); (92%nat, Div (N 16) (N 9)); (93%nat, Div (N 16) (N 9))];
  [(15%nat, Div (Neg (N 8)) (N 9)); (16%nat, Div (Neg (N 8)) (N 9)); (17%nat, Div (Neg (N 8)) (N 9)); (33%nat, Div (Neg (N 8)) (N 9)); (34%nat, Div (Neg (N 8)) (N 9)); (35%nat, Div (Neg (N 8)) (N 9)); (51%nat, Div (Neg (N 8)) (N 3)); (52%nat, Div (Neg (N 8)) (N 3)); (53%nat, Div (Neg (N 8)) (N 3)); (69%nat, Div (Neg (N 8)) (N 3)); (70%nat, Div (Neg (N 8)) (N 3)); (71%nat, Div (Neg (N 8)) (N 3)); (82%nat, Div (N 16) (N 9)); (83%nat, Div (N 16) (N 9)); (94%nat, Div (N 16) (N 9)); (95%nat, Div (N 16) (N 9))];
  [(15%nat, Div (Neg (N 8)) (N 9)); (16%nat, Div (Neg (N 8)) (N 9)); (17%nat, Div (Neg (N 8)) (N 9)); (33%nat, Div (Neg (N 8)) (N 9)); (34%nat, Div (Neg (N 8)) (N 9)); (35%nat, Div (Neg (N 8)) (N 9)); (51%nat, Div (Neg (N 8)) (N 3)); (52%nat, Div (Neg (N 8)) (N 3)); (53%nat, Div (Neg (N 8)) (N 3)); (69%nat, Div (Neg (N 8)) (N 3)); (70%nat, Div (Neg (N 8)) (N 3)); (71%nat, Div (Neg (N 8)) (N 3)); (82%nat, Div (N 16) (N 9)); (83%nat, Div (N 16) (N 9)); (94%nat, Div (N 16) (N 9)); (95%nat, Div (N 16) (N 9))];
  [(0%nat, Div (Neg (N 8)) (N 9)); (1%nat, Div (Neg (N 8)) (N 9)); (2%nat, Div (Neg (N 8)) (N 9)); (18%nat, Div (Neg (N 8)) (N 9)); (19%nat, Div (Neg (N 8)) (N 9)); (20%nat, Div (Neg (N 8)) (N 9)); (36%nat, Div (Neg (N 8)) (N 3)); (37%nat, Div (Neg (N 8)) (N 3)); (38%nat, Div (Neg (N 8)) (N 3)); (54%nat, Div (Neg (N 8)) (N 3)); (55%nat, Div (Neg (N 8)) (N 3)); (56%nat, Div (Neg (N 8)) (N 3)); (72%nat, Div (N 16) (N 9)); (73%nat, Div (N 16) (N 9)); (84%nat, Div (N 16) (N 9)); (85%nat, Div (N 16) (N 9))];
  [(0%nat, Div (Neg (N 8)) (N 9)); (1%nat, Div (Neg (N 8)) (N 9)); (2%nat, Div (Neg (N 8)) (N 9)); (18%nat, Div (Neg (N 8)) (N 9)); (19%nat, Div (Neg (N 8)) (N 9)); (20%nat, Div (Neg (N 8)) (N 9)); (36%nat, Div (Neg (N 8)) (N 3)); (37%nat, Div (Neg (N 8)) (N 3)); (38%nat, Div (Neg (N 8)) (N 3)); (54%nat, Div (Neg (N 8)) (N 3)); (55%nat, Div (Neg (N 8)) (N 3)); (56%nat, Div (Neg (N 8)) (N 3)); (72%nat, Div (N 16) (N 9)); (73%nat, Div (N 16) (N 9)); (84%nat, Div (N 16) (N 9)); (85%nat, Div (N 16) (N 9))];
  [(3%nat, Div (Neg (N 8)) (N 9)); (4%nat, Div (Neg (N 8)) (N 9)); (5%nat, Div (Neg (N 8)) (N 9)); (21%nat, Div (Neg (N 8)) (N 9)); (22%nat, Div (Neg (N 8)) (N 9)); (23%nat, Div (Neg (N 8)) (N 9)); (39%nat, Div (Neg (N 8)) (N 3)); (40%nat, Div (Neg (N 8)) (N 3)); (41%nat, Div (Neg (N 8)) (N 3)); (57%nat, Div (Neg (N 8)) (N 3)); (58%nat, Div (Neg (N 8)) (N 3)); (59%nat, Div (Neg (N 8)) (N 3)); (74%nat, Div (N 16) (N 9)); (75%nat, Div (N 16) (N 9)); (86%nat, Div (N 16) (N 9)); (87%nat, Div (N 16) (N 9))];
  [(3%nat, Div (Neg (N 8)) (N 9)); (4%nat, Div (Neg (N 8)) (N 9)); (5%nat, Div (Neg (N 8)) (N 9)); (21%nat, Div (Neg (N 8)) (N 9)); (22%nat, Div (Neg (N 8)) (N 9)); (23%nat, Div (Neg (N 8)) (N 9)); (39%nat, Div (Neg (N 8)) (N 3)); (40%nat, Div (Neg (N 8)) (N 3)); (41%nat, Div (Neg (N 8)) (N 3)); (57%nat, Div (Neg (N 8)) (N 3)); (58%nat, Div (Neg (N 8)) (N 3)); (59%nat, Div (Neg (N 8)) (N 3)); (74%nat, Div (N 16) (N 9)); (75%nat, Div (N 16) (N 9)); (86%nat, Div (N 16) (N 9)); (87%nat, Div (N 16) (N 9))];
  [(6%nat, Div (Neg (N 8)) (N 9)); (7%nat, Div (Neg (N 8)) (N 9)); (8%nat, Div (Neg (N 8)) (N 9)); (24%nat, Div (Neg (N 8)) (N 9)); (25%nat, Div (Neg (N 8)) (N 9)); (26%nat, Div (Neg (N 8)) (N 9)); (42%nat, Div (Neg (N 8)) (N 3)); (43%nat, Div (Neg (N 8)) (N 3)); (44%nat, Div (Neg (N 8)) (N 3)); (60%nat, Div (Neg (N 8)) (N 3)); (61%nat, Div (Neg (N 8)) (N 3)); (62%nat, Div (Neg (N 8)) (N 3)); (76%nat, Div (N 16) (N 9)); (77%nat, Div (N 16) (N 9)); (88%nat, Div (N 16) (N 9)); (89%nat, Div (N 16) (N 9))];
  [(6%nat, Div (Neg (N 8)) (N 9)); (7%nat, Div (Neg (N 8)) (N 9)); (8%nat, Div (Neg (N 8)) (N 9)); (24%nat, Div (Neg (N 8)) (N 9)); (25%nat, Div (Neg (N 8)) (N 9)); (26%nat, Div (Neg (N 8)) (N 9)); (42%nat, Div (Neg (N 8)) (N 3)); (43%nat, Div (Neg (N 8)) (N 3)); (44%nat, Div (Neg (N 8)) (N 3)); (60%nat, Div (Neg (N 8)) (N 3)); (61%nat, Div (Neg (N 8)) (N 3)); (62%nat, Div (Neg (N 8)) (N 3)); (76%nat, Div (N 16) (N 9)); (77%nat, Div (N 16) (N 9)); (88%nat, Div (N 16) (N 9)); (89%nat, Div (N 16) (N 9))];
  [(9%nat, Div (Neg (N 8)) (N 9)); (10%nat, Div (Neg (N 8)) (N 9)); (11%nat, Div (Neg (N 8)) (N 9)); (27%nat, Div (Neg (N 8)) (N 9)); (28%nat, Div (Neg (N 8)) (N 9)); (29%nat, Div (Neg (N 8)) (N 9)); (45%nat, Div (Neg (N 8)) (N 3)); (46%nat, Div (Neg (N 8)) (N 3)); (47%nat, Div (Neg (N 8)) (N 3)); (63%nat, Div (Neg (N 8)) (N 3)); (64%nat, Div (Neg (N 8)) (N 3)); (65%nat, Div (Neg (N 8)) (N 3)); (78%nat, Div (N 16) (N 9)); (79%nat, Div (N 16) (N 9)); (90%nat, Div (N 16) (N 9)); (91%nat, Div (N 16) (N 9))];
  [(9%nat, Div (Neg (N 8)) (N 9)); (10%nat, Div (Neg (N 8)) (N 9)); (11%nat, Div (Neg (N 8)) (N 9)); (27%nat, Div (Neg (N 8)) (N 9)); (28%nat, Div (Neg (N 8)) (N 9)); (29%nat, Div (Neg (N 8)) (N 9)); (45%nat, Div (Neg (N 8)) (N 3)); (46%nat, Div (Neg (N 8)) (N 3)); (47%nat, Div (Neg (N 8)) (N 3)); (63%nat, Div (Neg (N 8)) (N 3)); (64%nat, Div (Neg (N 8)) (N 3)); (65%nat, Div (Neg (N 8)) (N 3)); (78%nat, Div (N 16) (N 9)); (79%nat, Div (N 16) (N 9)); (90%nat, Div (N 16) (N 9)); (91%nat, Div (N 16) (N 9))];
  [(12%nat, Div (Neg (N 8)) (N 9)); (13%nat, Div (Neg (N 8)) (N 9)); (14%nat, Div (Neg (N 8)) (N 9)); (30%nat, Div (Neg (N 8)) (N 9)); (31%nat, Div (Neg (N 8)) (N 9)); (32%nat, Div (Neg (N 8)) (N 9)); (48%nat, Div (Neg (N 8)) (N 3)); (49%nat, Div (Neg (N 8)) (N 3)); (50%nat, Div (Neg (N 8)) (N 3)); (66%nat, Div (Neg (N 8)) (N 3)); (67%nat, Div (Neg (N 8)) (N 3)); (68%nat, Div (Neg (N 8)) (N 3)); (80%nat, Div (N 16) (N 9)); (81%nat, Div (N 16) (N 9)); (92%nat, Div (N 16) (N 9)); (93%nat, Div (N 16) (N 9))];
  [(12%nat, Div (Neg (N 8)) (N 9)); (13%nat, Div (Neg (N 8)) (N 9)); (14%nat, Div (Neg (N 8)) (N 9)); (30%nat, Div (Neg (N 8)) (N 9)); (31%nat, Div (Neg (N 8)) (N 9)); (32%nat, Div (Neg (N 8)) (N 9)); (48%nat, Div (Neg (N 8)) (N 3)); (49%nat, Div (Neg (N 8)) (N 3)); (50%nat, Div (Neg (N 8)) (N 3)); (66%nat, Div (Neg (N 8)) (N 3)); (67%nat, Div (Neg (N 8)) (N 3)); (68%nat, Div (Neg (N 8)) (N 3)); (80%nat, Div (N 16) (N 9)); (81%nat, Div (N 16) (N 9)); (92%nat, Div (N 16) (N 9)); (93%nat, Div (N 16) (N 9))];
  [(15%nat, Div (Neg (N 8)) (N 9)); (16%nat, Div (Neg (N 8)) (N 9)); (17%nat, Div (Neg (N 8)) (N 9)); (33%nat, Div (Neg (N 8)) (N 9)); (34%nat, Div (Neg (N 8)) (N 9)); (35%nat, Div (Neg (N 8)) (N 9)); (51%nat, Div (Neg (N 8)) (N 3)); (52%nat, Div (Neg (N 8)) (N 3)); (53%nat, Div (Neg (N 8)) (N 3)); (69%nat, Div (Neg (N 8)) (N 3)); (70%nat, Div (Neg (N 8)) (N 3)); (71%nat, Div (Neg (N 8)) (N 3)); (82%nat, Div (N 16) (N 9)); (83%nat, Div (N 16) (N 9)); (94%nat, Div (N 16) (N 9)); (95%nat, Div (N 16) (N 9))];
  [(15%nat, Div (Neg (N 8)) (N 9)); (16%nat, Div (Neg (N 8)) (N 9)); (17%nat, Div (Neg (N 8)) (N 9)); (33%nat, Div (Neg (N 8)) (N 9)); (34%nat, Div (Neg (N 8)) (N 9)); (35%nat, Div (Neg (N 8)) (N 9)); (51%nat, Div (Neg (N 8)) (N 3)); (52%nat, Div (Neg (N 8)) (N 3)); (53%nat, Div (Neg (N 8)) (N 3)); (69%nat, Div (Neg (N 8)) (N 3)); (70%nat, Div (Neg (N 8)) (N 3)); (71%nat, Div (Neg (N 8)) (N 3)); (82%nat, Div (N 16) (N 9)); (83%nat, Div (N 16) (N 9)); (94%nat, Div (N 16) (N 9)); (95%nat, Div (N 16) (N 9))]].

(* adm.py:2453-2550 *)
Definition adm_s_ffnunu : amat := [
  [];
  [];
  [];
  [];
  [];
  [];
  [];
  [];
  [];
  [];
  [];
  [];
  [];
  [];
  [];
  [];
  [];
  [];
  [];
  [];
  [];
  [];
  [];
  [];
  [];
  [];
  [];
  [];
  [];
  [];
  [];
  [];
  [];
  [];
  [];
  [];
  [];
  [];
  [];
  [];
  [];
  [];
  [];
  [];
  [];
  [];
  [];
  [];
  [];
  [];
  [];
  [];
  [];
  [];
  [];
  [];
  [];
  [];
  [];
  [];
  [];
  [];
  [];
  [];
  [];
  [];
  [];
  [];
  [];
  [];
  [];
  [];
  [];
  [];
  [];
  [];
  [];
  [];
  [];
  [];
  [];
  [];
  [];
  [];
  [];
  [];
  [];
  [];
  [];
  [];
  [];
  [];
  [];
  [];
  [];
  []].

(* adm.py:2552-2559 *)
Definition adm_e_uddnu : amat := [
  [(0%nat, Div (Neg (N 4)) (N 3))];
  [(1%nat, Div (Neg (N 4)) (N 3))];
  [(2%nat, Div (Neg (N 4)) (N 3))];
  [(3%nat, Neg (N 2))];
  [(4%nat, Neg (N 2))];
  [(5%nat, Neg (N 2))]].

(* adm.py:2561-2568 *)
Definition adm_s_uddnu : amat := [
  [(0%nat, Neg (N 4))];
  [(1%nat, Neg (N 4))];
  [(2%nat, Neg (N 4))];
  [(3%nat, Neg (N 4))];
  [(4%nat, Neg (N 4))];
  [(5%nat, Neg (N 4))]].

(* adm.py:2570-2586 *)
Definition adm_e_udsnu : amat := [
  [(0%nat, Div (N 2) (N 3))];
  [(1%nat, Div (N 2) (N 3))];
  [(2%nat, Div (N 2) (N 3))];
  [(3%nat, Div (Neg (N 4)) (N 3))];
  [(4%nat, Div (Neg (N 4)) (N 3))];
  [(5%nat, Div (Neg (N 4)) (N 3))];
  [(6%nat, Div (Neg (N 4)) (N 3))];
  [(7%nat, Div (Neg (N 4)) (N 3))];
  [(8%nat, Div (Neg (N 4)) (N 3))];
  [(9%nat, Div (Neg (N 2)) (N 3)); (12%nat, Div (Neg (N 4)) (N 3))];
  [(10%nat, Div (Neg (N 2)) (N 3)); (13%nat, Div (Neg (N 4)) (N 3))];
  [(11%nat, Div (Neg (N 2)) (N 3)); (14%nat, Div (Neg (N 4)) (N 3))];
  [(9%nat, Div (Neg (N 4)) (N 3)); (12%nat, Div (Neg (N 2)) (N 3))];
  [(10%nat, Div (Neg (N 4)) (N 3)); (13%nat, Div (Neg (N 2)) (N 3))];
  [(11%nat, Div (Neg (N 4)) (N 3)); (14%nat, Div (Neg (N 2)) (N 3))]].

(* adm.py:2588-2604 *)
Definition adm_s_udsnu : amat := [
  [(0%nat, Neg (N 4))];
  [(1%nat, Neg (N 4))];
  [(2%nat, Neg (N 4))];
  [(3%nat, Neg (N 4))];
  [(4%nat, Neg (N 4))];
  [(5%nat, Neg (N 4))];
  [(6%nat, Neg (N 4))];
  [(7%nat, Neg (N 4))];
  [(8%nat, Neg (N 4))];
  [(9%nat, Neg (N 4))];
  [(10%nat, Neg (N 4))];
  [(11%nat, Neg (N 4))];
  [(12%nat, Neg (N 4))];
  [(13%nat, Neg (N 4))];
  [(14%nat, Neg (N 4))]].

(* adm.py:2606-2611 *)
Definition adm_e_uude : amat := [
  [(0%nat, Div (Neg (N 26)) (N 3))];
  [(1%nat, Div (Neg (N 16)) (N 3))];
  [(2%nat, Div (Neg (N 16)) (N 3))];
  [(3%nat, Div (Neg (N 26)) (N 3))]].

(* adm.py:2613-2618 *)
Definition adm_s_uude : amat := [
  [(0%nat, Neg (N 4))];
  [(1%nat, Neg (N 4))];
  [(2%nat, Neg (N 4))];
  [(3%nat, Neg (N 4))]].

(* adm.py:2620-2631 *)
Definition adm_e_ucde : amat := [
  [(0%nat, Neg (N 2)); (1%nat, Div (Neg (N 20)) (N 3))];
  [(0%nat, Div (Neg (N 20)) (N 3)); (1%nat, Neg (N 2))];
  [(2%nat, Div (Neg (N 16)) (N 3))];
  [(3%nat, Div (Neg (N 16)) (N 3))];
  [(4%nat, Div (Neg (N 16)) (N 3))];
  [(5%nat, Div (Neg (N 16)) (N 3))];
  [(6%nat, Neg (N 2)); (7%nat, Div (Neg (N 20)) (N 3))];
  [(6%nat, Div (Neg (N 20)) (N 3)); (7%nat, Neg (N 2))];
  [(8%nat, Div (N 14) (N 3))];
  [(9%nat, Div (N 14) (N 3))]].

(* adm.py:2633-2644 *)
Definition adm_s_ucde : amat := [
  [(0%nat, Neg (N 4))];
  [(1%nat, Neg (N 4))];
  [(2%nat, Neg (N 4))];
  [(3%nat, Neg (N 4))];
  [(4%nat, Neg (N 4))];
  [(5%nat, Neg (N 4))];
  [(6%nat, Neg (N 4))];
  [(7%nat, Neg (N 4))];
  [(8%nat, Neg (N 4))];
  [(9%nat, Neg (N 4))]].

(* getattr(adm, name): the functions adm_*(f, ...) of adm.py *)
Definition adm_table : list (string * amat) := [
  ("adm_e_I", adm_e_I);
  ("adm_s_I", adm_s_I);
  ("adm_e_Ie", adm_e_Ie);
  ("adm_s_Ie", adm_s_Ie);
  ("adm_e_Iu", adm_e_Iu);
  ("adm_s_Iu", adm_s_Iu);
  ("adm_e_II", adm_e_II);
  ("adm_s_II", adm_s_II);
  ("adm_e_III", adm_e_III);
  ("adm_s_III", adm_s_III);
  ("adm_e_IV", adm_e_IV);
  ("adm_s_IV", adm_s_IV);
  ("adm_e_Vb", adm_e_Vb);
  ("adm_s_Vb", adm_s_Vb);
  ("adm_e_Vb_c", adm_e_Vb_c);
  ("adm_s_Vb_c", adm_s_Vb_c);
  ("adm_e_IVe", adm_e_IVe);
  ("adm_s_IVe", adm_s_IVe);
  ("adm_e_inv", adm_e_inv);
  ("adm_s_inv", adm_s_inv);
  ("adm_e_cu", adm_e_cu);
  ("adm_s_cu", adm_s_cu);
  ("adm_e_db", adm_e_db);
  ("adm_s_db", adm_s_db);
  ("adm_e_sb", adm_e_sb);
  ("adm_s_sb", adm_s_sb);
  ("adm_e_sd", adm_e_sd);
  ("adm_s_sd", adm_s_sd);
  ("adm_e_mue", adm_e_mue);
  ("adm_s_mue", adm_s_mue);
  ("adm_e_mutau", adm_e_mutau);
  ("adm_s_mutau", adm_s_mutau);
  ("adm_e_taue", adm_e_taue);
  ("adm_s_taue", adm_s_taue);
  ("adm_e_dF0", adm_e_dF0);
  ("adm_s_dF0", adm_s_dF0);
  ("adm_e_ffnunu", adm_e_ffnunu);
  ("adm_s_ffnunu", adm_s_ffnunu);
  ("adm_e_uddnu", adm_e_uddnu);
  ("adm_s_uddnu", adm_s_uddnu);
  ("adm_e_udsnu", adm_e_udsnu);
  ("adm_s_udsnu", adm_s_udsnu);
  ("adm_e_uude", adm_e_uude);
  ("adm_s_uude", adm_s_uude);
  ("adm_e_ucde", adm_e_ucde);
  ("adm_s_ucde", adm_s_ucde)].

(* definitions.py:8-39 *)
Definition classes : list (string * list string) := [
  ("I", ["sbsb"; "dbdb"; "sdsd"]);
  ("Ie", ["tauetaue"; "muemue"; "taumutaumu"]);
  ("Iu", ["cucu"]);
  ("II", ["ubenu"; "ubmunu"; "ubtaunu"; "cbenu"; "cbmunu"; "cbtaunu"; "usenu"; "usmunu"; "ustaunu"; "csenu"; "csmunu"; "cstaunu"; "udenu"; "udmunu"; "udtaunu"; "cdenu"; "cdmunu"; "cdtaunu"]);
  ("III", ["sbuc"; "sbcu"; "dbuc"; "dbcu"; "sduc"; "sdcu"]);
  ("IV", ["sbsd"; "dbsb"; "dbds"]);
  ("Vb", ["sbemu"; "sbmue"; "sbetau"; "sbtaue"; "sbmutau"; "sbtaumu"; "dbemu"; "dbmue"; "dbetau"; "dbtaue"; "dbmutau"; "dbtaumu"; "sdemu"; "sdmue"; "sdetau"; "sdtaue"; "sdmutau"; "sdtaumu"]);
  ("Vb_c", ["cuemu"; "cumue"; "cuetau"; "cutaue"; "cumutau"; "cutaumu"]);
  ("IVe", ["muemutau"; "etauemu"; "tauetaumu"]);
  ("inv", ["sbnunu"; "dbnunu"; "sdnunu"; "cununu"; "nunumue"; "nunumutau"; "nunutaue"; "nunununu"]);
  ("cu", ["cu"]);
  ("db", ["db"]);
  ("sb", ["sb"]);
  ("sd", ["sd"]);
  ("mue", ["mue"]);
  ("mutau", ["mutau"]);
  ("taue", ["taue"]);
  ("dF0", ["dF=0"]);
  ("ffnunu", ["ffnunu"]);
  ("uddnu", ["uddnu"; "ussnu"; "ubbnu"; "cddnu"; "cssnu"; "cbbnu"]);
  ("udsnu", ["udsnu"; "usbnu"; "udbnu"; "cdbnu"; "cdsnu"; "csbnu"]);
  ("uude", ["uude"; "uudmu"; "uudtau"; "ccde"; "ccdmu"; "ccdtau"; "uuse"; "uusmu"; "uustau"; "ccse"; "ccsmu"; "ccstau"; "uube"; "uubmu"; "uubtau"; "ccbe"; "ccbmu"; "ccbtau"]);
  ("ucde", ["ucde"; "ucdmu"; "ucdtau"; "ucse"; "ucsmu"; "ucstau"; "ucbe"; "ucbmu"; "ucbtau"])].

(* data/run_wet_definitions_coeffs.json *)
Definition coeffs : list (string * list string) := [
  ("sbsb", ["S1ddRR_2323"; "S1ddRR_3232"; "S8ddRR_2323"; "S8ddRR_3232"; "V1ddLR_2323"; "V8ddLR_2323"; "VddLL_2323"; "VddRR_2323"]);
  ("dbdb", ["S1ddRR_1313"; "S1ddRR_3131"; "S8ddRR_1313"; "S8ddRR_3131"; "V1ddLR_1313"; "V8ddLR_1313"; "VddLL_1313"; "VddRR_1313"]);
  ("sdsd", ["S1ddRR_1212"; "S1ddRR_2121"; "S8ddRR_1212"; "S8ddRR_2121"; "V1ddLR_1212"; "V8ddLR_1212"; "VddLL_1212"; "VddRR_1212"]);
  ("cucu", ["S1uuRR_1212"; "S1uuRR_2121"; "S8uuRR_1212"; "S8uuRR_2121"; "V1uuLR_1212"; "V8uuLR_1212"; "VuuLL_1212"; "VuuRR_1212"]);
  ("dbsb", ["S1ddRR_1323"; "S1ddRR_3132"; "S8ddRR_1323"; "S8ddRR_3132"; "V1ddLR_1323"; "V1ddLR_2313"; "V8ddLR_1323"; "V8ddLR_2313"; "VddLL_1323"; "VddRR_1323"]);
  ("sbuc", ["S1udRR_1223"; "S1udRR_2132"; "S1udduRR_1322"; "S1udduRR_2231"; "S8udRR_1223"; "S8udRR_2132"; "S8udduRR_1322"; "S8udduRR_2231"; "V1duLR_2312"; "V1udLL_1223"; "V1udLR_1223"; "V1udRR_1223"; "V1udduLR_1322"; "V1udduLR_2231"; "V8duLR_2312"; "V8udLL_1223"; "V8udLR_1223"; "V8udRR_1223"; "V8udduLR_1322"; "V8udduLR_2231"]);
  ("sbcu", ["S1udRR_1232"; "S1udRR_2123"; "S1udduRR_1232"; "S1udduRR_2321"; "S8udRR_1232"; "S8udRR_2123"; "S8udduRR_1232"; "S8udduRR_2321"; "V1duLR_2321"; "V1udLL_1232"; "V1udLR_1232"; "V1udRR_1232"; "V1udduLR_1232"; "V1udduLR_2321"; "V8duLR_2321"; "V8udLL_1232"; "V8udLR_1232"; "V8udRR_1232"; "V8udduLR_1232"; "V8udduLR_2321"]);
  ("dbuc", ["S1udRR_1213"; "S1udRR_2131"; "S1udduRR_1312"; "S1udduRR_2131"; "S8udRR_1213"; "S8udRR_2131"; "S8udduRR_1312"; "S8udduRR_2131"; "V1duLR_1312"; "V1udLL_1213"; "V1udLR_1213"; "V1udRR_1213"; "V1udduLR_1312"; "V1udduLR_2131"; "V8duLR_1312"; "V8udLL_1213"; "V8udLR_1213"; "V8udRR_1213"; "V8udduLR_1312"; "V8udduLR_2131"]);
  ("dbcu", ["S1udRR_1231"; "S1udRR_2113"; "S1udduRR_1132"; "S1udduRR_2311"; "S8udRR_1231"; "S8udRR_2113"; "S8udduRR_1132"; "S8udduRR_2311"; "V1duLR_1321"; "V1udLL_1231"; "V1udLR_1231"; "V1udRR_1231"; "V1udduLR_1132"; "V1udduLR_2311"; "V8duLR_1321"; "V8udLL_1231"; "V8udLR_1231"; "V8udRR_1231"; "V8udduLR_1132"; "V8udduLR_2311"]);
  ("sduc", ["S1udRR_1221"; "S1udRR_2112"; "S1udduRR_1122"; "S1udduRR_2211"; "S8udRR_1221"; "S8udRR_2112"; "S8udduRR_1122"; "S8udduRR_2211"; "V1duLR_1221"; "V1udLL_1221"; "V1udLR_1221"; "V1udRR_1221"; "V1udduLR_1122"; "V1udduLR_2211"; "V8duLR_1221"; "V8udLL_1221"; "V8udLR_1221"; "V8udRR_1221"; "V8udduLR_1122"; "V8udduLR_2211"]);
  ("sdcu", ["S1udRR_1212"; "S1udRR_2121"; "S1udduRR_1212"; "S1udduRR_2121"; "S8udRR_1212"; "S8udRR_2121"; "S8udduRR_1212"; "S8udduRR_2121"; "V1duLR_1212"; "V1udLL_1212"; "V1udLR_1212"; "V1udRR_1212"; "V1udduLR_1212"; "V1udduLR_2121"; "V8duLR_1212"; "V8udLL_1212"; "V8udLR_1212"; "V8udRR_1212"; "V8udduLR_1212"; "V8udduLR_2121"]);
  ("sbsd", ["S1ddRR_1232"; "S1ddRR_2123"; "S8ddRR_1232"; "S8ddRR_2123"; "V1ddLR_1232"; "V1ddLR_2321"; "V8ddLR_1232"; "V8ddLR_2321"; "VddLL_1232"; "VddRR_1232"]);
  ("dbds", ["S1ddRR_1213"; "S1ddRR_2131"; "S8ddRR_1213"; "S8ddRR_2131"; "V1ddLR_1213"; "V1ddLR_1312"; "V8ddLR_1213"; "V8ddLR_1312"; "VddLL_1213"; "VddRR_1213"]);
  ("sb", ["S1ddRR_1123"; "S1ddRR_1132"; "S1ddRR_1231"; "S1ddRR_1321"; "S1ddRR_2223"; "S1ddRR_2232"; "S1ddRR_2333"; "S1ddRR_3233"; "S1udRR_1123"; "S1udRR_1132"; "S1udRR_2223"; "S1udRR_2232"; "S1udduRR_1231"; "S1udduRR_1321"; "S1udduRR_2232"; "S1udduRR_2322"; "S8ddRR_1123"; "S8ddRR_1132"; "S8ddRR_1231"; "S8ddRR_1321"; "S8ddRR_2223"; "S8ddRR_2232"; "S8ddRR_2333"; "S8ddRR_3233"; "S8udRR_1123"; "S8udRR_1132"; "S8udRR_2223"; "S8udRR_2232"; "S8udduRR_1231"; "S8udduRR_1321"; "S8udduRR_2232"; "S8udduRR_2322"; "SedRL_1123"; "SedRL_1132"; "SedRL_2223"; "SedRL_2232"; "SedRL_3323"; "SedRL_3332"; "SedRR_1123"; "SedRR_1132"; "SedRR_2223"; "SedRR_2232"; "SedRR_3323"; "SedRR_3332"; "TedRR_1123"; "TedRR_1132"; "TedRR_2223"; "TedRR_2232"; "TedRR_3323"; "TedRR_3332"; "V1ddLR_1123"; "V1ddLR_1231"; "V1ddLR_1321"; "V1ddLR_2223"; "V1ddLR_2311"; "V1ddLR_2322"; "V1ddLR_2333"; "V1ddLR_3323"; "V1duLR_2311"; "V1duLR_2322"; "V1udLL_1123"; "V1udLL_2223"; "V1udLR_1123"; "V1udLR_2223"; "V1udRR_1123"; "V1udRR_2223"; "V1udduLR_1231"; "V1udduLR_1321"; "V1udduLR_2232"; "V1udduLR_2322"; "V8ddLR_1123"; "V8ddLR_1231"; "V8ddLR_1321"; "V8ddLR_2223"; "V8ddLR_2311"; "V8ddLR_2322"; "V8ddLR_2333"; "V8ddLR_3323"; "V8duLR_2311"; "V8duLR_2322"; "V8udLL_1123"; "V8udLL_2223"; "V8udLR_1123"; "V8udLR_2223"; "V8udRR_1123"; "V8udRR_2223"; "V8udduLR_1231"; "V8udduLR_1321"; "V8udduLR_2232"; "V8udduLR_2322"; "VddLL_1123"; "VddLL_1231"; "VddLL_2223"; "VddLL_2333"; "VddRR_1123"; "VddRR_1231"; "VddRR_2223"; "VddRR_2333"; "VdeLR_2311"; "VdeLR_2322"; "VdeLR_2333"; "VedLL_1123"; "VedLL_2223"; "VedLL_3323"; "VedLR_1123"; "VedLR_2223"; "VedLR_3323"; "VedRR_1123"; "VedRR_2223"; "VedRR_3323"; "dG_23"; "dG_32"; "dgamma_23"; "dgamma_32"]);
  ("db", ["S1ddRR_1113"; "S1ddRR_1131"; "S1ddRR_1223"; "S1ddRR_1322"; "S1ddRR_1333"; "S1ddRR_2132"; "S1ddRR_2231"; "S1ddRR_3133"; "S1udRR_1113"; "S1udRR_1131"; "S1udRR_2213"; "S1udRR_2231"; "S1udduRR_1131"; "S1udduRR_1311"; "S1udduRR_2132"; "S1udduRR_2312"; "S8ddRR_1113"; "S8ddRR_1131"; "S8ddRR_1223"; "S8ddRR_1322"; "S8ddRR_1333"; "S8ddRR_2132"; "S8ddRR_2231"; "S8ddRR_3133"; "S8udRR_1113"; "S8udRR_1131"; "S8udRR_2213"; "S8udRR_2231"; "S8udduRR_1131"; "S8udduRR_1311"; "S8udduRR_2132"; "S8udduRR_2312"; "SedRL_1113"; "SedRL_1131"; "SedRL_2213"; "SedRL_2231"; "SedRL_3313"; "SedRL_3331"; "SedRR_1113"; "SedRR_1131"; "SedRR_2213"; "SedRR_2231"; "SedRR_3313"; "SedRR_3331"; "TedRR_1113"; "TedRR_1131"; "TedRR_2213"; "TedRR_2231"; "TedRR_3313"; "TedRR_3331"; "V1ddLR_1113"; "V1ddLR_1223"; "V1ddLR_1311"; "V1ddLR_1322"; "V1ddLR_1333"; "V1ddLR_2213"; "V1ddLR_2312"; "V1ddLR_3313"; "V1duLR_1311"; "V1duLR_1322"; "V1udLL_1113"; "V1udLL_2213"; "V1udLR_1113"; "V1udLR_2213"; "V1udRR_1113"; "V1udRR_2213"; "V1udduLR_1131"; "V1udduLR_1311"; "V1udduLR_2132"; "V1udduLR_2312"; "V8ddLR_1113"; "V8ddLR_1223"; "V8ddLR_1311"; "V8ddLR_1322"; "V8ddLR_1333"; "V8ddLR_2213"; "V8ddLR_2312"; "V8ddLR_3313"; "V8duLR_1311"; "V8duLR_1322"; "V8udLL_1113"; "V8udLL_2213"; "V8udLR_1113"; "V8udLR_2213"; "V8udRR_1113"; "V8udRR_2213"; "V8udduLR_1131"; "V8udduLR_1311"; "V8udduLR_2132"; "V8udduLR_2312"; "VddLL_1113"; "VddLL_1223"; "VddLL_1322"; "VddLL_1333"; "VddRR_1113"; "VddRR_1223"; "VddRR_1322"; "VddRR_1333"; "VdeLR_1311"; "VdeLR_1322"; "VdeLR_1333"; "VedLL_1113"; "VedLL_2213"; "VedLL_3313"; "VedLR_1113"; "VedLR_2213"; "VedLR_3313"; "VedRR_1113"; "VedRR_2213"; "VedRR_3313"; "dG_13"; "dG_31"; "dgamma_13"; "dgamma_31"]);
  ("sd", ["S1ddRR_1112"; "S1ddRR_1121"; "S1ddRR_1222"; "S1ddRR_1233"; "S1ddRR_1332"; "S1ddRR_2122"; "S1ddRR_2133"; "S1ddRR_2331"; "S1udRR_1112"; "S1udRR_1121"; "S1udRR_2212"; "S1udRR_2221"; "S1udduRR_1121"; "S1udduRR_1211"; "S1udduRR_2122"; "S1udduRR_2212"; "S8ddRR_1112"; "S8ddRR_1121"; "S8ddRR_1222"; "S8ddRR_1233"; "S8ddRR_1332"; "S8ddRR_2122"; "S8ddRR_2133"; "S8ddRR_2331"; "S8udRR_1112"; "S8udRR_1121"; "S8udRR_2212"; "S8udRR_2221"; "S8udduRR_1121"; "S8udduRR_1211"; "S8udduRR_2122"; "S8udduRR_2212"; "SedRL_1112"; "SedRL_1121"; "SedRL_2212"; "SedRL_2221"; "SedRL_3312"; "SedRL_3321"; "SedRR_1112"; "SedRR_1121"; "SedRR_2212"; "SedRR_2221"; "SedRR_3312"; "SedRR_3321"; "TedRR_1112"; "TedRR_1121"; "TedRR_2212"; "TedRR_2221"; "TedRR_3312"; "TedRR_3321"; "V1ddLR_1112"; "V1ddLR_1211"; "V1ddLR_1222"; "V1ddLR_1233"; "V1ddLR_1332"; "V1ddLR_2212"; "V1ddLR_2331"; "V1ddLR_3312"; "V1duLR_1211"; "V1duLR_1222"; "V1udLL_1112"; "V1udLL_2212"; "V1udLR_1112"; "V1udLR_2212"; "V1udRR_1112"; "V1udRR_2212"; "V1udduLR_1121"; "V1udduLR_1211"; "V1udduLR_2122"; "V1udduLR_2212"; "V8ddLR_1112"; "V8ddLR_1211"; "V8ddLR_1222"; "V8ddLR_1233"; "V8ddLR_1332"; "V8ddLR_2212"; "V8ddLR_2331"; "V8ddLR_3312"; "V8duLR_1211"; "V8duLR_1222"; "V8udLL_1112"; "V8udLL_2212"; "V8udLR_1112"; "V8udLR_2212"; "V8udRR_1112"; "V8udRR_2212"; "V8udduLR_1121"; "V8udduLR_1211"; "V8udduLR_2122"; "V8udduLR_2212"; "VddLL_1112"; "VddLL_1222"; "VddLL_1233"; "VddLL_1332"; "VddRR_1112"; "VddRR_1222"; "VddRR_1233"; "VddRR_1332"; "VdeLR_1211"; "VdeLR_1222"; "VdeLR_1233"; "VedLL_1112"; "VedLL_2212"; "VedLL_3312"; "VedLR_1112"; "VedLR_2212"; "VedLR_3312"; "VedRR_1112"; "VedRR_2212"; "VedRR_3312"; "dG_12"; "dG_21"; "dgamma_12"; "dgamma_21"]);
  ("cu", ["S1udRR_1211"; "S1udRR_1222"; "S1udRR_1233"; "S1udRR_2111"; "S1udRR_2122"; "S1udRR_2133"; "S1udduRR_1112"; "S1udduRR_1222"; "S1udduRR_1332"; "S1udduRR_2111"; "S1udduRR_2221"; "S1udduRR_2331"; "S1uuRR_1112"; "S1uuRR_1121"; "S1uuRR_1222"; "S1uuRR_2122"; "S8udRR_1211"; "S8udRR_1222"; "S8udRR_1233"; "S8udRR_2111"; "S8udRR_2122"; "S8udRR_2133"; "S8udduRR_1112"; "S8udduRR_1222"; "S8udduRR_1332"; "S8udduRR_2111"; "S8udduRR_2221"; "S8udduRR_2331"; "S8uuRR_1112"; "S8uuRR_1121"; "S8uuRR_1222"; "S8uuRR_2122"; "SeuRL_1112"; "SeuRL_1121"; "SeuRL_2212"; "SeuRL_2221"; "SeuRL_3312"; "SeuRL_3321"; "SeuRR_1112"; "SeuRR_1121"; "SeuRR_2212"; "SeuRR_2221"; "SeuRR_3312"; "SeuRR_3321"; "TeuRR_1112"; "TeuRR_1121"; "TeuRR_2212"; "TeuRR_2221"; "TeuRR_3312"; "TeuRR_3321"; "V1duLR_1112"; "V1duLR_2212"; "V1duLR_3312"; "V1udLL_1211"; "V1udLL_1222"; "V1udLL_1233"; "V1udLR_1211"; "V1udLR_1222"; "V1udLR_1233"; "V1udRR_1211"; "V1udRR_1222"; "V1udRR_1233"; "V1udduLR_1112"; "V1udduLR_1222"; "V1udduLR_1332"; "V1udduLR_2111"; "V1udduLR_2221"; "V1udduLR_2331"; "V1uuLR_1112"; "V1uuLR_1211"; "V1uuLR_1222"; "V1uuLR_2212"; "V8duLR_1112"; "V8duLR_2212"; "V8duLR_3312"; "V8udLL_1211"; "V8udLL_1222"; "V8udLL_1233"; "V8udLR_1211"; "V8udLR_1222"; "V8udLR_1233"; "V8udRR_1211"; "V8udRR_1222"; "V8udRR_1233"; "V8udduLR_1112"; "V8udduLR_1222"; "V8udduLR_1332"; "V8udduLR_2111"; "V8udduLR_2221"; "V8udduLR_2331"; "V8uuLR_1112"; "V8uuLR_1211"; "V8uuLR_1222"; "V8uuLR_2212"; "VeuLL_1112"; "VeuLL_2212"; "VeuLL_3312"; "VeuLR_1112"; "VeuLR_2212"; "VeuLR_3312"; "VeuRR_1112"; "VeuRR_2212"; "VeuRR_3312"; "VueLR_1211"; "VueLR_1222"; "VueLR_1233"; "VuuLL_1112"; "VuuLL_1222"; "VuuRR_1112"; "VuuRR_1222"; "uG_12"; "uG_21"; "ugamma_12"; "ugamma_21"]);
  ("sbemu", ["SedRL_1223"; "SedRL_2132"; "SedRR_1223"; "SedRR_2132"; "TedRR_1223"; "TedRR_2132"; "VdeLR_2312"; "VedLL_1223"; "VedLR_1223"; "VedRR_1223"]);
  ("sbmue", ["SedRL_1232"; "SedRL_2123"; "SedRR_1232"; "SedRR_2123"; "TedRR_1232"; "TedRR_2123"; "VdeLR_2321"; "VedLL_1232"; "VedLR_1232"; "VedRR_1232"]);
  ("sbetau", ["SedRL_1323"; "SedRL_3132"; "SedRR_1323"; "SedRR_3132"; "TedRR_1323"; "TedRR_3132"; "VdeLR_2313"; "VedLL_1323"; "VedLR_1323"; "VedRR_1323"]);
  ("sbtaue", ["SedRL_1332"; "SedRL_3123"; "SedRR_1332"; "SedRR_3123"; "TedRR_1332"; "TedRR_3123"; "VdeLR_2331"; "VedLL_1332"; "VedLR_1332"; "VedRR_1332"]);
  ("sbmutau", ["SedRL_2323"; "SedRL_3232"; "SedRR_2323"; "SedRR_3232"; "TedRR_2323"; "TedRR_3232"; "VdeLR_2323"; "VedLL_2323"; "VedLR_2323"; "VedRR_2323"]);
  ("sbtaumu", ["SedRL_2332"; "SedRL_3223"; "SedRR_2332"; "SedRR_3223"; "TedRR_2332"; "TedRR_3223"; "VdeLR_2332"; "VedLL_2332"; "VedLR_2332"; "VedRR_2332"]);
  ("dbemu", ["SedRL_1213"; "SedRL_2131"; "SedRR_1213"; "SedRR_2131"; "TedRR_1213"; "TedRR_2131"; "VdeLR_1312"; "VedLL_1213"; "VedLR_1213"; "VedRR_1213"]);
  ("dbmue", ["SedRL_1231"; "SedRL_2113"; "SedRR_1231"; "SedRR_2113"; "TedRR_1231"; "TedRR_2113"; "VdeLR_1321"; "VedLL_1231"; "VedLR_1231"; "VedRR_1231"]);
  ("dbetau", ["SedRL_1313"; "SedRL_3131"; "SedRR_1313"; "SedRR_3131"; "TedRR_1313"; "TedRR_3131"; "VdeLR_1313"; "VedLL_1313"; "VedLR_1313"; "VedRR_1313"]);
  ("dbtaue", ["SedRL_1331"; "SedRL_3113"; "SedRR_1331"; "SedRR_3113"; "TedRR_1331"; "TedRR_3113"; "VdeLR_1331"; "VedLL_1331"; "VedLR_1331"; "VedRR_1331"]);
  ("dbmutau", ["SedRL_2313"; "SedRL_3231"; "SedRR_2313"; "SedRR_3231"; "TedRR_2313"; "TedRR_3231"; "VdeLR_1323"; "VedLL_2313"; "VedLR_2313"; "VedRR_2313"]);
  ("dbtaumu", ["SedRL_2331"; "SedRL_3213"; "SedRR_2331"; "SedRR_3213"; "TedRR_2331"; "TedRR_3213"; "VdeLR_1332"; "VedLL_2331"; "VedLR_2331"; "VedRR_2331"]);
  ("sdemu", ["SedRL_1221"; "SedRL_2112"; "SedRR_1221"; "SedRR_2112"; "TedRR_1221"; "TedRR_2112"; "VdeLR_1221"; "VedLL_1221"; "VedLR_1221"; "VedRR_1221"]);
  ("sdmue", ["SedRL_1212"; "SedRL_2121"; "SedRR_1212"; "SedRR_2121"; "TedRR_1212"; "TedRR_2121"; "VdeLR_1212"; "VedLL_1212"; "VedLR_1212"; "VedRR_1212"]);
  ("sdetau", ["SedRL_1321"; "SedRL_3112"; "SedRR_1321"; "SedRR_3112"; "TedRR_1321"; "TedRR_3112"; "VdeLR_1231"; "VedLL_1321"; "VedLR_1321"; "VedRR_1321"]);
  ("sdtaue", ["SedRL_1312"; "SedRL_3121"; "SedRR_1312"; "SedRR_3121"; "TedRR_1312"; "TedRR_3121"; "VdeLR_1213"; "VedLL_1312"; "VedLR_1312"; "VedRR_1312"]);
  ("sdmutau", ["SedRL_2321"; "SedRL_3212"; "SedRR_2321"; "SedRR_3212"; "TedRR_2321"; "TedRR_3212"; "VdeLR_1232"; "VedLL_2321"; "VedLR_2321"; "VedRR_2321"]);
  ("sdtaumu", ["SedRL_2312"; "SedRL_3221"; "SedRR_2312"; "SedRR_3221"; "TedRR_2312"; "TedRR_3221"; "VdeLR_1223"; "VedLL_2312"; "VedLR_2312"; "VedRR_2312"]);
  ("cuemu", ["SeuRL_1221"; "SeuRL_2112"; "SeuRR_1221"; "SeuRR_2112"; "TeuRR_1221"; "TeuRR_2112"; "VeuLL_1221"; "VeuLR_1221"; "VeuRR_1221"; "VueLR_1221"]);
  ("cumue", ["SeuRL_1212"; "SeuRL_2121"; "SeuRR_1212"; "SeuRR_2121"; "TeuRR_1212"; "TeuRR_2121"; "VeuLL_1212"; "VeuLR_1212"; "VeuRR_1212"; "VueLR_1212"]);
  ("cuetau", ["SeuRL_1321"; "SeuRL_3112"; "SeuRR_1321"; "SeuRR_3112"; "TeuRR_1321"; "TeuRR_3112"; "VeuLL_1321"; "VeuLR_1321"; "VeuRR_1321"; "VueLR_1231"]);
  ("cutaue", ["SeuRL_1312"; "SeuRL_3121"; "SeuRR_1312"; "SeuRR_3121"; "TeuRR_1312"; "TeuRR_3121"; "VeuLL_1312"; "VeuLR_1312"; "VeuRR_1312"; "VueLR_1213"]);
  ("cumutau", ["SeuRL_2321"; "SeuRL_3212"; "SeuRR_2321"; "SeuRR_3212"; "TeuRR_2321"; "TeuRR_3212"; "VeuLL_2321"; "VeuLR_2321"; "VeuRR_2321"; "VueLR_1232"]);
  ("cutaumu", ["SeuRL_2312"; "SeuRL_3221"; "SeuRR_2312"; "SeuRR_3221"; "TeuRR_2312"; "TeuRR_3221"; "VeuLL_2312"; "VeuLR_2312"; "VeuRR_2312"; "VueLR_1223"]);
  ("mutau", ["SedRL_2311"; "SedRL_2322"; "SedRL_2333"; "SedRL_3211"; "SedRL_3222"; "SedRL_3233"; "SedRR_2311"; "SedRR_2322"; "SedRR_2333"; "SedRR_3211"; "SedRR_3222"; "SedRR_3233"; "SeeRR_1123"; "SeeRR_1132"; "SeeRR_1231"; "SeeRR_1321"; "SeeRR_2223"; "SeeRR_2232"; "SeeRR_2333"; "SeeRR_3233"; "SeuRL_2311"; "SeuRL_2322"; "SeuRL_3211"; "SeuRL_3222"; "SeuRR_2311"; "SeuRR_2322"; "SeuRR_3211"; "SeuRR_3222"; "TedRR_2311"; "TedRR_2322"; "TedRR_2333"; "TedRR_3211"; "TedRR_3222"; "TedRR_3233"; "TeuRR_2311"; "TeuRR_2322"; "TeuRR_3211"; "TeuRR_3222"; "VdeLR_1123"; "VdeLR_2223"; "VdeLR_3323"; "VedLL_2311"; "VedLL_2322"; "VedLL_2333"; "VedLR_2311"; "VedLR_2322"; "VedLR_2333"; "VedRR_2311"; "VedRR_2322"; "VedRR_2333"; "VeeLL_1123"; "VeeLL_2223"; "VeeLL_2333"; "VeeLR_1123"; "VeeLR_1231"; "VeeLR_1321"; "VeeLR_2223"; "VeeLR_2311"; "VeeLR_2322"; "VeeLR_2333"; "VeeLR_3323"; "VeeRR_1123"; "VeeRR_2223"; "VeeRR_2333"; "VeuLL_2311"; "VeuLL_2322"; "VeuLR_2311"; "VeuLR_2322"; "VeuRR_2311"; "VeuRR_2322"; "VueLR_1123"; "VueLR_2223"; "egamma_23"; "egamma_32"]);
  ("mue", ["SedRL_1211"; "SedRL_1222"; "SedRL_1233"; "SedRL_2111"; "SedRL_2122"; "SedRL_2133"; "SedRR_1211"; "SedRR_1222"; "SedRR_1233"; "SedRR_2111"; "SedRR_2122"; "SedRR_2133"; "SeeRR_1112"; "SeeRR_1121"; "SeeRR_1222"; "SeeRR_1233"; "SeeRR_1332"; "SeeRR_2122"; "SeeRR_2133"; "SeeRR_2331"; "SeuRL_1211"; "SeuRL_1222"; "SeuRL_2111"; "SeuRL_2122"; "SeuRR_1211"; "SeuRR_1222"; "SeuRR_2111"; "SeuRR_2122"; "TedRR_1211"; "TedRR_1222"; "TedRR_1233"; "TedRR_2111"; "TedRR_2122"; "TedRR_2133"; "TeuRR_1211"; "TeuRR_1222"; "TeuRR_2111"; "TeuRR_2122"; "VdeLR_1112"; "VdeLR_2212"; "VdeLR_3312"; "VedLL_1211"; "VedLL_1222"; "VedLL_1233"; "VedLR_1211"; "VedLR_1222"; "VedLR_1233"; "VedRR_1211"; "VedRR_1222"; "VedRR_1233"; "VeeLL_1112"; "VeeLL_1222"; "VeeLL_1233"; "VeeLR_1112"; "VeeLR_1211"; "VeeLR_1222"; "VeeLR_1233"; "VeeLR_1332"; "VeeLR_2212"; "VeeLR_2331"; "VeeLR_3312"; "VeeRR_1112"; "VeeRR_1222"; "VeeRR_1233"; "VeuLL_1211"; "VeuLL_1222"; "VeuLR_1211"; "VeuLR_1222"; "VeuRR_1211"; "VeuRR_1222"; "VueLR_1112"; "VueLR_2212"; "egamma_12"; "egamma_21"]);
  ("taue", ["SedRL_1311"; "SedRL_1322"; "SedRL_1333"; "SedRL_3111"; "SedRL_3122"; "SedRL_3133"; "SedRR_1311"; "SedRR_1322"; "SedRR_1333"; "SedRR_3111"; "SedRR_3122"; "SedRR_3133"; "SeeRR_1113"; "SeeRR_1131"; "SeeRR_1223"; "SeeRR_1322"; "SeeRR_1333"; "SeeRR_2132"; "SeeRR_2231"; "SeeRR_3133"; "SeuRL_1311"; "SeuRL_1322"; "SeuRL_3111"; "SeuRL_3122"; "SeuRR_1311"; "SeuRR_1322"; "SeuRR_3111"; "SeuRR_3122"; "TedRR_1311"; "TedRR_1322"; "TedRR_1333"; "TedRR_3111"; "TedRR_3122"; "TedRR_3133"; "TeuRR_1311"; "TeuRR_1322"; "TeuRR_3111"; "TeuRR_3122"; "VdeLR_1113"; "VdeLR_2213"; "VdeLR_3313"; "VedLL_1311"; "VedLL_1322"; "VedLL_1333"; "VedLR_1311"; "VedLR_1322"; "VedLR_1333"; "VedRR_1311"; "VedRR_1322"; "VedRR_1333"; "VeeLL_1113"; "VeeLL_1223"; "VeeLL_1333"; "VeeLR_1113"; "VeeLR_1223"; "VeeLR_1311"; "VeeLR_1322"; "VeeLR_1333"; "VeeLR_2213"; "VeeLR_2312"; "VeeLR_3313"; "VeeRR_1113"; "VeeRR_1223"; "VeeRR_1333"; "VeuLL_1311"; "VeuLL_1322"; "VeuLR_1311"; "VeuLR_1322"; "VeuRR_1311"; "VeuRR_1322"; "VueLR_1113"; "VueLR_2213"; "egamma_13"; "egamma_31"]);
  ("tauetaue", ["SeeRR_1313"; "SeeRR_3131"; "VeeLL_1313"; "VeeLR_1313"; "VeeRR_1313"]);
  ("taumutaumu", ["SeeRR_2323"; "SeeRR_3232"; "VeeLL_2323"; "VeeLR_2323"; "VeeRR_2323"]);
  ("muemue", ["SeeRR_1212"; "SeeRR_2121"; "VeeLL_1212"; "VeeLR_1212"; "VeeRR_1212"]);
  ("muemutau", ["SeeRR_1232"; "SeeRR_2123"; "VeeLL_1232"; "VeeLR_1232"; "VeeLR_2321"; "VeeRR_1232"]);
  ("etauemu", ["SeeRR_1213"; "SeeRR_2131"; "VeeLL_1213"; "VeeLR_1213"; "VeeLR_1312"; "VeeRR_1213"]);
  ("tauetaumu", ["SeeRR_1323"; "SeeRR_3132"; "VeeLL_1323"; "VeeLR_1323"; "VeeLR_2313"; "VeeRR_1323"]);
  ("nunununu", ["VnunuLL_1111"; "VnunuLL_1112"; "VnunuLL_1113"; "VnunuLL_1122"; "VnunuLL_1123"; "VnunuLL_1133"; "VnunuLL_1212"; "VnunuLL_1213"; "VnunuLL_1222"; "VnunuLL_1223"; "VnunuLL_1232"; "VnunuLL_1233"; "VnunuLL_1313"; "VnunuLL_1323"; "VnunuLL_1333"; "VnunuLL_2222"; "VnunuLL_2223"; "VnunuLL_2233"; "VnunuLL_2323"; "VnunuLL_2333"; "VnunuLL_3333"]);
  ("nunumue", ["VnueLL_1112"; "VnueLL_1212"; "VnueLL_1221"; "VnueLL_1312"; "VnueLL_1321"; "VnueLL_2212"; "VnueLL_2312"; "VnueLL_2321"; "VnueLL_3312"; "VnueLR_1112"; "VnueLR_1212"; "VnueLR_1221"; "VnueLR_1312"; "VnueLR_1321"; "VnueLR_2212"; "VnueLR_2312"; "VnueLR_2321"; "VnueLR_3312"]);
  ("nunumutau", ["VnueLL_1123"; "VnueLL_1223"; "VnueLL_1232"; "VnueLL_1323"; "VnueLL_1332"; "VnueLL_2223"; "VnueLL_2323"; "VnueLL_2332"; "VnueLL_3323"; "VnueLR_1123"; "VnueLR_1223"; "VnueLR_1232"; "VnueLR_1323"; "VnueLR_1332"; "VnueLR_2223"; "VnueLR_2323"; "VnueLR_2332"; "VnueLR_3323"]);
  ("nunutaue", ["VnueLL_1113"; "VnueLL_1213"; "VnueLL_1231"; "VnueLL_1313"; "VnueLL_1331"; "VnueLL_2213"; "VnueLL_2313"; "VnueLL_2331"; "VnueLL_3313"; "VnueLR_1113"; "VnueLR_1213"; "VnueLR_1231"; "VnueLR_1313"; "VnueLR_1331"; "VnueLR_2213"; "VnueLR_2313"; "VnueLR_2331"; "VnueLR_3313"]);
  ("dF=0", ["G"; "Gtilde"; "S1ddRR_1111"; "S1ddRR_1122"; "S1ddRR_1133"; "S1ddRR_1221"; "S1ddRR_1331"; "S1ddRR_2222"; "S1ddRR_2233"; "S1ddRR_2332"; "S1ddRR_3333"; "S1udRR_1111"; "S1udRR_1122"; "S1udRR_1133"; "S1udRR_2211"; "S1udRR_2222"; "S1udRR_2233"; "S1udduRR_1111"; "S1udduRR_1221"; "S1udduRR_1331"; "S1udduRR_2112"; "S1udduRR_2222"; "S1udduRR_2332"; "S1uuRR_1111"; "S1uuRR_1122"; "S1uuRR_1221"; "S1uuRR_2222"; "S8ddRR_1111"; "S8ddRR_1122"; "S8ddRR_1133"; "S8ddRR_1221"; "S8ddRR_1331"; "S8ddRR_2222"; "S8ddRR_2233"; "S8ddRR_2332"; "S8ddRR_3333"; "S8udRR_1111"; "S8udRR_1122"; "S8udRR_1133"; "S8udRR_2211"; "S8udRR_2222"; "S8udRR_2233"; "S8udduRR_1111"; "S8udduRR_1221"; "S8udduRR_1331"; "S8udduRR_2112"; "S8udduRR_2222"; "S8udduRR_2332"; "S8uuRR_1111"; "S8uuRR_1122"; "S8uuRR_1221"; "S8uuRR_2222"; "SedRL_1111"; "SedRL_1122"; "SedRL_1133"; "SedRL_2211"; "SedRL_2222"; "SedRL_2233"; "SedRL_3311"; "SedRL_3322"; "SedRL_3333"; "SedRR_1111"; "SedRR_1122"; "SedRR_1133"; "SedRR_2211"; "SedRR_2222"; "SedRR_2233"; "SedRR_3311"; "SedRR_3322"; "SedRR_3333"; "SeeRR_1111"; "SeeRR_1122"; "SeeRR_1133"; "SeeRR_1221"; "SeeRR_1331"; "SeeRR_2222"; "SeeRR_2233"; "SeeRR_2332"; "SeeRR_3333"; "SeuRL_1111"; "SeuRL_1122"; "SeuRL_2211"; "SeuRL_2222"; "SeuRL_3311"; "SeuRL_3322"; "SeuRR_1111"; "SeuRR_1122"; "SeuRR_2211"; "SeuRR_2222"; "SeuRR_3311"; "SeuRR_3322"; "TedRR_1111"; "TedRR_1122"; "TedRR_1133"; "TedRR_2211"; "TedRR_2222"; "TedRR_2233"; "TedRR_3311"; "TedRR_3322"; "TedRR_3333"; "TeuRR_1111"; "TeuRR_1122"; "TeuRR_2211"; "TeuRR_2222"; "TeuRR_3311"; "TeuRR_3322"; "V1ddLR_1111"; "V1ddLR_1122"; "V1ddLR_1133"; "V1ddLR_1221"; "V1ddLR_1331"; "V1ddLR_2211"; "V1ddLR_2222"; "V1ddLR_2233"; "V1ddLR_2332"; "V1ddLR_3311"; "V1ddLR_3322"; "V1ddLR_3333"; "V1duLR_1111"; "V1duLR_1122"; "V1duLR_2211"; "V1duLR_2222"; "V1duLR_3311"; "V1duLR_3322"; "V1udLL_1111"; "V1udLL_1122"; "V1udLL_1133"; "V1udLL_2211"; "V1udLL_2222"; "V1udLL_2233"; "V1udLR_1111"; "V1udLR_1122"; "V1udLR_1133"; "V1udLR_2211"; "V1udLR_2222"; "V1udLR_2233"; "V1udRR_1111"; "V1udRR_1122"; "V1udRR_1133"; "V1udRR_2211"; "V1udRR_2222"; "V1udRR_2233"; "V1udduLR_1111"; "V1udduLR_1221"; "V1udduLR_1331"; "V1udduLR_2112"; "V1udduLR_2222"; "V1udduLR_2332"; "V1uuLR_1111"; "V1uuLR_1122"; "V1uuLR_1221"; "V1uuLR_2211"; "V1uuLR_2222"; "V8ddLR_1111"; "V8ddLR_1122"; "V8ddLR_1133"; "V8ddLR_1221"; "V8ddLR_1331"; "V8ddLR_2211"; "V8ddLR_2222"; "V8ddLR_2233"; "V8ddLR_2332"; "V8ddLR_3311"; "V8ddLR_3322"; "V8ddLR_3333"; "V8duLR_1111"; "V8duLR_1122"; "V8duLR_2211"; "V8duLR_2222"; "V8duLR_3311"; "V8duLR_3322"; "V8udLL_1111"; "V8udLL_1122"; "V8udLL_1133"; "V8udLL_2211"; "V8udLL_2222"; "V8udLL_2233"; "V8udLR_1111"; "V8udLR_1122"; "V8udLR_1133"; "V8udLR_2211"; "V8udLR_2222"; "V8udLR_2233"; "V8udRR_1111"; "V8udRR_1122"; "V8udRR_1133"; "V8udRR_2211"; "V8udRR_2222"; "V8udRR_2233"; "V8udduLR_1111"; "V8udduLR_1221"; "V8udduLR_1331"; "V8udduLR_2112"; "V8udduLR_2222"; "V8udduLR_2332"; "V8uuLR_1111"; "V8uuLR_1122"; "V8uuLR_1221"; "V8uuLR_2211"; "V8uuLR_2222"; "VddLL_1111"; "VddLL_1122"; "VddLL_1133"; "VddLL_1221"; "VddLL_1331"; "VddLL_2222"; "VddLL_2233"; "VddLL_2332"; "VddLL_3333"; "VddRR_1111"; "VddRR_1122"; "VddRR_1133"; "VddRR_1221"; "VddRR_1331"; "VddRR_2222"; "VddRR_2233"; "VddRR_2332"; "VddRR_3333"; "VdeLR_1111"; "VdeLR_1122"; "VdeLR_1133"; "VdeLR_2211"; "VdeLR_2222"; "VdeLR_2233"; "VdeLR_3311"; "VdeLR_3322"; "VdeLR_3333"; "VedLL_1111"; "VedLL_1122"; "VedLL_1133"; "VedLL_2211"; "VedLL_2222"; "VedLL_2233"; "VedLL_3311"; "VedLL_3322"; "VedLL_3333"; "VedLR_1111"; "VedLR_1122"; "VedLR_1133"; "VedLR_2211"; "VedLR_2222"; "VedLR_2233"; "VedLR_3311"; "VedLR_3322"; "VedLR_3333"; "VedRR_1111"; "VedRR_1122"; "VedRR_1133"; "VedRR_2211"; "VedRR_2222"; "VedRR_2233"; "VedRR_3311"; "VedRR_3322"; "VedRR_3333"; "VeeLL_1111"; "VeeLL_1122"; "VeeLL_1133"; "VeeLL_2222"; "VeeLL_2233"; "VeeLL_3333"; "VeeLR_1111"; "VeeLR_1122"; "VeeLR_1133"; "VeeLR_1221"; "VeeLR_1331"; "VeeLR_2211"; "VeeLR_2222"; "VeeLR_2233"; "VeeLR_2332"; "VeeLR_3311"; "VeeLR_3322"; "VeeLR_3333"; "VeeRR_1111"; "VeeRR_1122"; "VeeRR_1133"; "VeeRR_2222"; "VeeRR_2233"; "VeeRR_3333"; "VeuLL_1111"; "VeuLL_1122"; "VeuLL_2211"; "VeuLL_2222"; "VeuLL_3311"; "VeuLL_3322"; "VeuLR_1111"; "VeuLR_1122"; "VeuLR_2211"; "VeuLR_2222"; "VeuLR_3311"; "VeuLR_3322"; "VeuRR_1111"; "VeuRR_1122"; "VeuRR_2211"; "VeuRR_2222"; "VeuRR_3311"; "VeuRR_3322"; "VueLR_1111"; "VueLR_1122"; "VueLR_1133"; "VueLR_2211"; "VueLR_2222"; "VueLR_2233"; "VuuLL_1111"; "VuuLL_1122"; "VuuLL_1221"; "VuuLL_2222"; "VuuRR_1111"; "VuuRR_1122"; "VuuRR_1221"; "VuuRR_2222"; "dG_11"; "dG_22"; "dG_33"; "dgamma_11"; "dgamma_22"; "dgamma_33"; "egamma_11"; "egamma_22"; "egamma_33"; "uG_11"; "uG_22"; "ugamma_11"; "ugamma_22"]);
  ("ubenu", ["SnueduRL_1131"; "SnueduRL_2131"; "SnueduRL_3131"; "SnueduRR_1131"; "SnueduRR_2131"; "SnueduRR_3131"; "TnueduRR_1131"; "TnueduRR_2131"; "TnueduRR_3131"; "VnueduLL_1131"; "VnueduLL_2131"; "VnueduLL_3131"; "VnueduLR_1131"; "VnueduLR_2131"; "VnueduLR_3131"]);
  ("ubmunu", ["SnueduRL_1231"; "SnueduRL_2231"; "SnueduRL_3231"; "SnueduRR_1231"; "SnueduRR_2231"; "SnueduRR_3231"; "TnueduRR_1231"; "TnueduRR_2231"; "TnueduRR_3231"; "VnueduLL_1231"; "VnueduLL_2231"; "VnueduLL_3231"; "VnueduLR_1231"; "VnueduLR_2231"; "VnueduLR_3231"]);
  ("ubtaunu", ["SnueduRL_1331"; "SnueduRL_2331"; "SnueduRL_3331"; "SnueduRR_1331"; "SnueduRR_2331"; "SnueduRR_3331"; "TnueduRR_1331"; "TnueduRR_2331"; "TnueduRR_3331"; "VnueduLL_1331"; "VnueduLL_2331"; "VnueduLL_3331"; "VnueduLR_1331"; "VnueduLR_2331"; "VnueduLR_3331"]);
  ("cbenu", ["SnueduRL_1132"; "SnueduRL_2132"; "SnueduRL_3132"; "SnueduRR_1132"; "SnueduRR_2132"; "SnueduRR_3132"; "TnueduRR_1132"; "TnueduRR_2132"; "TnueduRR_3132"; "VnueduLL_1132"; "VnueduLL_2132"; "VnueduLL_3132"; "VnueduLR_1132"; "VnueduLR_2132"; "VnueduLR_3132"]);
  ("cbmunu", ["SnueduRL_1232"; "SnueduRL_2232"; "SnueduRL_3232"; "SnueduRR_1232"; "SnueduRR_2232"; "SnueduRR_3232"; "TnueduRR_1232"; "TnueduRR_2232"; "TnueduRR_3232"; "VnueduLL_1232"; "VnueduLL_2232"; "VnueduLL_3232"; "VnueduLR_1232"; "VnueduLR_2232"; "VnueduLR_3232"]);
  ("cbtaunu", ["SnueduRL_1332"; "SnueduRL_2332"; "SnueduRL_3332"; "SnueduRR_1332"; "SnueduRR_2332"; "SnueduRR_3332"; "TnueduRR_1332"; "TnueduRR_2332"; "TnueduRR_3332"; "VnueduLL_1332"; "VnueduLL_2332"; "VnueduLL_3332"; "VnueduLR_1332"; "VnueduLR_2332"; "VnueduLR_3332"]);
  ("usenu", ["SnueduRL_1121"; "SnueduRL_2121"; "SnueduRL_3121"; "SnueduRR_1121"; "SnueduRR_2121"; "SnueduRR_3121"; "TnueduRR_1121"; "TnueduRR_2121"; "TnueduRR_3121"; "VnueduLL_1121"; "VnueduLL_2121"; "VnueduLL_3121"; "VnueduLR_1121"; "VnueduLR_2121"; "VnueduLR_3121"]);
  ("usmunu", ["SnueduRL_1221"; "SnueduRL_2221"; "SnueduRL_3221"; "SnueduRR_1221"; "SnueduRR_2221"; "SnueduRR_3221"; "TnueduRR_1221"; "TnueduRR_2221"; "TnueduRR_3221"; "VnueduLL_1221"; "VnueduLL_2221"; "VnueduLL_3221"; "VnueduLR_1221"; "VnueduLR_2221"; "VnueduLR_3221"]);
  ("ustaunu", ["SnueduRL_1321"; "SnueduRL_2321"; "SnueduRL_3321"; "SnueduRR_1321"; "SnueduRR_2321"; "SnueduRR_3321"; "TnueduRR_1321"; "TnueduRR_2321"; "TnueduRR_3321"; "VnueduLL_1321"; "VnueduLL_2321"; "VnueduLL_3321"; "VnueduLR_1321"; "VnueduLR_2321"; "VnueduLR_3321"]);
  ("csenu", ["SnueduRL_1122"; "SnueduRL_2122"; "SnueduRL_3122"; "SnueduRR_1122"; "SnueduRR_2122"; "SnueduRR_3122"; "TnueduRR_1122"; "TnueduRR_2122"; "TnueduRR_3122"; "VnueduLL_1122"; "VnueduLL_2122"; "VnueduLL_3122"; "VnueduLR_1122"; "VnueduLR_2122"; "VnueduLR_3122"]);
  ("csmunu", ["SnueduRL_1222"; "SnueduRL_2222"; "SnueduRL_3222"; "SnueduRR_1222"; "SnueduRR_2222"; "SnueduRR_3222"; "TnueduRR_1222"; "TnueduRR_2222"; "TnueduRR_3222"; "VnueduLL_1222"; "VnueduLL_2222"; "VnueduLL_3222"; "VnueduLR_1222"; "VnueduLR_2222"; "VnueduLR_3222"]);
  ("cstaunu", ["SnueduRL_1322"; "SnueduRL_2322"; "SnueduRL_3322"; "SnueduRR_1322"; "SnueduRR_2322"; "SnueduRR_3322"; "TnueduRR_1322"; "TnueduRR_2322"; "TnueduRR_3322"; "VnueduLL_1322"; "VnueduLL_2322"; "VnueduLL_3322"; "VnueduLR_1322"; "VnueduLR_2322"; "VnueduLR_3322"]);
  ("udenu", ["SnueduRL_1111"; "SnueduRL_2111"; "SnueduRL_3111"; "SnueduRR_1111"; "SnueduRR_2111"; "SnueduRR_3111"; "TnueduRR_1111"; "TnueduRR_2111"; "TnueduRR_3111"; "VnueduLL_1111"; "VnueduLL_2111"; "VnueduLL_3111"; "VnueduLR_1111"; "VnueduLR_2111"; "VnueduLR_3111"]);
  ("udmunu", ["SnueduRL_1211"; "SnueduRL_2211"; "SnueduRL_3211"; "SnueduRR_1211"; "SnueduRR_2211"; "SnueduRR_3211"; "TnueduRR_1211"; "TnueduRR_2211"; "TnueduRR_3211"; "VnueduLL_1211"; "VnueduLL_2211"; "VnueduLL_3211"; "VnueduLR_1211"; "VnueduLR_2211"; "VnueduLR_3211"]);
  ("udtaunu", ["SnueduRL_1311"; "SnueduRL_2311"; "SnueduRL_3311"; "SnueduRR_1311"; "SnueduRR_2311"; "SnueduRR_3311"; "TnueduRR_1311"; "TnueduRR_2311"; "TnueduRR_3311"; "VnueduLL_1311"; "VnueduLL_2311"; "VnueduLL_3311"; "VnueduLR_1311"; "VnueduLR_2311"; "VnueduLR_3311"]);
  ("cdenu", ["SnueduRL_1112"; "SnueduRL_2112"; "SnueduRL_3112"; "SnueduRR_1112"; "SnueduRR_2112"; "SnueduRR_3112"; "TnueduRR_1112"; "TnueduRR_2112"; "TnueduRR_3112"; "VnueduLL_1112"; "VnueduLL_2112"; "VnueduLL_3112"; "VnueduLR_1112"; "VnueduLR_2112"; "VnueduLR_3112"]);
  ("cdmunu", ["SnueduRL_1212"; "SnueduRL_2212"; "SnueduRL_3212"; "SnueduRR_1212"; "SnueduRR_2212"; "SnueduRR_3212"; "TnueduRR_1212"; "TnueduRR_2212"; "TnueduRR_3212"; "VnueduLL_1212"; "VnueduLL_2212"; "VnueduLL_3212"; "VnueduLR_1212"; "VnueduLR_2212"; "VnueduLR_3212"]);
  ("cdtaunu", ["SnueduRL_1312"; "SnueduRL_2312"; "SnueduRL_3312"; "SnueduRR_1312"; "SnueduRR_2312"; "SnueduRR_3312"; "TnueduRR_1312"; "TnueduRR_2312"; "TnueduRR_3312"; "VnueduLL_1312"; "VnueduLL_2312"; "VnueduLL_3312"; "VnueduLR_1312"; "VnueduLR_2312"; "VnueduLR_3312"]);
  ("sbnunu", ["VnudLL_1123"; "VnudLL_1223"; "VnudLL_1232"; "VnudLL_1323"; "VnudLL_1332"; "VnudLL_2223"; "VnudLL_2323"; "VnudLL_2332"; "VnudLL_3323"; "VnudLR_1123"; "VnudLR_1223"; "VnudLR_1232"; "VnudLR_1323"; "VnudLR_1332"; "VnudLR_2223"; "VnudLR_2323"; "VnudLR_2332"; "VnudLR_3323"]);
  ("dbnunu", ["VnudLL_1113"; "VnudLL_1213"; "VnudLL_1231"; "VnudLL_1313"; "VnudLL_1331"; "VnudLL_2213"; "VnudLL_2313"; "VnudLL_2331"; "VnudLL_3313"; "VnudLR_1113"; "VnudLR_1213"; "VnudLR_1231"; "VnudLR_1313"; "VnudLR_1331"; "VnudLR_2213"; "VnudLR_2313"; "VnudLR_2331"; "VnudLR_3313"]);
  ("sdnunu", ["VnudLL_1112"; "VnudLL_1212"; "VnudLL_1221"; "VnudLL_1312"; "VnudLL_1321"; "VnudLL_2212"; "VnudLL_2312"; "VnudLL_2321"; "VnudLL_3312"; "VnudLR_1112"; "VnudLR_1212"; "VnudLR_1221"; "VnudLR_1312"; "VnudLR_1321"; "VnudLR_2212"; "VnudLR_2312"; "VnudLR_2321"; "VnudLR_3312"]);
  ("cununu", ["VnuuLL_1112"; "VnuuLL_1212"; "VnuuLL_1221"; "VnuuLL_1312"; "VnuuLL_1321"; "VnuuLL_2212"; "VnuuLL_2312"; "VnuuLL_2321"; "VnuuLL_3312"; "VnuuLR_1112"; "VnuuLR_1212"; "VnuuLR_1221"; "VnuuLR_1312"; "VnuuLR_1321"; "VnuuLR_2212"; "VnuuLR_2312"; "VnuuLR_2321"; "VnuuLR_3312"]);
  ("ffnunu", ["VnudLL_1111"; "VnudLL_1122"; "VnudLL_1133"; "VnudLL_1211"; "VnudLL_1222"; "VnudLL_1233"; "VnudLL_1311"; "VnudLL_1322"; "VnudLL_1333"; "VnudLL_2211"; "VnudLL_2222"; "VnudLL_2233"; "VnudLL_2311"; "VnudLL_2322"; "VnudLL_2333"; "VnudLL_3311"; "VnudLL_3322"; "VnudLL_3333"; "VnudLR_1111"; "VnudLR_1122"; "VnudLR_1133"; "VnudLR_1211"; "VnudLR_1222"; "VnudLR_1233"; "VnudLR_1311"; "VnudLR_1322"; "VnudLR_1333"; "VnudLR_2211"; "VnudLR_2222"; "VnudLR_2233"; "VnudLR_2311"; "VnudLR_2322"; "VnudLR_2333"; "VnudLR_3311"; "VnudLR_3322"; "VnudLR_3333"; "VnueLL_1111"; "VnueLL_1122"; "VnueLL_1133"; "VnueLL_1211"; "VnueLL_1222"; "VnueLL_1233"; "VnueLL_1311"; "VnueLL_1322"; "VnueLL_1333"; "VnueLL_2211"; "VnueLL_2222"; "VnueLL_2233"; "VnueLL_2311"; "VnueLL_2322"; "VnueLL_2333"; "VnueLL_3311"; "VnueLL_3322"; "VnueLL_3333"; "VnueLR_1111"; "VnueLR_1122"; "VnueLR_1133"; "VnueLR_1211"; "VnueLR_1222"; "VnueLR_1233"; "VnueLR_1311"; "VnueLR_1322"; "VnueLR_1333"; "VnueLR_2211"; "VnueLR_2222"; "VnueLR_2233"; "VnueLR_2311"; "VnueLR_2322"; "VnueLR_2333"; "VnueLR_3311"; "VnueLR_3322"; "VnueLR_3333"; "VnuuLL_1111"; "VnuuLL_1122"; "VnuuLL_1211"; "VnuuLL_1222"; "VnuuLL_1311"; "VnuuLL_1322"; "VnuuLL_2211"; "VnuuLL_2222"; "VnuuLL_2311"; "VnuuLL_2322"; "VnuuLL_3311"; "VnuuLL_3322"; "VnuuLR_1111"; "VnuuLR_1122"; "VnuuLR_1211"; "VnuuLR_1222"; "VnuuLR_1311"; "VnuuLR_1322"; "VnuuLR_2211"; "VnuuLR_2222"; "VnuuLR_2311"; "VnuuLR_2322"; "VnuuLR_3311"; "VnuuLR_3322"]);
  ("uddnu", ["SdudRL_1111"; "SdudRL_1112"; "SdudRL_1113"; "SuddLL_1111"; "SuddLL_1112"; "SuddLL_1113"]);
  ("udsnu", ["SdduRL_1211"; "SdduRL_1212"; "SdduRL_1213"; "SdudRL_1121"; "SdudRL_1122"; "SdudRL_1123"; "SdudRL_2111"; "SdudRL_2112"; "SdudRL_2113"; "SuddLL_1121"; "SuddLL_1122"; "SuddLL_1123"; "SuddLL_1211"; "SuddLL_1212"; "SuddLL_1213"]);
  ("udbnu", ["SdduRL_1311"; "SdduRL_1312"; "SdduRL_1313"; "SdudRL_1131"; "SdudRL_1132"; "SdudRL_1133"; "SdudRL_3111"; "SdudRL_3112"; "SdudRL_3113"; "SuddLL_1131"; "SuddLL_1132"; "SuddLL_1133"; "SuddLL_1311"; "SuddLL_1312"; "SuddLL_1313"]);
  ("ussnu", ["SdudRL_2121"; "SdudRL_2122"; "SdudRL_2123"; "SuddLL_1221"; "SuddLL_1222"; "SuddLL_1223"]);
  ("usbnu", ["SdduRL_2311"; "SdduRL_2312"; "SdduRL_2313"; "SdudRL_2131"; "SdudRL_2132"; "SdudRL_2133"; "SdudRL_3121"; "SdudRL_3122"; "SdudRL_3123"; "SuddLL_1231"; "SuddLL_1232"; "SuddLL_1233"; "SuddLL_1321"; "SuddLL_1322"; "SuddLL_1323"]);
  ("ubbnu", ["SdudRL_3131"; "SdudRL_3132"; "SdudRL_3133"; "SuddLL_1331"; "SuddLL_1332"; "SuddLL_1333"]);
  ("cddnu", ["SdudRL_1211"; "SdudRL_1212"; "SdudRL_1213"; "SuddLL_2111"; "SuddLL_2112"; "SuddLL_2113"]);
  ("cdsnu", ["SdduRL_1221"; "SdduRL_1222"; "SdduRL_1223"; "SdudRL_1221"; "SdudRL_1222"; "SdudRL_1223"; "SdudRL_2211"; "SdudRL_2212"; "SdudRL_2213"; "SuddLL_2121"; "SuddLL_2122"; "SuddLL_2123"; "SuddLL_2211"; "SuddLL_2212"; "SuddLL_2213"]);
  ("cdbnu", ["SdduRL_1321"; "SdduRL_1322"; "SdduRL_1323"; "SdudRL_1231"; "SdudRL_1232"; "SdudRL_1233"; "SdudRL_3211"; "SdudRL_3212"; "SdudRL_3213"; "SuddLL_2131"; "SuddLL_2132"; "SuddLL_2133"; "SuddLL_2311"; "SuddLL_2312"; "SuddLL_2313"]);
  ("cssnu", ["SdudRL_2221"; "SdudRL_2222"; "SdudRL_2223"; "SuddLL_2221"; "SuddLL_2222"; "SuddLL_2223"]);
  ("csbnu", ["SdduRL_2321"; "SdduRL_2322"; "SdduRL_2323"; "SdudRL_2231"; "SdudRL_2232"; "SdudRL_2233"; "SdudRL_3221"; "SdudRL_3222"; "SdudRL_3223"; "SuddLL_2231"; "SuddLL_2232"; "SuddLL_2233"; "SuddLL_2321"; "SuddLL_2322"; "SuddLL_2323"]);
  ("cbbnu", ["SdudRL_3231"; "SdudRL_3232"; "SdudRL_3233"; "SuddLL_2331"; "SuddLL_2332"; "SuddLL_2333"]);
  ("uude", ["SduuLL_1111"; "SduuLR_1111"; "SduuRL_1111"; "SduuRR_1111"]);
  ("uudmu", ["SduuLL_1112"; "SduuLR_1112"; "SduuRL_1112"; "SduuRR_1112"]);
  ("uudtau", ["SduuLL_1113"; "SduuLR_1113"; "SduuRL_1113"; "SduuRR_1113"]);
  ("ucde", ["SduuLL_1121"; "SduuLL_1211"; "SduuLR_1121"; "SduuLR_1211"; "SduuRL_1121"; "SduuRL_1211"; "SduuRR_1121"; "SduuRR_1211"; "SuudLR_1211"; "SuudRL_1211"]);
  ("ucdmu", ["SduuLL_1122"; "SduuLL_1212"; "SduuLR_1122"; "SduuLR_1212"; "SduuRL_1122"; "SduuRL_1212"; "SduuRR_1122"; "SduuRR_1212"; "SuudLR_1212"; "SuudRL_1212"]);
  ("ucdtau", ["SduuLL_1123"; "SduuLL_1213"; "SduuLR_1123"; "SduuLR_1213"; "SduuRL_1123"; "SduuRL_1213"; "SduuRR_1123"; "SduuRR_1213"; "SuudLR_1213"; "SuudRL_1213"]);
  ("ccde", ["SduuLL_1221"; "SduuLR_1221"; "SduuRL_1221"; "SduuRR_1221"]);
  ("ccdmu", ["SduuLL_1222"; "SduuLR_1222"; "SduuRL_1222"; "SduuRR_1222"]);
  ("ccdtau", ["SduuLL_1223"; "SduuLR_1223"; "SduuRL_1223"; "SduuRR_1223"]);
  ("uuse", ["SduuLL_2111"; "SduuLR_2111"; "SduuRL_2111"; "SduuRR_2111"]);
  ("uusmu", ["SduuLL_2112"; "SduuLR_2112"; "SduuRL_2112"; "SduuRR_2112"]);
  ("uustau", ["SduuLL_2113"; "SduuLR_2113"; "SduuRL_2113"; "SduuRR_2113"]);
  ("ucse", ["SduuLL_2121"; "SduuLL_2211"; "SduuLR_2121"; "SduuLR_2211"; "SduuRL_2121"; "SduuRL_2211"; "SduuRR_2121"; "SduuRR_2211"; "SuudLR_1221"; "SuudRL_1221"]);
  ("ucsmu", ["SduuLL_2122"; "SduuLL_2212"; "SduuLR_2122"; "SduuLR_2212"; "SduuRL_2122"; "SduuRL_2212"; "SduuRR_2122"; "SduuRR_2212"; "SuudLR_1222"; "SuudRL_1222"]);
  ("ucstau", ["SduuLL_2123"; "SduuLL_2213"; "SduuLR_2123"; "SduuLR_2213"; "SduuRL_2123"; "SduuRL_2213"; "SduuRR_2123"; "SduuRR_2213"; "SuudLR_1223"; "SuudRL_1223"]);
  ("ccse", ["SduuLL_2221"; "SduuLR_2221"; "SduuRL_2221"; "SduuRR_2221"]);
  ("ccsmu", ["SduuLL_2222"; "SduuLR_2222"; "SduuRL_2222"; "SduuRR_2222"]);
  ("ccstau", ["SduuLL_2223"; "SduuLR_2223"; "SduuRL_2223"; "SduuRR_2223"]);
  ("uube", ["SduuLL_3111"; "SduuLR_3111"; "SduuRL_3111"; "SduuRR_3111"]);
  ("uubmu", ["SduuLL_3112"; "SduuLR_3112"; "SduuRL_3112"; "SduuRR_3112"]);
  ("uubtau", ["SduuLL_3113"; "SduuLR_3113"; "SduuRL_3113"; "SduuRR_3113"]);
  ("ucbe", ["SduuLL_3121"; "SduuLL_3211"; "SduuLR_3121"; "SduuLR_3211"; "SduuRL_3121"; "SduuRL_3211"; "SduuRR_3121"; "SduuRR_3211"; "SuudLR_1231"; "SuudRL_1231"]);
  ("ucbmu", ["SduuLL_3122"; "SduuLL_3212"; "SduuLR_3122"; "SduuLR_3212"; "SduuRL_3122"; "SduuRL_3212"; "SduuRR_3122"; "SduuRR_3212"; "SuudLR_1232"; "SuudRL_1232"]);
  ("ucbtau", ["SduuLL_3123"; "SduuLL_3213"; "SduuLR_3123"; "SduuLR_3213"; "SduuRL_3123"; "SduuRL_3213"; "SduuRR_3123"; "SduuRR_3213"; "SuudLR_1233"; "SuudRL_1233"]);
  ("ccbe", ["SduuLL_3221"; "SduuLR_3221"; "SduuRL_3221"; "SduuRR_3221"]);
  ("ccbmu", ["SduuLL_3222"; "SduuLR_3222"; "SduuRL_3222"; "SduuRR_3222"]);
  ("ccbtau", ["SduuLL_3223"; "SduuLR_3223"; "SduuRL_3223"; "SduuRR_3223"])].
