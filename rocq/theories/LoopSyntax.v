(* The form of the formulas of wilson/match/smeft_loop.py (LoopData.v) *)
From Coq Require Import List Bool ZArith String.
From Verif Require Import BetaSpec.
Import ListNotations.

(* scalar variables: mW, mZ, mH, mt, vT, g1bar, g2bar, g3bar, pi, sqrt(2), Nc, cf, aEvan, ...,
   complex(0,1), and log(scale**2/m**2) for m = mW, mZ, mH, mt *)
Inductive base := BW | BZ | BH | Bt | Bv | Bg1 | Bg2 | Bg3 | Bpi | Br2 | BNc | Bcf | BEv | Bi | BlW | BlZ | BlH | Blt.
(* a product of powers *)
Definition powers : Type := list (base * Z).
(* a sum of products with integer coefficients *)
Definition psum : Type := list (Z * powers).
(* powers of variables and of sums *)
Definition mono : Type := powers * list (psum * Z).
(* a sum of monomials with rational coefficients (numerator, denominator, monomial) *)
Inductive term := T (n : Z) (d : positive) (m : mono).
Arguments T _%Z _%positive _.
Definition pref : Type := list term.
(* operands of einsum: C[k]; kd, kdt; V, V^dagger; the vectors mu, md, me and np.diag of them *)
Inductive opnd := OC (k : string) | Okd | Okt | OV | OVd | OM (f : field) | OD (f : field).
(* einsum(spec, operands) *)
Definition tensor : Type := string * list opnd.
(* scalar factor * C[name] * tensor *)
Definition group : Type := option tensor * option string * pref.
