(* Model of wilson/translate/smeft_higgs.py: the translations between the Higgs-Warsaw up and
   the Warsaw up basis.

   Both functions read only from their (completed) input dictionary and assign every output
   key once, so they are modelled as a list of assignments computed from the input values.
   The two bases are parameters of the model (the WCxf basis files are not in the repository):
   allH and allW are basis.all_wcs.  Numbers are elements of a star field; the 3x3 numpy
   arrays are functions of two indices. *)
From Coq Require Import List Bool ZArith QArith Arith Lia String Ascii Reals.
From Verif Require Import PyBase Num SymModel EftModel RealC.
Import ListNotations.
Local Open Scope string_scope.
Local Open Scope list_scope.

Section Higgs.
Context {K : StarField}.
Local Open Scope K_scope.
Local Notation "2" := (1 + 1).
Local Notation "3" := (1 + (1 + 1)).
Local Notation "4" := ((1 + 1) * (1 + 1)).
Local Notation "6" := ((1 + 1) * (1 + (1 + 1))).
Local Notation "8" := ((1 + 1) * ((1 + 1) * (1 + 1))).

(* the local variables lam, s2w, gs, gw, gp of smeft_higgs.py:37-46 = 219-228; how they follow
   from the input parameters is modelled in higgs_par below (over the complex numbers) *)
Record hpar := { h_lam : K; h_s2w : K; h_gs : K; h_gw : K; h_gp : K }.

Definition mat := nat -> nat -> K.
(* A @ B for 3x3 arrays; A.T.conjugate() *)
Definition mmul (A B : mat) : mat := fun i j => (A i 0%nat * B 0%nat j + A i 1%nat * B 1%nat j + A i 2%nat * B 2%nat j).
Definition mdag (A : mat) : mat := fun i j => (A j i)^*.
(* np.eye(3) * c *)
Definition meye (c : K) : mat := fun i j => if (i =? j)%nat then c else 0.
(* X filled with the values of the upper triangle, then X + X.T.conjugate() - np.diag(np.diag(X)):
   smeft_higgs.py:165-172, 247-257 *)
Definition upper (f : mat) : mat := fun i j => if (i <=? j)%nat then f i j else 0.
Definition msym (X : mat) : mat := fun i j => X i j + (X j i)^* - (if (i =? j)%nat then X i j else 0).

Definition pairs3 : list (nat * nat) := list_prod (seq 0 3) (seq 0 3).

Section Par.
Variables (p : hpar) (V : mat).
Let lam := h_lam p.
Let s2w := h_s2w p.
Let c2w := 1 - h_s2w p.                    (* smeft_higgs.py:44, 226 *)
Let gw := h_gw p.
Let gp := h_gp p.
Let gw2 := h_gw p * h_gw p.                (* 47-49, 229-231 *)
Let gp2 := h_gp p * h_gp p.
Let gs2 := h_gs p * h_gs p.

(* smeft_higgs.py:51-53 *)
Definition hw_dM (H : string -> K) : K := (H "deltagWlL_11" + H "deltagWlL_22" - H "ll_1221" / 2) / 2.
(* smeft_higgs.py:141-150 *)
Definition hw_C1 (H : string -> K) : K :=
  (H "czBox" * gw2 + H "czz" * gp2 - H "czgamma" * gp2 * (c2w - s2w) - H "cgammagamma" * gw2 * (s2w * s2w)) * gw2 / (gw2 - gp2).
(* smeft_higgs.py:152-162 *)
Definition hw_C2 (H : string -> K) : K :=
  (H "czBox" + H "czz" - H "czgamma" * (c2w - s2w) - H "cgammagamma" * s2w * c2w) * gw2 * gp2 / (gw2 - gp2).
(* smeft_higgs.py:164-173 *)
Definition hw_rot (H : string -> K) : mat :=
  mmul (mmul V (msym (upper (fun i j => H (label "deltagZdL" [i; j]))))) (mdag V).

(* smeft_higgs.py:55-139 *)
Definition hw_scalars (H : string -> K) : list (string * K) :=
  [("phi", 3 * lam * H "deltacz" + 8 * lam * hw_dM H - H "deltalambda3"
           + (H "czBox" * gw2 + H "czz" * gp2 - H "czgamma" * gp2 * (c2w - s2w) - H "cgammagamma" * gw2 * (s2w * s2w))
             * 4 * gw2 * lam / (gw2 - gp2));
   ("phiBox", H "deltacz" + 2 * hw_dM H
              + (H "czBox" * (3 * gw2 - gp2) + 2 * H "czz" * gp2 - 2 * H "czgamma" * gp2 * (c2w - s2w)
                 - 2 * H "cgammagamma" * gw2 * (s2w * s2w)) * gw2 / (gw2 - gp2) / 2);
   ("phiD", - (H "czBox" + H "czz" - H "czgamma" * (c2w - s2w) - H "cgammagamma" * s2w * c2w) * 2 * gw2 * gp2 / (gw2 - gp2)
            - 4 * hw_dM H);
   ("phiG", H "cgg" * gs2 / 4);
   ("phiW", (H "czz" + H "czgamma" * 2 * s2w + H "cgammagamma" * (s2w * s2w)) * gw2 / 4);
   ("phiB", (H "czz" - H "czgamma" * 2 * c2w + H "cgammagamma" * (c2w * c2w)) * gp2 / 4);
   ("phiWB", (H "czz" - H "czgamma" * (c2w - s2w) - H "cgammagamma" * c2w * s2w) * gw * gp / 2);
   ("phiGtilde", H "cggtilde" * gs2 / 4);
   ("phiWtilde", (H "czztilde" + H "czgammatilde" * 2 * s2w + H "cgammagammatilde" * (s2w * s2w)) * gw2 / 4);
   ("phiBtilde", (H "czztilde" - H "czgammatilde" * 2 * c2w + H "cgammagammatilde" * (c2w * c2w)) * gp2 / 4);
   ("phiWtildeB", (H "czztilde" - H "czgammatilde" * (c2w - s2w) - H "cgammagammatilde" * c2w * s2w) * gw * gp / 2)].
(* smeft_higgs.py:175-196 *)
Definition hw_vertex (H : string -> K) (ij : nat * nat) : list (string * K) :=
  let (i, j) := ij in
  let facp := meye (hw_C1 H) i j in
  let fac := meye (hw_C2 H) i j in
  (if (i <=? j)%nat then
     [(label "phil3" [i; j], H (label "deltagWlL" [i; j]) + facp / 2);
      (label "phiq3" [i; j], H (label "deltagZuL" [i; j]) - hw_rot H i j + facp / 2);
      (label "phil1" [i; j], - (2) * H (label "deltagZeL" [i; j]) - H (label "deltagWlL" [i; j]) + fac / 2);
      (label "phiq1" [i; j], - H (label "deltagZuL" [i; j]) - hw_rot H i j - fac / 6);
      (label "phie" [i; j], - (2) * H (label "deltagZeR" [i; j]) + fac);
      (label "phiu" [i; j], - (2) * H (label "deltagZuR" [i; j]) - 2 / 3 * fac);
      (label "phid" [i; j], - (2) * H (label "deltagZdR" [i; j]) + 1 / 3 * fac)]
   else [])
  ++ [(label "phiud" [i; j], - (2) * H (label "deltagWqR" [i; j]))].
Definition hw_values (H : string -> K) : list (string * K) :=
  hw_scalars H ++ flat_map (hw_vertex H) pairs3.

(* the local function f of warsaw_up_to_higgslike, smeft_higgs.py:233-244 *)
Definition wh_f (W : string -> K) (T3 Q : K) (i j : nat) : K :=
  if (i =? j)%nat then
    let Acoeff := - gw * gp / (gw2 - gp2) * W "phiWB" in
    let Zcoeff := W "ll_1221" / 4 - kre (W "phil3_11") / 2 - kre (W "phil3_22") / 2 - W "phiD" / 4 in
    Acoeff * Q + Zcoeff * (T3 + Q * gp2 / (gw2 - gp2))
  else 0.
(* smeft_higgs.py:246-258 *)
Definition wh_rot (W : string -> K) : mat :=
  let c1 := msym (upper (fun i j => W (label "phiq1" [i; j]))) in
  let c3 := msym (upper (fun i j => W (label "phiq3" [i; j]))) in
  mmul (mmul (mdag V) (fun i j => c3 i j + c1 i j)) V.
(* smeft_higgs.py:260-291 *)
Definition wh_vertex (W : string -> K) (ij : nat * nat) : list (string * K) :=
  let (i, j) := ij in
  let half := 1 / 2 in
  (if (i <=? j)%nat then
     [(label "deltagWlL" [i; j], W (label "phil3" [i; j]) + wh_f W half 0 i j - wh_f W (- half) (- (1)) i j);
      (label "deltagZeL" [i; j], - half * W (label "phil3" [i; j]) - half * W (label "phil1" [i; j]) + wh_f W (- half) (- (1)) i j);
      (label "deltagZeR" [i; j], - half * W (label "phie" [i; j]) + wh_f W 0 (- (1)) i j);
      (label "deltagZuL" [i; j], half * W (label "phiq3" [i; j]) - half * W (label "phiq1" [i; j]) + wh_f W half (2 / 3) i j);
      (label "deltagZdL" [i; j], - half * wh_rot W i j + wh_f W (- half) (- (1 / 3)) i j);
      (label "deltagZuR" [i; j], - half * W (label "phiu" [i; j]) + wh_f W 0 (2 / 3) i j);
      (label "deltagZdR" [i; j], - half * W (label "phid" [i; j]) + wh_f W 0 (- (1 / 3)) i j)]
   else [])
  ++ [(label "deltagWqR" [i; j], - W (label "phiud" [i; j]) / 2)].
(* smeft_higgs.py:293-348 *)
Definition wh_scalars (W : string -> K) : list (string * K) :=
  [("deltalambda3", lam * (3 * W "phiBox" - 3 / 4 * W "phiD" + 1 / 4 * W "ll_1221" - W "phil3_11" / 2 - W "phil3_22" / 2)
                    - W "phi");
   ("deltacz", W "phiBox" - W "phiD" / 4 + 3 / 4 * W "ll_1221" - 3 / 2 * W "phil3_11" - 3 / 2 * W "phil3_22");
   ("czBox", (- W "ll_1221" / 2 + W "phiD" / 2 + W "phil3_11" + W "phil3_22") / gw2);
   ("cgg", 4 / gs2 * W "phiG");
   ("cgammagamma", 4 * (W "phiW" / gw2 + W "phiB" / gp2 - W "phiWB" / gw / gp));
   ("czz", 4 * (gw2 * W "phiW" + gp2 * W "phiB" + gw * gp * W "phiWB") / ((gw2 + gp2) * (gw2 + gp2)));
   ("czgamma", (4 * W "phiW" - 4 * W "phiB" - 2 * (gw2 - gp2) / (gw * gp) * W "phiWB") / (gw2 + gp2));
   ("cggtilde", 4 / gs2 * W "phiGtilde");
   ("cgammagammatilde", 4 * (W "phiWtilde" / gw2 + W "phiBtilde" / gp2 - W "phiWtildeB" / gw / gp));
   ("czztilde", 4 * (gw2 * W "phiWtilde" + gp2 * W "phiBtilde" + gw * gp * W "phiWtildeB") / ((gw2 + gp2) * (gw2 + gp2)));
   ("czgammatilde", (4 * W "phiWtilde" - 4 * W "phiBtilde" - 2 * (gw2 - gp2) / (gw * gp) * W "phiWtildeB") / (gw2 + gp2))].
Definition wh_values (W : string -> K) : list (string * K) :=
  flat_map (wh_vertex W) pairs3 ++ wh_scalars W.
End Par.

(* the keys read from H and from W *)
Definition tri (n : string) : list string :=
  flat_map (fun ij : nat * nat => let (i, j) := ij in if (i <=? j)%nat then [label n [i; j]] else []) pairs3.
Definition full (n : string) : list string := map (fun ij : nat * nat => let (i, j) := ij in label n [i; j]) pairs3.
Definition hw_reads : list string :=
  ["deltalambda3"; "deltacz"; "czBox"; "cgg"; "cgammagamma"; "czz"; "czgamma"; "cggtilde"; "cgammagammatilde"; "czztilde"; "czgammatilde"]
  ++ flat_map tri ["deltagWlL"; "deltagZeL"; "deltagZeR"; "deltagZuL"; "deltagZdL"; "deltagZuR"; "deltagZdR"] ++ full "deltagWqR" ++ ["ll_1221"].
Definition wh_reads : list string :=
  ["phi"; "phiBox"; "phiD"; "phiG"; "phiW"; "phiB"; "phiWB"; "phiGtilde"; "phiWtilde"; "phiBtilde"; "phiWtildeB"]
  ++ flat_map tri ["phil3"; "phiq3"; "phil1"; "phiq1"; "phie"; "phiu"; "phid"] ++ full "phiud" ++ ["ll_1221"].

(* {k: C.get(k, 0) for k in basis.all_wcs}, smeft_higgs.py:23, 206 *)
Definition complete (all : list string) (C : dict string K) : dict string K :=
  fold_left (fun d k => dset d k (dgetd C k 0)) all [].

(* common frame: complete the input, KeyError if a key that is read is not in the basis, assign
   the values to a copy, keep the keys of the target basis (198-200, 350-352).  A division by
   zero (ZeroDivisionError in Python) is outside the model: the field's total division is used,
   and the theorems exclude the parameters for which a denominator vanishes. *)
Definition translate_with (reads : list string) (values : (string -> K) -> list (string * K))
    (from to : list string) (C : dict string K) : res (dict string K) :=
  let X := complete from C in
  if forallb (fun k => dmem X k) reads
  then Ok (dfilter (fun k _ => kmem k to) (dupdate X (values (fun k => dgetd X k 0))))
  else Err KeyError.
(* smeft_higgs.py:18-200; V is ckm_tree(Vus, Vub, Vcb, gamma) *)
Definition higgslike_to_warsaw_up (allH allW : list string) (p : hpar) (V : mat) (C : dict string K) : res (dict string K) :=
  translate_with hw_reads (hw_values p V) allH allW C.
(* smeft_higgs.py:203-352 *)
Definition warsaw_up_to_higgslike (allH allW : list string) (p : hpar) (V : mat) (C : dict string K) : res (dict string K) :=
  translate_with wh_reads (wh_values p V) allW allH C.
End Higgs.
Arguments hpar : clear implicits.

(* smeft_higgs.py:34-49 = 216-231: the local variables as functions of the input parameters
   p["GF"], p["m_h"], p["m_Z"], p["alpha_e"], p["alpha_s"], computed in the real numbers *)
Local Open Scope R_scope.
Record hinput := { i_GF : R; i_mh : R; i_mZ : R; i_alpha_e : R; i_alpha_s : R }.
Definition higgs_par (q : hinput) : hpar CR :=
  let v := 1 / sqrt (sqrt 2 * i_GF q) in
  let lam := i_mh q * i_mh q / (2 * (v * v)) in
  let e := sqrt (4 * PI * i_alpha_e q) in
  let s2w := 1 / 2 * (1 - sqrt (1 - (4 * PI * i_alpha_e q) / (sqrt 2 * i_GF q * (i_mZ q * i_mZ q)))) in
  let gs := sqrt (4 * PI * i_alpha_s q) in
  let sw := sqrt s2w in
  let gw := e / sw in
  let c2w := 1 - s2w in
  let cw := sqrt c2w in
  let gp := e / cw in
  {| h_lam := rc lam; h_s2w := rc s2w; h_gs := rc gs; h_gw := rc gw; h_gp := rc gp |}.
