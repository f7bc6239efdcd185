(* Model of wilson/run/smeft/smpar.py: Standard Model parameters in the presence of
   dimension-six coefficients, over the real and complex numbers of Coq's standard library.
   Rounding is not modelled.  A Python/numpy division by zero is modelled as
   ZeroDivisionError where the code's control flow depends on it. *)
From Coq Require Import List Bool ZArith Arith Lia String Ascii Reals.
From Verif Require Import PyBase Num SymModel EftModel NpModel RealC.
Import ListNotations.
Local Open Scope string_scope.
Local Open Scope list_scope.
Local Open Scope R_scope.

Definition cdictR := dict string (cval CR).
Definition cmat := nat -> nat -> CR.
(* C[k]  and  C[k].real *)
Definition getC (C : cdictR) (k : string) : res (cval CR) := match dget C k with Some v => Ok v | None => Err KeyError end.
Definition getz (C : cdictR) (k : string) : res CR := rmap (fun v => entry v []) (getC C k).
Definition getre (C : cdictR) (k : string) : res R := rmap fst (getz C k).
Definition getm (C : cdictR) (k : string) : res cmat := rmap (fun v => fun i j => entry v [i; j]) (getC C k).

(* smpar.py:37-62 m2Lambda_to_vMh2; the dictionary {'v': , 'Mh2': } is a pair *)
Definition m2Lambda_to_vMh2 (m2 Lambda : R) (C : cdictR) : res (R * R) :=
  bind (getre C "phi") (fun Cphi =>
  bind (getre C "phiBox") (fun b =>
  bind (getre C "phiD") (fun d =>
  let Ckin := b - d / 4 in
  bind (if Rlt_dec (Rabs Cphi) (/ 10 ^ 16)
        then if Req_EM_T Lambda 0 then Err ZeroDivisionError else Ok (2 * m2 / Lambda)
        else let sqrt_arg := Lambda ^ 2 - 12 * Cphi * m2 in
             if Rle_dec 0 sqrt_arg then Ok ((Lambda - sqrt sqrt_arg) / (3 * Cphi)) else Err ValueError)
  (fun v2 =>
  if Rlt_dec 0 v2 then
    if Req_EM_T (1 - 2 * Ckin * v2) 0 then Err ZeroDivisionError else
    let Mh2 := v2 / (1 - 2 * Ckin * v2) * (Lambda - 3 * Cphi * v2) in
    if Rlt_dec 0 Mh2 then Ok (sqrt v2, Mh2) else Err ValueError
  else Err ValueError)))).

(* smpar.py:64-80 vMh2_to_m2Lambda; the dictionary {'m2': , 'Lambda': } is a pair *)
Definition vMh2_to_m2Lambda (v Mh2 : R) (C : cdictR) : res (R * R) :=
  if Rlt_dec 0 v then if Rlt_dec 0 Mh2 then
    let v2 := v ^ 2 in
    bind (getre C "phi") (fun Cphi =>
    bind (getre C "phiBox") (fun b =>
    bind (getre C "phiD") (fun d =>
    let Ckin := b - d / 4 in
    let Lambda := Mh2 / v2 - 2 * Ckin * Mh2 + 3 * Cphi * v2 in
    let m2 := Lambda * v2 / 2 - 3 / 4 * Cphi * v2 ^ 2 in
    Ok (m2, Lambda))))
  else Err ValueError else Err ValueError.

Section Oracles.
(* scipy.optimize.brentq(f, a, b); ckmutil.ckm.ckm_tree; ckmutil.diag.msvd; cmath.phase *)
Variable brentq : (R -> R) -> R -> R -> res R.
Variable ckm_tree : R -> R -> R -> R -> cmat.
Variable msvd : cmat -> cmat * (nat -> R) * cmat.
Variable phase : CR -> R.

(* the local function ebar_calc of smpar.py:89-95 *)
Definition ebar_calc (gb gpb eps : R) : R :=
  gb * gpb / sqrt (gb ^ 2 + gpb ^ 2) * (1 - eps * gb * gpb / (gb ^ 2 + gpb ^ 2)).
(* smpar.py:82-101 get_gpbar; the exceptions caught around brentq all become ValueError *)
Definition get_gpbar (ebar gbar v : R) (C : cdictR) : res R :=
  bind (getz C "phiWB") (fun wb =>
  bind (if cx_eqb wb (rc 0) then
          if Rle_dec 0 (gbar ^ 2 - ebar ^ 2) then
            if Req_EM_T (sqrt (gbar ^ 2 - ebar ^ 2)) 0 then Err ZeroDivisionError
            else Ok (ebar * gbar / sqrt (gbar ^ 2 - ebar ^ 2))
          else Err ValueError
        else match brentq (fun x => ebar_calc gbar x (fst wb * v ^ 2) - ebar) 0 3 with
             | Ok x => Ok x
             | Err _ => Err ValueError
             end)
  (fun gpbar => bind (getre C "phiB") (fun b => Ok (gpbar * (1 - b * v ^ 2))))).

(* the module level dictionary p of smpar.py:13-35 (m_Z is not used) *)
Record smin := { i_GF : R; i_ae : R; i_as : R; i_Vus : R; i_Vub : R; i_Vcb : R; i_gamma : R;
  i_me : nat -> R; i_mu : nat -> R; i_md : nat -> R; i_mW : R; i_mh : R }.

Definition diagm (m : nat -> R) : cmat := fun i j => if (i =? j)%nat then rc (m i) else rc 0.
Definition mm (A B : cmat) : cmat := fun i j => kadd (kadd (kmul (A i 0%nat) (B 0%nat j)) (kmul (A i 1%nat) (B 1%nat j))) (kmul (A i 2%nat) (B 2%nat j)).
Definition dagm (A : cmat) : cmat := fun i j => kconj (A j i).
Definition arr2 (A : cmat) : cval CR := CArr [3; 3]%nat (fun I => match I with [i; j] => A i j | _ => rc 0 end).
(* M / (v / sqrt(2)) + C * (v**2) / 2 *)
Definition yuk (v : R) (M W : cmat) : cmat :=
  fun i j => kadd (kdiv (M i j) (rc (v / sqrt 2))) (kdiv (kmul (W i j) (rc (v ^ 2))) (rc 2)).

(* smpar.py:104-142 smeftpar (the argument scale is not used) *)
Definition smeftpar (p : smin) (C : cdictR) (basis : string) : res cdictR :=
  let v := sqrt (1 / sqrt 2 / i_GF p) in
  bind (vMh2_to_m2Lambda v (i_mh p ^ 2) C) (fun d =>
  let gsbar := sqrt (4 * PI * i_as p) in
  bind (getre C "phiG") (fun cG =>
  let gs := (1 - cG * v ^ 2) * gsbar in
  let gbar := 2 * i_mW p / v in
  bind (getre C "phiW") (fun cW =>
  let g := gbar * (1 - cW * v ^ 2) in
  let ebar := sqrt (4 * PI * i_ae p) in
  bind (get_gpbar ebar gbar v C) (fun gp =>
  let K := ckm_tree (i_Vus p) (i_Vub p) (i_Vcb p) (i_gamma p) in
  bind (if String.eqb basis "Warsaw" then Ok (mm (dagm K) (diagm (i_mu p)), diagm (i_md p))
        else if String.eqb basis "Warsaw up" then Ok (diagm (i_mu p), mm K (diagm (i_md p)))
        else Err ValueError) (fun M =>
  let Me := diagm (i_me p) in
  bind (getm C "dphi") (fun cd =>
  bind (getm C "uphi") (fun cu =>
  bind (getm C "ephi") (fun ce =>
  Ok [("m2", CNum (rc (fst d))); ("Lambda", CNum (rc (snd d))); ("g", CNum (rc g)); ("gp", CNum (rc gp)); ("gs", CNum (rc gs));
      ("Gd", arr2 (yuk v (snd M) cd)); ("Gu", arr2 (yuk v (fst M) cu)); ("Ge", arr2 (yuk v Me ce))])))))))).

(* v / sqrt(2) * (G - C * (v**2) / 2) *)
Definition massm (v : R) (G W : cmat) : cmat :=
  fun i j => kmul (rc (v / sqrt 2)) (ksub (G i j) (kdiv (kmul (W i j) (rc (v ^ 2))) (rc 2))).
Definition cabs (z : CR) : R := sqrt (cx_n2 z).

(* smpar.py:145-190 smpar.  Mnup and its factorisation are computed by the code but not used;
   the model reads C['llphiphi'] (KeyError if missing) and leaves out mtakfac. *)
Definition smpar (C : cdictR) : res (dict string R) :=
  bind (getre C "m2") (fun m2 =>
  bind (getre C "Lambda") (fun Lambda =>
  bind (m2Lambda_to_vMh2 m2 Lambda C) (fun vM =>
  let v := fst vM in
  let Mh2 := snd vM in
  let GF := 1 / (sqrt 2 * v ^ 2) in
  bind (getre C "phiWB") (fun wb =>
  let eps := wb * v ^ 2 in
  bind (getz C "g") (fun g => bind (getre C "phiW") (fun cW =>
  let gb := fst (kdiv g (rc (1 - cW * v ^ 2)) : cx) in
  bind (getz C "gp") (fun gp => bind (getre C "phiB") (fun cB =>
  let gpb := fst (kdiv gp (rc (1 - cB * v ^ 2)) : cx) in
  bind (getz C "gs") (fun gs => bind (getre C "phiG") (fun cG =>
  let gsb := fst (kdiv gs (rc (1 - cG * v ^ 2)) : cx) in
  let MW := gb * v / 2 in
  bind (getre C "phiD") (fun cD =>
  let ZG0 := 1 + cD * v ^ 2 / 4 in
  let MZ := sqrt (gb ^ 2 + gpb ^ 2) / 2 * v * (1 + eps * gb * gpb / (gb ^ 2 + gpb ^ 2)) * ZG0 in
  bind (getm C "llphiphi") (fun _ =>
  bind (getm C "Ge") (fun Ge => bind (getm C "ephi") (fun ce =>
  bind (getm C "Gu") (fun Gu => bind (getm C "uphi") (fun cu =>
  bind (getm C "Gd") (fun Gd => bind (getm C "dphi") (fun cd =>
  let se := msvd (massm v Ge ce) in
  let su := msvd (massm v Gu cu) in
  let sd := msvd (massm v Gd cd) in
  let Me := snd (fst se) in
  let Mu := snd (fst su) in
  let Md := snd (fst sd) in
  let eb := gb * gpb / sqrt (gb ^ 2 + gpb ^ 2) * (1 - eps * gb * gpb / (gb ^ 2 + gpb ^ 2)) in
  let K := mm (dagm (fst (fst su))) (fst (fst sd)) in
  Ok [("GF", GF); ("alpha_e", eb ^ 2 / (4 * PI)); ("alpha_s", gsb ^ 2 / (4 * PI));
      ("Vub", cabs (K 0%nat 2%nat)); ("Vcb", cabs (K 1%nat 2%nat)); ("Vus", cabs (K 0%nat 1%nat));
      ("gamma", phase (kdiv (kmul (kopp (K 0%nat 0%nat)) (kconj (K 0%nat 2%nat))) (kmul (K 1%nat 0%nat) (kconj (K 1%nat 2%nat)))));
      ("m_W", MW); ("m_Z", MZ); ("m_h", sqrt (Rabs Mh2));
      ("m_u", Mu 0%nat); ("m_c", Mu 1%nat); ("m_t", Mu 2%nat);
      ("m_d", Md 0%nat); ("m_s", Md 1%nat); ("m_b", Md 2%nat);
      ("m_e", Me 0%nat); ("m_mu", Me 1%nat); ("m_tau", Me 2%nat)])))))))))))))))))).
End Oracles.
