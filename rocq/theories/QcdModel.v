(* Model of wilson/util/qcd.py: guards and scheme bookkeeping around the external package
   rundec.  Scales, masses, couplings and flavour numbers are rational numbers (every finite
   Python float is one; decimal literals stand for their decimal value, rounding is not
   modelled).  lru_cache is left out: the functions have no other state. *)
From Coq Require Import List Bool ZArith QArith Qcanon Lia.
From Verif Require Import PyBase.
Import ListNotations.
Local Open Scope Qc_scope.

Definition q (a : Z) (b : positive) : Qc := Q2Qc (a # b).
Lemma Qc_eqb_spec x y : reflect (x = y) (Qc_eq_bool x y).
Proof.
  destruct (Qc_eq_bool x y) eqn:E; constructor; [now apply Qc_eq_bool_correct|].
  intros ->. unfold Qc_eq_bool in E. destruct (Qc_eq_dec y y); congruence.
Qed.
#[global] Instance EqKey_Qc : EqKey Qc := {| keqb := Qc_eq_bool; keqb_spec := Qc_eqb_spec |}.
Definition qleb (x y : Qc) : bool := Qle_bool x y.

(* the attributes set on crd.nfMmu *)
Record triple := { t_Mth : Qc; t_muth : Qc; t_nf : Qc }.
(* the calls made to rundec *)
Inductive call :=
| NewCRunDec
| AlphasExact (asl mul mu nf loop : Qc)
| AlL2AlH (asl mul : Qc) (t : triple) (mu loop : Qc)
| AlH2AlL (ash muh : Qc) (t : triple) (mu loop : Qc)
| MMS2mMS (m as0 as1 nf loop : Qc)
| MH2mL (m asv mu0 : Qc) (t : triple) (mu loop : Qc)
| ML2mH (m asv mu0 : Qc) (t : triple) (mu loop : Qc).

(* a Python computation: the external calls made, in order, and its result *)
Definition prog (A : Type) : Type := list call * res A.
Definition ret {A} (a : A) : prog A := ([], Ok a).
Definition raise {A} (e : exn) : prog A := ([], Err e).
Definition seq {A B} (p : prog A) (f : A -> prog B) : prog B :=
  match snd p with
  | Ok a => (fst p ++ fst (f a), snd (f a))
  | Err e => (fst p, Err e)
  end.

Section Rundec.
(* the values returned by rundec *)
Variable ext : call -> Qc.
Definition invoke (c : call) : prog Qc := ([c], Ok (ext c)).

(* qcd.py:8-13 *)
Definition sane (scale f : Qc) : prog unit :=
  if qleb scale 0 then raise ValueError
  else if negb (qleb (q 3 1) f && qleb f (q 6 1)) then raise ValueError
  else ret tt.
(* qcd.py:16 *)
Definition MZ : Qc := q 911876 10000.

(* qcd.py:19-55 *)
Definition alpha_s (scale f alphasMZ loop : Qc) : prog Qc :=
  if keqb scale MZ && keqb f (q 5 1) then ret alphasMZ else
  seq (sane scale f) (fun _ =>
  seq (invoke NewCRunDec) (fun _ =>
  seq (if keqb f (q 5 1) then invoke (AlphasExact alphasMZ MZ scale f loop)
       else if keqb f (q 6 1) then
         invoke (AlL2AlH alphasMZ MZ {| t_Mth := q 170 1; t_muth := q 170 1; t_nf := q 6 1 |} scale loop)
       else if keqb f (q 4 1) then
         invoke (AlH2AlL alphasMZ MZ {| t_Mth := q 48 10; t_muth := q 48 10; t_nf := q 5 1 |} scale loop)
       else if keqb f (q 3 1) then
         let mc := q 13 10 in
         seq (invoke (AlH2AlL alphasMZ MZ {| t_Mth := q 48 10; t_muth := q 48 10; t_nf := q 5 1 |} mc loop)) (fun asmc =>
         invoke (AlH2AlL asmc mc {| t_Mth := mc; t_muth := mc; t_nf := q 4 1 |} scale loop))
       else raise ValueError) (fun return_value =>
  if keqb return_value 0 then raise ValueError else ret return_value))).

(* qcd.py:58-94 *)
Definition m_b (mbmb scale f alphasMZ loop : Qc) : prog Qc :=
  if keqb scale mbmb && keqb f (q 5 1) then ret mbmb else
  seq (sane scale f) (fun _ =>
  seq (alpha_s mbmb (q 5 1) alphasMZ loop) (fun alphas_mb =>
  seq (invoke NewCRunDec) (fun _ =>
  if keqb f (q 5 1) then
    seq (alpha_s scale f alphasMZ loop) (fun alphas_scale =>
    invoke (MMS2mMS mbmb alphas_mb alphas_scale f loop))
  else if keqb f (q 4 1) then
    invoke (MH2mL mbmb alphas_mb mbmb {| t_Mth := q 48 10; t_muth := q 48 10; t_nf := q 5 1 |} scale loop)
  else if keqb f (q 3 1) then
    let mc := q 13 10 in
    seq (invoke (MH2mL mbmb alphas_mb mbmb {| t_Mth := q 48 10; t_muth := q 48 10; t_nf := q 5 1 |} mc loop)) (fun mbmc =>
    seq (alpha_s mc (q 4 1) alphasMZ loop) (fun alphas_mc =>
    invoke (MH2mL mbmc alphas_mc mc {| t_Mth := mc; t_muth := mc; t_nf := q 4 1 |} scale loop)))
  else if keqb f (q 6 1) then
    invoke (ML2mH mbmb alphas_mb mbmb {| t_Mth := q 170 1; t_muth := q 170 1; t_nf := q 6 1 |} scale loop)
  else raise ValueError))).

(* qcd.py:97-121 *)
Definition m_c (mcmc scale f alphasMZ loop : Qc) : prog Qc :=
  if keqb scale mcmc then ret mcmc else
  seq (sane scale f) (fun _ =>
  seq (invoke NewCRunDec) (fun _ =>
  seq (alpha_s mcmc (q 4 1) alphasMZ loop) (fun alphas_mc =>
  if keqb f (q 4 1) then
    seq (alpha_s scale f alphasMZ loop) (fun alphas_scale =>
    invoke (MMS2mMS mcmc alphas_mc alphas_scale f loop))
  else if keqb f (q 3 1) then
    invoke (MH2mL mcmc alphas_mc mcmc {| t_Mth := q 13 10; t_muth := q 13 10; t_nf := q 4 1 |} scale loop)
  else if keqb f (q 5 1) then
    invoke (ML2mH mcmc alphas_mc mcmc {| t_Mth := q 48 10; t_muth := q 48 10; t_nf := q 5 1 |} scale loop)
  else raise ValueError))).

(* qcd.py:124-154 *)
Definition m_s (ms2 scale f alphasMZ loop : Qc) : prog Qc :=
  if keqb scale (q 2 1) && keqb f (q 3 1) then ret ms2 else
  seq (sane scale f) (fun _ =>
  seq (invoke NewCRunDec) (fun _ =>
  seq (alpha_s (q 2 1) (q 3 1) alphasMZ loop) (fun alphas_2 =>
  if keqb f (q 3 1) then
    seq (alpha_s scale f alphasMZ loop) (fun alphas_scale =>
    invoke (MMS2mMS ms2 alphas_2 alphas_scale f loop))
  else if keqb f (q 4 1) then
    invoke (ML2mH ms2 alphas_2 (q 2 1) {| t_Mth := q 13 10; t_muth := q 13 10; t_nf := q 4 1 |} scale loop)
  else if keqb f (q 5 1) then
    let mc := q 13 10 in
    seq (invoke (ML2mH ms2 alphas_2 (q 2 1) {| t_Mth := mc; t_muth := mc; t_nf := q 4 1 |} mc loop)) (fun msmc =>
    seq (alpha_s mc (q 4 1) alphasMZ loop) (fun alphas_mc =>
    invoke (ML2mH msmc alphas_mc mc {| t_Mth := q 48 10; t_muth := q 48 10; t_nf := q 5 1 |} scale loop)))
  else raise ValueError))).
End Rundec.
