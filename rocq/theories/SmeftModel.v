(* The class SMEFT (wilson/run/smeft/classes.py).

   E is smeftutil and dim4_keys its list of SM parameters.  Oracles: the matrix factorisations
   msvd and mtakfac and the rephasings of ckmutil, solve_ivp, and the oracles of smpar
   (SmparModel.v).  Not modelled: keyword arguments of the ODE solver (they only change the
   oracle), run_continuous (PlotModel.v). *)
From Coq Require Import List Bool ZArith Arith Lia String Ascii Reals.
From Verif Require Import PyBase Num SymModel SymClass EftModel NpModel RotModel BetaSpec BetaModel BetaProg RealC RgeModel SmparModel.
Import ListNotations.
Local Open Scope string_scope.
Local Open Scope list_scope.
Local Open Scope R_scope.

(* a wcxf.WC instance; wc_values is wc.dict *)
Record wc := mkWC { wc_eft : string; wc_basis : string; wc_scale : R; wc_values : dict string CR }.
(* an instance of SMEFT: the attributes C_in and scale_in (None before they are set) *)
Record smeft := mkSmeft { s_C_in : option (dict string (cval CR)); s_scale_in : option R }.

Section Class.
Notation cdict := (dict string (cval CR)).
Variable E : eft.
Variable dim4_keys : list string.
Variable msvd : cmat -> cmat * (nat -> R) * cmat.
Variable mtakfac : cmat -> cmat * (nat -> R).
(* (UuL, UdL, UuR, UdR) and (Unu, UeL, UeR) *)
Variable rephase_standard : cmat * cmat * cmat * cmat -> cmat * cmat * cmat * cmat.
Variable rephase_pmns_standard : cmat * cmat * cmat -> cmat * cmat * cmat.
Variable ode : ode_solver.
Variable brentq : (R -> R) -> R -> R -> res R.
Variable ckm_tree : R -> R -> R -> R -> cmat.
Variable p : smin.

(* ---------- _rotate_defaultbasis, classes.py:121-139 ---------- *)
Definition v_default : R := 24622 / 100.
(* -v**2 * C *)
Definition nu_mass (v : R) (W : cmat) : cmat := fun i j => kmul (rc (- v ^ 2)) (W i j).
Definition default_matrices (Ge ephi Gu uphi Gd dphi ll : cmat) : field -> cval CR :=
  let se := msvd (massm v_default Ge ephi) in
  let su := msvd (massm v_default Gu uphi) in
  let sd := msvd (massm v_default Gd dphi) in
  let Unu := fst (mtakfac (nu_mass v_default ll)) in
  let '(UuL, UdL, UuR, UdR) := rephase_standard (fst (fst su), fst (fst sd), snd su, snd sd) in
  let '(Unu', UeL, UeR) := rephase_pmns_standard (Unu, fst (fst se), snd se) in
  fun f => match f with Fq => arr2 UdL | Fu => arr2 UuR | Fd => arr2 UdR | Fl => arr2 UeL | Fe => arr2 UeR end.
Definition rotate_defaultbasis (C : cdict) : res cdict :=
  bind (getm C "Ge") (fun Ge => bind (getm C "ephi") (fun ephi =>
  bind (getm C "Gu") (fun Gu => bind (getm C "uphi") (fun uphi =>
  bind (getm C "Gd") (fun Gd => bind (getm C "dphi") (fun dphi =>
  bind (getm C "llphiphi") (fun ll =>
  smeft_flavor_rotation (default_matrices Ge ephi Gu uphi Gd dphi ll) (e_keys0 E) true C))))))).

(* ---------- _set_initial_wcxf without the SM parameters, classes.py:42-75; wc_values is w.dict ---------- *)
Definition fill_zeros (C : cdict) : cdict :=
  fold_left (fun C ks => if negb (dmem C (fst ks)) && negb (kmem (fst ks) dim4_keys)
    then dset C (fst ks) (match snd ks with None => CNum (rc 0) | Some s => CArr s (fun _ => rc 0) end) else C) (e_shape E) C.
Definition load_wcxf (self : smeft) (w : wc) : res smeft :=
  if negb (String.eqb (wc_eft w) "SMEFT") then Err ValueError
  else if negb (String.eqb (wc_basis w) "Warsaw") then Err ValueError
  else bind (wcxf2arrays_symmetrized E (wc_values w)) (fun C0 =>
    let C := fill_zeros C0 in
    Ok (mkSmeft (Some (match s_C_in self with None => C | Some C_in => dupdate C_in C end)) (Some (wc_scale w)))).

(* ---------- _check_initial, _rgevolve, _rgevolve_leadinglog, classes.py:91-119 ----------
   the plain Exception is represented by Invalid *)
Definition check_initial (self : smeft) : res (cdict * R) :=
  match s_C_in self, s_scale_in self with
  | None, _ => Err Invalid
  | Some _, None => Err Invalid
  | Some C, Some sc => Ok (C, sc)
  end.
Definition rgevolve (self : smeft) (scale_out : R) (newphys : bool) : res cdict :=
  bind (check_initial self) (fun i => smeft_evolve E beta_prog ode (fst i) (snd i) scale_out newphys).
Definition rgevolve_leadinglog (self : smeft) (scale_out : R) : res cdict :=
  bind (check_initial self) (fun i =>
  bind (smeft_evolve_leadinglog E beta_prog [fst i] 0 (snd i) scale_out true) (fun r => Ok (nth (snd r) (fst r) []))).

(* ---------- _run_sm_scale_in, classes.py:207-225; scale_in is self.scale_in ---------- *)
Definition only_keys (ks : list string) (C : cdict) : cdict := dfilter (fun k _ => kmem k ks) C.
Definition run_sm_scale_in (scale_in : R) (C_out : cdict) (scale_sm : R) : res cdict :=
  bind (C_array2dict E (repeat (rc 0) 9999)) (fun Z =>
  bind (smeftpar brentq ckm_tree p C_out "Warsaw") (fun C_SM =>
  let C_in_sm := dupdate (dupdate Z C_out) (only_keys dim4_keys C_SM) in
  bind (rgevolve (mkSmeft (Some C_in_sm) (Some scale_sm)) scale_in false) (fun C_SM_high =>
  bind (rotate_defaultbasis C_SM_high) (fun D => Ok (only_keys dim4_keys D))))).
(* _get_sm_scale_in, classes.py:242-258; C_in is self.C_in *)
Definition get_sm_scale_in (w : wc) (C_in : cdict) (scale_in : R) (scale_sm : R) : res cdict :=
  bind (load_wcxf (mkSmeft None None) w) (fun copy =>
  bind (run_sm_scale_in scale_in C_in scale_sm) (fun sm1 =>
  bind (check_initial copy) (fun i =>
  bind (rgevolve_leadinglog (mkSmeft (Some (dupdate (fst i) sm1)) (Some (snd i))) scale_sm) (fun C_out =>
  run_sm_scale_in scale_in C_out scale_sm)))).
(* SMEFT(wc, get_smpar), classes.py:23-34 and 76-77 *)
Definition scale_sm_default : R := 911876 / 10000.
Definition smeft_new (w : wc) (get_smpar : bool) : res smeft :=
  bind (load_wcxf (mkSmeft None None) w) (fun self =>
  if get_smpar then
    bind (check_initial self) (fun i =>
    bind (get_sm_scale_in w (fst i) (snd i) scale_sm_default) (fun sm =>
    Ok (mkSmeft (Some (dupdate (fst i) sm)) (s_scale_in self))))
  else Ok self).

(* ---------- _to_wcxf, run and get_smpar, classes.py:79-89, 260-277 and 227-240 ----------
   to_wcxf returns the coefficients as they are before WC.dict2values (WcxfModel.v) *)
Definition to_wcxf (C_out : cdict) (scale_out : R) : res wc :=
  bind (rotate_defaultbasis C_out) (fun C =>
  bind (arrays2wcxf_nonred E C) (fun d => Ok (mkWC "SMEFT" "Warsaw" scale_out d))).
Definition smeft_run (self : smeft) (scale : R) (accuracy : string) : res wc :=
  bind (if String.eqb accuracy "integrate" then rgevolve self scale true
        else if String.eqb accuracy "leadinglog" then rgevolve_leadinglog self scale
        else Err ValueError) (fun C_out => to_wcxf C_out scale).
Variable phase : CR -> R.
Definition smeft_get_smpar (self : smeft) (accuracy : string) (scale_sm : R) : res (dict string R) :=
  bind (if String.eqb accuracy "integrate" then rgevolve self scale_sm true
        else if String.eqb accuracy "leadinglog" then rgevolve_leadinglog self scale_sm
        else Err ValueError) (fun C_out => smpar msvd phase C_out).
End Class.
