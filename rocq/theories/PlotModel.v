(* Model of RGsolution (wilson/classes.py:306-350) and of run_continuous of the classes SMEFT
   and WETrunner, over the real numbers.  Rounding is not modelled. *)
From Coq Require Import List Bool ZArith Arith Lia String Ascii Reals.
From Verif Require Import PyBase Num SymModel EftModel NpModel BetaModel RealC RgeModel.
Import ListNotations.
Local Open Scope string_scope.
Local Open Scope list_scope.
Local Open Scope R_scope.

(* a function that returns coefficients at a scale; np.vectorize maps it over an array *)
Definition solution := R -> res (dict string CR).
(* RGsolution.__init__, classes.py:310-321 *)
Record rgsol := { rg_fun : solution; rg_min : R; rg_max : R }.

Fixpoint mapM {A B} (f : A -> res B) (l : list A) : res (list B) :=
  match l with
  | [] => Ok []
  | x :: l' => bind (f x) (fun y => bind (mapM f l') (fun r => Ok (y :: r)))
  end.
(* np.linspace(start, stop, num): ValueError for negative num; arange(num) * step + start with
   step = (stop - start) / (num - 1), the last sample being stop if num > 1 *)
Definition linspace (start stop : R) (num : Z) : res (list R) :=
  if (num <? 0)%Z then Err ValueError else
  let n := Z.to_nat num in
  let step := (stop - start) / (INR n - 1) in
  Ok (map (fun i => if (n =? 1)%nat then start else if (S i =? n)%nat then stop else INR i * step + start) (seq 0 n)).
(* np.logspace(start, stop, num, base=e) = e ** linspace(start, stop, num) *)
Definition logspace (start stop : R) (num : Z) : res (list R) := rmap (map exp) (linspace start stop num).
(* a function decorated with np.vectorize: ValueError on size 0 input *)
Definition vectorize (f : solution) (x : list R) : res (list (dict string CR)) :=
  match x with [] => Err ValueError | _ => mapM f x end.

(* classes.py:323-350; None is returned if part is neither 're' nor 'im' *)
Definition plotdata (s : rgsol) (key part scale : string) (steps : Z) : res (option (list R * list R)) :=
  bind (if String.eqb scale "log" then
          bind (py_log (rg_min s)) (fun a => bind (py_log (rg_max s)) (fun b => logspace a b steps))
        else if String.eqb scale "linear" then linspace (rg_min s) (rg_max s) steps
        else Err UnboundLocalError) (fun x =>
  bind (vectorize (rg_fun s) x) (fun y =>
  bind (mapM (fun d => match dget d key with Some v => Ok v | None => Err KeyError end) y) (fun y =>
  if String.eqb part "re" then Ok (Some (x, map fst y))
  else if String.eqb part "im" then Ok (Some (x, map snd y))
  else Ok None))).

(* run/wet/classes.py:103-121 = run/smeft/classes.py:279-292; solve computes the function *)
Definition run_continuous (scale_in : R) (solve : R -> res solution) (scale : R) : res rgsol :=
  if Req_EM_T scale scale_in then Err ValueError
  else let (lo, hi) := if Rlt_dec scale scale_in then (scale, scale_in) else (scale_in, scale) in
       bind (solve scale) (fun f => Ok {| rg_fun := f; rg_min := lo; rg_max := hi |}).
(* SMEFT.run_continuous, run/smeft/classes.py:279-292 *)
Definition smeft_run_continuous (E : eft) (prog : list stmt) (ode : ode_solver) (C_in : cdict) (scale_in scale : R) : res rgsol :=
  run_continuous scale_in (fun sc => smeft_evolve_continuous E prog ode C_in scale_in sc true) scale.
(* WETrunner.run_continuous, run/wet/classes.py:103-121; run_dict is self._run_dict for the
   requested sectors *)
Definition wet_run_continuous (run_dict : solution) (scale_in scale : R) : res rgsol :=
  run_continuous scale_in (fun _ => Ok run_dict) scale.
