(* Model of wilson/run/smeft/rge.py: solving the SMEFT RGEs, and of beta_array
   (run/smeft/beta.py:1818-1822).

   Numbers are the complex numbers over Coq's reals (RealC.v), scales are real numbers.
   Dictionaries live in a store (a list of dictionaries; an address is a position), so that
   it can be said which dictionaries a function changes.  Arrays are values: rge.py never
   writes into one.  Rounding is not modelled. *)
From Coq Require Import List Bool ZArith Reals Arith Lia String Ascii.
From Verif Require Import PyBase Num SymModel EftModel NpModel BetaModel RealC.
Import ListNotations.
Local Open Scope string_scope.
Local Open Scope list_scope.

Notation cdict := (dict string (cval CR)).
Definition store := list cdict.
(* a / b and math.log(x) on floats *)
Definition py_div (a b : R) : res R := if Req_EM_T b 0 then Err ZeroDivisionError else Ok (a / b)%R.
Definition py_log (x : R) : res R := if Rlt_dec 0 x then Ok (ln x) else Err ValueError.
Definition sixteen_pi2 : R := (16 * PI ^ 2)%R.

Definition supd (s : store) (a : nat) (d : cdict) : store := firstn a s ++ d :: skipn (Datatypes.S a) s.

(* C + b[k] / (16 * pi**2) * log(scale_out / scale_in)        rge.py:20 *)
Definition ll_step (b : cdict) (scale_in scale_out : R) (k : string) (C : cval CR) : res (cval CR) :=
  bind (lookup b k KeyError) (fun bk =>
  bind (np_div bk (CNum (rc sixteen_pi2))) (fun x =>
  bind (bind (py_div scale_out scale_in) py_log) (fun l =>
  bind (np_mul x (CNum (rc l))) (fun y => np_add C y)))).
(* for k, C in C_out.items(): C_out[k] = ...    rge.py:19-20; C_out is the dictionary at address a.
   Assigning to existing keys does not change what is iterated over, so the items are those
   at the start, except for the values, each of which is read before it is overwritten. *)
Fixpoint ll_loop (b : cdict) (scale_in scale_out : R) (items : cdict) (s : store) (a : nat) : res store :=
  match items with
  | [] => Ok s
  | (k, C) :: r => bind (ll_step b scale_in scale_out k C) (fun v =>
                     ll_loop b scale_in scale_out r (supd s a (dset (nth a s []) k v)) a)
  end.
(* smeft_evolve_leadinglog(C_in, scale_in, scale_out, newphys)    rge.py:12-21.
   a is the address of C_in; the result is the new store and the address of C_out.
   deepcopy allocates a new dictionary at the end of the store.  prog is the body of
   beta.beta (BetaProg.v), E is smeftutil. *)
Definition smeft_evolve_leadinglog (E : eft) (prog : list stmt) (s : store) (a : nat) (scale_in scale_out : R) (newphys : bool)
  : res (store * nat) :=
  let s1 := s ++ [nth a s []] in
  let o := List.length s in
  bind (beta_of E prog (nth o s1 []) (rc 1) newphys) (fun b =>
  bind (ll_loop b scale_in scale_out (nth o s1 []) s1 o) (fun s2 => Ok (s2, o))).

(* beta_array(C, HIGHSCALE, newphys)    beta.py:1818-1822 *)
Definition beta_array {K : StarField} (E : eft) (prog : list stmt) (C : dict string (cval K)) (H : K) (newphys : bool) : res (list K) :=
  rmap hstack_ravel (beta_of E prog C H newphys).

(* y.view(complex): pairs of floats; ValueError for an odd length.  z.view(float) *)
Fixpoint view_complex (y : list R) : res (list CR) :=
  match y with
  | [] => Ok []
  | a :: b :: r => rmap (cons ((a, b) : CR)) (view_complex r)
  | _ :: [] => Err ValueError
  end.
Definition view_float (z : list CR) : list R := flat_map (fun w : CR => [fst w; snd w]) z.

(* fun(t0, y) of _smeft_evolve    rge.py:26-28 *)
Definition rge_fun (E : eft) (prog : list stmt) (newphys : bool) (t : R) (y : list R) : res (list R) :=
  bind (view_complex y) (fun z =>
  bind (C_array2dict E z) (fun C =>
  bind (beta_array E prog C (rc 1) newphys) (fun b => Ok (map (fun x => x / sixteen_pi2)%R (view_float b))))).

(* scipy.integrate.solve_ivp(fun, t_span, y0): an oracle, returning sol.y[:, -1] and sol.sol *)
Definition ode_solver := (R -> list R -> res (list R)) -> R -> R -> list R -> res (list R * (R -> list R)).
(* _smeft_evolve    rge.py:24-33 *)
Definition smeft_evolve0 (E : eft) (prog : list stmt) (ode : ode_solver) (C_in : cdict) (scale_in scale_out : R) (newphys : bool) :=
  bind (C_dict2array E C_in) (fun z0 =>
  bind (py_log scale_in) (fun t0 => bind (py_log scale_out) (fun t1 => ode (rge_fun E prog newphys) t0 t1 (view_float z0)))).
(* smeft_evolve    rge.py:36-41 *)
Definition smeft_evolve (E : eft) (prog : list stmt) (ode : ode_solver) (C_in : cdict) (scale_in scale_out : R) (newphys : bool) : res cdict :=
  bind (smeft_evolve0 E prog ode C_in scale_in scale_out newphys) (fun sol =>
  bind (view_complex (fst sol)) (C_array2dict E)).
(* smeft_evolve_continuous(...)(scale)    rge.py:44-60, for one scale (np.vectorize maps this) *)
Definition smeft_evolve_continuous (E : eft) (prog : list stmt) (ode : ode_solver) (C_in : cdict) (scale_in scale_out : R) (newphys : bool)
  : res (R -> res (dict string CR)) :=
  bind (smeft_evolve0 E prog ode C_in scale_in scale_out newphys) (fun sol =>
  Ok (fun scale => bind (py_log scale) (fun t =>
      bind (view_complex (snd sol t)) (fun y => bind (C_array2dict E y) (arrays2wcxf_nonred E))))).
