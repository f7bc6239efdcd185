(* The language of run/smeft/beta.py: Python expressions over numpy values, and the
   straight-line program that the function beta consists of.  The program itself is
   in BetaProg.v, generated from the Python source by tools/gen_beta.py. *)
From Coq Require Import List Bool ZArith QArith Arith Lia String Ascii.
From Verif Require Import PyBase Num SymModel SymClass EftModel NpModel.
Import ListNotations.
Local Open Scope string_scope.
Local Open Scope list_scope.

(* the expressions that occur on the right hand sides in beta.py:43-1814 *)
Inductive ex :=
  | ENum (n : Z)                         (* 3 *)
  | EIm (n : Z)                          (* 2j *)
  | EC (k : string)                      (* C["k"] *)
  | EV (x : string)                      (* a local variable, HIGHSCALE or I3 *)
  | EAdd (a b : ex) | ESub (a b : ex) | ENeg (a : ex)
  | EMul (a b : ex) | EDiv (a b : ex) | EPow (a : ex) (n : nat)
  | EMat (a b : ex)                      (* a @ b *)
  | EConj (a : ex)                       (* np.conj(a), a.conj() *)
  | ET (a : ex)                          (* a.T *)
  | ETrace (a : ex)                      (* np.trace(a) *)
  | EEin1 (s : string) (a : ex)          (* my_einsum(s, a) *)
  | EEin2 (s : string) (a b : ex)
  | EEin3 (s : string) (a b c : ex).

Inductive stmt :=
  | SLocal (x : string) (e : ex)         (* x = e *)
  | SBeta (k : string) (e : ex)          (* Beta["k"] = e *)
  | SReturnUnlessNP.                     (* if not newphys: ...; return BetaSM    (beta.py:195-200) *)

Section Beta.
Context {K : StarField}.
Local Open Scope K_scope.
Notation cdict := (dict string (cval K)).

Section Eval.
Variables C L : cdict.   (* the argument C and the local variables *)
Definition lookup (d : cdict) (k : string) (e : exn) : res (cval K) :=
  match dget d k with Some v => Ok v | None => Err e end.
Fixpoint eval (e : ex) : res (cval K) :=
  match e with
  | ENum n => Ok (CNum (kZ n))
  | EIm n => Ok (CNum (kZ n * ki))
  | EC k => lookup C k KeyError
  | EV x => lookup L x UnboundLocalError
  | EAdd a b => bind (eval a) (fun x => bind (eval b) (np_add x))
  | ESub a b => bind (eval a) (fun x => bind (eval b) (np_sub x))
  | ENeg a => rmap np_neg (eval a)
  | EMul a b => bind (eval a) (fun x => bind (eval b) (np_mul x))
  | EDiv a b => bind (eval a) (fun x => bind (eval b) (np_div x))
  | EPow a n => rmap (fun x => np_pow x n) (eval a)
  | EMat a b => bind (eval a) (fun x => bind (eval b) (np_matmul x))
  | EConj a => rmap np_conj (eval a)
  | ET a => rmap np_T (eval a)
  | ETrace a => bind (eval a) np_trace
  | EEin1 s a => bind (eval a) (fun x => np_einsum s [x])
  | EEin2 s a b => bind (eval a) (fun x => bind (eval b) (fun y => np_einsum s [x; y]))
  | EEin3 s a b c => bind (eval a) (fun x => bind (eval b) (fun y => bind (eval c) (fun z =>
      np_einsum s [x; y; z])))
  end.
End Eval.

(* the body of beta, statement by statement.  E is smeftutil (only used for the zero
   coefficients that are returned without new physics). *)
Variable E : eft.
Fixpoint exec_stmts (newphys : bool) (C : cdict) (p : list stmt) (L B : cdict) : res cdict :=
  match p with
  | [] => Ok B
  | SLocal x e :: p' => bind (eval C L e) (fun v => exec_stmts newphys C p' (dset L x v) B)
  | SBeta k e :: p' => bind (eval C L e) (fun v => exec_stmts newphys C p' L (dset B k v))
  | SReturnUnlessNP :: p' =>
      if newphys then exec_stmts newphys C p' L B
      else bind (C_array2dict E (repeat 0 (Z.to_nat 5000))) (fun Z => Ok (dupdate Z B))
  end.

(* beta(C, HIGHSCALE=H, newphys)    beta.py:39-1814, with prog the list of its statements;
   I3 is the module-level constant (beta.py:9) *)
Definition beta_of (prog : list stmt) (C : cdict) (H : K) (newphys : bool) : res cdict :=
  exec_stmts newphys C prog [("HIGHSCALE", CNum H); ("I3", np_eye 3)] [].

(* np.hstack([np.asarray(b).ravel() for b in beta_odict.values()])    beta.py:1816-1822 *)
Definition hstack_ravel (B : cdict) : list K :=
  List.concat (map (fun kv => match snd kv with CNum z => [z] | CArr s a => ravel s a end) B).
End Beta.
