(* The language in which the translators of wilson/translate/wet.py are written down.

   The functions of that file build dictionaries whose values are expressions in the
   coefficients C[...] and in the parameters; they never branch on the value of a number.
   A dictionary display is written as a list of (key, expression), with the expression in
   the syntax below, and is evaluated by eval_display; the way the functions are plugged
   together (update, composition, rescaling) is written as a prog and evaluated by run.

   Numbers: any star field (Num.v).  math.sqrt(2), math.pi, e = sqrt(4*pi*alpha_e),
   gs = sqrt(4*pi*alpha_s), GF and the masses are the values of the symbols sym, and the CKM
   matrix returned by ckmutil.ckm.ckm_tree is a parameter.  Rounding is not modelled.  An array
   entry that is nan makes the translation fail with NanError (in Python the nan would show up in
   the result); a theorem that a translation succeeds therefore says that no nan is used. *)
From Coq Require Import List Bool ZArith QArith Arith Lia String Ascii.
From Verif Require Import PyBase Num SymModel EftModel JmsModel.
Import ListNotations.
Local Open Scope string_scope.
Local Open Scope list_scope.

Definition NanError : exn := Invalid.

(* ---------- scalars ---------- *)
Inductive sym := Ysqrt2 | Ypi | YGF | Ye | Ygs | Ym_b | Ym_c | Ym_s | Ym_u | Ym_d | Ym_e | Ym_mu | Ym_tau.
Inductive sc :=
| SZ (n : Z) | SY (y : sym) | SV (i j : Z)              (* a number, a symbol, V[i, j] *)
| SConj (s : sc) | SNeg (s : sc) | SMul (s t : sc) | SDiv (s t : sc) | SPow (s : sc) (n : nat).
(* ---------- expressions ---------- *)
Inductive ex :=
| E0                                                     (* the literal 0 *)
| EKey (k : string)                                      (* C[k] *)
| EGet (k : string)                                      (* C.get(k, 0) *)
| EArr (n : string) (ix : list Z)                         (* C[n][i, j, ...] *)
| EAdd (a b : ex) | ESub (a b : ex) | ENeg (a : ex)
| EScale (s : sc) (a : ex)                               (* s * a *)
| EDivS (a : ex) (s : sc)                                (* a / s *)
| EConj (a : ex) | ERe (a : ex) | EIm (a : ex).
Definition display := list (string * ex).

(* ---------- programs ---------- *)
Inductive prog :=
| PBlk (f : res display)                                 (* return {k: e, ...} *)
| PThen (a b : prog)                                     (* b(a(C)) *)
| PSymm (a : prog)                                       (* symmetrize_JMS_dict(a(C)) *)
| PExt (f : display)                                     (* F = C.copy(); F[k] = e; ...; return F *)
| PAssert (chk : string -> res bool)                     (* for key in C: assert chk(key); return C *)
| PUpd (l : list prog)                                   (* d = {}; d.update(p(C)) for p in l; return d *)
| PScale (s : sc) (a : prog)                             (* {k: s * v for k, v in a(C).items()} *)
| PDivS (a : prog) (s : sc)                              (* {k: v / s for k, v in a(C).items()} *)
| PEach (h : string -> res (option (string * ex)))       (* d = {}; for k in C: d[k'] = e; return d *)
| PCond (l : list (string * string))                     (* d = {}; for j, f in l: if j in C: d[f] = C[j] *)
| PFail (e : exn).                                       (* raise e *)

Section Sem.
Context {K : StarField}.
Local Open Scope K_scope.
Record tpar := mkTpar { ysym : sym -> K; yV : nat -> nat -> K }.
Variable p : tpar.
Fixpoint spow (x : K) (n : nat) : K := match n with O => 1 | Datatypes.S m => x * spow x m end.
Fixpoint sval (s : sc) : K :=
  match s with
  | SZ n => kZ n
  | SY y => ysym p y
  | SV i j => yV p (Z.to_nat i) (Z.to_nat j)
  | SConj s => (sval s)^*
  | SNeg s => - sval s
  | SMul s t => sval s * sval t
  | SDiv s t => sval s / sval t
  | SPow s n => spow (sval s) n
  end.

(* the argument of a function: a dictionary of numbers, and the dictionary of arrays made of it *)
Record env := mkEnv { flat : dict string K; arrs : dict string (jval K) }.
Definition arr_get (A : dict string (jval K)) (n : string) (ix : list Z) : res K :=
  match dget A n with
  | None => Err KeyError
  | Some (JNum _) => Err TypeError
  | Some (JArr m a) =>
      bind (norm_index (repeat 3%nat m) ix) (fun J =>
      if negb (List.length J =? m)%nat then Err TypeError     (* a subarray instead of a number *)
      else match a J with Some v => Ok v | None => Err NanError end)
  end.
Fixpoint eval (E : env) (x : ex) : res K :=
  match x with
  | E0 => Ok 0
  | EKey k => match dget (flat E) k with Some v => Ok v | None => Err KeyError end
  | EGet k => Ok (dgetd (flat E) k 0)
  | EArr n ix => arr_get (arrs E) n ix
  | EAdd a b => bind (eval E a) (fun u => bind (eval E b) (fun v => Ok (u + v)))
  | ESub a b => bind (eval E a) (fun u => bind (eval E b) (fun v => Ok (u - v)))
  | ENeg a => bind (eval E a) (fun u => Ok (- u))
  | EScale s a => bind (eval E a) (fun u => Ok (sval s * u))
  | EDivS a s => bind (eval E a) (fun u => Ok (u / sval s))
  | EConj a => bind (eval E a) (fun u => Ok (u^*))
  | ERe a => bind (eval E a) (fun u => Ok ((u + u^*) / kZ 2))
  | EIm a => bind (eval E a) (fun u => Ok ((u - u^*) / (kZ 2 * ki)))
  end.
(* a dictionary display: later entries overwrite earlier ones with the same key *)
Definition eval_display (E : env) (f : display) : res (dict string K) :=
  fold_left (fun acc kx => bind acc (fun d => bind (eval E (snd kx)) (fun v => Ok (dset d (fst kx) v)))) f (Ok []).
Variable all : list string.                              (* wcxf.Basis['WET', 'JMS'].all_wcs *)
Fixpoint run (P : prog) (E : env) {struct P} : res (dict string K) :=
  match P with
  | PBlk f => bind f (eval_display E)
  | PThen a b => bind (run a E) (fun d => run b (mkEnv d []))
  | PSymm a => bind (run a E) (symmetrize_JMS_dict all)
  | PExt f => fold_left (fun acc kx => bind acc (fun d =>
      bind (eval (mkEnv d []) (snd kx)) (fun v => Ok (dset d (fst kx) v)))) f (Ok (flat E))
  | PAssert chk => fold_left (fun acc kv => bind acc (fun d =>
      bind (chk (fst kv)) (fun b => if b : bool then Ok d else Err AssertionError))) (flat E) (Ok (flat E))
  | PUpd l => (fix go (l : list prog) (d : dict string K) : res (dict string K) :=
      match l with [] => Ok d | q :: r => bind (run q E) (fun e => go r (dupdate d e)) end) l []
  | PScale s a => bind (run a E) (fun d => Ok (map (fun kv => (fst kv, sval s * snd kv)) d))
  | PDivS a s => bind (run a E) (fun d => Ok (map (fun kv => (fst kv, snd kv / sval s)) d))
  | PEach h => fold_left (fun acc kv => bind acc (fun d => bind (h (fst kv)) (fun o =>
      match o with None => Ok d | Some (k, x) => bind (eval E x) (fun v => Ok (dset d k v)) end))) (flat E) (Ok [])
  | PCond l => Ok (fold_left (fun d jf => match dget (flat E) (fst jf) with Some v => dset d (snd jf) v | None => d end) l [])
  | PFail e => Err e
  end.
End Sem.
Arguments tpar K : clear implicits.
Arguments env K : clear implicits.

(* ---------- strings ---------- *)
Fixpoint str_rev (s : string) : string := match s with "" => "" | String c r => (str_rev r ++ String c "")%string end.   (* s[::-1] *)
Definition str_at (s : string) (i : nat) : string := substring i 1 s.                     (* s[i] *)
Definition str_from (s : string) (i : nat) : string := substring i (String.length s - i) s.    (* s[i:] *)
Definition str_to (s : string) (j : nat) : string := substring 0 j s.                     (* s[:j] *)
Definition str_slice (s : string) (i j : nat) : string := substring i (j - i) s.          (* s[i:j] *)
(* s.find(t, i): the calls below always find what they look for (otherwise Python returns -1) *)
Definition str_find (s t : string) (i : nat) : res nat := match index i t s with Some n => Ok n | None => Err ValueError end.
(* s.replace(t, '') *)
Fixpoint str_remove_n (fuel : nat) (t s : string) : string :=
  match fuel with
  | O => s
  | Datatypes.S f =>
      match s with
      | "" => ""
      | String c r => if prefix t s then str_remove_n f t (str_from s (String.length t)) else String c (str_remove_n f t r)
      end
  end.
Definition str_remove (t s : string) : string := str_remove_n (String.length s) t s.
Definition str_twice (s : string) : string := (s ++ s)%string.                            (* 2 * s *)
Definition flav (t : dict string Z) (k : string) : res Z := match dget t k with Some v => Ok v | None => Err KeyError end.
Definition str_Z (z : Z) : string := str_nat (Z.to_nat z).                               (* str(z), z >= 0 *)

(* ---------- notation for the generated formulas ---------- *)
Declare Scope sc_scope.
Delimit Scope sc_scope with sc.
Bind Scope sc_scope with sc.
Infix "*" := SMul : sc_scope.
Infix "/" := SDiv : sc_scope.
Notation "- x" := (SNeg x) : sc_scope.
Infix "**" := SPow (at level 30) : sc_scope.
Declare Scope ex_scope.
Delimit Scope ex_scope with ex.
Bind Scope ex_scope with ex.
Infix "+" := EAdd : ex_scope.
Infix "-" := ESub : ex_scope.
Notation "- x" := (ENeg x) : ex_scope.
Notation "s '*' x" := (EScale s%sc x) : ex_scope.
Notation "x '/' s" := (EDivS x s%sc) : ex_scope.
Notation "x '^*'" := (EConj x) : ex_scope.
