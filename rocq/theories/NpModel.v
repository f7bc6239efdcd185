(* The numpy operations used by the numerical code of /repo (matrix products, einsum,
   traces, arithmetic on numbers and arrays).

   A value is a number or an array (EftModel.cval: shape and entries).  Not modelled:
   broadcasting between arrays of different shapes (ValueError here), dtypes, rounding,
   the caching of my_einsum (run/smeft/beta.py:28-36: _cached_einsum is np.einsum). *)
From Coq Require Import List Bool ZArith QArith Arith Lia String Ascii.
From Verif Require Import PyBase Num SymModel EftModel.
Import ListNotations.
Local Open Scope list_scope.

#[global] Instance EqKey_ascii : EqKey ascii := {| keqb := Ascii.eqb; keqb_spec := Ascii.eqb_spec |}.

(* ---------- subscripts of einsum ---------- *)
(* s.split(c) on lists of characters *)
Fixpoint split_on (c : ascii) (l : list ascii) : list (list ascii) :=
  match l with
  | [] => [[]]
  | x :: r =>
      if Ascii.eqb x c then [] :: split_on c r
      else match split_on c r with [] => [[x]] | w :: ws => (x :: w) :: ws end
  end.
(* everything before and after "->" *)
Fixpoint split_arrow (l : list ascii) : list ascii * option (list ascii) :=
  match l with
  | [] => ([], None)
  | "-"%char :: ">"%char :: r => ([], Some r)
  | x :: r => let (a, b) := split_arrow r in (x :: a, b)
  end.
Definition occurrences (c : ascii) (l : list ascii) : nat := List.length (filter (Ascii.eqb c) l).
(* sorted(...) *)
Fixpoint insert_char (c : ascii) (l : list ascii) : list ascii :=
  match l with
  | [] => [c]
  | x :: r => if (nat_of_ascii c <=? nat_of_ascii x)%nat then c :: l else x :: insert_char c r
  end.
Definition sort_chars (l : list ascii) : list ascii := fold_right insert_char [] l.
(* numpy's implicit output: the letters that occur exactly once, in alphabetical order *)
Definition implicit_out (all : list ascii) : list ascii :=
  sort_chars (filter (fun c => Nat.eqb (occurrences c all) 1) all).
(* letters in order of first occurrence *)
Definition uniq_chars (l : list ascii) : list ascii :=
  fold_left (fun acc x => if kmem x acc then acc else acc ++ [x]) l [].
Definition parse_spec (s : string) : list (list ascii) * list ascii :=
  let (lhs, rhs) := split_arrow (list_ascii_of_string s) in
  let ins := split_on ","%char lhs in
  (ins, match rhs with Some o => o | None => implicit_out (List.concat ins) end).
Definition summed_letters (ins : list (list ascii)) (out : list ascii) : list ascii :=
  filter (fun c => negb (kmem c out)) (uniq_chars (List.concat ins)).
(* position of a letter *)
Fixpoint pos_of (c : ascii) (l : list ascii) : nat :=
  match l with [] => 0%nat | x :: r => if Ascii.eqb c x then 0%nat else Datatypes.S (pos_of c r) end.

Section Np.
Context {K : StarField}.
Local Open Scope K_scope.
Notation cdict := (dict string (cval K)).

Definition ksum (l : list K) : K := fold_right kadd 0 l.
Definition kprod (l : list K) : K := fold_right kmul 1 l.
Fixpoint kpow (z : K) (n : nat) : K := match n with O => 1 | Datatypes.S m => z * kpow z m end.

Definition vshape (v : cval K) : list nat := match v with CNum _ => [] | CArr s _ => s end.
Definition entry (v : cval K) (I : idx) : K := match v with CNum z => z | CArr _ a => a I end.

Definition np_conj (v : cval K) : cval K :=
  match v with CNum z => CNum z^* | CArr s a => CArr s (fun I => (a I)^*) end.
Definition np_T (v : cval K) : cval K :=
  match v with CNum z => CNum z | CArr s a => CArr (rev s) (fun I => a (rev I)) end.
Definition np_neg (v : cval K) : cval K :=
  match v with CNum z => CNum (- z) | CArr s a => CArr s (fun I => - a I) end.
Definition np_map2 (f : K -> K -> K) (v w : cval K) : res (cval K) :=
  match v, w with
  | CNum x, CNum y => Ok (CNum (f x y))
  | CNum x, CArr s b => Ok (CArr s (fun I => f x (b I)))
  | CArr s a, CNum y => Ok (CArr s (fun I => f (a I) y))
  | CArr s a, CArr t b => if keqb s t then Ok (CArr s (fun I => f (a I) (b I))) else Err ValueError
  end.
Definition np_add := np_map2 kadd.
Definition np_sub := np_map2 ksub.
Definition np_mul := np_map2 kmul.
(* division by a number (by an array: not modelled, TypeError) *)
Definition np_div (v w : cval K) : res (cval K) :=
  match w with
  | CNum y => if kdec y 0 then Err ZeroDivisionError else np_map2 kdiv v w
  | CArr _ _ => Err TypeError
  end.
(* v**n for a natural number n *)
Definition np_pow (v : cval K) (n : nat) : cval K :=
  match v with CNum z => CNum (kpow z n) | CArr s a => CArr s (fun I => kpow (a I) n) end.
(* v @ w for two matrices (other ranks: ValueError; vectors are not modelled) *)
Definition np_matmul (v w : cval K) : res (cval K) :=
  match v, w with
  | CArr [n; m] a, CArr [m'; p] b =>
      if Nat.eqb m m' then
        Ok (CArr [n; p] (fun I => ksum (map (fun k => a [nth 0 I 0%nat; k] * b [k; nth 1 I 0%nat]) (seq 0 m))))
      else Err ValueError
  | _, _ => Err ValueError
  end.
(* np.trace of a matrix *)
Definition np_trace (v : cval K) : res (cval K) :=
  match v with
  | CArr [n; m] a => Ok (CNum (ksum (map (fun k => a [k; k]) (seq 0 (Nat.min n m)))))
  | _ => Err ValueError
  end.
(* np.identity(n) *)
Definition np_eye (n : nat) : cval K :=
  CArr [n; n] (fun I => if Nat.eqb (nth 0 I 0%nat) (nth 1 I 0%nat) then 1 else 0).

(* the dimension of each letter; ValueError if two operands disagree *)
Fixpoint add_dims (ls : list ascii) (s : list nat) (d : dict ascii nat) : res (dict ascii nat) :=
  match ls, s with
  | [], [] => Ok d
  | c :: ls', n :: s' =>
      match dget d c with
      | None => add_dims ls' s' (dset d c n)
      | Some m => if Nat.eqb m n then add_dims ls' s' d else Err ValueError
      end
  | _, _ => Err ValueError
  end.
Fixpoint all_dims (ins : list (list ascii)) (ops : list (cval K)) (d : dict ascii nat) : res (dict ascii nat) :=
  match ins, ops with
  | [], [] => Ok d
  | ls :: ins', v :: ops' => bind (add_dims ls (vshape v) d) (all_dims ins' ops')
  | _, _ => Err ValueError
  end.
Fixpoint ein_prod (env : list ascii) (vals : idx) (ins : list (list ascii)) (ops : list (cval K)) : K :=
  match ins, ops with
  | ls :: ins', v :: ops' =>
      entry v (map (fun c => nth (pos_of c env) vals 0%nat) ls) * ein_prod env vals ins' ops'
  | _, _ => 1
  end.
(* np.einsum(spec, *ops) *)
Definition np_einsum (spec : string) (ops : list (cval K)) : res (cval K) :=
  let (ins, out) := parse_spec spec in
  if forallb (fun c => kmem c (List.concat ins)) out && knodup out then
    bind (all_dims ins ops []) (fun dims =>
      let summed := summed_letters ins out in
      let dim c := dgetd dims c 0%nat in
      let f := fun O => ksum (map (fun s => ein_prod (out ++ summed) (O ++ s) ins ops)
                                  (all_indices (map dim summed))) in
      match out with
      | [] => Ok (CNum (f []))
      | _ => Ok (CArr (map dim out) f)
      end)
  else Err ValueError.
End Np.
