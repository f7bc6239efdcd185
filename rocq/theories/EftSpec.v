(* Specification vocabulary for dictionaries of coefficient arrays (C16, C18, C19). *)
From Coq Require Import List Bool ZArith QArith Arith Lia String Ascii.
From Verif Require Import PyBase Num SymModel SymClass SymSpec EftModel.
Import ListNotations.
Local Open Scope string_scope.
Local Open Scope list_scope.

(* the name contains no underscore *)
Definition no_us (s : string) : Prop := split_us s = [s].
(* every dimension at most 9, so that an index is a single digit *)
Definition small_shape (s : list nat) : bool := forallb (fun n => n <=? 9)%nat s.

Section Spec.
Context {K : StarField}.
Local Open Scope K_scope.
(* equality of values: same shape, same entries inside the shape *)
Definition cv_eq (v w : cval K) : Prop :=
  match v, w with
  | CNum x, CNum y => x = y
  | CArr s a, CArr t b => s = t /\ forall I, in_shape s I = true -> a I = b I
  | _, _ => False
  end.
Definition csize (sh : option (list nat)) : nat := match sh with None => 1 | Some s => size s end.
Definition shape_size (sh : shapes) : nat := fold_right (fun kv n => (csize (snd kv) + n)%nat) 0%nat sh.
(* a value has the shape sh *)
Definition has_shape (sh : option (list nat)) (v : cval K) : Prop :=
  match sh, v with None, CNum _ => True | Some s, CArr t _ => s = t | _, _ => False end.

(* the value v is stored in l from position p on *)
Definition stored (l : list K) (p : nat) (v : cval K) : Prop :=
  match v with
  | CNum z => nth_error l p = Some z
  | CArr s a => forall I, in_shape s I = true -> nth_error l (p + offset s I) = Some (a I)
  end.

Definition proper_val (v : cval K) : bool :=
  match v with CNum _ => true | CArr s _ => small_shape s && (2 <=? List.length s)%nat end.
End Spec.

Section Keys.
Variable E : eft.
(* keys the code can read: scalar names, or name_indices inside the shape *)
Inductive good_key : string -> Prop :=
| good_scalar n : no_us n -> dget (e_shape E) n = Some None -> good_key n
| good_array n s I : no_us n -> dget (e_shape E) n = Some (Some s) -> small_shape s = true ->
    in_shape s I = true -> good_key (label n I).

End Keys.

(* ---------- bases ---------- *)
(* an operator of a basis: name, symmetry class, shape of its coefficient array *)
Definition opspec : Type := string * (cls * list nat).
Definition gen_ok (n : nat) : bool := Nat.eqb n 2 || Nat.eqb n 3.
(* shapes compatible with the symmetry of the class *)
Definition shape_ok (c : cls) (s : list nat) : bool :=
  forallb gen_ok s &&
  match c, s with
  | Cl0, [] => true
  | Cl1, [_; _] => true
  | (Cl2 | Cl9), [n; m] => Nat.eqb n m
  | Cl3, [_; _; _; _] => true
  | (Cl4 | Cl6), [n; m; p; q] => Nat.eqb n m && Nat.eqb n p && Nat.eqb n q
  | Cl41, [n; m; p; q] => Nat.eqb n p && Nat.eqb m q
  | Cl5, [n; m; p; q] => Nat.eqb n m && Nat.eqb p q
  | (Cl7 | Cl71), [n; m; _; _] => Nat.eqb n m
  | Cl8, [n; m; p; q] => Nat.eqb n 3 && Nat.eqb m 3 && Nat.eqb p 3 && Nat.eqb q 3
  | _, _ => false
  end.
Definition op_shape (c : cls) (s : list nat) : option (list nat) := match c with Cl0 => None | _ => Some s end.
(* the coefficient of the entry I *)
Definition op_label (n : string) (c : cls) (I : idx) : string := match c with Cl0 => n | _ => label n I end.
(* the coefficients of the non-redundant basis: label and "real" flag *)
Definition op_coeffs (o : opspec) : list (string * bool) :=
  let '(n, (c, s)) := o in
  map (fun I => (op_label n c I, real_entry c I))
      (filter (fun I => in_shape s I && nonredundant c I) (indices c)).
(* a basis file listing exactly the non-redundant coefficients of the operators sp,
   in any order *)
Record describes (sp : list opspec) (all : list string) (real : string -> bool) : Prop := {
  d_names : NoDup (map fst sp);
  d_no_us : forall n c s, In (n, (c, s)) sp -> no_us n;
  d_shapes : forall n c s, In (n, (c, s)) sp -> shape_ok c s = true;
  d_all : forall v, In v all <-> exists o, In o sp /\ In v (map fst (op_coeffs o));
  d_real : forall o v r, In o sp -> In (v, r) (op_coeffs o) -> real v = r }.
(* the array, continued by zero to three generations, has the symmetry *)
Definition symmetric_in {K : StarField} (c : cls) (s : list nat) (a : idx -> K) : Prop :=
  has_symmetry c (fun I => if in_shape s I then a I else 0%K).
