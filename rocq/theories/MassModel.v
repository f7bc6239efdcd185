(* The translation from the Warsaw to the Warsaw mass basis (wilson/translate/smeft.py:10-63).

   E is the module-level EFTutil instance smeftutil.  The CKM matrix computed by
   ckmutil.ckm.ckm_tree from the parameters and the singular values computed by
   ckmutil.diag.msvd are arguments: both functions belong to other packages. *)
From Coq Require Import List Bool ZArith QArith Arith Lia String Ascii.
From Verif Require Import PyBase Num SymModel SymClass EftModel NpModel.
Import ListNotations.
Local Open Scope string_scope.
Local Open Scope list_scope.

Section Mass.
Context {K : StarField}.
Local Open Scope K_scope.
Variable E : eft.

(* one pass of the loop of smeft_toarray, translate/smeft.py:16-21 *)
Definition toarray_step (wc_name : string) (s : list nat) (a : idx -> K) (kv : string * K) : res (idx -> K) :=
  if negb (keqb (name_of (fst kv)) wc_name) then Ok a
  else bind (int_chars (index_of (fst kv))) (fun zs =>
       bind (norm_index s (map (fun z => z - 1)%Z zs)) (fun p =>
       Ok (fun I => if prefixb p I then snd kv else a I))).
(* smeft_toarray, translate/smeft.py:10-23; the shape 1 of a scalar gives np.zeros(1) *)
Definition smeft_toarray (wc_name : string) (wc_dict : dict string K) : res (cval K) :=
  match dget (e_shape E) wc_name with
  | None => Err KeyError
  | Some sh =>
      let s := match sh with None => [1%nat] | Some s => s end in
      bind (fold_left (fun acc kv => bind acc (fun a => toarray_step wc_name s a kv)) wc_dict (Ok (fun _ => 0))) (fun a =>
      bind (eft_symmetrize E [(wc_name, CArr s a)]) (fun C =>
      match dget C wc_name with Some v => Ok v | None => Err KeyError end))
  end.
(* smeft_fromarray, translate/smeft.py:26-32; only called on arrays *)
Definition smeft_fromarray (wc_name : string) (C : cval K) : dict string K :=
  match C with
  | CArr s a => fold_left (fun d I => dset d (label wc_name I) (a I)) (all_indices s) []
  | CNum _ => []
  end.
(* np.diag of a vector of length 3 *)
Definition np_diag3 (m : nat -> K) : cval K :=
  CArr [3; 3]%nat (fun I => if Nat.eqb (nth 0 I 0%nat) (nth 1 I 0%nat) then m (nth 0 I 0%nat) else 0).

(* the list C_rotate_u, translate/smeft.py:49 *)
Definition C_rotate_u : list string := ["uphi"; "uG"; "uW"; "uB"].
(* the loop over C_rotate_u, translate/smeft.py:50-56 *)
Definition rotate_step (V : cval K) (C : dict string K) (name : string) (C_out : dict string K) : res (dict string K) :=
  bind (smeft_toarray name C) (fun a =>
  let UuL := np_T (np_conj V) in
  bind (np_matmul (np_T (np_conj UuL)) a) (fun b =>
  Ok (dupdate C_out (smeft_fromarray name b)))).
Fixpoint rotate_all (V : cval K) (C : dict string K) (names : list string) (C_out : dict string K) : res (dict string K) :=
  match names with
  | [] => Ok C_out
  | n :: ns => bind (rotate_step V C n C_out) (rotate_all V C ns)
  end.
(* warsaw_to_warsawmass, translate/smeft.py:35-63; msvd a is the vector of singular
   values ckmutil.diag.msvd(a)[1] *)
Definition warsaw_to_warsawmass (V : cval K) (msvd : cval K -> nat -> K) (C : dict string K) : res (dict string K) :=
  bind (rotate_all V C C_rotate_u C) (fun C_out =>
  bind (smeft_toarray "llphiphi" C) (fun a =>
  Ok (dupdate C_out (smeft_fromarray "llphiphi" (np_diag3 (msvd a)))))).
End Mass.
