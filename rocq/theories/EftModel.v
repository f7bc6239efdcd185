(* EFTutil on dictionaries of coefficients (wilson/util/common.py).

   Values are numbers or numpy arrays; an array is its shape and a function on index
   lists (only indices inside the shape matter).  n_gen is 3 (the default, and the
   only value for which the symmetrize_N tables make sense).  Not modelled: dtypes,
   strings with non-ASCII digits, sharing of numpy views. *)
From Coq Require Import List Bool ZArith QArith Arith Lia String Ascii DecimalString.
From Verif Require Import PyBase Num Lin SymModel SymTables SymClass.
Import ListNotations.
Local Open Scope string_scope.
Local Open Scope list_scope.

(* s.split("_") *)
Fixpoint split_us (s : string) : list string :=
  match s with
  | EmptyString => [EmptyString]
  | String c r =>
      if Ascii.eqb c "_" then EmptyString :: split_us r
      else match split_us r with [] => [String c EmptyString] | w :: ws => String c w :: ws end
  end.
Definition has_us (s : string) : bool := Nat.ltb 1 (List.length (split_us s)).   (* "_" in s *)
Definition name_of (s : string) : string := nth 0 (split_us s) "".
Definition index_of (s : string) : string := List.last (split_us s) "".
(* int(c) of one character *)
Definition int_char (c : ascii) : res Z :=
  let n := nat_of_ascii c in
  if (48 <=? n)%nat && (n <=? 57)%nat then Ok (Z.of_nat n - 48)%Z else Err ValueError.
Fixpoint int_chars (s : string) : res (list Z) :=
  match s with
  | EmptyString => Ok []
  | String c r => bind (int_char c) (fun z => bind (int_chars r) (fun zs => Ok (z :: zs)))
  end.
(* str(n) for a natural number *)
Definition str_nat (n : nat) : string := NilEmpty.string_of_uint (Nat.to_uint n).

(* ---------- arrays ---------- *)
Fixpoint in_shape (s : list nat) (I : idx) : bool :=
  match s, I with
  | [], [] => true
  | n :: s', i :: I' => (i <? n)%nat && in_shape s' I'
  | _, _ => false
  end.
(* all indices of an array in row-major order: np.indices(shape).reshape(ndim, size).T *)
Fixpoint all_indices (s : list nat) : list idx :=
  match s with
  | [] => [[]]
  | n :: s' => flat_map (fun i => map (cons i) (all_indices s')) (seq 0 n)
  end.
Definition size (s : list nat) : nat := fold_right Nat.mul 1%nat s.
(* numpy index normalisation of the leading indices: negative indices count from the end *)
Fixpoint norm_index (s : list nat) (I : list Z) : res idx :=
  match I, s with
  | [], _ => Ok []
  | _ :: _, [] => Err IndexError
  | z :: I', n :: s' =>
      let N := Z.of_nat n in
      if ((0 <=? z) && (z <? N))%Z then bind (norm_index s' I') (fun r => Ok (Z.to_nat z :: r))
      else if ((- N <=? z) && (z <? 0))%Z then bind (norm_index s' I') (fun r => Ok (Z.to_nat (z + N) :: r))
      else Err IndexError
  end.
Fixpoint prefixb (p I : idx) : bool :=
  match p, I with
  | [], _ => true
  | x :: p', y :: I' => Nat.eqb x y && prefixb p' I'
  | _ :: _, [] => false
  end.

Section Eft.
Context {K : StarField}.
Inductive cval := CNum (z : K) | CArr (s : list nat) (a : idx -> K).

(* shapes: None is the shape 1 of a scalar *)
Definition shapes := dict string (option (list nat)).

(* ---------- EFTutil.__init__, common.py:69-93 ---------- *)
Record eft := mkEft {
  e_all : list string;                 (* all_wcs *)
  e_symm : dict cls (list string);     (* C_symm_keys *)
  e_keys0 : list string; e_keys2 : list string; e_keys4 : list string;
  e_shape : shapes;                    (* C_keys_shape *)
  e_pad : bool }.                      (* _needs_padding *)
Definition e_wc_keys (E : eft) : list string := e_keys0 E ++ e_keys2 E ++ e_keys4 E.
Definition e_keys (E : eft) : list string := dkeys (e_shape E).
End Eft.
Arguments cval K : clear implicits.

Definition cls_eqb (a b : cls) : bool :=
  match a, b with
  | Cl0, Cl0 | Cl1, Cl1 | Cl2, Cl2 | Cl3, Cl3 | Cl4, Cl4 | Cl41, Cl41 | Cl5, Cl5 | Cl6, Cl6
  | Cl7, Cl7 | Cl71, Cl71 | Cl8, Cl8 | Cl9, Cl9 => true
  | _, _ => false
  end.
Lemma cls_eqb_spec a b : reflect (a = b) (cls_eqb a b).
Proof. destruct a, b; constructor; congruence. Qed.
#[global] Instance EqKey_cls : EqKey cls := {| keqb := cls_eqb; keqb_spec := cls_eqb_spec |}.

(* dict.fromkeys(l): first occurrences in order *)
Definition uniq (l : list string) : list string :=
  fold_left (fun acc x => if kmem x acc then acc else acc ++ [x]) l [].

(* comparison of the tuples (label, real) *)
Fixpoint str_ltb (a b : string) : bool :=
  match a, b with
  | _, EmptyString => false
  | EmptyString, String _ _ => true
  | String x a', String y b' =>
      if Ascii.eqb x y then str_ltb a' b' else (nat_of_ascii x <? nat_of_ascii y)%nat
  end.
Definition lab_ltb (a b : string * bool) : bool :=
  if String.eqb (fst a) (fst b) then negb (snd a) && snd b else str_ltb (fst a) (fst b).
(* sorted(set(l)) *)
Fixpoint sinsert (x : string * bool) (l : list (string * bool)) : list (string * bool) :=
  match l with
  | [] => [x]
  | y :: r => if keqb x y then l else if lab_ltb x y then x :: l else y :: sinsert x r
  end.
Definition sorted_set (l : list (string * bool)) : list (string * bool) := fold_right sinsert [] l.

Fixpoint lookup_class (k : list (string * bool)) (t : list (list (string * bool) * cls)) : res cls :=
  match t with
  | [] => Err KeyError
  | (k', c) :: r => if keqb k k' then Ok c else lookup_class k r
  end.
Fixpoint has_3 (s : string) : bool :=
  match s with EmptyString => false | String c r => Ascii.eqb c "3" || has_3 r end.

(* _get_symm_keys, common.py:148-175.  real maps each coefficient to its "real" flag
   (C_keys_complex).  The set of names is iterated in order of first occurrence;
   the order only affects the order inside the lists, which are used with "in". *)
Definition two_flavour_labels (all : list string) (real : string -> bool) (name : string) : list (string * bool) :=
  flat_map (fun v => match split_us v with
     | [n; i] => if keqb n name then if has_3 i then [] else [(i, real v)] else []
     | _ => [] end) all.
Definition get_symm_keys (all : list string) (real : string -> bool) (dim4 : dict cls (list string))
  : res (dict cls (list string)) :=
  let names := uniq (map name_of all) in
  bind (fold_left (fun acc k => bind acc (fun d =>
          bind (lookup_class (sorted_set (two_flavour_labels all real k)) class_definitions) (fun c =>
          Ok (dset d c (dgetd d c [] ++ [k]))))) names (Ok [])) (fun d =>
  fold_left (fun acc kv => bind acc (fun d =>
     match dget d (fst kv) with
     | None => Err KeyError
     | Some l => Ok (dset d (fst kv) (l ++ snd kv))
     end)) dim4 (Ok d)).

(* np.max(rows, axis=0) *)
Fixpoint max_rows (rows : list (list nat)) : res (list nat) :=
  match rows with
  | [] => Err ValueError
  | [r] => Ok r
  | r :: rest => bind (max_rows rest) (fun m =>
      if Nat.eqb (List.length r) (List.length m) then Ok (map (fun p => Nat.max (fst p) (snd p)) (combine r m))
      else Err ValueError)
  end.
Fixpoint rmapl {A B} (f : A -> res B) (l : list A) : res (list B) :=
  match l with [] => Ok [] | x :: r => bind (f x) (fun y => bind (rmapl f r) (fun ys => Ok (y :: ys))) end.
(* _get_keys_and_shapes, common.py:95-146 *)
Definition keys_nf (n : nat) (all : list string) : list string :=
  uniq (map name_of (filter (fun v => has_us v && Nat.eqb (String.length (nth 1 (split_us v) "")) n) all)).
Definition keys_0f (all : list string) : list string := uniq (filter (fun v => negb (has_us v)) all).
Definition index_labels (all : list string) (name : string) : list string :=
  flat_map (fun v => match split_us v with [n; i] => if keqb n name then [i] else [] | _ => [] end) all.
Definition shape_of (symm : dict cls (list string)) (all : list string) (name : string) : res (option (list nat)) :=
  match index_labels all name with
  | [] => Ok None
  | v => bind (rmapl (fun s => rmap (map Z.to_nat) (int_chars s)) v) (fun rows =>
         bind (max_rows rows) (fun m =>
         if kmem name (dgetd symm Cl71 []) then Ok (Some (nth 1 m 0%nat :: tl m)) else Ok (Some m)))
  end.
Definition all_labels_known (all : list string) (keys : list string) : bool :=
  forallb (fun v => match split_us v with [n; _] => kmem n keys | _ => true end) all.
(* min over the arrays of min(shape) *)
Definition min_dims (s : shapes) : list nat :=
  flat_map (fun kv => match snd kv with Some v => v | None => [] end) s.
Definition eft_init (all : list string) (real : string -> bool) (dim4_shape : shapes) (dim4_symm : dict cls (list string))
  : res eft :=
  bind (get_symm_keys all real dim4_symm) (fun symm =>
  let k0 := keys_0f all in let k2 := keys_nf 2 all in let k4 := keys_nf 4 all in
  let keys := k0 ++ k2 ++ k4 in
  if negb (all_labels_known all keys) then Err KeyError else
  bind (rmapl (fun k => rmap (pair k) (shape_of symm all k)) (uniq keys)) (fun sh =>
  let shape := dupdate dim4_shape sh in
  match min_dims shape with
  | [] => Err ValueError                   (* min() of an empty list *)
  | x :: r => Ok (mkEft all symm k0 k2 k4 shape (negb (Nat.eqb 3 (fold_left Nat.min r x))))
  end)).

(* the class used by the if/elif chains of symmetrize and symmetrize_nonred *)
Definition dispatch_order : list cls := [Cl0; Cl1; Cl3; Cl2; Cl4; Cl41; Cl5; Cl6; Cl7; Cl71; Cl8; Cl9].
Definition class_of (E : eft) (k : string) : option cls :=
  find (fun c => kmem k (dgetd (e_symm E) c [])) dispatch_order.

Section Eft2.
Context {K : StarField}.
Local Open Scope K_scope.
Notation cdict := (dict string (cval K)).
Variable E : eft.

(* ---------- C_array2dict, C_dict2array, common.py:257-274 ---------- *)
(* position of an index in row-major order *)
Fixpoint offset (s : list nat) (I : idx) : nat :=
  match s, I with n :: s', i :: I' => (i * size s' + offset s' I')%nat | _, _ => 0%nat end.
Definition reshape (l : list K) (s : list nat) : res (idx -> K) :=
  if Nat.eqb (List.length l) (size s) then Ok (fun I => nth (offset s I) l 0) else Err ValueError.
Definition ravel (s : list nat) (a : idx -> K) : list K := map a (all_indices s).
Definition slice (l : list K) (i j : nat) : list K := firstn (j - i) (skipn i l).
Fixpoint array2dict_from (l : list K) (keys : list string) (i : nat) (d : cdict) : res cdict :=
  match keys with
  | [] => Ok d
  | k :: ks =>
      match dget (e_shape E) k with
      | None => Err KeyError
      | Some None => match nth_error l i with
                     | None => Err IndexError
                     | Some z => array2dict_from l ks (i + 1) (dset d k (CNum z))
                     end
      | Some (Some s) =>
          let j := (i + size s)%nat in
          bind (reshape (slice l i j) s) (fun a => array2dict_from l ks j (dset d k (CArr s a)))
      end
  end.
Definition C_array2dict (l : list K) : res cdict := array2dict_from l (e_keys E) 0 [].
Definition C_dict2array (C : cdict) : res (list K) :=
  rmap (@List.concat K) (rmapl (fun k => match dget C k with
     | None => Err KeyError
     | Some (CNum z) => Ok [z]
     | Some (CArr s a) => Ok (ravel s a)
     end) (e_keys E)).

(* ---------- arrays2wcxf, wcxf2arrays, common.py:276-310 ---------- *)
Definition label (name : string) (I : idx) : string :=
  (name ++ "_" ++ String.concat "" (map (fun j => str_nat (j + 1)) I))%string.
(* An array of shape (1,) is passed through as an array by the code; no shape in
   C_keys_shape is (1,), and here its entry is returned. *)
Definition arrays2wcxf (C : cdict) : dict string K :=
  fold_left (fun d kv => match snd kv with
    | CNum z => dset d (fst kv) z
    | CArr [] a => dset d (fst kv) (a [])
    | CArr [1%nat] a => dset d (fst kv) (a [0%nat])
    | CArr s a => fold_left (fun d I => dset d (label (fst kv) I) (a I)) (all_indices s) d
    end) C [].
Definition wcxf2arrays (d : dict string K) : res cdict :=
  fold_left (fun acc kv => bind acc (fun C =>
    let k := fst kv in let name := name_of k in
    match dget (e_shape E) name with
    | None => Err KeyError
    | Some None => Ok (dset C k (CNum (snd kv)))
    | Some (Some s) =>
        let old := match dget C name with Some x => x | None => CArr s (fun _ => 0) end in
        match old with
        | CNum _ => Err TypeError
        | CArr s' a =>
            bind (int_chars (index_of k)) (fun zs =>
            bind (norm_index s' (map (fun z => z - 1)%Z zs)) (fun p =>
            Ok (dset C name (CArr s' (fun I => if prefixb p I then snd kv else a I)))))
        end
    end)) d (Ok []).

(* ---------- pad_C, unpad_C, common.py:210-255 ---------- *)
Definition pad_val (fill : K) (v : cval K) : res (option (cval K)) :=
  match v with
  | CNum z => Ok (Some v)
  | CArr s a =>
      match s with
      | [] => Err ValueError                                    (* min() of an empty shape *)
      | n :: r =>
      if Nat.eqb (fold_left Nat.min r n) 3 then Ok (Some v)
      else if negb (forallb (fun n => (n <=? 3)%nat) s) then Err ValueError     (* shape mismatch in the slice assignment *)
      else if Nat.eqb (List.length s) 4 || Nat.eqb (List.length s) 2 then
        Ok (Some (CArr (repeat 3%nat (List.length s)) (fun I => if in_shape s I then a I else fill)))
      else Ok None                                              (* not copied *)
      end
  end.
Fixpoint dtrav (f : string -> cval K -> res (option (cval K))) (C : cdict) : res cdict :=
  match C with
  | [] => Ok []
  | (k, v) :: r => bind (f k v) (fun o => bind (dtrav f r) (fun r' =>
      Ok (match o with Some v' => (k, v') :: r' | None => r' end)))
  end.
Definition pad_C (C : cdict) : res cdict := if e_pad E then dtrav (fun _ => pad_val 0) C else Ok C.
Definition unpad_val (k : string) (v : cval K) : res (option (cval K)) :=
  match dget (e_shape E) k with
  | None => Err KeyError
  | Some sh =>
      match v with
      | CNum z => Ok (Some v)
      | CArr s a =>
          match sh with
          | None => Err TypeError
          | Some t =>
              if keqb s t then Ok (Some v)
              else if negb (Nat.eqb (List.length s) 4 || Nat.eqb (List.length s) 2) then Ok None
              else if (List.length t <? List.length s)%nat then Err IndexError
              else Ok (Some (CArr (map (fun p => Nat.min (fst p) (snd p)) (combine s t)) a))
          end
      end
  end.
Definition unpad_C (C : cdict) : res cdict := if e_pad E then dtrav unpad_val C else Ok C.

(* ---------- symmetrize, symmetrize_nonred, unscale_dict, common.py:890-977 ---------- *)
Definition rank (c : cls) : nat := match c with Cl0 => 0 | Cl1 | Cl2 | Cl9 => 2 | _ => 4 end.
Definition full_shape (c : cls) : list nat := repeat 3%nat (rank c).
(* f is one of symmetrize, symmetrize_nonred of SymClass.v *)
Definition symm_val (f : cls -> (idx -> K) -> idx -> K) (k : string) (v : cval K) : res (option (cval K)) :=
  match class_of E k with
  | None => Ok None                        (* no branch taken: the key is dropped *)
  | Some Cl0 => match v with
                | CNum z => Ok (Some (CNum (f Cl0 (fun _ => z) [])))
                | CArr s a => Ok (Some (CArr s (fun I => f Cl0 (fun _ => a I) [])))
                end
  | Some Cl1 | Some Cl3 => Ok (Some v)
  | Some c => match v with
              | CNum _ => Err IndexError
              | CArr s a => if keqb s (full_shape c) then Ok (Some (CArr s (f c a))) else Err IndexError
              end
  end.
Definition symmetrize_C (f : cls -> (idx -> K) -> idx -> K) (C : cdict) : res cdict :=
  bind (pad_C C) (fun C => bind (dtrav (symm_val f) C) unpad_C).
Definition eft_symmetrize : cdict -> res cdict := symmetrize_C (symmetrize k_alg).
Definition eft_symmetrize_nonred : cdict -> res cdict := symmetrize_C (symmetrize_nonred k_alg).
(* multiplication by _scale_dict and unscale_8; the factor of a key without
   symmetry factor is 1.  Numbers of a class with factors (never produced) are
   not modelled. *)
Definition unscale_val (k : string) (v : cval K) : res (option (cval K)) :=
  if negb (dmem (e_shape E) k) && match class_of E k with Some (Cl4|Cl41|Cl6|Cl7|Cl71) => false | _ => true end
  then Err KeyError
  else match v, class_of E k with
  | CArr s a, Some c => Ok (Some (CArr s (unscale k_alg c a)))
  | _, _ => Ok (Some v)
  end.
Definition eft_unscale_dict (C : cdict) : res cdict :=
  bind (pad_C C) (fun C =>
  bind (dtrav unscale_val C) (fun C =>
  if forallb (fun k => dmem C k) (dgetd (e_symm E) Cl8 []) then unpad_C C else Err KeyError)).

(* ---------- add_missing, common.py:312-321 ---------- *)
(* iteration order of the set difference: order of WC_keys *)
Definition add_missing (C : cdict) : res cdict :=
  fold_left (fun acc k => bind acc (fun C' =>
    if dmem C k then Ok C' else
    match dget (e_shape E) k with
    | None => Err KeyError
    | Some None => Ok (dset C' k (CNum 0))
    | Some (Some s) => Ok (dset C' k (CArr s (fun _ => 0)))
    end)) (e_wc_keys E) (Ok C).
(* wcxf2arrays_symmetrized, common.py:979-994 *)
Definition wcxf2arrays_symmetrized (d : dict string K) : res cdict :=
  bind (wcxf2arrays d) (fun C => bind (eft_symmetrize_nonred C) add_missing).
(* arrays2wcxf_nonred, common.py:996-1012 *)
Definition arrays2wcxf_nonred (C : cdict) : res (dict string K) :=
  bind (eft_unscale_dict C) (fun C =>
  Ok (dfilter (fun k v => kmem k (e_all E) && negb (kdec v 0)) (arrays2wcxf C))).
End Eft2.
