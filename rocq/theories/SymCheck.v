(* Checkers run by the kernel on the symbolic tables, and their consequences. *)
From Coq Require Import List Bool ZArith QArith Arith Lia.
From Verif Require Import PyBase Num Lin SymModel SymTables SymClass SymSpec SymProofs.
Import ListNotations.

Definition all_classes := [Cl0; Cl1; Cl2; Cl3; Cl4; Cl41; Cl5; Cl6; Cl7; Cl71; Cl8; Cl9].
Lemma all_classes_in c : In c all_classes.
Proof. destruct c; simpl; tauto. Qed.
Definition diag71 (c : cls) (I : idx) : bool :=
  match c, I with Cl71, i :: j :: _ => Nat.eqb i j | _, _ => false end.

(* symbolic result of symmetrize on the generic array *)
Definition S (c : cls) : idx -> sym := symmetrize s_alg c satom.
Definition SN (c : cls) : idx -> sym := symmetrize_nonred s_alg c satom.

(* C14 *)
Definition check14 (c : cls) (s : idx -> sym) : bool :=
  forallb (fun I => forallb (fun g => diag71 c I || seqb (s (e_perm g I)) (sact g (s I))) (elems c)) (indices c).
Definition check14_8 (s : idx -> sym) : bool :=
  forallb (fun I => match I with [p;r;q;t] =>
     seqb (v_lin s_alg [(1%Q, s [p;r;q;t]); (1%Q, s [r;p;q;t])]) (v_lin s_alg [(1%Q, s [q;p;r;t]); (1%Q, s [q;r;p;t])])
     | _ => true end) (indices Cl8).
Lemma check14_ok : forallb (fun c => check14 c (S c)) all_classes = true.
Proof. vm_compute. reflexivity. Qed.
Lemma check14_8_ok : check14_8 (S Cl8) = true.
Proof. vm_compute. reflexivity. Qed.
(* the scaled arrays are symmetric as well *)
Lemma check14n_ok : forallb (fun c => check14 c (SN c)) all_classes = true.
Proof. vm_compute. reflexivity. Qed.
Lemma check14n_8_ok : check14_8 (SN Cl8) = true.
Proof. vm_compute. reflexivity. Qed.

(* C15: non-redundant entries *)
Definition kept (c : cls) (I : idx) (s : sym) : bool :=
  if real_entry c I then seqb s ([(1%Q, I)], []) else seqb s (satom I).
Definition check15 (c : cls) : bool :=
  let T := S c in forallb (fun I => if nonredundant c I then kept c I (T I) else true) (indices c).
Lemma check15_ok : forallb check15 all_classes = true.
Proof. vm_compute. reflexivity. Qed.
(* C15: fixed points; each entry is the image of the entry it was read from *)
Fixpoint anyb {A} (f : A -> bool) (l : list A) : bool :=
  match l with [] => false | x :: r => if f x then true else anyb f r end.
Definition check_fix (c : cls) : bool :=
  let T := S c in
  forallb (fun I => let s := T I in anyb (fun h => let J := e_perm h I in
     anyb (fun g => if keqb (e_perm g J) I then if kmem J (indices c) then
        if seqb s (sact g (satom J)) then true else
        if seqb s (sact g ([(1%Q, J)], [])) then anyb (fun k => e_conj k && negb (e_neg k) && keqb (e_perm k J) J) (elems c)
        else false else false else false)
       (elems c)) (elems c)) (indices c).
Lemma check_fix_ok : forallb (fun c => match c with Cl8 => true | _ => check_fix c end) all_classes = true.
Proof. vm_compute. reflexivity. Qed.
(* idempotence *)
Definition check_idem (c : cls) : bool :=
  let T := S c in let TT := symmetrize s_alg c T in
  forallb (fun I => seqb (TT I) (T I)) (indices c).
Lemma check_idem_ok : forallb check_idem all_classes = true.
Proof. vm_compute. reflexivity. Qed.

(* C16: unscale after symmetrize_nonred on the non-redundant entries *)
Definition check16 (c : cls) : bool :=
  let T := unscale s_alg c (SN c) in forallb (fun I => if nonredundant c I then kept c I (T I) else true) (indices c).
Lemma check16_ok : forallb check16 all_classes = true.
Proof. vm_compute. reflexivity. Qed.
(* C16, other direction: forget the redundant entries of the unscaled array *)
Definition project {V} (zero : V) (c : cls) (a : idx -> V) : idx -> V :=
  fun I => if nonredundant c I then a I else zero.
Definition check16b (c : cls) : bool :=
  let T := S c in let TT := symmetrize_nonred s_alg c (project ([], []) c (unscale s_alg c T)) in
  forallb (fun I => if diag71 c I then seqb (TT I) ([], []) else seqb (TT I) (T I)) (indices c).
Lemma check16b_ok : forallb check16b all_classes = true.
Proof. vm_compute. reflexivity. Qed.

(* nothing outside the index range is touched *)
Definition asgn_target (s : asgn) : idx := match s with SetRe i _ | SetIm i _ | SetLin i _ | SetConj i _ => i end.
Definition class_targets (c : cls) : list idx :=
  match c with
  | Cl0 => [[]] | Cl1 | Cl3 => []
  | Cl2 => map asgn_target symmetrize_2 | Cl4 => map asgn_target symmetrize_4
  | Cl41 => map asgn_target symmetrize_41 | Cl5 => map asgn_target symmetrize_5
  | Cl6 => map asgn_target symmetrize_6 | Cl7 => map asgn_target symmetrize_7
  | Cl71 => map asgn_target symmetrize_71 | Cl8 => map asgn_target symmetrize_8
  | Cl9 => map asgn_target symmetrize_9
  end.
Lemma targets_ok : forallb (fun c => forallb (fun I => kmem I (indices c)) (class_targets c)) all_classes = true.
Proof. vm_compute. reflexivity. Qed.

(* C17: bilinear forms in the coefficients and the operators *)
Definition patom : Type := bool * idx.
Definition flat (s : sym) : lin patom :=
  map (fun x => (fst x, (false, snd x))) (fst s) ++ map (fun x => (fst x, (true, snd x))) (snd s).
Definition lmul {A B} (l : lin A) (m : lin B) : lin (A * B) :=
  flat_map (fun x => map (fun y => (Qred (fst x * fst y), (snd x, snd y))) m) l.
Definition canonS (c : cls) (T : idx -> sym) (I : idx) : sym := if diag71 c I then ([], []) else T I.
Definition hermitian_class (c : cls) : bool := match c with Cl2 | Cl4 | Cl5 | Cl6 => true | _ => false end.
Definition lag_lhs (c : cls) : lin (patom * patom) :=
  let A := SN c in let T := canonS c (S c) in
  flat_map (fun I => lmul (flat (A I)) (flat (T I))) (indices c).
Definition lag_rhs (c : cls) : lin (patom * patom) :=
  let T := canonS c (S c) in
  flat_map (fun I =>
    if nonredundant c I then
      if real_entry c I then lmul (flat ([(1%Q, I)], [])) (flat (T I))
      else lmul (flat (satom I)) (flat (T I)) ++
           (if hermitian_class c then lmul (flat (v_conj s_alg (satom I))) (flat (v_conj s_alg (T I))) else [])
    else []) (indices c).
Lemma check17_ok : forallb (fun c => match c with Cl9 => true | _ => leqb (lag_lhs c) (lag_rhs c) end) all_classes = true.
Proof. vm_compute. reflexivity. Qed.

(* the symmetry factors count the entries related without conjugation *)
Definition factor (c : cls) (I : idx) : nat :=
  match c with Cl4 | Cl41 => d_4 I | Cl6 => d_6 I | Cl7 | Cl71 => d_7 I | _ => 1 end.
Lemma check_factor_ok : forallb (fun c => match c with Cl8 | Cl9 => true | _ =>
   forallb (fun I => Nat.eqb (factor c I) (List.length (nodup (list_eq_dec Nat.eq_dec) (plain_orbit c I)))) (indices c) end) all_classes = true.
Proof. vm_compute. reflexivity. Qed.
(* class 8: how each redundant entry is obtained *)
Definition lin3 (J1 J2 J3 : idx) : sym := v_lin s_alg [(1%Q, satom J1); (1%Q, satom J2); ((-1)%Q, satom J3)].
Definition fix8 (I : idx) : bool :=
  match I with
  | [p;r;q;t] =>
    let s := S Cl8 I in
    if seqb s (satom I) then true else
    if Nat.eqb r q then seqb s (satom [r;r;p;t]) else
    if Nat.eqb p r then seqb s (satom [q;p;p;t]) else
    if keqb [p;r;q] [2;0;1]%nat then seqb s (lin3 [1;2;0;t] [1;0;2;t] [0;2;1;t])%nat else
    if keqb [p;r;q] [2;1;0]%nat then seqb s (lin3 [0;2;1;t] [0;1;2;t] [1;2;0;t])%nat else
    false
  | _ => false
  end.
Lemma fix8_ok : forallb fix8 (indices Cl8) = true.
Proof. vm_compute. reflexivity. Qed.
(* every entry of the result is computed from non-redundant entries *)
Definition check_det (c : cls) : bool :=
  forallb (fun I => diag71 c I || forallb (fun x => nonredundant c (snd x)) (fst (S c I) ++ snd (S c I))) (indices c).
Lemma check_det_ok : forallb check_det all_classes = true.
Proof. vm_compute. reflexivity. Qed.
Definition check_src (c : cls) : bool :=
  forallb (fun I => forallb (fun x => kmem (snd x) (indices c)) (fst (S c I) ++ snd (S c I))) (indices c).
Lemma check_src_ok : forallb check_src all_classes = true.
Proof. vm_compute. reflexivity. Qed.
(* class 71 leaves the diagonal alone *)
Definition diag_same (s : idx -> sym) : bool :=
  forallb (fun I => if diag71 Cl71 I then seqb (s I) (satom I) else true) (indices Cl71).
Lemma diag_same_ok : diag_same (S Cl71) = true /\ diag_same (SN Cl71) = true.
Proof. split; vm_compute; reflexivity. Qed.
