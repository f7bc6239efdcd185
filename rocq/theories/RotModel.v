(* Model of wilson/util/smeft_warsaw.py (flavour rotations of SMEFT coefficients) and of the
   translations between the Warsaw and Warsaw up bases (wilson/translate/smeft.py:66-109). *)
From Coq Require Import List Bool ZArith QArith Arith Lia String Ascii.
From Verif Require Import PyBase Num SymModel EftModel NpModel BetaSpec.
Import ListNotations.
Local Open Scope string_scope.
Local Open Scope list_scope.

(* an argument of flavor_rotation, U or U.conj() *)
Inductive umat := Pl (f : field) | Cj (f : field).
(* the right hand sides: C_in[k];  a.T @ C_in[k] @ b  (U.conj().T is Cj);
   np.einsum('jb,ld,ia,kc,ijkl->abcd', mj, ml, mi, mk, C_in[k]) *)
Inductive rrule := RCopy | RMat (a b : umat) | REin (mj ml mi mk : umat).
(* smeft_warsaw.py:11-102 in the order of the code *)
Definition rot_rules (keys0 : list string) : list (list string * rrule) :=
  [(keys0, RCopy);
   (["ephi"; "eW"; "eB"], RMat (Cj Fl) (Pl Fe));
   (["uphi"; "uW"; "uB"; "uG"], RMat (Cj Fq) (Pl Fu));
   (["dphi"; "dW"; "dB"; "dG"], RMat (Cj Fq) (Pl Fd));
   (["phil1"; "phil3"], RMat (Cj Fl) (Pl Fl));
   (["phiq1"; "phiq3"], RMat (Cj Fq) (Pl Fq));
   (["llphiphi"], RMat (Pl Fl) (Pl Fl));
   (["phie"], RMat (Cj Fe) (Pl Fe));
   (["phiu"], RMat (Cj Fu) (Pl Fu));
   (["phid"], RMat (Cj Fd) (Pl Fd));
   (["phiud"], RMat (Cj Fu) (Pl Fd));
   (["ll"], REin (Pl Fl) (Pl Fl) (Cj Fl) (Cj Fl));
   (["ee"], REin (Pl Fe) (Pl Fe) (Cj Fe) (Cj Fe));
   (["le"], REin (Pl Fl) (Pl Fe) (Cj Fl) (Cj Fe));
   (["qq1"], REin (Pl Fq) (Pl Fq) (Cj Fq) (Cj Fq));
   (["qq3"], REin (Pl Fq) (Pl Fq) (Cj Fq) (Cj Fq));
   (["dd"], REin (Pl Fd) (Pl Fd) (Cj Fd) (Cj Fd));
   (["uu"], REin (Pl Fu) (Pl Fu) (Cj Fu) (Cj Fu));
   (["ud8"], REin (Pl Fu) (Pl Fd) (Cj Fu) (Cj Fd));
   (["ud1"], REin (Pl Fu) (Pl Fd) (Cj Fu) (Cj Fd));
   (["qu1"], REin (Pl Fq) (Pl Fu) (Cj Fq) (Cj Fu));
   (["qu8"], REin (Pl Fq) (Pl Fu) (Cj Fq) (Cj Fu));
   (["qd1"], REin (Pl Fq) (Pl Fd) (Cj Fq) (Cj Fd));
   (["qd8"], REin (Pl Fq) (Pl Fd) (Cj Fq) (Cj Fd));
   (["quqd1"], REin (Pl Fu) (Pl Fd) (Cj Fq) (Cj Fq));
   (["quqd8"], REin (Pl Fu) (Pl Fd) (Cj Fq) (Cj Fq));
   (["lq1"], REin (Pl Fl) (Pl Fq) (Cj Fl) (Cj Fq));
   (["lq3"], REin (Pl Fl) (Pl Fq) (Cj Fl) (Cj Fq));
   (["ld"], REin (Pl Fl) (Pl Fd) (Cj Fl) (Cj Fd));
   (["lu"], REin (Pl Fl) (Pl Fu) (Cj Fl) (Cj Fu));
   (["qe"], REin (Pl Fq) (Pl Fe) (Cj Fq) (Cj Fe));
   (["ed"], REin (Pl Fe) (Pl Fd) (Cj Fe) (Cj Fd));
   (["eu"], REin (Pl Fe) (Pl Fu) (Cj Fe) (Cj Fu));
   (["ledq"], REin (Pl Fe) (Pl Fq) (Cj Fl) (Cj Fd));
   (["lequ1"], REin (Pl Fe) (Pl Fu) (Cj Fl) (Cj Fq));
   (["lequ3"], REin (Pl Fe) (Pl Fu) (Cj Fl) (Cj Fq));
   (["duql"], REin (Pl Fu) (Pl Fl) (Pl Fd) (Pl Fq));
   (["qque"], REin (Pl Fq) (Pl Fe) (Pl Fq) (Pl Fu));
   (["qqql"], REin (Pl Fq) (Pl Fl) (Pl Fq) (Pl Fq));
   (["duue"], REin (Pl Fu) (Pl Fe) (Pl Fd) (Pl Fu))].

Section Rot.
Context {K : StarField}.
Local Open Scope K_scope.
Notation cdict := (dict string (cval K)).
Variable U : field -> cval K.   (* the arguments Uq, Uu, Ud, Ul, Ue *)
Definition umat_val (m : umat) : cval K := match m with Pl f => U f | Cj f => np_conj (U f) end.
Definition apply_rule (r : rrule) (c : cval K) : res (cval K) :=
  match r with
  | RCopy => Ok c
  | RMat a b => bind (np_matmul (np_T (umat_val a)) c) (fun x => np_matmul x (umat_val b))
  | REin mj ml mi mk => np_einsum "jb,ld,ia,kc,ijkl->abcd" [umat_val mj; umat_val ml; umat_val mi; umat_val mk; c]
  end.
(* for k in keys: if k in C_in: C[k] = ... *)
Fixpoint rot_keys (C_in : cdict) (r : rrule) (keys : list string) (C : cdict) : res cdict :=
  match keys with
  | [] => Ok C
  | k :: ks => match dget C_in k with
               | Some c => bind (apply_rule r c) (fun v => rot_keys C_in r ks (dset C k v))
               | None => rot_keys C_in r ks C
               end
  end.
Fixpoint rot_all (C_in : cdict) (rules : list (list string * rrule)) (C : cdict) : res cdict :=
  match rules with
  | [] => Ok C
  | (ks, r) :: rs => bind (rot_keys C_in r ks C) (rot_all C_in rs)
  end.
(* flavor_rotation(C_in, Uq, Uu, Ud, Ul, Ue)    smeft_warsaw.py:8-103; keys0 is smeftutil.WC_keys_0f *)
Definition flavor_rotation (keys0 : list string) (C_in : cdict) : res cdict := rot_all C_in (rot_rules keys0) [].
End Rot.

(* SMEFT._flavor_rotation, run/smeft/classes.py:141-205: the same for parameter points that
   contain the SM parameters; here every key has to be present (C_in[k] raises KeyError) *)
Definition sm_rot_rules : list (list string * rrule) :=
  [(["g"; "gp"; "gs"; "Lambda"; "m2"], RCopy);
   (["Ge"], RMat (Cj Fl) (Pl Fe)); (["Gu"], RMat (Cj Fq) (Pl Fu)); (["Gd"], RMat (Cj Fq) (Pl Fd))].
Definition smeft_rot_rules (keys0 : list string) : list (list string * rrule) :=
  [(keys0, RCopy);
   (["ephi"; "eW"; "eB"], RMat (Cj Fl) (Pl Fe));
   (["uphi"; "uW"; "uB"; "uG"], RMat (Cj Fq) (Pl Fu));
   (["dphi"; "dW"; "dB"; "dG"], RMat (Cj Fq) (Pl Fd));
   (["phil1"; "phil3"], RMat (Cj Fl) (Pl Fl));
   (["phiq1"; "phiq3"], RMat (Cj Fq) (Pl Fq));
   (["llphiphi"], RMat (Pl Fl) (Pl Fl));
   (["phie"], RMat (Cj Fe) (Pl Fe));
   (["phiu"], RMat (Cj Fu) (Pl Fu));
   (["phid"], RMat (Cj Fd) (Pl Fd));
   (["phiud"], RMat (Cj Fu) (Pl Fd));
   (["ll"], REin (Pl Fl) (Pl Fl) (Cj Fl) (Cj Fl));
   (["ee"], REin (Pl Fe) (Pl Fe) (Cj Fe) (Cj Fe));
   (["le"], REin (Pl Fl) (Pl Fe) (Cj Fl) (Cj Fe));
   (["qq1"], REin (Pl Fq) (Pl Fq) (Cj Fq) (Cj Fq));
   (["qq3"], REin (Pl Fq) (Pl Fq) (Cj Fq) (Cj Fq));
   (["dd"], REin (Pl Fd) (Pl Fd) (Cj Fd) (Cj Fd));
   (["uu"], REin (Pl Fu) (Pl Fu) (Cj Fu) (Cj Fu));
   (["ud1"], REin (Pl Fu) (Pl Fd) (Cj Fu) (Cj Fd));
   (["ud8"], REin (Pl Fu) (Pl Fd) (Cj Fu) (Cj Fd));
   (["qu1"], REin (Pl Fq) (Pl Fu) (Cj Fq) (Cj Fu));
   (["qu8"], REin (Pl Fq) (Pl Fu) (Cj Fq) (Cj Fu));
   (["qd1"], REin (Pl Fq) (Pl Fd) (Cj Fq) (Cj Fd));
   (["qd8"], REin (Pl Fq) (Pl Fd) (Cj Fq) (Cj Fd));
   (["quqd1"], REin (Pl Fu) (Pl Fd) (Cj Fq) (Cj Fq));
   (["quqd8"], REin (Pl Fu) (Pl Fd) (Cj Fq) (Cj Fq));
   (["lq1"], REin (Pl Fl) (Pl Fq) (Cj Fl) (Cj Fq));
   (["lq3"], REin (Pl Fl) (Pl Fq) (Cj Fl) (Cj Fq));
   (["ld"], REin (Pl Fl) (Pl Fd) (Cj Fl) (Cj Fd));
   (["lu"], REin (Pl Fl) (Pl Fu) (Cj Fl) (Cj Fu));
   (["qe"], REin (Pl Fq) (Pl Fe) (Cj Fq) (Cj Fe));
   (["ed"], REin (Pl Fe) (Pl Fd) (Cj Fe) (Cj Fd));
   (["eu"], REin (Pl Fe) (Pl Fu) (Cj Fe) (Cj Fu));
   (["ledq"], REin (Pl Fe) (Pl Fq) (Cj Fl) (Cj Fd));
   (["lequ1"], REin (Pl Fe) (Pl Fu) (Cj Fl) (Cj Fq));
   (["lequ3"], REin (Pl Fe) (Pl Fu) (Cj Fl) (Cj Fq));
   (["duql"], REin (Pl Fu) (Pl Fl) (Pl Fd) (Pl Fq));
   (["qque"], REin (Pl Fq) (Pl Fe) (Pl Fq) (Pl Fu));
   (["qqql"], REin (Pl Fq) (Pl Fl) (Pl Fq) (Pl Fq));
   (["duue"], REin (Pl Fu) (Pl Fe) (Pl Fd) (Pl Fu))].
Section Strict.
Context {K : StarField}.
Notation cdict := (dict string (cval K)).
Variable U : field -> cval K.
Fixpoint rot_keys_strict (C_in : cdict) (r : rrule) (keys : list string) (C : cdict) : res cdict :=
  match keys with
  | [] => Ok C
  | k :: ks => match dget C_in k with
               | Some c => bind (apply_rule U r c) (fun v => rot_keys_strict C_in r ks (dset C k v))
               | None => Err KeyError
               end
  end.
Fixpoint rot_all_strict (C_in : cdict) (rules : list (list string * rrule)) (C : cdict) : res cdict :=
  match rules with
  | [] => Ok C
  | (ks, r) :: rs => bind (rot_keys_strict C_in r ks C) (rot_all_strict C_in rs)
  end.
Definition smeft_flavor_rotation (keys0 : list string) (sm_parameters : bool) (C_in : cdict) : res cdict :=
  rot_all_strict C_in ((if sm_parameters then sm_rot_rules else []) ++ smeft_rot_rules keys0) [].
End Strict.

Section Up.
Context {K : StarField}.
Local Open Scope K_scope.
(* Uu = Ud = Ul = Ue = np.eye(3) *)
Definition only_q (Uq : cval K) (f : field) : cval K := match f with Fq => Uq | _ => np_eye 3 end.
(* warsaw_to_warsaw_up    translate/smeft.py:66-86; V is the result of ckmutil.ckm.ckm_tree, E is smeftutil *)
Definition warsaw_to_warsaw_up (E : eft) (V : cval K) (C : dict string K) : res (dict string K) :=
  bind (wcxf2arrays_symmetrized E C) (fun C_in =>
  bind (flavor_rotation (only_q (np_T (np_conj V))) (e_keys0 E) C_in) (arrays2wcxf_nonred E)).
(* warsaw_up_to_warsaw    translate/smeft.py:89-109 *)
Definition warsaw_up_to_warsaw (E : eft) (V : cval K) (C : dict string K) : res (dict string K) :=
  bind (wcxf2arrays_symmetrized E C) (fun C_in =>
  bind (flavor_rotation (only_q V) (e_keys0 E) C_in) (arrays2wcxf_nonred E)).
End Up.
