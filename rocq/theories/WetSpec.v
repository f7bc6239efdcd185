(* Specification of the running in WET: contracts of the external linear algebra and the
   notions used in the statements of WetProps.v. *)
From Coq Require Import List Bool ZArith Reals Arith Lia String Ascii.
From Verif Require Import PyBase Num SymModel EftModel NpModel RealC WcxfModel AdmData WetModel.
Import ListNotations.
Local Open Scope string_scope.
Local Open Scope list_scope.
Local Open Scope K_scope.

(* equality of n x n matrices *)
Definition meqn (n : nat) (A B : mat) : Prop := forall i j, (i < n)%nat -> (j < n)%nat -> A i j = B i j.
(* the contract of np.linalg.eig and np.linalg.inv on a diagonalisable matrix A:
   A v = v diag(w), and inv(v) is the inverse of v *)
Definition eig_ok (la : linalg) (n : nat) (A : mat) : Prop :=
  let w := fst (eig la n A) in
  let v := snd (eig la n A) in
  meqn n (mmul n A v) (fun i j => w j * v i j) /\
  meqn n (mmul n v (minv la n v)) meye /\
  meqn n (mmul n (minv la n v) v) meye.

(* the derivative of a complex valued function of a real variable *)
Definition cderiv (F : R -> CR) (x : R) (l : CR) : Prop :=
  derivable_pt_lim (fun t => fst (F t)) x (fst l) /\ derivable_pt_lim (fun t => snd (F t)) x (snd l).

(* physical running parameters: positive couplings and masses *)
Definition p_ok (p : rpar) : Prop := (0 < alpha_s p)%R /\ (0 < alpha_e p)%R /\ forall v, (0 < mval p v)%R.
(* np.linalg fulfils its contract on the (transposed) QCD anomalous dimension matrix of a class *)
Definition adm_ok (la : linalg) (bases : @basis_reg CR) (cls : string) (f : Z) (p : rpar) : Prop :=
  forall n A, adm_reduced bases "adm_s_" cls f p = Ok (n, A) -> eig_ok la n (mT A).

(* the coefficient k belongs to the sector s of the EFT of the runner, the sector is one of the requested ones,
   and k is a coefficient of the sector for this number of flavours and of the JMS basis *)
Definition covers (bases : @basis_reg CR) (efts : @eft_reg CR) (r : runner) (sl : sel) (s k : string) : Prop :=
  (exists E, reg_get efts (r_eft r) = Ok E /\ In s (dkeys (eft_sectors E))) /\
  selected sl s = true /\
  (exists f keys, r_f r = Some f /\ sector_keys bases s f = Ok keys /\ In k keys) /\
  (exists b all, reg_get bases (r_eft r, "JMS") = Ok b /\ all_wcs b = Ok all /\ In k all).

(* the ratio of the strong couplings at the two scales of a run *)
Definition eta_of (running : Z -> R -> res rpar) (f : Z) (a b : R) (eta : R) : Prop :=
  exists pa pb, running f a = Ok pa /\ running f b = Ok pb /\ p_ok pa /\ p_ok pb /\ eta = (alpha_s pa / alpha_s pb)%R.

(* One-loop QCD anomalous dimensions, in units of alpha_s/(4 pi), of the operators whose flavour and colour
   structure does not mix under QCD: conserved currents and purely leptonic operators do not run, scalar
   quark currents run like a quark mass (-6 C_F = -8), tensor currents with 2 C_F = 8/3, and the three-quark
   operators of the baryon number violating sector with -4. *)
Definition current_names : list string :=
  ["VeeLL"; "VeeRR"; "VeeLR"; "SeeRR"; "VnueLL"; "VnueLR"; "VnudLL"; "VnudLR"; "VnuuLL"; "VnuuLR";
   "VdeLR"; "VedLL"; "VedLR"; "VedRR"; "VueLR"; "VeuLL"; "VeuLR"; "VeuRR"; "VnueduLL"; "VnueduLR"].
Definition scalar_names : list string := ["SedRL"; "SedRR"; "SeuRL"; "SeuRR"; "SnueduRL"; "SnueduRR"].
Definition tensor_names : list string := ["TedRR"; "TeuRR"; "TnueduRR"].
Definition bnv_names : list string :=
  ["SdudRL"; "SuddLL"; "SdduRL"; "SduuLL"; "SduuLR"; "SduuRL"; "SduuRR"; "SuudLR"; "SuudRL"].
Definition qcd_gamma (name : string) : option R :=
  if kmem name current_names then Some 0%R else
  if kmem name scalar_names then Some (-8)%R else
  if kmem name tensor_names then Some (8 / 3)%R else
  if kmem name bnv_names then Some (-4)%R else None.
