(* Specification of the symmetries of the one-loop matching: phases of the fermion fields and
   units of mass.  The SMEFT coefficients are in the basis where the up quark mass matrix is
   diagonal: q_i contains u_L,i and V_ia d_L,a. *)
From Coq Require Import List Bool ZArith Reals Arith String.
From Verif Require Import PyBase Num SymModel EftModel NpModel RealC BetaSpec TreeSpec LoopModel.
Import ListNotations.
Local Open Scope string_scope.
Local Open Scope list_scope.

Section Phases.
Context {K : StarField}.
Local Open Scope K_scope.
Notation cdict := (dict string (cval K)).
(* numbers of modulus 1 *)
Definition unit_phases (p : nat -> K) : Prop := forall i, (p i)^* * p i = 1.
(* the factor of a coefficient with fields ts: P for a field, P^* for a conjugate field *)
Fixpoint phase (P : field -> nat -> K) (ts : list slot) (I : idx) : K :=
  match ts, I with
  | t :: ts', i :: I' => cj (snd t) (P (fst t) i) * phase P ts' I'
  | _, _ => 1
  end.
(* the multiplet of the fields of the WET *)
Definition multiplet (f : wf) : field := match f with NU | EL => Fl | ER => Fe | UL | DL => Fq | UR => Fu | DR => Fd end.
Definition jphase (P : field -> nat -> K) (ts : list jslot) : idx -> K := phase P (map (fun t => (multiplet (fst t), snd t)) ts).
(* the point C' is the point C after the change of the phases *)
Definition rephased (P : field -> nat -> K) (C C' : cdict) : Prop :=
  forall k ts, dget wc_fields k = Some ts -> forall I, In I (all_indices (repeat 3%nat (List.length ts))) ->
    coef C' k I = phase P ts I * coef C k I.
(* P are the phases of q, u, d, l, e and B those of the down quark mass eigenstates d_L: the mass
   terms are invariant, and V' is the CKM matrix after the change of the phases *)
Definition invariant_masses (P : field -> nat -> K) (B : nat -> K) (mass : field -> nat -> K) : Prop :=
  forall i, (i < 3)%nat -> (P Fq i)^* * P Fu i * mass Fu i = mass Fu i /\ (B i)^* * P Fd i * mass Fd i = mass Fd i /\
    (P Fl i)^* * P Fe i * mass Fe i = mass Fe i.
Definition rephased_ckm (P : field -> nat -> K) (B : nat -> K) (V V' : nat -> nat -> K) : Prop :=
  forall i a, (i < 3)%nat -> (a < 3)%nat -> V' i a = (P Fq i)^* * B a * V i a.
(* V is the array with the entries v *)
Definition matrix3 (V : cval K) (v : nat -> nat -> K) : Prop :=
  vshape V = [3; 3]%nat /\ forall i j, (i < 3)%nat -> (j < 3)%nat -> entry V [i; j] = v i j.
End Phases.

(* The masses are positive and different, vT and the scale are not zero: no propagator of the
   matching conditions has a pole and the logarithms are defined. *)
Local Open Scope R_scope.
Record regular (s : lpar) : Prop := {
  r_W : 0 < l_mW s; r_Z : 0 < l_mZ s; r_H : 0 < l_mH s; r_t : 0 < l_mt s; r_v : l_vT s <> 0; r_mu : l_scale s <> 0;
  r_WZ : l_mW s <> l_mZ s; r_WH : l_mW s <> l_mH s; r_Wt : l_mW s <> l_mt s;
  r_ZH : l_mZ s <> l_mH s; r_Zt : l_mZ s <> l_mt s; r_Ht : l_mH s <> l_mt s }.
(* other units of mass *)
Definition in_units (x : R) (s : lpar) : lpar :=
  {| l_mW := x * l_mW s; l_mZ := x * l_mZ s; l_mH := x * l_mH s; l_mt := x * l_mt s; l_vT := x * l_vT s;
     l_g1 := l_g1 s; l_g2 := l_g2 s; l_g3 := l_g3 s; l_scale := x * l_scale s |}.
(* the dimension of the WET coefficients: dipole operators have dimension 5, the others 6 *)
Definition jms_power (x : R) (ts : list jslot) : R := match ts with [_; _] => / x | _ => / x ^ 2 end.
(* conserved charges: Q f i is the charge of the field f_i; lepton flavours have the same charge for l and
   e, the quarks all have the same charge *)
Definition charge_of (Q : field -> nat -> Z) : list slot -> idx -> Z :=
  fix go ts I := match ts, I with
  | t :: ts', i :: I' => ((if snd t then - Q (fst t) i else Q (fst t) i) + go ts' I')%Z
  | _, _ => 0%Z
  end.
Definition jcharge (Q : field -> nat -> Z) (ts : list jslot) : idx -> Z := charge_of Q (map (fun t => (multiplet (fst t), snd t)) ts).
Definition baryon_lepton (Q : field -> nat -> Z) : Prop :=
  (forall i, Q Fe i = Q Fl i) /\ exists b, forall i, Q Fq i = b /\ Q Fu i = b /\ Q Fd i = b.
(* all coefficients of operators that violate the charge are zero *)
Definition conserves (Q : field -> nat -> Z) (C : dict string (cval CR)) : Prop :=
  forall k ts I, dget wc_fields k = Some ts -> In I (all_indices (repeat 3%nat (List.length ts))) -> charge_of Q ts I <> 0%Z -> coef C k I = 0%K.
Definition jms_conserves (Q : field -> nat -> Z) (c : dict string (cval CR)) : Prop :=
  forall k ts I, dget jms_fields k = Some ts -> In I (all_indices (repeat 3%nat (List.length ts))) -> jcharge Q ts I <> 0%Z -> coef c k I = 0%K.
(* parameters for the one-loop matching: fermion masses, alpha_s and the CKM matrix *)
Definition loop_inputs (ckm : R -> R -> R -> R -> cval CR) (p : dict string R) : Prop :=
  (forall k, In k ["m_u"; "m_c"; "m_t"; "m_d"; "m_s"; "m_b"; "m_e"; "m_mu"; "m_tau"] -> exists m, dget p k = Some m) /\
  (exists a, dget p "alpha_s" = Some a /\ 0 <= a) /\
  (exists a b c g, dget p "Vus" = Some a /\ dget p "Vub" = Some b /\ dget p "Vcb" = Some c /\ dget p "gamma" = Some g /\ vshape (ckm a b c g) = [3; 3]%nat).
(* mW, mZ, 125 GeV and 173 GeV are different *)
Definition no_poles (mW mZ : R) : Prop := mW <> mZ /\ mW <> 125 /\ mW <> 173 /\ mZ <> 125 /\ mZ <> 173.
