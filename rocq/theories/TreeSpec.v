(* Tree-level matching from SMEFT to WET, as a small independent specification.

   After electroweak symmetry breaking the fermions couple to W and Z with modified
   couplings (1709.04486, section 3).  Integrating out W and Z gives four-fermion operators
   with the products of these couplings; the four-fermion operators of the Warsaw basis are
   decomposed into the components of the SU(2) doublets.  Higgs exchange, suppressed by
   light fermion masses, is neglected.  All this to first order in the SMEFT coefficients.

   c k I is the SMEFT coefficient k with flavour indices I. *)
From Coq Require Import List Bool ZArith Arith String.
From Verif Require Import PyBase Num SymModel EftModel NpModel BetaSpec.
Import ListNotations.
Local Open Scope string_scope.
Local Open Scope list_scope.

(* the fermions of the WET *)
Inductive wf := NU | EL | ER | UL | UR | DL | DR.

Section Tree.
Context {K : StarField}.
Local Open Scope K_scope.
Variables sqrt2 mW mZ vT g1 : K.
Variable c : string -> idx -> K.
Notation "'[[' n ']]'" := (kZ n) (at level 0, n at level 9).
Definition sq (x : K) : K := x * x.

(* weak isospin and electric charge *)
Definition T3 (f : wf) : K := match f with NU | UL => 1 / [[2]] | EL | DL => - (1 / [[2]]) | _ => 0 end.
Definition Qel (f : wf) : K := match f with NU => 0 | EL | ER => - (1) | UL | UR => [[2]] / [[3]] | DL | DR => - (1 / [[3]]) end.
(* the coefficient of the Higgs current of the fermion *)
Definition hcurrent (f : wf) (p r : nat) : K :=
  match f with
  | NU => c "phil1" [p; r] - c "phil3" [p; r] | EL => c "phil1" [p; r] + c "phil3" [p; r] | ER => c "phie" [p; r]
  | UL => c "phiq1" [p; r] - c "phiq3" [p; r] | DL => c "phiq1" [p; r] + c "phiq3" [p; r] | UR => c "phiu" [p; r] | DR => c "phid" [p; r]
  end.
(* the effective sin^2 of the weak mixing angle and gZ^2/mZ^2 in terms of mW, mZ, vT and g1 *)
Definition sw2 : K := 1 - sq mW / sq mZ - sq mW * sq vT / ([[2]] * sq mZ) * c "phiD" [] - g1 * mW * (vT * sq vT) / ([[2]] * sq mZ) * c "phiWB" [].
Definition gZ2 : K := [[4]] / sq vT - [[2]] * c "phiD" [].
(* the couplings to Z and W *)
Definition Zc (f : wf) (p r : nat) : K := delta p r * (T3 f - Qel f * sw2) - sq vT / [[2]] * hcurrent f p r.
Definition Wl (p r : nat) : K := delta p r + sq vT * c "phil3" [p; r].
Definition Wq (p r : nat) : K := delta p r + sq vT * c "phiq3" [p; r].
Definition WR (p r : nat) : K := sq vT / [[2]] * c "phiud" [p; r].
(* Z exchange between f_p f_r and g_s g_t;  g2^2 / (2 mW^2) *)
Definition Zex (f g : wf) (p r s t : nat) : K := - (gZ2 * Zc f p r * Zc g s t).
Definition gW2 : K := [[2]] / sq vT.

(* the part of (fbar_p f_r)(gbar_s g_t), f <> g, in the four-fermion operators of the Warsaw basis *)
Definition contact (f g : wf) (p r s t : nat) : K :=
  match f, g with
  | NU, EL => c "ll" [p; r; s; t] + c "ll" [s; t; p; r]
  | NU, UL | NU, DL | EL, UL | EL, DL => c "lq1" [p; r; s; t] + [[4]] * T3 f * T3 g * c "lq3" [p; r; s; t]
  | UL, DL => c "qq1" [p; r; s; t] + c "qq1" [s; t; p; r] + [[4]] * T3 f * T3 g * (c "qq3" [p; r; s; t] + c "qq3" [s; t; p; r])
  | NU, ER | EL, ER => c "le" [p; r; s; t]
  | NU, UR | EL, UR => c "lu" [p; r; s; t]
  | NU, DR | EL, DR => c "ld" [p; r; s; t]
  | UL, ER | DL, ER => c "qe" [p; r; s; t]
  | UL, UR | DL, UR => c "qu1" [p; r; s; t]
  | UL, DR | DL, DR => c "qd1" [p; r; s; t]
  | ER, UR => c "eu" [p; r; s; t]
  | ER, DR => c "ed" [p; r; s; t]
  | UR, DR => c "ud1" [p; r; s; t]
  | _, _ => 0
  end.
Definition neutral (f g : wf) (I : idx) : K :=
  match I with [p; r; s; t] => contact f g p r s t + Zex f g p r s t | _ => 0 end.
(* two identical currents: symmetric under their exchange, and for leptons under the
   exchange of two fields (Fierz identity) *)
Definition contact2 (f : wf) (p r s t : nat) : K :=
  match f with
  | NU | EL => c "ll" [p; r; s; t] | ER => c "ee" [p; r; s; t]
  | UL | DL => c "qq1" [p; r; s; t] + c "qq3" [p; r; s; t] | UR => c "uu" [p; r; s; t] | DR => c "dd" [p; r; s; t]
  end.
Definition lagr2 (f : wf) (p r s t : nat) : K := contact2 f p r s t + Zex f f p r s t / [[2]].
Definition quarks2 (f : wf) (I : idx) : K :=
  match I with [p; r; s; t] => (lagr2 f p r s t + lagr2 f s t p r) / [[2]] | _ => 0 end.
Definition leptons2 (f : wf) (I : idx) : K :=
  match I with [p; r; s; t] => (lagr2 f p r s t + lagr2 f p t s r + lagr2 f s r p t + lagr2 f s t p r) / [[4]] | _ => 0 end.
(* charged currents (ubar_p d_t)(dbar_s u_r) of qq3 and W exchange, and nubar_p e_t ebar_s nu_r *)
Definition charged_q (p r s t : nat) : K :=
  [[2]] * (c "qq3" [p; t; s; r] + c "qq3" [s; r; p; t]) - gW2 * Wq p t * (Wq r s)^*.
Definition charged_l (p r s t : nat) : K := - (gW2 * Wl p t * (Wl r s)^*).
Definition four (f : nat -> nat -> nat -> nat -> K) (I : idx) : K := match I with [p; r; s; t] => f p r s t | _ => 0 end.
Definition two (f : nat -> nat -> K) (I : idx) : K := match I with [p; r] => f p r | _ => 0 end.
(* cos and sin of the mixing angle in the dipole operators *)
Definition cw : K := mW / mZ.
Definition sw : K := g1 * vT / ([[2]] * mZ).

Definition tree_spec : list (string * (nat * (idx -> K))) :=
  [("G", (0%nat, c "G")); ("Gtilde", (0%nat, c "Gtilde"));
   (* dipoles *)
   ("egamma", (2%nat, two (fun p r => vT / sqrt2 * (cw * c "eB" [p; r] - sw * c "eW" [p; r]))));
   ("dgamma", (2%nat, two (fun p r => vT / sqrt2 * (cw * c "dB" [p; r] - sw * c "dW" [p; r]))));
   ("ugamma", (2%nat, two (fun p r => vT / sqrt2 * (cw * c "uB" [p; r] + sw * c "uW" [p; r]))));
   ("dG", (2%nat, two (fun p r => vT / sqrt2 * c "dG" [p; r])));
   ("uG", (2%nat, two (fun p r => vT / sqrt2 * c "uG" [p; r])));
   (* neutral currents *)
   ("VnueLL", (4%nat, fun I => neutral NU EL I + four charged_l I)); ("VnuuLL", (4%nat, neutral NU UL)); ("VnudLL", (4%nat, neutral NU DL));
   ("VeuLL", (4%nat, neutral EL UL)); ("VedLL", (4%nat, neutral EL DL));
   ("V1udLL", (4%nat, fun I => neutral UL DL I + four charged_q I / [[3]])); ("V8udLL", (4%nat, fun I => [[2]] * four charged_q I));
   ("VnueLR", (4%nat, neutral NU ER)); ("VnuuLR", (4%nat, neutral NU UR)); ("VnudLR", (4%nat, neutral NU DR));
   ("VeeLR", (4%nat, neutral EL ER)); ("VeuLR", (4%nat, neutral EL UR)); ("VedLR", (4%nat, neutral EL DR));
   ("VueLR", (4%nat, neutral UL ER)); ("VdeLR", (4%nat, neutral DL ER));
   ("V1uuLR", (4%nat, neutral UL UR)); ("V1udLR", (4%nat, neutral UL DR)); ("V1duLR", (4%nat, neutral DL UR)); ("V1ddLR", (4%nat, neutral DL DR));
   ("V8uuLR", (4%nat, c "qu8")); ("V8udLR", (4%nat, c "qd8")); ("V8duLR", (4%nat, c "qu8")); ("V8ddLR", (4%nat, c "qd8"));
   ("VeuRR", (4%nat, neutral ER UR)); ("VedRR", (4%nat, neutral ER DR)); ("V1udRR", (4%nat, neutral UR DR)); ("V8udRR", (4%nat, c "ud8"));
   ("VnunuLL", (4%nat, leptons2 NU)); ("VeeLL", (4%nat, leptons2 EL)); ("VeeRR", (4%nat, leptons2 ER));
   ("VuuLL", (4%nat, quarks2 UL)); ("VddLL", (4%nat, quarks2 DL)); ("VuuRR", (4%nat, quarks2 UR)); ("VddRR", (4%nat, quarks2 DR));
   (* charged currents (nubar_p e_r)(dbar_s u_t) and (ubar_p d_r)(dbar_s u_t) *)
   ("VnueduLL", (4%nat, four (fun p r s t => [[2]] * c "lq3" [p; r; s; t] - gW2 * Wl p r * (Wq t s)^*)));
   ("VnueduLR", (4%nat, four (fun p r s t => - (gW2 * Wl p r * (WR t s)^*))));
   ("V1udduLR", (4%nat, four (fun p r s t => - (gW2 * Wq p r * (WR t s)^*)))); ("V8udduLR", (4%nat, fun _ => 0));
   (* scalars and tensors: epsilon_jk X^j Y^k = X^1 Y^2 - X^2 Y^1 *)
   ("S1udRR", (4%nat, c "quqd1")); ("S1udduRR", (4%nat, four (fun p r s t => - c "quqd1" [s; t; p; r])));
   ("S8udRR", (4%nat, c "quqd8")); ("S8udduRR", (4%nat, four (fun p r s t => - c "quqd8" [s; t; p; r])));
   ("SnueduRR", (4%nat, c "lequ1")); ("SeuRR", (4%nat, fun I => - c "lequ1" I));
   ("TnueduRR", (4%nat, c "lequ3")); ("TeuRR", (4%nat, fun I => - c "lequ3" I));
   ("SnueduRL", (4%nat, c "ledq")); ("SedRL", (4%nat, c "ledq"));
   (* not generated by dimension-6 operators *)
   ("S1uuRR", (4%nat, fun _ => 0)); ("S8uuRR", (4%nat, fun _ => 0)); ("S1ddRR", (4%nat, fun _ => 0)); ("S8ddRR", (4%nat, fun _ => 0));
   ("SedRR", (4%nat, fun _ => 0)); ("SeeRR", (4%nat, fun _ => 0)); ("TedRR", (4%nat, fun _ => 0)); ("SeuRL", (4%nat, fun _ => 0));
   ("SuudLR", (4%nat, fun _ => 0)); ("SuudRL", (4%nat, fun _ => 0)); ("SdduRL", (4%nat, fun _ => 0));
   (* baryon number violation with right-handed quarks; the other ones: lagr_qqql, lagr_qque below *)
   ("SduuRL", (4%nat, c "duql")); ("SdudRL", (4%nat, fun I => - c "duql" I)); ("SduuRR", (4%nat, c "duue"))].

Definition spec_value (k : string) (I : idx) : K :=
  match dget tree_spec k with Some (_, f) => f I | None => 0 end.

(* Baryon number violation.  The three quarks of such an operator are contracted with
   epsilon in colour space and anticommute: the Lagrangian is a polynomial in commuting
   spinors without colour.  spinors have two components. *)
Definition spinor : Type := (K * K)%type.
Definition dot (x y : spinor) : K := fst x * snd y - snd x * fst y.
Definition sum4 (f : nat -> nat -> nat -> nat -> K) : K :=
  ksum (map (fun I => match I with [p; r; s; t] => f p r s t | _ => 0 end) (all_indices [3; 3; 3; 3]%nat)).
(* epsilon_jn epsilon_km (q_p^j q_r^k)(q_s^m l_t^n)  with q = (u, d), l = (nu, e) *)
Definition lagr_qqql (u d nu e : nat -> spinor) : K :=
  let q j := match j with 1%nat => u | _ => d end in
  let l j := match j with 1%nat => nu | _ => e end in
  let eps j k : K := if (j =? k)%nat then 0 else if (j =? 1)%nat then 1 else - (1) in
  sum4 (fun p r s t => c "qqql" [p; r; s; t] *
    ksum (map (fun J => match J with
      | [j; n; k; m] => eps (S j) (S n) * eps (S k) (S m) * (dot (q (S j) p) (q (S k) r) * dot (q (S m) s) (l (S n) t))
      | _ => 0 end) (all_indices [2; 2; 2; 2]%nat))).
(* epsilon_jk (q_p^j q_r^k)(u_s e_t), with uR, eR the right-handed fields *)
Definition lagr_qque (u d uR eR : nat -> spinor) : K :=
  let q j := match j with 1%nat => u | _ => d end in
  let eps j k : K := if (j =? k)%nat then 0 else if (j =? 1)%nat then 1 else - (1) in
  sum4 (fun p r s t => c "qque" [p; r; s; t] *
    ksum (map (fun J => match J with
      | [j; k] => eps (S j) (S k) * (dot (q (S j) p) (q (S k) r) * dot (uR s) (eR t))
      | _ => 0 end) (all_indices [2; 2]%nat))).
End Tree.

Section Points.
Context {K : StarField}.
Local Open Scope K_scope.
Notation cdict := (dict string (cval K)).
(* a dictionary with an entry of the right shape for every Wilson coefficient *)
Definition wc_point (C : cdict) : Prop :=
  forall k ts, dget wc_fields k = Some ts ->
    exists v, dget C k = Some v /\ vshape v = repeat 3%nat (List.length ts) /\ (ts = [] -> exists z, v = CNum z).
(* hermitian Higgs currents *)
Definition hermitian (C : cdict) (k : string) : Prop :=
  forall p r, (p < 3)%nat -> (r < 3)%nat -> (coef C k [p; r])^* = coef C k [r; p].
(* all coefficients multiplied by x *)
Definition scaled (x : K) (C : cdict) : cdict :=
  map (fun kv => (fst kv, match snd kv with CNum z => CNum (x * z) | CArr s a => CArr s (fun I => x * a I) end)) C.
(* F(x) = G(x) + O(x^2), for functions that are polynomials of third degree *)
Definition upto2 (F G : K -> K) : Prop := exists r2 r3, forall x, kreal x -> F x = G x + x * x * (r2 + x * r3).
End Points.

(* Symmetries of the coefficients of the WET in the JMS basis (JMS = Jenkins, Manohar, Stoffer), as
   in BetaSpec.symmetries: hermitian products of currents, symmetric under the exchange of
   identical currents and, for leptons, of identical fields. *)
Definition jms_symmetries : dict string (list (list nat * bool)) :=
  map (fun k => (k, real0)) ["G"; "Gtilde"] ++
  map (fun k => (k, herm4)) ["VnueLL"; "VnuuLL"; "VnudLL"; "VeuLL"; "VedLL"; "V1udLL"; "V8udLL"; "VnueLR"; "VnuuLR"; "VnudLR"; "VeeLR"; "VeuLR"; "VedLR";
    "VueLR"; "VdeLR"; "V1uuLR"; "V8uuLR"; "V1udLR"; "V8udLR"; "V1duLR"; "V8duLR"; "V1ddLR"; "V8ddLR"; "VeuRR"; "VedRR"; "V1udRR"; "V8udRR"] ++
  map (fun k => (k, exch4)) ["VuuLL"; "VddLL"; "VuuRR"; "VddRR"] ++
  map (fun k => (k, exch4 ++ [([0; 3; 2; 1]%nat, false)])) ["VnunuLL"; "VeeLL"; "VeeRR"].
Section Sym.
Context {K : StarField}.
Local Open Scope K_scope.
Notation cdict := (dict string (cval K)).
Definition wc_symmetric (C : cdict) : Prop :=
  forall k gs g, dget symmetries k = Some gs -> kmem k (map fst wc_fields) = true -> In g gs -> obeys k g C.
Definition jms_obeys (k : string) (n : nat) (g : list nat * bool) (c : cdict) : Prop :=
  forall I, In I (all_indices (repeat 3%nat n)) -> coef c k I = cj (snd g) (coef c k (permute (fst g) I)).
End Sym.

(* The fields of the WET operators: bar_ f and fld_ f are the fields fbar and f. *)
Definition jslot : Type := (wf * bool)%type.
Definition bar_ (f : wf) : jslot := (f, true).
Definition fld_ (f : wf) : jslot := (f, false).
Definition jms_fields : dict string (list jslot) :=
  [("G", []); ("Gtilde", []); ("egamma", [bar_ EL; fld_ ER]); ("dgamma", [bar_ DL; fld_ DR]); ("ugamma", [bar_ UL; fld_ UR]); ("dG", [bar_ DL; fld_ DR]);
   ("uG", [bar_ UL; fld_ UR]); ("VnunuLL", [bar_ NU; fld_ NU; bar_ NU; fld_ NU]); ("VeeLL", [bar_ EL; fld_ EL; bar_ EL; fld_ EL]);
   ("VnueLL", [bar_ NU; fld_ NU; bar_ EL; fld_ EL]); ("VnuuLL", [bar_ NU; fld_ NU; bar_ UL; fld_ UL]); ("VnudLL", [bar_ NU; fld_ NU; bar_ DL; fld_ DL]);
   ("VeuLL", [bar_ EL; fld_ EL; bar_ UL; fld_ UL]); ("VedLL", [bar_ EL; fld_ EL; bar_ DL; fld_ DL]); ("VuuLL", [bar_ UL; fld_ UL; bar_ UL; fld_ UL]);
   ("VddLL", [bar_ DL; fld_ DL; bar_ DL; fld_ DL]); ("V1udLL", [bar_ UL; fld_ UL; bar_ DL; fld_ DL]); ("V8udLL", [bar_ UL; fld_ UL; bar_ DL; fld_ DL]);
   ("VeeRR", [bar_ ER; fld_ ER; bar_ ER; fld_ ER]); ("VeuRR", [bar_ ER; fld_ ER; bar_ UR; fld_ UR]); ("VedRR", [bar_ ER; fld_ ER; bar_ DR; fld_ DR]);
   ("VuuRR", [bar_ UR; fld_ UR; bar_ UR; fld_ UR]); ("VddRR", [bar_ DR; fld_ DR; bar_ DR; fld_ DR]); ("V1udRR", [bar_ UR; fld_ UR; bar_ DR; fld_ DR]);
   ("V8udRR", [bar_ UR; fld_ UR; bar_ DR; fld_ DR]); ("VnueLR", [bar_ NU; fld_ NU; bar_ ER; fld_ ER]); ("VeeLR", [bar_ EL; fld_ EL; bar_ ER; fld_ ER]);
   ("VnuuLR", [bar_ NU; fld_ NU; bar_ UR; fld_ UR]); ("VnudLR", [bar_ NU; fld_ NU; bar_ DR; fld_ DR]); ("VeuLR", [bar_ EL; fld_ EL; bar_ UR; fld_ UR]);
   ("VedLR", [bar_ EL; fld_ EL; bar_ DR; fld_ DR]); ("VueLR", [bar_ UL; fld_ UL; bar_ ER; fld_ ER]); ("VdeLR", [bar_ DL; fld_ DL; bar_ ER; fld_ ER]);
   ("V1uuLR", [bar_ UL; fld_ UL; bar_ UR; fld_ UR]); ("V8uuLR", [bar_ UL; fld_ UL; bar_ UR; fld_ UR]); ("V1udLR", [bar_ UL; fld_ UL; bar_ DR; fld_ DR]);
   ("V8udLR", [bar_ UL; fld_ UL; bar_ DR; fld_ DR]); ("V1duLR", [bar_ DL; fld_ DL; bar_ UR; fld_ UR]); ("V8duLR", [bar_ DL; fld_ DL; bar_ UR; fld_ UR]);
   ("V1ddLR", [bar_ DL; fld_ DL; bar_ DR; fld_ DR]); ("V8ddLR", [bar_ DL; fld_ DL; bar_ DR; fld_ DR]); ("VnueduLL", [bar_ NU; fld_ EL; bar_ DL; fld_ UL]);
   ("VnueduLR", [bar_ NU; fld_ EL; bar_ DR; fld_ UR]); ("V1udduLR", [bar_ UL; fld_ DL; bar_ DR; fld_ UR]);
   ("V8udduLR", [bar_ UL; fld_ DL; bar_ DR; fld_ UR]); ("S1uuRR", [bar_ UL; fld_ UR; bar_ UL; fld_ UR]); ("S1udRR", [bar_ UL; fld_ UR; bar_ DL; fld_ DR]);
   ("S1ddRR", [bar_ DL; fld_ DR; bar_ DL; fld_ DR]); ("S1udduRR", [bar_ UL; fld_ DR; bar_ DL; fld_ UR]); ("S8uuRR", [bar_ UL; fld_ UR; bar_ UL; fld_ UR]);
   ("S8udRR", [bar_ UL; fld_ UR; bar_ DL; fld_ DR]); ("S8ddRR", [bar_ DL; fld_ DR; bar_ DL; fld_ DR]); ("S8udduRR", [bar_ UL; fld_ DR; bar_ DL; fld_ UR]);
   ("SeeRR", [bar_ EL; fld_ ER; bar_ EL; fld_ ER]); ("SeuRR", [bar_ EL; fld_ ER; bar_ UL; fld_ UR]); ("SedRR", [bar_ EL; fld_ ER; bar_ DL; fld_ DR]);
   ("TeuRR", [bar_ EL; fld_ ER; bar_ UL; fld_ UR]); ("TedRR", [bar_ EL; fld_ ER; bar_ DL; fld_ DR]); ("SnueduRR", [bar_ NU; fld_ ER; bar_ DL; fld_ UR]);
   ("TnueduRR", [bar_ NU; fld_ ER; bar_ DL; fld_ UR]); ("SeuRL", [bar_ EL; fld_ ER; bar_ UR; fld_ UL]); ("SedRL", [bar_ EL; fld_ ER; bar_ DR; fld_ DL]);
   ("SnueduRL", [bar_ NU; fld_ ER; bar_ DR; fld_ UL]); ("SuddLL", [fld_ UL; fld_ DL; fld_ DL; fld_ NU]); ("SduuLL", [fld_ DL; fld_ UL; fld_ UL; fld_ EL]);
   ("SuudLR", [fld_ UL; fld_ UL; fld_ DR; fld_ ER]); ("SduuLR", [fld_ DL; fld_ UL; fld_ UR; fld_ ER]); ("SuudRL", [fld_ UR; fld_ UR; fld_ DL; fld_ EL]);
   ("SduuRL", [fld_ DR; fld_ UR; fld_ UL; fld_ EL]); ("SdudRL", [fld_ DR; fld_ UR; fld_ DL; fld_ NU]); ("SdduRL", [fld_ DR; fld_ DR; fld_ UL; fld_ NU]);
   ("SduuRR", [fld_ DR; fld_ UR; fld_ UR; fld_ ER])].
Section RotD.
Context {K : StarField}.
Local Open Scope K_scope.
(* the coefficients after the left-handed down quarks are replaced by V d: the index of a field
   dL (dLbar) is contracted with the first index of V (V conjugated); the others are kept *)
Fixpoint rotD (V : nat -> nat -> K) (ts : list jslot) (f : idx -> K) (I : idx) : K :=
  match ts, I with
  | (DL, b) :: ts', i :: I' => ksum (map (fun j => cj b (V j i) * rotD V ts' (fun J => f (j :: J)) I') (seq 0 3))
  | _ :: ts', i :: I' => rotD V ts' (fun J => f (i :: J)) I'
  | _, _ => f []
  end.
Definition jms_point (c : dict string (cval K)) : Prop :=
  forall k ts, dget jms_fields k = Some ts ->
    exists v, dget c k = Some v /\ vshape v = repeat 3%nat (List.length ts) /\ (ts = [] -> exists z, v = CNum z).
End RotD.
