(* Specification vocabulary for the SMEFT parameters: which fields the operator of each
   coefficient contains, and how U(3)^5 flavour rotations act on the coefficients. *)
From Coq Require Import List Bool ZArith Arith String.
From Verif Require Import PyBase Num SymModel EftModel NpModel NpProofs.
Import ListNotations.
Local Open Scope string_scope.
Local Open Scope list_scope.

(* the five fermion fields of the SM *)
Inductive field := Fq | Fu | Fd | Fl | Fe.
(* a flavour index: the field it belongs to, and whether the field is conjugated in the operator *)
Definition slot : Type := (field * bool)%type.
Definition bar (f : field) : slot := (f, true).
Definition pln (f : field) : slot := (f, false).

(* The Warsaw basis (1008.4884) and the SM parameters: the flavour indices of each parameter.
   Gu, Gd, Ge are defined by  L = - qbar Gu phi~ u - qbar Gd phi d - lbar Ge phi e. *)
Definition sm_fields : dict string (list slot) :=
  [("g", []); ("gp", []); ("gs", []); ("Lambda", []); ("m2", []);
   ("Gu", [bar Fq; pln Fu]); ("Gd", [bar Fq; pln Fd]); ("Ge", [bar Fl; pln Fe])].
Definition bosonic : list string :=
  ["G"; "Gtilde"; "W"; "Wtilde"; "phi"; "phiBox"; "phiD"; "phiG"; "phiB"; "phiW"; "phiWB";
   "phiGtilde"; "phiBtilde"; "phiWtilde"; "phiWtildeB"].
Definition current2 (f : field) : list slot := [bar f; pln f].
Definition current4 (f g : field) : list slot := [bar f; pln f; bar g; pln g].
Definition fermionic : dict string (list slot) :=
  [("uphi", [bar Fq; pln Fu]); ("uW", [bar Fq; pln Fu]); ("uB", [bar Fq; pln Fu]); ("uG", [bar Fq; pln Fu]);
   ("dphi", [bar Fq; pln Fd]); ("dW", [bar Fq; pln Fd]); ("dB", [bar Fq; pln Fd]); ("dG", [bar Fq; pln Fd]);
   ("ephi", [bar Fl; pln Fe]); ("eW", [bar Fl; pln Fe]); ("eB", [bar Fl; pln Fe]);
   ("phil1", current2 Fl); ("phil3", current2 Fl); ("phie", current2 Fe);
   ("phiq1", current2 Fq); ("phiq3", current2 Fq); ("phiu", current2 Fu); ("phid", current2 Fd);
   ("phiud", [bar Fu; pln Fd]);
   ("llphiphi", [pln Fl; pln Fl]);
   ("ll", current4 Fl Fl); ("qq1", current4 Fq Fq); ("qq3", current4 Fq Fq); ("lq1", current4 Fl Fq); ("lq3", current4 Fl Fq);
   ("ee", current4 Fe Fe); ("uu", current4 Fu Fu); ("dd", current4 Fd Fd);
   ("eu", current4 Fe Fu); ("ed", current4 Fe Fd); ("ud1", current4 Fu Fd); ("ud8", current4 Fu Fd);
   ("le", current4 Fl Fe); ("lu", current4 Fl Fu); ("ld", current4 Fl Fd); ("qe", current4 Fq Fe);
   ("qu1", current4 Fq Fu); ("qu8", current4 Fq Fu); ("qd1", current4 Fq Fd); ("qd8", current4 Fq Fd);
   ("ledq", [bar Fl; pln Fe; bar Fd; pln Fq]);
   ("quqd1", [bar Fq; pln Fu; bar Fq; pln Fd]); ("quqd8", [bar Fq; pln Fu; bar Fq; pln Fd]);
   ("lequ1", [bar Fl; pln Fe; bar Fq; pln Fu]); ("lequ3", [bar Fl; pln Fe; bar Fq; pln Fu]);
   ("duql", [pln Fd; pln Fu; pln Fq; pln Fl]); ("qque", [pln Fq; pln Fq; pln Fu; pln Fe]);
   ("qqql", [pln Fq; pln Fq; pln Fq; pln Fl]); ("duue", [pln Fd; pln Fu; pln Fu; pln Fe])].
(* the Wilson coefficients, and all parameters *)
Definition wc_fields : dict string (list slot) := map (fun k => (k, [])) bosonic ++ fermionic.
Definition op_fields : dict string (list slot) := sm_fields ++ wc_fields.
Definition op_rank (k : string) : option nat := match dget op_fields k with Some t => Some (List.length t) | None => None end.

Section Spec.
Context {K : StarField}.
Local Open Scope K_scope.
Notation cdict := (dict string (cval K)).

Definition delta (i j : nat) : K := if Nat.eqb i j then 1 else 0.
(* U^dagger U = 1 and U U^dagger = 1 for a 3x3 matrix *)
Definition unitary3 (U : nat -> nat -> K) : Prop :=
  forall a b, (a < 3)%nat -> (b < 3)%nat ->
    ksum (map (fun i => (U i a)^* * U i b) (seq 0 3)) = delta a b /\
    ksum (map (fun i => U a i * (U b i)^*) (seq 0 3)) = delta a b.

(* the factor of one index: U_f for the field f, U_f^* for its conjugate; the field with
   flavour j (old) is  sum_i U_f[j,i] times the one with flavour i (new) *)
Definition rotf (U : field -> nat -> nat -> K) (t : slot) (j i : nat) : K :=
  if snd t then (U (fst t) j i)^* else U (fst t) j i.
Fixpoint rotprod (U : field -> nat -> nat -> K) (ts : list slot) (J I : idx) : K :=
  match ts, J, I with
  | t :: ts', j :: J', i :: I' => rotf U t j i * rotprod U ts' J' I'
  | _, _, _ => 1
  end.
(* the rotated tensor: every index is contracted with the matrix of its field *)
Definition rot (U : field -> nat -> nat -> K) (ts : list slot) (f : idx -> K) (I : idx) : K :=
  ksum (map (fun J => rotprod U ts J I * f J) (all_indices (repeat 3%nat (List.length ts)))).
(* a parameter point has an entry of the right shape for every parameter *)
Definition smeft_point (C : cdict) : Prop :=
  forall k ts, dget op_fields k = Some ts ->
    exists v, dget C k = Some v /\ vshape v = map (fun _ => 3%nat) ts /\ (ts = [] -> exists z, v = CNum z).
End Spec.

Section Spec2.
Context {K : StarField}.
Local Open Scope K_scope.
Notation cdict := (dict string (cval K)).
(* the entry of the parameter k at the indices I *)
Definition coef (C : cdict) (k : string) (I : idx) : K := match dget C k with Some v => entry v I | None => 0 end.
(* the indices of the parameter k *)
Definition indices_of (k : string) : list idx :=
  match dget op_fields k with Some ts => all_indices (map (fun _ => 3%nat) ts) | None => [] end.
(* two points with the same value of the parameter k *)
Definition same (k : string) (C C' : cdict) : Prop := forall I, In I (indices_of k) -> coef C k I = coef C' k I.
(* the layout of the SMEFT parameters used by smeftutil: exactly the parameters of
   op_fields, with three generations *)
Definition smeft_layout (E : eft) : Prop :=
  wfdict (e_shape E) /\
  (forall k, In k (dkeys (e_shape E)) <-> In k (dkeys op_fields)) /\
  (forall k ts, dget op_fields k = Some ts ->
     dget (e_shape E) k = Some (match ts with [] => None | _ => Some (map (fun _ => 3%nat) ts) end)).
(* a rotated point *)
Definition rotated_point (U : field -> nat -> nat -> K) (C C' : cdict) : Prop :=
  forall k ts, dget op_fields k = Some ts -> forall I, In I (indices_of k) -> coef C' k I = rot U ts (coef C k) I.
(* baryon number (times three) and lepton number of the operator that the coefficient multiplies *)
Definition baryon3 (t : slot) : Z := match fst t with Fl | Fe => 0 | _ => if snd t then -1 else 1 end.
Definition lepton (t : slot) : Z := match fst t with Fl | Fe => if snd t then -1 else 1 | _ => 0 end.
Definition charges (ts : list slot) : Z * Z :=
  (fold_right Z.add 0%Z (map baryon3 ts), fold_right Z.add 0%Z (map lepton ts)).
End Spec2.

(* ---------- symmetries of the coefficients ---------- *)
(* permute p I  has the p_i-th index of I at position i *)
Definition permute (p : list nat) (I : idx) : idx := map (fun i => nth i I 0%nat) p.
(* generators (p, c): the tensor equals its permutation, complex conjugated if c.
   Scalars are real; currents fbar_p f_r are hermitian; products of two currents are
   hermitian and, for two identical currents, symmetric under their exchange; ee is in
   addition symmetric under the exchange of two identical fields (Fierz identity); the
   last four are the Majorana and baryon number violating operators. *)
Definition real0 : list (list nat * bool) := [([], true)].
Definition herm2 : list (list nat * bool) := [([1; 0]%nat, true)].
Definition herm4 : list (list nat * bool) := [([1; 0; 3; 2]%nat, true)].
Definition exch4 : list (list nat * bool) := [([2; 3; 0; 1]%nat, false); ([1; 0; 3; 2]%nat, true)].
Definition symmetries : dict string (list (list nat * bool)) :=
  map (fun k => (k, real0)) (["g"; "gp"; "gs"; "Lambda"; "m2"] ++ bosonic) ++
  map (fun k => (k, herm2)) ["phil1"; "phil3"; "phie"; "phiq1"; "phiq3"; "phiu"; "phid"] ++
  map (fun k => (k, herm4)) ["lq1"; "lq3"; "eu"; "ed"; "ud1"; "ud8"; "le"; "lu"; "ld"; "qe"; "qu1"; "qu8"; "qd1"; "qd8"] ++
  map (fun k => (k, exch4)) ["ll"; "qq1"; "qq3"; "uu"; "dd"] ++
  [("ee", exch4 ++ [([0; 3; 2; 1]%nat, false)]);
   ("llphiphi", [([1; 0]%nat, false)]); ("qque", [([1; 0; 2; 3]%nat, false)])].
Section Spec3.
Context {K : StarField}.
Local Open Scope K_scope.
Notation cdict := (dict string (cval K)).
Definition cj (c : bool) (z : K) : K := if c then z^* else z.
Definition obeys (k : string) (g : list nat * bool) (C : cdict) : Prop :=
  forall I, In I (indices_of k) -> coef C k I = cj (snd g) (coef C k (permute (fst g) I)).
(* qqql: C_prst + C_rpst = C_sprt + C_srpt *)
Definition qqql_symmetric (C : cdict) : Prop :=
  forall p r s t, In [p; r; s; t] (indices_of "qqql") ->
    coef C "qqql" [p; r; s; t] + coef C "qqql" [r; p; s; t] = coef C "qqql" [s; p; r; t] + coef C "qqql" [s; r; p; t].
(* the physical points *)
Definition symmetric_point (C : cdict) : Prop :=
  smeft_point C /\ (forall k gs g, dget symmetries k = Some gs -> In g gs -> obeys k g C) /\ qqql_symmetric C.
End Spec3.
