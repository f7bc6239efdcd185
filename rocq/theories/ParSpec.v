(* Specification of the discrete symmetries P and CP of the running in WET.  Nothing here refers to the anomalous
   dimensions: only to the operators the labels of the JMS basis stand for.

   QCD and QED conserve parity and CP.  A CP transformation replaces each coefficient by its complex conjugate (and
   changes the sign of the CP odd three-gluon operator Gtilde).  Parity exchanges the left- and right-handed fields.
   The mirror image of an operator is an operator of the basis, or the Hermitian conjugate of one; in the second case
   the coefficient is conjugated. *)
From Coq Require Import List Bool Arith String Ascii.
From Verif Require Import PyBase Num EftModel RealC.
Import ListNotations.
Local Open Scope string_scope.
Local Open Scope list_scope.

(* P and CP of the three-gluon operators: G is even, Gtilde is odd *)
Definition cp_sign (k : string) : CR := if String.eqb k "Gtilde" then kopp k1 else k1.

(* the mirror image of the operator  name_ijkl: (name', order of the indices, Hermitian conjugate?).  For example
   VddLL_ijkl = (d_i g_mu P_L d_j)(d_k g_mu P_L d_l)  ->  VddRR_ijkl,
   V1udLR_ijkl = (u_i g_mu P_L u_j)(d_k g_mu P_R d_l) ->  (d_k g_mu P_L d_l)(u_i g_mu P_R u_j) = V1duLR_klij,
   S1ddRR_ijkl = (d_i P_R d_j)(d_k P_R d_l)           ->  (d_i P_L d_j)(d_k P_L d_l), the Hermitian conjugate of S1ddRR_jilk,
   V1udduLR_ijkl = (u_i g_mu P_L d_j)(d_k g_mu P_R u_l) -> (u_i g_mu P_R d_j)(d_k g_mu P_L u_l), the conjugate of V1udduLR_lkji,
   dG_ij = d_i sigma.G P_R d_j                        ->  the Hermitian conjugate of dG_ji.
   The neutrinos are left-handed; in the operators with a pair of neutrinos and a pair of charged fermions only the latter are
   reflected.  Charged currents with a neutrino and the three-quark operators with a neutrino have no mirror image in the basis. *)
Definition mirror_table : list (string * (string * list nat * bool)) :=
  [("S1ddRR", ("S1ddRR", [1; 0; 3; 2], true));
   ("S8ddRR", ("S8ddRR", [1; 0; 3; 2], true));
   ("V1ddLR", ("V1ddLR", [2; 3; 0; 1], false));
   ("V8ddLR", ("V8ddLR", [2; 3; 0; 1], false));
   ("VddLL", ("VddRR", [0; 1; 2; 3], false));
   ("VddRR", ("VddLL", [0; 1; 2; 3], false));
   ("S1uuRR", ("S1uuRR", [1; 0; 3; 2], true));
   ("S8uuRR", ("S8uuRR", [1; 0; 3; 2], true));
   ("V1uuLR", ("V1uuLR", [2; 3; 0; 1], false));
   ("V8uuLR", ("V8uuLR", [2; 3; 0; 1], false));
   ("VuuLL", ("VuuRR", [0; 1; 2; 3], false));
   ("VuuRR", ("VuuLL", [0; 1; 2; 3], false));
   ("S1udRR", ("S1udRR", [1; 0; 3; 2], true));
   ("S1udduRR", ("S1udduRR", [3; 2; 1; 0], true));
   ("S8udRR", ("S8udRR", [1; 0; 3; 2], true));
   ("S8udduRR", ("S8udduRR", [3; 2; 1; 0], true));
   ("V1duLR", ("V1udLR", [2; 3; 0; 1], false));
   ("V1udLL", ("V1udRR", [0; 1; 2; 3], false));
   ("V1udLR", ("V1duLR", [2; 3; 0; 1], false));
   ("V1udRR", ("V1udLL", [0; 1; 2; 3], false));
   ("V1udduLR", ("V1udduLR", [3; 2; 1; 0], true));
   ("V8duLR", ("V8udLR", [2; 3; 0; 1], false));
   ("V8udLL", ("V8udRR", [0; 1; 2; 3], false));
   ("V8udLR", ("V8duLR", [2; 3; 0; 1], false));
   ("V8udRR", ("V8udLL", [0; 1; 2; 3], false));
   ("V8udduLR", ("V8udduLR", [3; 2; 1; 0], true));
   ("SedRL", ("SedRL", [1; 0; 3; 2], true));
   ("SedRR", ("SedRR", [1; 0; 3; 2], true));
   ("TedRR", ("TedRR", [1; 0; 3; 2], true));
   ("VdeLR", ("VedLR", [2; 3; 0; 1], false));
   ("VedLL", ("VedRR", [0; 1; 2; 3], false));
   ("VedLR", ("VdeLR", [2; 3; 0; 1], false));
   ("VedRR", ("VedLL", [0; 1; 2; 3], false));
   ("dG", ("dG", [1; 0], true));
   ("dgamma", ("dgamma", [1; 0], true));
   ("SeuRL", ("SeuRL", [1; 0; 3; 2], true));
   ("SeuRR", ("SeuRR", [1; 0; 3; 2], true));
   ("TeuRR", ("TeuRR", [1; 0; 3; 2], true));
   ("VeuLL", ("VeuRR", [0; 1; 2; 3], false));
   ("VeuLR", ("VueLR", [2; 3; 0; 1], false));
   ("VeuRR", ("VeuLL", [0; 1; 2; 3], false));
   ("VueLR", ("VeuLR", [2; 3; 0; 1], false));
   ("uG", ("uG", [1; 0], true));
   ("ugamma", ("ugamma", [1; 0], true));
   ("SeeRR", ("SeeRR", [1; 0; 3; 2], true));
   ("VeeLL", ("VeeRR", [0; 1; 2; 3], false));
   ("VeeLR", ("VeeLR", [2; 3; 0; 1], false));
   ("VeeRR", ("VeeLL", [0; 1; 2; 3], false));
   ("egamma", ("egamma", [1; 0], true));
   ("VnunuLL", ("VnunuLL", [0; 1; 2; 3], false));
   ("VnueLL", ("VnueLR", [0; 1; 2; 3], false));
   ("VnueLR", ("VnueLL", [0; 1; 2; 3], false));
   ("VnudLL", ("VnudLR", [0; 1; 2; 3], false));
   ("VnudLR", ("VnudLL", [0; 1; 2; 3], false));
   ("VnuuLL", ("VnuuLR", [0; 1; 2; 3], false));
   ("VnuuLR", ("VnuuLL", [0; 1; 2; 3], false));
   ("SduuLL", ("SduuRR", [0; 1; 2; 3], false));
   ("SduuLR", ("SduuRL", [0; 1; 2; 3], false));
   ("SduuRL", ("SduuLR", [0; 1; 2; 3], false));
   ("SduuRR", ("SduuLL", [0; 1; 2; 3], false));
   ("SuudLR", ("SuudRL", [0; 1; 2; 3], false));
   ("SuudRL", ("SuudLR", [0; 1; 2; 3], false))].

(* the labels that stand for the same operator (or, if the second component is true, for its Hermitian conjugate) *)
Definition op_symmetries (name : string) : list (list nat * bool) :=
  if kmem name ["VddLL"; "VddRR"; "VuuLL"; "VuuRR"] then
    (* exchange of the two currents; Hermitian conjugation *)
    [([0; 1; 2; 3], false); ([2; 3; 0; 1], false); ([1; 0; 3; 2], true); ([3; 2; 1; 0], true)]
  else if kmem name ["VeeLL"; "VeeRR"; "VnunuLL"] then
    (* and the Fierz identity *)
    [([0; 1; 2; 3], false); ([2; 3; 0; 1], false); ([0; 3; 2; 1], false); ([2; 1; 0; 3], false);
     ([1; 0; 3; 2], true); ([3; 2; 1; 0], true); ([3; 0; 1; 2], true); ([1; 2; 3; 0], true)]
  else if kmem name ["S1ddRR"; "S8ddRR"; "S1uuRR"; "S8uuRR"; "SeeRR"] then
    [([0; 1; 2; 3], false); ([2; 3; 0; 1], false)]
  else if kmem name ["dG"; "uG"; "dgamma"; "ugamma"; "egamma"] then [([0; 1], false)]
  else if String.eqb (substring 0 1 name) "V" && negb (kmem name ["V1udduLR"; "V8udduLR"]) then
    (* products of two Hermitian currents *)
    [([0; 1; 2; 3], false); ([1; 0; 3; 2], true)]
  else [([0; 1; 2; 3], false)].

Fixpoint chars (s : string) : list ascii := match s with EmptyString => [] | String c r => c :: chars r end.
Fixpoint unchars (l : list ascii) : string := match l with [] => "" | c :: r => String c (unchars r) end.
(* the indices in another order *)
Definition reorder (p : list nat) (ix : string) : string := unchars (map (fun i => nth i (chars ix) "0"%char) p).

(* the labels of the mirror image of the operator with label k *)
Definition mirror_labels (k : string) : list (string * bool) :=
  if String.eqb k "G" || String.eqb k "Gtilde" then [(k, true)]     (* real coefficients *)
  else
    match dget mirror_table (name_of k) with
    | None => []
    | Some (name, p, c) =>
        map (fun sc => ((name ++ "_" ++ reorder (fst sc) (reorder p (index_of k)))%string, xorb c (snd sc))) (op_symmetries name)
    end.
(* k' is a label of the mirror image: Some false, or of its Hermitian conjugate only: Some true *)
Definition mirror (k k' : string) : option bool :=
  if existsb (fun lc => negb (snd lc) && String.eqb (fst lc) k') (mirror_labels k) then Some false
  else if existsb (fun lc => snd lc && String.eqb (fst lc) k') (mirror_labels k) then Some true
  else None.
(* the coefficient of the mirror image *)
Definition mirror_value (k : string) (conj : bool) (z : CR) : CR := (cp_sign k * (if conj then z^* else z))%K.

(* the classes of sectors without mirror images *)
Definition chiral_classes : list string := ["II"; "uddnu"; "udsnu"].
