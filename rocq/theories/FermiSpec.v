(* Specification of what the Wilson coefficients of the WET bases stand for: the operators,
   written with Dirac fields, Dirac matrices and colour indices, and the Lagrangian.
   Written from the conventions of the bases, without reference to the model of the code.

   A term of the Lagrangian is a polynomial in the components of the fields.  The components
   anticommute: a monomial is a list of components, and a monomial with two factors exchanged is
   minus the monomial, so that Fierz identities hold by counting components. *)
From Coq Require Import List Bool ZArith QArith String Ascii.
From Verif Require Import PyBase Num TrLang AdmData TreeSpec TrSpec.
From Verif Require NpModel.
Import ListNotations.
Local Open Scope string_scope.
Local Open Scope list_scope.

(* ---------- components of the fields ---------- *)
Inductive species := Nu | El | Up | Dn.
Inductive gener := G1 | G2 | G3.
Inductive spin := S0 | S1 | S2 | S3.          (* S0, S1: left-handed; S2, S3: right-handed *)
Inductive colr := C0 | C1 | C2.
Definition ferm : Type := (species * gener)%type.
Definition comp : Type := (bool * ferm * spin * colr)%type.      (* true: the conjugated field psi^dagger *)
Definition quark (f : ferm) : bool := match fst f with Up | Dn => true | _ => false end.
(* the bosonic factor of a monomial; the gluon field is the matrix G_munu^A T^A *)
Inductive bos := NoB | Photon (m n : nat) | Gluon (m n : nat) (i j : colr) | GGG | GGGtilde.
Definition mon : Type := (bos * list comp)%type.
Definition gq : Type := (Q * Q)%type.                            (* a rational number plus i times a rational number *)
Definition poly : Type := list (gq * mon).
Definition spins : list spin := [S0; S1; S2; S3].
Definition colrs : list colr := [C0; C1; C2].

Definition spin_eqb (a b : spin) : bool := match a, b with S0, S0 | S1, S1 | S2, S2 | S3, S3 => true | _, _ => false end.
Definition colr_eqb (a b : colr) : bool := match a, b with C0, C0 | C1, C1 | C2, C2 => true | _, _ => false end.
Definition species_eqb (a b : species) : bool := match a, b with Nu, Nu | El, El | Up, Up | Dn, Dn => true | _, _ => false end.
Definition gener_eqb (a b : gener) : bool := match a, b with G1, G1 | G2, G2 | G3, G3 => true | _, _ => false end.
Definition ferm_eqb (a b : ferm) : bool := species_eqb (fst a) (fst b) && gener_eqb (snd a) (snd b).
Definition comp_eqb (a b : comp) : bool :=
  match a, b with (d, f, s, c), (d', f', s', c') => Bool.eqb d d' && ferm_eqb f f' && spin_eqb s s' && colr_eqb c c' end.
Definition bos_eqb (a b : bos) : bool :=
  match a, b with
  | NoB, NoB | GGG, GGG | GGGtilde, GGGtilde => true
  | Photon m n, Photon m' n' => Nat.eqb m m' && Nat.eqb n n'
  | Gluon m n i j, Gluon m' n' i' j' => Nat.eqb m m' && Nat.eqb n n' && colr_eqb i i' && colr_eqb j j'
  | _, _ => false
  end.

(* ---------- the coefficient of a monomial ---------- *)
Section Sign.
Context {A : Type} (eqb : A -> A -> bool).
(* move the factor a to the front: the sign and the remaining factors *)
Fixpoint take (a : A) (m : list A) : option (Z * list A) :=
  match m with
  | [] => None
  | b :: r => if eqb a b then Some (1%Z, r) else match take a r with Some (s, r') => Some ((- s)%Z, b :: r') | None => None end
  end.
(* the sign with which the product l of anticommuting factors equals the product m; 0 if l is
   not a rearrangement of m *)
Fixpoint sgn (l m : list A) : Z :=
  match l with
  | [] => match m with [] => 1 | _ => 0 end
  | a :: r => match take a m with Some (s, m') => s * sgn r m' | None => 0 end
  end%Z.
End Sign.
Section Value.
Context {K : StarField}.
Local Open Scope K_scope.
Definition gval (c : gq) : K := kQ (fst c) + ki * kQ (snd c).
(* the coefficient of the monomial m in the polynomial (for m without repeated factors) *)
Definition coefficient (p : poly) (m : mon) : K :=
  NpModel.ksum (map (fun t => if bos_eqb (fst (snd t)) (fst m) then gval (fst t) * kZ (sgn comp_eqb (snd (snd t)) (snd m)) else 0) p).
End Value.
(* the hermitian conjugate: complex conjugate coefficients, the factors conjugated, in reversed order *)
Definition hc_bos (b : bos) : bos := match b with Gluon m n i j => Gluon m n j i | _ => b end.
Definition hc_comp (c : comp) : comp := match c with (d, f, s, i) => (negb d, f, s, i) end.
Definition hc (p : poly) : poly :=
  map (fun t => ((fst (fst t), - snd (fst t)), (hc_bos (fst (snd t)), rev (map hc_comp (snd (snd t))))))%Q p.

(* ---------- Dirac matrices, in the chiral representation ---------- *)
Definition gz : Type := (Z * Z)%type.
Definition gzadd (a b : gz) : gz := (fst a + fst b, snd a + snd b)%Z.
Definition gzmul (a b : gz) : gz := (fst a * fst b - snd a * snd b, fst a * snd b + snd a * fst b)%Z.
Definition mat : Type := list (list gz).
Definition sn (s : spin) : nat := match s with S0 => 0 | S1 => 1 | S2 => 2 | S3 => 3 end%nat.
Definition O_ : gz := (0, 0)%Z.
Definition I1 : gz := (1, 0)%Z.
Definition M1 : gz := (-1, 0)%Z.
Definition Ii : gz := (0, 1)%Z.
Definition Mi : gz := (0, -1)%Z.
Definition ent (A : mat) (a b : spin) : gz := nth (sn b) (nth (sn a) A []) O_.
Definition gzsum (l : list gz) : gz := fold_right gzadd O_ l.
Definition of_fun (f : spin -> spin -> gz) : mat := map (fun a => map (f a) spins) spins.
Definition mmulM (A B : mat) : mat := of_fun (fun a b => gzsum (map (fun c => gzmul (ent A a c) (ent B c b)) spins)).
Definition unit_mat : mat := [[I1; O_; O_; O_]; [O_; I1; O_; O_]; [O_; O_; I1; O_]; [O_; O_; O_; I1]].
Definition gam (m : nat) : mat :=
  match m with
  | 0 => [[O_; O_; I1; O_]; [O_; O_; O_; I1]; [I1; O_; O_; O_]; [O_; I1; O_; O_]]
  | 1 => [[O_; O_; O_; I1]; [O_; O_; I1; O_]; [O_; M1; O_; O_]; [M1; O_; O_; O_]]
  | 2 => [[O_; O_; O_; Mi]; [O_; O_; Ii; O_]; [O_; Ii; O_; O_]; [Mi; O_; O_; O_]]
  | _ => [[O_; O_; I1; O_]; [O_; O_; O_; M1]; [M1; O_; O_; O_]; [O_; I1; O_; O_]]
  end%nat.
Definition metric (m : nat) : Z := match m with O => 1%Z | _ => (-1)%Z end.
(* the projectors on left- and right-handed fields, 1 and gamma_5 *)
Inductive chir := PL | PR | P1 | P5.
Definition cmat (x : chir) : mat :=
  match x with
  | PL => [[I1; O_; O_; O_]; [O_; I1; O_; O_]; [O_; O_; O_; O_]; [O_; O_; O_; O_]]
  | PR => [[O_; O_; O_; O_]; [O_; O_; O_; O_]; [O_; O_; I1; O_]; [O_; O_; O_; I1]]
  | P1 => unit_mat
  | P5 => [[M1; O_; O_; O_]; [O_; M1; O_; O_]; [O_; O_; I1; O_]; [O_; O_; O_; I1]]
  end.
Definition lor : list nat := [0; 1; 2; 3]%nat.
(* sigma^munu = i/2 [gamma^mu, gamma^nu] = i gamma^mu gamma^nu for mu <> nu, 0 for mu = nu *)
Definition sigma (m n : nat) : mat :=
  if Nat.eqb m n then [] else let G := mmulM (gam m) (gam n) in of_fun (fun a b => gzmul Ii (ent G a b)).
Inductive dstruct := Scalar | Vector | Tensor | Gamma3 | Gamma4.
(* the pairs Gamma (x) Gamma with all Lorentz indices contracted: signs and matrices *)
Definition dpairs (d : dstruct) : list (Z * mat) :=
  match d with
  | Scalar => [(1%Z, unit_mat)]
  | Vector => map (fun m => (metric m, gam m)) lor
  | Tensor => flat_map (fun m => map (fun n => (metric m * metric n, sigma m n)%Z) lor) lor
  | Gamma3 => flat_map (fun m => flat_map (fun n => map (fun r => (metric m * metric n * metric r, mmulM (gam m) (mmulM (gam n) (gam r)))%Z) lor) lor) lor
  | Gamma4 => flat_map (fun m => flat_map (fun n => flat_map (fun r => map (fun s =>
      (metric m * metric n * metric r * metric s, mmulM (gam m) (mmulM (gam n) (mmulM (gam r) (gam s))))%Z) lor) lor) lor) lor
  end.
(* psibar = psi^dagger gamma^0 *)
Definition bilin (G : mat) (x : chir) : mat := mmulM (gam 0) (mmulM G (cmat x)).
Definition dbilin (d : dstruct) (x y : chir) : list (Z * (mat * mat)) := map (fun sG => (fst sG, (bilin (snd sG) x, bilin (snd sG) y))) (dpairs d).
Definition contract (l : list (Z * (mat * mat))) (a b c e : spin) : gz :=
  gzsum (map (fun t => gzmul (fst t, 0%Z) (gzmul (ent (fst (snd t)) a b) (ent (snd (snd t)) c e))) l).
Definition dirac4 (d : dstruct) (x y : chir) : spin -> spin -> spin -> spin -> gz := contract (dbilin d x y).

(* ---------- colour ---------- *)
(* psibar_i psi_j psibar_k psi_l: colour singlets; sum_A T^A_ij T^A_kl; colours exchanged *)
Inductive cstruct := Singlet | Octet | Crossed.
Definition delta (i j : colr) : Q := if colr_eqb i j then 1%Q else 0%Q.
(* a bilinear of quarks is a colour singlet; leptons have no colour, for them the index is C0 *)
Definition cfac (f : ferm) (i j : colr) : Q := if quark f then delta i j else (delta i C0 * delta j C0)%Q.
Definition colour4 (c : cstruct) (f f' : ferm) (i j k l : colr) : Q :=
  match c with
  | Singlet => (cfac f i j * cfac f' k l)%Q
  | Crossed => (delta i l * delta k j)%Q
  | Octet => ((1 # 2) * (delta i l * delta k j) - (1 # 6) * (delta i j * delta k l))%Q
  end.

(* ---------- operators ---------- *)
Inductive opr :=
| Four (d : dstruct) (c : cstruct) (x y : chir) (f1 f2 f3 f4 : ferm)    (* (f1bar Gamma P_x f2)(f3bar Gamma P_y f4) *)
| Dipole (gluon : bool) (x : chir) (f1 f2 : ferm)                       (* f1bar sigma^munu P_x f2 F_munu, or with G_munu *)
| ThreeGluon (dual : bool).
Definition cp (d : bool) (f : ferm) (s : spin) (c : colr) : comp := (d, f, s, c).
Definition prodl {A B : Type} (l : list A) (m : list B) : list (A * B) := flat_map (fun x => map (fun y => (x, y)) m) l.
Definition pairs {A : Type} (l : list A) : list (A * A) := prodl l l.
Definition quads {A : Type} (l : list A) : list ((A * A) * (A * A)) := pairs (pairs l).
Definition four_poly (D : spin -> spin -> spin -> spin -> gz) (Cl : colr -> colr -> colr -> colr -> Q) (f1 f2 f3 f4 : ferm) : poly :=
  map (fun x => match x with ((a, b), (c, e), ((i, j), (k, l))) =>
    let z := D a b c e in let q := Cl i j k l in
    (inject_Z (fst z) * q, inject_Z (snd z) * q, (NoB, [cp true f1 a i; cp false f2 b j; cp true f3 c k; cp false f4 e l])) end)%Q
    (prodl (quads spins) (quads colrs)).
Definition dip (x : chir) (m n : nat) (a b : spin) : gz := gzmul (metric m * metric n, 0)%Z (ent (bilin (sigma m n) x) a b).
Definition dipole_poly (gluon : bool) (x : chir) (f1 f2 : ferm) : poly :=
  map (fun t => match t with ((m, n), ((a, b), (i, j))) =>
    let z := dip x m n a b in
    (* F_munu = - F_numu *)
    let s := if Nat.ltb n m then (-1)%Z else 1%Z in
    let u := Nat.min m n in let v := Nat.max m n in
    let q := (inject_Z s * (if gluon then 1 else cfac f1 i j))%Q in
    (inject_Z (fst z) * q, inject_Z (snd z) * q, (if gluon then Gluon u v i j else Photon u v, [cp true f1 a i; cp false f2 b j])) end)%Q
    (prodl (pairs lor) (prodl (pairs spins) (pairs colrs))).
Definition poly_of (o : opr) : poly :=
  match o with
  | Four d c x y f1 f2 f3 f4 => four_poly (dirac4 d x y) (colour4 c f1 f3) f1 f2 f3 f4
  | Dipole g x f1 f2 => dipole_poly g x f1 f2
  | ThreeGluon dual => [((1, 0), (if dual then GGGtilde else GGG, []))]%Q
  end.
(* the operators that are their own hermitian conjugate *)
Definition chir_eqb (x y : chir) : bool := match x, y with PL, PL | PR, PR | P1, P1 | P5, P5 => true | _, _ => false end.
Definition self_adjoint (o : opr) : bool :=
  match o with
  | Four Vector _ x y f1 f2 f3 f4 =>
      (ferm_eqb f1 f2 && ferm_eqb f3 f4) || (chir_eqb x y && ferm_eqb f1 f4 && ferm_eqb f2 f3)
  | ThreeGluon _ => true
  | _ => false
  end.

(* ---------- the Lagrangian ---------- *)
(* a basis: for each coefficient the operator and its normalisation *)
Definition basis : Type := list (string * (opr * sc)).
Section Lagrangian.
Context {K : StarField}.
Local Open Scope K_scope.
(* the sum over the operators of the normalisation times the coefficient times the operator, plus
   the hermitian conjugate (which is not added for operators that are their own conjugate:
   the real part of their coefficient counts); C k: the coefficient k *)
Definition weight (o : opr) : K := if self_adjoint o then kQ (1 # 2) else 1.
Definition lagrangian (p : tpar K) (B : basis) (C : string -> K) (m : mon) : K :=
  NpModel.ksum (map (fun e => let o := fst (snd e) in let z := sval p (snd (snd e)) * C (fst e) in
    weight o * (z * coefficient (poly_of o) m + z^* * coefficient (hc (poly_of o)) m)) B).
Definition same_lagrangian (p : tpar K) (B B' : basis) (C C' : string -> K) : Prop :=
  forall b l, NoDup l -> lagrangian p B C (b, l) = lagrangian p B' C' (b, l).
End Lagrangian.

(* ---------- the fermions in the names of coefficients ---------- *)
Definition fermions : list (string * ferm) :=
  [("nue", (Nu, G1)); ("numu", (Nu, G2)); ("nutau", (Nu, G3)); ("e", (El, G1)); ("mu", (El, G2)); ("tau", (El, G3));
   ("u", (Up, G1)); ("c", (Up, G2)); ("d", (Dn, G1)); ("s", (Dn, G2)); ("b", (Dn, G3))].
Fixpoint parse (n : nat) (s : string) : list ferm :=
  match n with
  | O => []
  | S n => match s with
           | EmptyString => []
           | _ => match find (fun nf => String.prefix (fst nf) s) fermions with
                  | Some (m, f) => f :: parse n (substring (String.length m) (String.length s - String.length m) s)
                  | None => []
                  end
           end
  end.
Definition flavours (s : string) : list ferm := parse 4 s.
Definition to_nu (f : ferm) : ferm := (Nu, snd f).

(* ---------- the basis WET/JMS ---------- *)
Definition gen_of (c : ascii) : option gener :=
  if Ascii.eqb c "1" then Some G1 else if Ascii.eqb c "2" then Some G2 else if Ascii.eqb c "3" then Some G3 else None.
Fixpoint gens_of (s : string) : option (list gener) :=
  match s with
  | EmptyString => Some []
  | String c r => match gen_of c, gens_of r with Some g, Some l => Some (g :: l) | _, _ => None end
  end.
Definition wfield (w : wf) : species * chir :=
  match w with NU => (Nu, PL) | EL => (El, PL) | ER => (El, PR) | UL => (Up, PL) | UR => (Up, PR) | DL => (Dn, PL) | DR => (Dn, PR) end.
Definition has_digit (d : ascii) (name : string) : bool := match name with String _ (String c _) => Ascii.eqb c d | _ => false end.
(* name_flavours: V, S and T are vector, scalar and tensor operators, 8 stands for colour octets; the
   fields and chiralities are those of TreeSpec.jms_fields *)
Definition jms_struct (name : string) : option dstruct :=
  if String.prefix "V" name then Some Vector else if String.prefix "S" name then Some Scalar
  else if String.prefix "T" name then Some Tensor else None.
Definition jms_op (k : string) : option opr :=
  if String.eqb k "G" then Some (ThreeGluon false) else if String.eqb k "Gtilde" then Some (ThreeGluon true)
  else match String.index 0 "_" k with
  | None => None
  | Some n =>
      let name := substring 0 n k in
      match dget jms_fields name, gens_of (substring (n + 1) (String.length k - n - 1) k) with
      | Some [(a, true); (b, false)], Some [g; g'] =>
          Some (Dipole (negb (String.eqb name (String.substring 0 1 name ++ "gamma"))) (snd (wfield b)) (fst (wfield a), g) (fst (wfield b), g'))
      | Some [(a, true); (b, false); (c, true); (d, false)], Some [g1; g2; g3; g4] =>
          match jms_struct name with
          | Some st => Some (Four st (if has_digit "8" name then Octet else Singlet) (snd (wfield b)) (snd (wfield d))
                              (fst (wfield a), g1) (fst (wfield b), g2) (fst (wfield c), g3) (fst (wfield d), g4))
          | None => None
          end
      | _, _ => None
      end
  end.
Definition jms_basis (ks : list string) : basis :=
  flat_map (fun k => match jms_op k with Some o => [(k, (o, SZ 1))] | None => [] end) ks.

(* ---------- normalisations ---------- *)
(* 4 G_F / sqrt 2 *)
Definition n_GF : sc := SDiv (SMul (SZ 4) (SY YGF)) (SY Ysqrt2).
Definition n_16pi2 : sc := SMul (SZ 16) (SPow (SY Ypi) 2).

(* ---------- the basis WET/Bern ---------- *)
(* four fermions f1 f2 f3 f4 *)
Definition four4 (s : string) (F : ferm -> ferm -> ferm -> ferm -> basis) : basis :=
  match flavours s with [a; b; c; d] => F a b c d | _ => [] end.
Definition two2 (s : string) (F : ferm -> ferm -> basis) : basis := match flavours s with [a; b] => F a b | _ => [] end.
Definition flip (x : chir) : chir := match x with PL => PR | PR => PL | _ => x end.
Definition prime (x : chir) : string := match x with PL => "" | _ => "p" end.
Definition bern_op (name flav : string) (o : opr) : string * (opr * sc) := ((name ++ flav)%string, (o, n_GF)).
(* Delta F = 2: (f1bar Gamma P f2)(f3bar Gamma P f4) *)
Definition bern_dF2 (s : string) : basis := four4 s (fun a b c d =>
  flat_map (fun x => [bern_op ("1" ++ prime x) s (Four Vector Singlet x x a b c d);
                      bern_op ("2" ++ prime x) s (Four Scalar Singlet x x a b c d);
                      bern_op ("3" ++ prime x) s (Four Scalar Crossed x x a b c d)]) [PL; PR] ++
  [bern_op "4" s (Four Scalar Singlet PL PR a b c d); bern_op "5" s (Four Scalar Crossed PL PR a b c d)]).
(* u d l nu: the fourth letter names the flavour of the neutrino *)
Definition bern_udlnu (s : string) : basis := four4 s (fun a b c d => let n := to_nu d in
  [bern_op "1" s (Four Vector Singlet PL PL a b c n); bern_op "5" s (Four Scalar Singlet PR PL a b c n);
   bern_op "1p" s (Four Vector Singlet PR PL a b c n); bern_op "5p" s (Four Scalar Singlet PL PL a b c n);
   bern_op "7p" s (Four Tensor Singlet PL PL a b c n)]).
(* f1bar Gamma P f2 with f3bar Gamma f4; y: the chirality of the scalar and tensor operators 5-10 *)
Definition bern_dF1 (octets : bool) (s : string) : basis := four4 s (fun a b c d =>
  let swap := ferm_eqb a c in
  flat_map (fun x => let y := if swap then x else flip x in
    flat_map (fun nn => match nn with ((n1, n3), (n5, (n7, n9)), co) =>
      [bern_op (n1 ++ prime x) s (Four Vector co x P1 a b c d); bern_op (n3 ++ prime x) s (Four Gamma3 co x P1 a b c d);
       bern_op (n5 ++ prime x) s (Four Scalar co y P1 a b c d); bern_op (n7 ++ prime x) s (Four Tensor co y P1 a b c d);
       bern_op (n9 ++ prime x) s (Four Gamma4 co y P1 a b c d)] end)
      (("1", "3", ("5", ("7", "9")), Singlet) :: if octets then [("2", "4", ("6", ("8", "10")), Octet)] else [])) [PL; PR]).
Definition bern_nunu (s : string) : basis := four4 s (fun a b c d =>
  [bern_op "nu1" s (Four Vector Singlet PL PL a b (to_nu c) (to_nu d)); bern_op "nu1p" s (Four Vector Singlet PR PL a b (to_nu c) (to_nu d))]).
(* dipoles: times the mass of the heavier quark, e / g_s^2 or 1 / g_s *)
Definition mass (f : ferm) : sc :=
  match f with
  | (Up, G1) => SY Ym_u | (Up, _) => SY Ym_c | (Dn, G1) => SY Ym_d | (Dn, G2) => SY Ym_s | (Dn, G3) => SY Ym_b
  | (El, G1) => SY Ym_e | (El, G2) => SY Ym_mu | (El, G3) => SY Ym_tau | (Nu, _) => SZ 0
  end.
Definition bern_dipole (s : string) : basis := two2 s (fun a b =>
  flat_map (fun x => [("7" ++ prime x ++ "gamma" ++ s, (Dipole false (flip x) a b, SMul n_GF (SDiv (SMul (mass b) (SY Ye)) (SPow (SY Ygs) 2))));
                      ("8" ++ prime x ++ "g" ++ s, (Dipole true (flip x) a b, SMul n_GF (SDiv (mass b) (SY Ygs))))]%string) [PL; PR]).
Definition bern_basis : basis :=
  flat_map bern_dF2 ["sbsb"; "dbdb"; "dsds"; "cucu"] ++
  flat_map bern_udlnu (all2 append ud_bern ll) ++
  flat_map (bern_dF1 true) (all2 append dd_bern ["uu"; "uc"; "cu"; "cc"] ++ ["sbdd"; "dbss"; "dsbb"]) ++
  flat_map (bern_dF1 false) ["sbss"; "sbbb"; "dbdd"; "dbbb"; "dsss"; "dsdd"; "dbds"; "sbsd"] ++
  flat_map (bern_dF1 false) (all2 append dd_bern ll) ++
  flat_map bern_nunu (all2 append dd_bern ll) ++
  flat_map bern_dipole dd_bern.

(* ---------- the basis WET/flavio ---------- *)
(* CVLL, CV1LL, CS8RR, CTRRt ...: V, S, T as above, the chiralities, 8 for octets, t for exchanged colours *)
Definition fl_names : list (string * (dstruct * cstruct * (chir * chir))) :=
  flat_map (fun d => flat_map (fun x => flat_map (fun y =>
    [("C" ++ fst d ++ fst x ++ fst y, (snd d, Singlet, (snd x, snd y))); ("C" ++ fst d ++ fst x ++ fst y ++ "t", (snd d, Crossed, (snd x, snd y)));
     ("C" ++ fst d ++ "1" ++ fst x ++ fst y, (snd d, Singlet, (snd x, snd y))); ("C" ++ fst d ++ "8" ++ fst x ++ fst y, (snd d, Octet, (snd x, snd y)))]%string)
    [("L", PL); ("R", PR)]) [("L", PL); ("R", PR)]) [("V", Vector); ("S", Scalar); ("T", Tensor)].
Definition fl_key (name flav : string) : string := (name ++ "_" ++ flav)%string.
(* the operators of the names with the flavours f1 f2 f3 f4: (f2bar Gamma f1)(f4bar Gamma f3) if turn, else (f1bar Gamma f2)(f3bar Gamma f4) *)
Definition fl_four (turn : bool) (n : ferm -> ferm -> sc) (names flavs : list string) : basis :=
  flat_map (fun s => four4 s (fun a b c d => flat_map (fun name =>
    match dget fl_names name with
    | Some (st, co, (x, y)) => [(fl_key name s, (if turn then Four st co x y b a d c else Four st co x y a b c d, n a b))]
    | None => []
    end) names)) flavs.
Definition gZ (g : gener) : Z := match g with G1 => 0 | G2 => 1 | G3 => 2 end%Z.
(* V_t f1 V_t f2^* for down quarks, V_f2 b V_f1 b^* for up quarks *)
Definition xi (a b : ferm) : sc :=
  match fst a with Up => SMul (SV (gZ (snd b)) 2) (SConj (SV (gZ (snd a)) 2)) | _ => SMul (SV 2 (gZ (snd a))) (SConj (SV 2 (gZ (snd b)))) end.
Definition n_loop (a b : ferm) (g : sc) : sc := SMul (SMul n_GF (xi a b)) (SDiv g n_16pi2).
Definition e2 : sc := SPow (SY Ye) 2.
(* d u l nu: (ubar Gamma d)(lbar Gamma nu), times - V_ud *)
Definition fl_udlnu (s : string) : basis := four4 s (fun a b c d =>
  let n := SNeg (SMul n_GF (SV (gZ (snd b)) (gZ (snd a)))) in
  [(fl_key "CVL" s, (Four Vector Singlet PL PL b a c d, n)); (fl_key "CVR" s, (Four Vector Singlet PR PL b a c d, n));
   (fl_key "CSL" s, (Four Scalar Singlet PL PL b a c d, n)); (fl_key "CSR" s, (Four Scalar Singlet PR PL b a c d, n));
   (fl_key "CT" s, (Four Tensor Singlet PL PL b a c d, n))]).
(* (f2bar gamma P f1)(nubar gamma (1 - gamma5) nu) *)
Definition fl_nunu (s : string) : basis := four4 s (fun a b c d =>
  [(fl_key "CL" s, (Four Vector Singlet PL PL b a d c, SMul (SZ 2) (n_loop a b e2))); (fl_key "CR" s, (Four Vector Singlet PR PL b a d c, SMul (SZ 2) (n_loop a b e2)))]).
Definition fl_ll (s : string) : basis := four4 s (fun a b c d =>
  flat_map (fun x =>
    [(fl_key ("C9" ++ prime x) s, (Four Vector Singlet x P1 b a d c, n_loop a b e2)); (fl_key ("C10" ++ prime x) s, (Four Vector Singlet x P5 b a d c, n_loop a b e2));
     (fl_key ("CS" ++ prime x) s, (Four Scalar Singlet (flip x) P1 b a d c, SMul (n_loop a b e2) (mass a)));
     (fl_key ("CP" ++ prime x) s, (Four Scalar Singlet (flip x) P5 b a d c, SMul (n_loop a b e2) (mass a)))]) [PL; PR]).
Definition fl_dipole (s : string) : basis := two2 s (fun a b =>
  flat_map (fun x => [(fl_key ("C7" ++ prime x) s, (Dipole false (flip x) b a, SMul (n_loop a b (SY Ye)) (mass a)));
                      (fl_key ("C8" ++ prime x) s, (Dipole true (flip x) b a, SMul (n_loop a b (SY Ygs)) (mass a)))]) [PL; PR]).
Definition fl_moment (name : string) (gluon : bool) (s : string) : basis := two2 s (fun a b =>
  [(fl_key name s, (Dipole gluon PR a b, SMul (SMul n_GF (SDiv (SY (if gluon then Ygs else Ye)) n_16pi2)) (mass a)))]).
Definition n_1 (a b : ferm) : sc := SZ 1.
Definition n_F (a b : ferm) : sc := n_GF.
Definition n_xi (a b : ferm) : sc := SMul n_GF (xi a b).
Definition flavio_basis : basis :=
  fl_four true n_1 ["CVLL"; "CVLR"; "CVRR"; "CSLL"; "CSLR"; "CSRR"; "CTLL"; "CTRR"] ["bsbs"; "bdbd"; "sdsd"; "ucuc"] ++
  flat_map fl_udlnu (all2 append ud_flavio (all2 append leptons nus)) ++
  flat_map fl_nunu (all2 append dd_flavio (all2 append nus nus)) ++
  flat_map fl_ll (all2 append dd_flavio ll ++ ["cuee"; "cumumu"; "cutautau"]) ++
  fl_four true n_xi (nonlep ++ nonlep_t) ["sduu"; "sdcc"; "sdbb"; "bsuu"; "bscc"; "bsdd"; "bduu"; "bdcc"; "bdss"; "cudd"; "cuss"; "cubb"] ++
  fl_four true n_xi nonlep ["sddd"; "sdss"; "bsss"; "bsbb"; "bddd"; "bdbb"; "cuuu"; "cucc"] ++
  flat_map fl_dipole ["bs"; "bd"; "sd"; "cu"] ++
  flat_map (fl_moment "C7" false) (pairs_ll ++ pairs_uu ++ pairs_dd) ++ flat_map (fl_moment "C8" true) (pairs_uu ++ pairs_dd) ++
  [("CG", (ThreeGluon false, n_GF)); ("CGtilde", (ThreeGluon true, n_GF))] ++
  fl_four false n_F ["CVLL"; "CVRR"; "CSRR"] (upto pairs_ll) ++ fl_four false n_F ["CVLR"] (upto pairs_ll ++ below pairs_ll) ++
  fl_four false n_F ["CVLR"; "CSRR"] ["emumue"; "etautaue"; "mutautaumu"] ++
  fl_four false n_F ["CVLL"; "CVLR"] (all2 append nu_pairs (pairs_ll ++ pairs_uu ++ pairs_dd)) ++
  fl_four false n_F ["CVLL"; "CVRR"; "CVLR"; "CSRL"; "CSRR"; "CTRR"] (all2 append pairs_ll (pairs_uu ++ pairs_dd)) ++
  fl_four false n_F ["CVLR"] (all2 append (pairs_uu ++ pairs_dd) pairs_ll) ++
  fl_four false n_F ["CVLL"; "CVRR"; "CV1LR"; "CV8LR"; "CS1RR"; "CS8RR"] (upto pairs_uu ++ ["uccu"] ++ upto pairs_dd ++ ["dssd"; "dbbd"; "sbbs"]) ++
  fl_four false n_F ["CV1LR"; "CV8LR"] (below pairs_uu ++ below pairs_dd ++ all2 append pairs_dd pairs_uu) ++
  fl_four false n_F ["CV1LL"; "CV8LL"; "CV1RR"; "CV8RR"; "CV1LR"; "CV8LR"; "CS1RR"; "CS8RR"] (all2 append pairs_uu pairs_dd) ++
  fl_four false n_F ["CV1LR"; "CV8LR"; "CS1RR"; "CS8RR"] ["uddu"; "ussu"; "ubbu"; "cddc"; "cssc"; "cbbc"] ++
  (* lepton flavour violation *)
  flat_map (fun k => match String.index 0 "_" k with
    | Some n => let name := substring 0 n k in let s := substring (n + 1) (String.length k - n - 1) k in
        if String.eqb name "Cgamma" then two2 s (fun a b => [(k, (Dipole false PR b a, SZ 1))]) else fl_four true n_1 [name] [s]
    | None => [] end) flavio_lfv.
