(* Specification of the one-loop anomalous dimensions of the four-fermion operators of WET: what the exchange of a
   gluon or a photon between the fields does to an operator.  Written from the Feynman rules (Feynman gauge, external
   wave functions included, divergent parts only), without reference to the matrices in wilson/run/wet/adm.py.

   Operators are polynomials in anticommuting field components, as in FermiSpec.  To a product of components corresponds
   the sum over all ordered pairs (a, b) of its factors of what a gauge boson does to a b:
   - exchange between the two fields: both fields are rotated, in spin space by sigma^munu and in colour space (or charge
     space) by the generators of the gauge group;
   - penguin: a and b are contracted to a loop that emits a gauge boson, which ends in the current of a fermion. *)
From Coq Require Import List Bool ZArith QArith String.
From Verif Require Import PyBase Num AdmData FermiSpec.
From Verif Require NpModel.
Import ListNotations.
Local Open Scope list_scope.

Inductive force := QCD | QED.
Definition charge (f : ferm) : Q := match fst f with Nu => 0 | El => -(1) | Up => 2 # 3 | Dn => -(1 # 3) end.
(* the charged fermions of WET *)
Definition charged : list ferm := [(El, G1); (El, G2); (El, G3); (Up, G1); (Up, G2); (Dn, G1); (Dn, G2); (Dn, G3)].

(* generators act on psi as M, on psi^dagger as - M^* *)
Definition rotated (d : bool) (M : mat) (a a' : spin) : gz := let z := ent M a a' in if d then ((- fst z)%Z, snd z) else z.
(* sum over mu, nu of sigma^munu on the first field times sigma_munu on the second: (a, b) -> (a', b') *)
Definition spin_pair (d d' : bool) (a b a' b' : spin) : gz :=
  gzsum (map (fun sM => gzmul (fst sM, 0%Z) (gzmul (rotated d (snd sM) a a') (rotated d' (snd sM) b b'))) (dpairs Tensor)).
(* sum over A of T^A on the first field times T^A on the second (T^A_ij T^A_kl = 1/2 delta_il delta_kj - 1/6 delta_ij delta_kl) *)
Definition colour_pair (d d' : bool) (i j i' j' : colr) : Q :=
  (if Bool.eqb d d' then (1 # 2) * (delta i j' * delta j i') - (1 # 6) * (delta i i' * delta j j')
   else (1 # 6) * (delta i i' * delta j j') - (1 # 2) * (delta i j * delta i' j'))%Q.
Definition force_pair (g : force) (d : bool) (f : ferm) (d' : bool) (f' : ferm) (i j i' j' : colr) : Q :=
  match g with
  | QCD => if quark f && quark f' then colour_pair d d' i j i' j' else 0
  | QED => (if Bool.eqb d d' then charge f * charge f' else - (charge f * charge f')) * (delta i i' * delta j j')
  end%Q.
(* - 2 sum_(pairs) (T.T) (sigma.sigma)/4: each pair of fields occurs twice among the ordered pairs *)
Definition exchange (g : force) (c c' : comp) : list (gq * list comp) :=
  match c, c' with (d, f, a, i), (d', f', b, j) =>
    map (fun x => match x with ((a', b'), (i', j')) =>
      let z := spin_pair d d' a b a' b' in let q := (-(1 # 4) * force_pair g d f d' f' i j i' j')%Q in
      (inject_Z (fst z) * q, inject_Z (snd z) * q, [cp d f a' i'; cp d' f' b' j']) end)%Q
    (prodl (pairs spins) (pairs colrs))
  end.
(* the loop ends in the vector current: sum_mu (gamma^mu gamma^0)_ab (psi^dagger gamma^0 gamma_mu psi) *)
Definition loop_spin (a b x y : spin) : gz :=
  gzsum (map (fun m => gzmul (metric m, 0%Z) (gzmul (ent (mmulM (gam m) (gam 0)) a b) (ent (mmulM (gam 0) (gam m)) x y))) lor).
Definition loop_colour (g : force) (f f' : ferm) (i j k l : colr) : Q :=
  match g with
  | QCD => if quark f && quark f' then (1 # 2) * (delta i l * delta k j) - (1 # 6) * (delta i j * delta k l) else 0
  | QED => charge f * charge f' * (delta i j * cfac f' k l)
  end%Q.
Definition penguin (g : force) (c c' : comp) : list (gq * list comp) :=
  match c, c' with
  | (false, f, a, i), (true, f', b, j) =>
      if ferm_eqb f f' then
        flat_map (fun h => map (fun t => match t with ((x, y), (k, l)) =>
          let z := loop_spin a b x y in let q := (-(2 # 3) * loop_colour g f h i j k l)%Q in
          (inject_Z (fst z) * q, inject_Z (snd z) * q, [cp true h x k; cp false h y l]) end)%Q
          (prodl (pairs spins) (pairs colrs))) charged
      else []
  | _, _ => []
  end.
(* the ways to move a factor to the front, with the sign *)
Fixpoint fronts (l : list comp) : list (Z * (comp * list comp)) :=
  match l with
  | [] => []
  | a :: r => (1%Z, (a, r)) :: map (fun t => ((- fst t)%Z, (fst (snd t), a :: snd (snd t)))) (fronts r)
  end.
Definition sz_gq (s : Z) (c : gq) : gq := (inject_Z s * fst c, inject_Z s * snd c)%Q.
Definition dressed_mon (g : force) (l : list comp) : list (gq * list comp) :=
  flat_map (fun t => flat_map (fun u =>
    map (fun v => (sz_gq (fst t * fst u) (fst v), snd v ++ snd (snd u)))
      (exchange g (fst (snd t)) (fst (snd u)) ++ penguin g (fst (snd t)) (fst (snd u)))) (fronts (snd (snd t)))) (fronts l).
Definition gqmul (a b : gq) : gq := (fst a * fst b - snd a * snd b, fst a * snd b + snd a * fst b)%Q.
(* the operator with one gauge boson exchanged, in units of minus the logarithm times alpha / (4 pi) *)
Definition dressed (g : force) (p : poly) : poly :=
  flat_map (fun t => map (fun u => (gqmul (fst t) (fst u), (fst (snd t), snd u))) (dressed_mon g (snd (snd t)))) p.

(* ---------- the Lagrangian of a list of four-fermion coefficients ---------- *)
Definition four_op (k : string) : option opr := match jms_op k with Some (Four d c x y f1 f2 f3 f4) => Some (Four d c x y f1 f2 f3 f4) | _ => None end.
(* the fermions in a four-fermion operator, and in a factor of a monomial *)
Definition fields (o : opr) : list ferm := match o with Four _ _ _ _ f1 f2 f3 f4 => [f1; f2; f3; f4] | _ => [] end.
Definition comp_ferm (c : comp) : ferm := match c with (_, f, _, _) => f end.
(* the prefix of the names of the functions in wilson/run/wet/adm.py *)
Definition adm_prefix (g : force) : string := match g with QCD => "adm_s_"%string | QED => "adm_e_"%string end.
Section L.
Context {K : StarField}.
Local Open Scope K_scope.
(* ks: names of coefficients; C i: the coefficient of the i-th name; F: what is done to the operators.  The coefficients
   that are not those of a four-fermion operator are left out. *)
Definition four_lagrangian (F : poly -> poly) (ks : list string) (C : nat -> K) (m : mon) : K :=
  NpModel.ksum (map (fun i => match four_op (nth i ks EmptyString) with
    | Some o => weight o * (C i * coefficient (F (poly_of o)) m + (C i)^* * coefficient (F (hc (poly_of o))) m)
    | None => 0
    end) (seq 0 (List.length ks))).
(* the coefficients (A^T C)_i, where only four-fermion coefficients C count *)
Definition mixed (ks : list string) (A : nat -> nat -> K) (C : nat -> K) (i : nat) : K :=
  NpModel.ksum (map (fun j => match four_op (nth j ks EmptyString) with Some _ => A j i * C j | None => 0 end) (seq 0 (List.length ks))).
(* the operators that are their own hermitian conjugate have real coefficients *)
Definition hermitian_real (ks : list string) (C : nat -> K) : Prop :=
  forall i o, (i < List.length ks)%nat -> four_op (nth i ks EmptyString) = Some o -> self_adjoint o = true -> (C i)^* = C i.
End L.
