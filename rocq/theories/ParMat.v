(* A symmetry of the anomalous dimension matrices is a symmetry of the evolution matrices *)
From Coq Require Import List Bool ZArith Reals Arith Lia Lra String Permutation.
From Verif Require Import PyBase Num SymModel EftModel NpModel NpProofs RealC WcxfModel WcxfProofs AdmData WetModel WetSpec WetMat WetPow WetProofs WetSector WetEvol WetRge.
Import ListNotations.
Local Open Scope list_scope.
Local Open Scope K_scope.
Add Field KFPM : (k_field CR).

(* complex conjugation, or nothing *)
Definition kap (c : bool) (z : CR) : CR := if c then z^* else z.
Lemma kap_0 c : kap c 0 = 0. Proof. destruct c; [apply kconj_0|reflexivity]. Qed.
Lemma kap_1 c : kap c 1 = 1. Proof. destruct c; [apply kconj_1|reflexivity]. Qed.
Lemma kap_add c x y : kap c (x + y) = kap c x + kap c y. Proof. destruct c; [apply kconj_add|reflexivity]. Qed.
Lemma kap_mul c x y : kap c (x * y) = kap c x * kap c y. Proof. destruct c; [apply kconj_mul|reflexivity]. Qed.
Lemma kap_sum {X} c (f : X -> CR) l : kap c (ksum (map f l)) = ksum (map (fun x => kap c (f x)) l).
Proof. destruct c; [apply ksum_conj|reflexivity]. Qed.
Lemma rc_conj r : (rc r)^* = rc r. Proof. unfold rc. cbn. unfold cx_conj. cbn [fst snd]. now rewrite Ropp_0. Qed.
Lemma kap_rc c r : kap c (rc r) = rc r. Proof. destruct c; [apply rc_conj|reflexivity]. Qed.

Lemma mmul_def n A B i j : mmul n A B i j = ksum (map (fun k => A i k * B k j) (seq 0 n)). Proof. reflexivity. Qed.
(* sums over a permuted range *)
Lemma seq_perm n (q : nat -> nat) : (forall i, (i < n)%nat -> (q i < n)%nat) -> (forall i, (i < n)%nat -> q (q i) = i) -> Permutation (map q (seq 0 n)) (seq 0 n).
Proof.
  intros L I. apply NoDup_Permutation_bis.
  - assert (G : forall l, NoDup l -> (forall x, In x l -> (x < n)%nat) -> NoDup (map q l)).
    { induction l as [|a l IH]; intros ND H; [constructor|]. inversion_clear ND. cbn [map]. constructor.
      - intros J. apply in_map_iff in J as (b & E & J). assert (a = b); [|now subst].
        rewrite <- (I a), <- (I b), E; auto using in_cons, in_eq.
      - apply IH; auto using in_cons. }
    apply G; [apply seq_NoDup|]. intros x J. apply in_seq in J. lia.
  - rewrite map_length. lia.
  - intros x H. apply in_map_iff in H as (y & <- & H). apply in_seq in H. apply in_seq. pose proof (L y). lia.
Qed.
Lemma sum_reindex n (q : nat -> nat) (f : nat -> CR) : (forall i, (i < n)%nat -> (q i < n)%nat) -> (forall i, (i < n)%nat -> q (q i) = i) ->
  ksum (map (fun k => f (q k)) (seq 0 n)) = ksum (map f (seq 0 n)).
Proof. intros L I. rewrite <- (map_map q f). apply ksum_perm, Permutation_map. now apply seq_perm. Qed.

(* the symmetry: exchange of the coefficients by q, signs g, complex conjugation if c *)
Section Sym.
Variables (n : nat) (q : nat -> nat) (g : nat -> CR) (c : bool).
Hypothesis QL : forall i, (i < n)%nat -> (q i < n)%nat.
Hypothesis QI : forall i, (i < n)%nat -> q (q i) = i.
Hypothesis GG : forall i, (i < n)%nat -> g i * g i = 1.
Definition symm (A : mat) : Prop := forall i j, (i < n)%nat -> (j < n)%nat -> A i j = g i * g j * kap c (A (q i) (q j)).

Section Dec.
Variables (A B : mat) (w : nat -> CR) (v u : mat).
Hypothesis SA : symm A.
Hypothesis AV : meqn n (mmul n A v) (fun i j => w j * v i j).
Hypothesis VU : meqn n (mmul n v u) meye.
Hypothesis UV : meqn n (mmul n u v) meye.
Definition w' : nat -> CR := fun i => kap c (w i).
Definition v' : mat := fun i j => g i * kap c (v (q i) j).
Definition u' : mat := fun i j => kap c (u i (q j)) * g j.
Lemma AV' : meqn n (mmul n A v') (fun i j => w' j * v' i j).
Proof.
  intros i j Li Lj. transitivity (g i * kap c (mmul n A v (q i) j)).
  - unfold mmul. rewrite kap_sum. rewrite <- (sum_reindex n q (fun k => kap c (A (q i) k * v k j))) by assumption. rewrite <- ksum_scale. apply ksum_ext. intros k I. apply in_seq in I.
    rewrite (SA i k) by lia. unfold v'. rewrite kap_mul. pose proof (GG k ltac:(lia)) as G.
    transitivity ((g k * g k) * (g i * (kap c (A (q i) (q k)) * kap c (v (q k) j)))); [ring|]. rewrite G. ring.
  - rewrite AV by auto. unfold w', v'. rewrite kap_mul. ring.
Qed.
Lemma eye_q i j : (i < n)%nat -> (j < n)%nat -> meye (q i) (q j) = meye i j.
Proof.
  intros Li Lj. unfold meye. destruct (Nat.eqb_spec i j) as [->|N]; [now rewrite Nat.eqb_refl|].
  destruct (Nat.eqb_spec (q i) (q j)) as [E|]; [|reflexivity]. exfalso. apply N. rewrite <- (QI i), <- (QI j), E by assumption. reflexivity.
Qed.
Lemma kap_eye i j : kap c (meye i j) = meye i j.
Proof. unfold meye. destruct (i =? j)%nat; [apply kap_1|apply kap_0]. Qed.
Lemma VU' : meqn n (mmul n v' u') meye.
Proof.
  intros i j Li Lj. transitivity (g i * g j * kap c (mmul n v u (q i) (q j))).
  - unfold mmul. rewrite kap_sum, <- ksum_scale. apply ksum_ext. intros k _. unfold v', u'. rewrite kap_mul. ring.
  - rewrite VU by auto. rewrite kap_eye, eye_q by assumption. unfold meye. destruct (Nat.eqb_spec i j) as [->|]; [rewrite GG by assumption|]; ring.
Qed.
Lemma UV' : meqn n (mmul n u' v') meye.
Proof.
  intros i j Li Lj. transitivity (kap c (mmul n u v i j)).
  - unfold mmul. rewrite kap_sum. rewrite <- (sum_reindex n q (fun k => kap c (u i k * v k j))) by assumption.
    apply ksum_ext. intros k I. apply in_seq in I. unfold v', u'. rewrite kap_mul.
    transitivity ((g k * g k) * (kap c (u i (q k)) * kap c (v (q k) j))); [ring|]. rewrite GG by lia. ring.
  - rewrite UV by assumption. apply kap_eye.
Qed.
Lemma fm_symm (h : CR -> CR) : (forall z, h (kap c z) = kap c (h z)) -> symm (fm n w v u h).
Proof.
  intros H i j Li Lj. unfold fm. rewrite (fmat_unique n A w w' v u v' u' AV VU UV AV' VU' h i j Li Lj).
  rewrite !fmat_entry by auto. rewrite kap_sum, <- ksum_scale. apply ksum_ext. intros k _. unfold v', u', w'. rewrite !kap_mul, H. ring.
Qed.
Hypothesis SB : symm B.
Lemma km_symm (phi : CR -> CR -> CR) : (forall x y, phi (kap c x) (kap c y) = kap c (phi x y)) ->
  symm (mmul n (mmul n v (kmat n B phi w v u)) u).
Proof.
  intros H i j Li Lj. rewrite (kmat_unique n A B w w' v u v' u' AV VU UV AV' VU' UV' phi i j Li Lj).
  assert (M : forall a b, (a < n)%nat -> (b < n)%nat -> mmul n (mmul n u' B) v' a b = kap c (mmul n (mmul n u B) v a b)).
  { intros a b La Lb. unfold mmul at 1 3. rewrite kap_sum. rewrite <- (sum_reindex n q (fun k => kap c (mmul n u B a k * v k b))) by assumption.
    apply ksum_ext. intros k I. apply in_seq in I. rewrite kap_mul. unfold v' at 1.
    assert (E : mmul n u' B a k * g k = kap c (mmul n u B a (q k))).
    { unfold mmul. rewrite <- ksum_scale_r, kap_sum. rewrite <- (sum_reindex n q (fun l => kap c (u a l * B l (q k)))) by assumption.
      apply ksum_ext. intros l Il. apply in_seq in Il. unfold u'. rewrite (SB l k) by lia. rewrite kap_mul.
      transitivity ((g l * g l) * (g k * g k) * (kap c (u a (q l)) * kap c (B (q l) (q k)))); [ring|]. rewrite !GG by lia. ring. }
    rewrite <- E. ring. }
  assert (K : forall a b, (a < n)%nat -> (b < n)%nat -> kmat n B phi w' v' u' a b = kap c (kmat n B phi w v u a b)).
  { intros a b La Lb. unfold kmat. rewrite M by assumption. rewrite kap_mul, <- H. reflexivity. }
  rewrite (mmul_def n (mmul n v' _)), (mmul_def n (mmul n v _)). rewrite kap_sum, <- ksum_scale. apply ksum_ext. intros k I. apply in_seq in I. rewrite kap_mul.
  assert (E : mmul n v' (kmat n B phi w' v' u') i k = g i * kap c (mmul n v (kmat n B phi w v u) (q i) k)).
  { unfold mmul at 1 2. rewrite kap_sum, <- ksum_scale. apply ksum_ext. intros l Il. apply in_seq in Il. rewrite K by lia. rewrite kap_mul. unfold v' at 1. ring. }
  rewrite E. unfold u'. ring.
Qed.
End Dec.
Lemma symm_add A B : symm A -> symm B -> symm (fun i j => A i j + B i j).
Proof. intros SA SB i j Li Lj. rewrite (SA i j), (SB i j), kap_add by assumption. ring. Qed.
Lemma symm_rc A r : symm A -> symm (fun i j => rc r * A i j).
Proof. intros SA i j Li Lj. rewrite (SA i j), kap_mul, kap_rc by assumption. ring. Qed.
Lemma symm_eye : symm meye.
Proof. intros i j Li Lj. rewrite kap_eye, eye_q by assumption. unfold meye. destruct (Nat.eqb_spec i j) as [->|]; [rewrite GG by assumption|]; ring. Qed.
Lemma symm_T A : symm A -> symm (mT A).
Proof. intros SA i j Li Lj. unfold mT. rewrite (SA j i) by assumption. ring. Qed.
Lemma symm_zero : symm (fun _ _ => 0).
Proof. intros i j _ _. rewrite kap_0. ring. Qed.

(* the functions of the eigenvalues in getUs and getUe are real *)
Lemma kap_div x r : (r <> 0)%R -> kap c x / rc r = kap c (x / rc r).
Proof. intros N. destruct c; [|reflexivity]. cbn [kap]. rewrite kconj_div, rc_conj by (now apply rc_nz). reflexivity. Qed.
Lemma cpow_kap x a : cpow x (kap c a) = kap c (cpow x a).
Proof. destruct c; [symmetry; apply cpow_conj|reflexivity]. Qed.
Lemma pw_kap f x a : pw f x (kap c a) = kap c (pw f x a).
Proof. unfold pw. rewrite kap_div by (apply Rmult_integral_contrapositive_currified; [lra|apply b0s_nz]). apply cpow_kap. Qed.
Lemma kap_sub x y : kap c (x - y) = kap c x - kap c y. Proof. destruct c; [apply kconj_sub|reflexivity]. Qed.
Lemma kap_inj x y : kap c x = kap c y -> x = y. Proof. destruct c; [apply kconj_inj|auto]. Qed.
Lemma ue_kap e x y : ue_factor e (kap c x) (kap c y) = kap c (ue_factor e x y).
Proof.
  unfold ue_factor. rewrite <- kap_sub. destruct (ceqb_spec (x - y) 1) as [E|N].
  - rewrite E, kap_1. destruct (ceqb_spec 1 1) as [_|X]; [|congruence]. cbn [negb]. rewrite kap_mul, kap_rc, cpow_kap. reflexivity.
  - destruct (ceqb_spec (kap c (x - y)) 1) as [E|_]; [exfalso; apply N, kap_inj; now rewrite kap_1|]. cbn [negb].
    assert (NZ : x - y - 1 <> 0). { intros Z. apply N. transitivity (x - y - 1 + 1); [ring|]. rewrite Z. ring. }
    replace (kap c y + 1) with (kap c (y + 1)) by (rewrite kap_add, kap_1; reflexivity).
    replace (kap c (x - y) - 1) with (kap c (x - y - 1)) by (rewrite (kap_sub (x - y) 1), kap_1; reflexivity).
    rewrite !cpow_kap, <- kap_sub. clear -NZ. destruct c; [|reflexivity]. cbn [kap]. rewrite kconj_div by exact NZ. reflexivity.
Qed.
End Sym.

Section Evo.
Variables (la : linalg) (bases : @basis_reg CR) (n : nat) (q : nat -> nat) (g : nat -> CR) (c : bool).
Hypothesis QL : forall i, (i < n)%nat -> (q i < n)%nat.
Hypothesis QI : forall i, (i < n)%nat -> q (q i) = i.
Hypothesis GG : forall i, (i < n)%nat -> g i * g i = 1.
Local Notation symm := (symm n q g c).
Lemma us_symm cls eta f p U : adm_ok la bases cls f p -> (forall A, adm_reduced bases "adm_s_" cls f p = Ok (n, A) -> symm A) ->
  getUs la bases cls eta f p = Ok (n, U) -> symm U.
Proof.
  intros O S E. apply getUs_inv in E as (A & EA & ->). destruct (O _ _ EA) as (H1 & H2 & H3).
  apply (fm_symm n q g c QL QI GG (mT A) _ _ _ (symm_T _ _ _ _ _ (S _ EA)) H1 H2 H3). intros z. apply pw_kap.
Qed.
Lemma ue_symm cls eta f p U : adm_ok la bases cls f p -> (forall A, adm_reduced bases "adm_s_" cls f p = Ok (n, A) -> symm A) ->
  (forall A, adm_reduced bases "adm_e_" cls f p = Ok (n, A) -> symm A) ->
  getUe la bases cls eta f p = Ok (n, U) -> symm U.
Proof.
  intros O S SE E. apply getUe_inv in E as (A & B & EA & EB & _ & ->). destruct (O _ _ EA) as (H1 & H2 & H3).
  assert (K := km_symm n q g c QL QI GG (mT A) (mT B) _ _ _ (symm_T _ _ _ _ _ (S _ EA)) H1 H2 H3 (symm_T _ _ _ _ _ (SE _ EB))
     (fun a b => ue_factor eta (a / rc (2 * b0s f)) (b / rc (2 * b0s f)))).
  assert (N2 : (2 * b0s f <> 0)%R) by (apply Rmult_integral_contrapositive_currified; [lra|apply b0s_nz]).
  specialize (K ltac:(intros x y; cbv beta; rewrite !kap_div by exact N2; apply ue_kap)).
  pose proof (symm_rc _ _ _ _ _ (- alpha_e p / (2 * b0s f * alpha_s p)) K) as K'.
  intros i j Li Lj. rewrite !mmul_scale_l. exact (K' i j Li Lj).
Qed.
(* the matrix that is applied to the coefficients *)
Lemma evo_symm cls eta f p qed qcd Us Ue : adm_ok la bases cls f p -> (forall A, adm_reduced bases "adm_s_" cls f p = Ok (n, A) -> symm A) ->
  (forall A, adm_reduced bases "adm_e_" cls f p = Ok (n, A) -> symm A) ->
  us_of la bases cls eta f p qcd n = Ok (n, Us) -> ue_of la bases cls eta f p qed qcd n = Ok (n, Ue) -> symm (fun i j => Us i j + Ue i j).
Proof.
  intros O S SE EU EE. apply symm_add.
  - unfold us_of in EU. destruct (qcd =? 0)%Z; [injection EU as <-; now apply symm_eye|]. destruct (qcd =? 1)%Z; [|discriminate]. exact (us_symm _ _ _ _ _ O S EU).
  - unfold ue_of in EE. destruct (qed =? 0)%Z; [injection EE as <-; apply symm_zero|]. destruct (qed =? 1)%Z; [|discriminate].
    destruct (qcd =? 0)%Z; exact (ue_symm _ _ _ _ _ O S SE EE).
Qed.
End Evo.
