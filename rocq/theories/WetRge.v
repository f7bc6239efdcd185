(* The evolution matrices of WET solve the renormalisation group equations and do not depend
   on the choice of the eigenvectors *)
From Coq Require Import List Bool ZArith Reals Arith Lia Lra String Ascii.
From Verif Require Import PyBase Num SymModel EftModel NpModel NpProofs RealC WcxfModel WcxfProofs AdmData WetModel WetSpec WetMat WetPow WetProofs WetSector WetEvol.
Import ListNotations.
Local Open Scope string_scope.
Local Open Scope list_scope.
Local Open Scope K_scope.
Add Field KFR : (k_field CR).

Lemma cderiv_comp F h x l m : cderiv F (h x) l -> derivable_pt_lim h x m -> cderiv (fun t => F (h t)) x (rc m * l).
Proof.
  intros [D1 D2] D. split.
  - replace (fst (rc m * l)) with (fst l * m)%R by (cbn; ring). exact (derivable_pt_lim_comp h (fun t => fst (F t)) x m (fst l) D D1).
  - replace (snd (rc m * l)) with (snd l * m)%R by (cbn; ring). exact (derivable_pt_lim_comp h (fun t => snd (F t)) x m (snd l) D D2).
Qed.
Lemma cderiv_pw f w x : (0 < x)%R -> cderiv (fun t => pw f t w) x (w / rc (2 * b0s f) * rc (/ x) * pw f x w).
Proof. intros P. unfold pw. now apply cderiv_cpow. Qed.

Section Rge.
Variable la : linalg.
Variable bases : @basis_reg CR.
Variables (n : nat) (A B : mat) (f : Z).
Hypothesis OA : eig_ok la n A.
Local Notation w := (ew la n A).
Local Notation v := (ev la n A).
Local Notation u := (eu la n A).
Let AV : meqn n (mmul n A v) (fun i j => w j * v i j) := proj1 OA.
Let VU : meqn n (mmul n v u) meye := proj1 (proj2 OA).

Lemma mmul_fm g i j : (i < n)%nat -> (j < n)%nat -> mmul n A (fmA la n A g) i j = ksum (map (fun k => w k * v i k * g (w k) * u k j) (seq 0 n)).
Proof.
  intros Li Lj. unfold fmA, fm. unfold mmul at 1.
  rewrite (ksum_ext _ (fun k => ksum (map (fun l => A i k * (v k l * g (w l) * u l j)) (seq 0 n)))).
  - rewrite ksum_swap. apply ksum_ext. intros l I. apply in_seq in I. rewrite <- (AV i l) by lia. unfold mmul.
    rewrite <- !ksum_scale_r. apply ksum_ext. intros; ring.
  - intros k I. apply in_seq in I. rewrite (fmat_entry n) by lia. now rewrite ksum_scale.
Qed.
Lemma us_deriv i j x : (0 < x)%R -> (i < n)%nat -> (j < n)%nat ->
  cderiv (fun t => fmA la n A (pw f t) i j) x (rc (/ (2 * b0s f * x)) * mmul n A (fmA la n A (pw f x)) i j).
Proof.
  intros P Li Lj. rewrite mmul_fm by assumption. rewrite <- ksum_scale.
  eapply cderiv_ext; [intros t; unfold fmA, fm; now rewrite (fmat_entry n v (fun k => pw f t (w k)) u i j Li Lj)|].
  apply cderiv_sum. intros k _.
  replace (rc (/ (2 * b0s f * x)) * (w k * v i k * pw f x (w k) * u k j)) with (v i k * (w k / rc (2 * b0s f) * rc (/ x) * pw f x (w k)) * u k j).
  - apply cderiv_scale_r, cderiv_scale, cderiv_pw, P.
  - pose proof (b0s_nz f). replace (/ (2 * b0s f * x))%R with (/ (2 * b0s f) * / x)%R by (field; lra). rewrite kdiv_def, <- rc_inv by lra. rewrite (rc_mul (/ (2 * b0s f)) (/ x)). ring.
Qed.
Let AU : meqn n (mmul n u A) (fun i j => w i * u i j) := left_eig n A w v u AV VU (proj2 (proj2 OA)).

(* the QED matrix without its prefactor *)
Definition ueM (x : R) : mat :=
  mmul n (mmul n v (kmat n B (fun a b => ue_factor x (a / rc (2 * b0s f)) (b / rc (2 * b0s f))) w v u)) u.
Lemma ueM_entry x i j : ueM x i j =
  ksum (map (fun l => ksum (map (fun k => v i k * mmul n (mmul n u B) v k l * u l j * ue_factor x (w k / rc (2 * b0s f)) (w l / rc (2 * b0s f))) (seq 0 n))) (seq 0 n)).
Proof.
  unfold ueM. unfold mmul at 1. apply ksum_ext. intros l I. unfold mmul at 1. rewrite <- ksum_scale_r. apply ksum_ext. intros k J. unfold kmat. ring.
Qed.
Lemma A_ueM x i j : (i < n)%nat -> mmul n A (ueM x) i j =
  ksum (map (fun l => ksum (map (fun k => w k * (v i k * mmul n (mmul n u B) v k l * u l j * ue_factor x (w k / rc (2 * b0s f)) (w l / rc (2 * b0s f)))) (seq 0 n))) (seq 0 n)).
Proof.
  intros Li. unfold mmul at 1.
  rewrite (ksum_ext _ (fun a => ksum (map (fun l => ksum (map (fun k => A i a * (v a k * mmul n (mmul n u B) v k l * u l j * ue_factor x (w k / rc (2 * b0s f)) (w l / rc (2 * b0s f)))) (seq 0 n))) (seq 0 n)))).
  - rewrite ksum_swap. apply ksum_ext. intros l _. rewrite ksum_swap. apply ksum_ext. intros k I. apply in_seq in I.
    transitivity (mmul n A v i k * (mmul n (mmul n u B) v k l * u l j * ue_factor x (w k / rc (2 * b0s f)) (w l / rc (2 * b0s f)))).
    + change (mmul n A v i k) with (ksum (map (fun a => A i a * v a k) (seq 0 n))). rewrite <- ksum_scale_r. apply ksum_ext. intros; ring.
    + rewrite (AV i k) by lia. ring.
  - intros a _. rewrite ueM_entry, <- ksum_scale. apply ksum_ext. intros l _. now rewrite <- ksum_scale.
Qed.
Lemma vK0 i l : (i < n)%nat -> (l < n)%nat -> ksum (map (fun k => v i k * mmul n (mmul n u B) v k l) (seq 0 n)) = mmul n B v i l.
Proof.
  intros Li Ll. change (mmul n v (mmul n (mmul n u B) v) i l = mmul n B v i l).
  rewrite <- (mmul_assoc n v (mmul n u B) v i l Li Ll).
  apply (mmul_ext n (mmul n v (mmul n u B)) B v v); auto; [|apply meqn_refl].
  intros a b La Lb. rewrite <- (mmul_assoc n v u B a b La Lb).
  rewrite (mmul_ext n _ _ _ _ VU (meqn_refl n B) a b La Lb). now apply mmul_eye_l.
Qed.
Lemma B_us x i j : (i < n)%nat -> (j < n)%nat -> mmul n B (fmA la n A (pw f x)) i j =
  ksum (map (fun l => ksum (map (fun k => v i k * mmul n (mmul n u B) v k l * u l j * pw f x (w l)) (seq 0 n))) (seq 0 n)).
Proof.
  intros Li Lj. unfold fmA, fm. rewrite <- (mmul_assoc n B _ u i j Li Lj).
  unfold mmul at 1. apply ksum_ext. intros l I. apply in_seq in I.
  transitivity (mmul n B v i l * (u l j * pw f x (w l))).
  - rewrite <- (mmul_assoc n B v _ i l) by lia. rewrite mmul_diag_r by lia. ring.
  - rewrite <- vK0 by lia. rewrite <- ksum_scale_r. apply ksum_ext. intros; ring.
Qed.
Lemma ue_deriv i j x : (0 < x)%R -> (i < n)%nat -> (j < n)%nat ->
  cderiv (fun t => ueM t i j) x (rc (/ (2 * b0s f * x)) * mmul n A (ueM x) i j - mmul n B (fmA la n A (pw f x)) i j).
Proof.
  intros P Li Lj. rewrite A_ueM, B_us by assumption.
  eapply cderiv_ext; [intros t; symmetry; apply ueM_entry|].
  rewrite <- ksum_scale.
  replace (ksum (map (fun x0 => rc (/ (2 * b0s f * x)) * ksum (map (fun k => w k * (v i k * mmul n (mmul n u B) v k x0 * u x0 j * ue_factor x (w k / rc (2 * b0s f)) (w x0 / rc (2 * b0s f)))) (seq 0 n))) (seq 0 n)) -
    ksum (map (fun l => ksum (map (fun k => v i k * mmul n (mmul n u B) v k l * u l j * pw f x (w l)) (seq 0 n))) (seq 0 n)))
  with (ksum (map (fun l => ksum (map (fun k => v i k * mmul n (mmul n u B) v k l * u l j * (w k / rc (2 * b0s f) * rc (/ x) * ue_factor x (w k / rc (2 * b0s f)) (w l / rc (2 * b0s f)) - pw f x (w l))) (seq 0 n))) (seq 0 n))).
  - apply cderiv_sum. intros l _. apply cderiv_sum. intros k _. apply cderiv_scale. unfold pw. now apply cderiv_ue.
  - pose proof (b0s_nz f) as NZ.
    assert (SUB : forall (F G H : nat -> CR), (forall k, F k = G k - H k) -> ksum (map F (seq 0 n)) = ksum (map G (seq 0 n)) - ksum (map H (seq 0 n))).
    { intros F G H E. transitivity (ksum (map G (seq 0 n)) + - ksum (map H (seq 0 n))); [|ring]. rewrite <- ksum_opp, <- ksum_add. apply ksum_ext. intros k _. rewrite E. ring. }
    apply SUB. intros l. cbv beta. rewrite <- ksum_scale. apply SUB. intros k. cbv beta.
    replace (/ (2 * b0s f * x))%R with (/ (2 * b0s f) * / x)%R by (field; lra). rewrite kdiv_def, <- rc_inv by lra. rewrite (rc_mul (/ (2 * b0s f)) (/ x)). ring.
Qed.
End Rge.

(* along a solution of the one-loop equation for alpha_s *)
Section Traj.
Variable la : linalg.
Variable bases : @basis_reg CR.
Lemma eta_deriv (b a0 : R) (al : R -> R) t : (al t <> 0)%R ->
  derivable_pt_lim al t (- 2 * b * (al t * al t) / (4 * PI))%R ->
  derivable_pt_lim (fun s => a0 / al s)%R t (2 * b * a0 / (4 * PI))%R.
Proof.
  intros N D. pose proof PI_RGT_0 as PP.
  replace (2 * b * a0 / (4 * PI))%R with ((0 * al t - - 2 * b * (al t * al t) / (4 * PI) * a0) / Rsqr (al t))%R.
  - apply (derivable_pt_lim_div (fun _ => a0) al); auto. apply derivable_pt_lim_const.
  - unfold Rsqr. field. split; auto. lra.
Qed.
Theorem us_rge cls f p n A al t :
  adm_reduced bases "adm_s_" cls f p = Ok (n, A) -> adm_ok la bases cls f p -> (0 < alpha_s p)%R -> (0 < al t)%R ->
  derivable_pt_lim al t (- 2 * b0s f * (al t * al t) / (4 * PI))%R ->
  forall i j, (i < n)%nat -> (j < n)%nat ->
  cderiv (fun s => fmA la n (mT A) (pw f (alpha_s p / al s)) i j) t
         (rc (al t / (4 * PI)) * mmul n (mT A) (fmA la n (mT A) (pw f (alpha_s p / al t))) i j).
Proof.
  intros EA O P0 P D i j Li Lj. pose proof PI_RGT_0 as PP. pose proof (b0s_nz f) as NZ.
  assert (Q : (0 < alpha_s p / al t)%R) by now apply Rdiv_lt_0_compat.
  pose proof (us_deriv la n (mT A) f (O n A EA) i j _ Q Li Lj) as DU.
  pose proof (cderiv_comp _ (fun s => alpha_s p / al s)%R t _ _ DU (eta_deriv _ (alpha_s p) al t (Rgt_not_eq _ _ P) D)) as X.
  match type of X with cderiv _ _ ?l => replace l with (rc (al t / (4 * PI)) * mmul n (mT A) (fmA la n (mT A) (pw f (alpha_s p / al t))) i j) in X; [exact X|] end.
  rewrite (kmul_assoc). f_equal. rewrite <- rc_mul. f_equal. field. lra.
Qed.
Definition ue_pre (f : Z) (p : rpar) : R := (- alpha_e p / (2 * b0s f * alpha_s p))%R.
Theorem ue_rge cls f p n A B al t :
  adm_reduced bases "adm_s_" cls f p = Ok (n, A) -> adm_reduced bases "adm_e_" cls f p = Ok (n, B) -> adm_ok la bases cls f p ->
  (0 < alpha_s p)%R -> (0 < al t)%R -> derivable_pt_lim al t (- 2 * b0s f * (al t * al t) / (4 * PI))%R ->
  forall i j, (i < n)%nat -> (j < n)%nat ->
  cderiv (fun s => rc (ue_pre f p) * ueM la n (mT A) (mT B) f (alpha_s p / al s) i j) t
         (rc (al t / (4 * PI)) * mmul n (mT A) (fun a b => rc (ue_pre f p) * ueM la n (mT A) (mT B) f (alpha_s p / al t) a b) i j +
          rc (alpha_e p / (4 * PI)) * mmul n (mT B) (fmA la n (mT A) (pw f (alpha_s p / al t))) i j).
Proof.
  intros EA EB O P0 P D i j Li Lj. pose proof PI_RGT_0 as PP. pose proof (b0s_nz f) as NZ.
  assert (Q : (0 < alpha_s p / al t)%R) by now apply Rdiv_lt_0_compat.
  pose proof (ue_deriv la n (mT A) (mT B) f (O n A EA) i j _ Q Li Lj) as DU.
  pose proof (cderiv_scale (rc (ue_pre f p)) _ _ _ (cderiv_comp _ (fun s => alpha_s p / al s)%R t _ _ DU (eta_deriv _ (alpha_s p) al t (Rgt_not_eq _ _ P) D))) as X.
  assert (SC : mmul n (mT A) (fun a b => rc (ue_pre f p) * ueM la n (mT A) (mT B) f (alpha_s p / al t) a b) i j =
               rc (ue_pre f p) * mmul n (mT A) (ueM la n (mT A) (mT B) f (alpha_s p / al t)) i j).
  { unfold mmul. rewrite <- ksum_scale. apply ksum_ext. intros; ring. }
  rewrite SC. match type of X with cderiv _ _ ?l => match goal with |- cderiv _ _ ?m => replace m with l; [exact X|] end end.
  set (X1 := mmul n (mT A) (ueM _ _ _ _ _ _) i j). set (X2 := mmul n (mT B) _ i j).
  replace (rc (al t / (4 * PI))) with (rc (2 * b0s f * alpha_s p / (4 * PI)) * rc (/ (2 * b0s f * (alpha_s p / al t)))).
  - replace (rc (alpha_e p / (4 * PI))) with (- (rc (ue_pre f p) * rc (2 * b0s f * alpha_s p / (4 * PI)))); [ring|].
    rewrite <- rc_mul, <- rc_opp. f_equal. unfold ue_pre. field. lra.
  - rewrite <- rc_mul. f_equal. field. lra.
Qed.
Lemma mmul_scale_l n c (P Q S : mat) i j : mmul n (mmul n (fun a b => c * P a b) Q) S i j = c * mmul n (mmul n P Q) S i j.
Proof.
  unfold mmul. rewrite <- ksum_scale. apply ksum_ext. intros k _. rewrite kmul_assoc, <- ksum_scale. f_equal. apply ksum_ext. intros; ring.
Qed.
Lemma getUe_form cls eta f p n A B : p_ok p -> adm_reduced bases "adm_s_" cls f p = Ok (n, A) -> adm_reduced bases "adm_e_" cls f p = Ok (n, B) ->
  exists U, getUe la bases cls eta f p = Ok (n, U) /\ forall i j, (i < n)%nat -> (j < n)%nat -> U i j = rc (ue_pre f p) * ueM la n (mT A) (mT B) f eta i j.
Proof.
  intros P EA EB. destruct (getUe_ok la bases cls eta f p n A B P EA EB) as [U EU]. exists U. split; auto.
  apply getUe_inv in EU as (A' & B' & EA' & EB' & _ & ->). rewrite EA in EA'. injection EA' as <-. rewrite EB in EB'. injection EB' as <-.
  intros i j _ _. exact (mmul_scale_l n _ _ _ _ i j).
Qed.
End Traj.
