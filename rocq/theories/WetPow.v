(* Complex powers of positive numbers and their derivatives, for WetProofs.v *)
From Coq Require Import List Bool ZArith Reals Arith Lia Lra String Ascii.
From Verif Require Import PyBase Num SymModel EftModel NpModel NpProofs RealC WcxfModel AdmData WetModel WetSpec.
Import ListNotations.
Local Open Scope list_scope.
Local Open Scope K_scope.
Add Field KFP : (k_field CR).

Lemma cpow_1 a : cpow 1 a = 1.
Proof. unfold cpow. rewrite ln_1, !Rmult_0_r, exp_0, cos_0, sin_0. cbn. f_equal; ring. Qed.
Lemma cpow_mul x y a : (0 < x)%R -> (0 < y)%R -> cpow (x * y) a = cpow x a * cpow y a.
Proof.
  intros X Y. unfold cpow. rewrite ln_mult by assumption. cbn. unfold cx_mul. cbn [fst snd].
  rewrite !Rmult_plus_distr_l, exp_plus, cos_plus, sin_plus. f_equal; ring.
Qed.
Lemma cpow_add x a b : cpow x (a + b) = cpow x a * cpow x b.
Proof.
  unfold cpow. cbn. unfold cx_mul. cbn [fst snd].
  rewrite !Rmult_plus_distr_r, exp_plus, cos_plus, sin_plus. f_equal; ring.
Qed.
Lemma cpow_one x : (0 < x)%R -> cpow x 1 = rc x.
Proof.
  intros X. unfold cpow. cbn. rewrite Rmult_1_l, Rmult_0_l, exp_ln, cos_0, sin_0 by assumption. unfold rc. f_equal; ring.
Qed.
Lemma cpow_zero x : cpow x 0 = 1.
Proof. unfold cpow. cbn. rewrite Rmult_0_l, exp_0, cos_0, sin_0. f_equal; ring. Qed.
Lemma cpow_conj x a : (cpow x a)^* = cpow x (a^*).
Proof.
  unfold cpow. cbn. unfold cx_conj. cbn [fst snd]. rewrite Ropp_mult_distr_l_reverse, cos_neg, sin_neg. f_equal. ring.
Qed.

(* derivatives *)
Lemma dpl_ext f g x l : (forall t, f t = g t) -> derivable_pt_lim f x l -> derivable_pt_lim g x l.
Proof. intros E D eps P. destruct (D eps P) as [d H]. exists d. intros h N L. rewrite <- !E. now apply H. Qed.
Lemma cderiv_ext F G x l : (forall t, F t = G t) -> cderiv F x l -> cderiv G x l.
Proof. intros E [D1 D2]. split; eapply dpl_ext; eauto; intros t; cbn; now rewrite E. Qed.
Lemma cderiv_const c x : cderiv (fun _ => c) x 0.
Proof. split; apply derivable_pt_lim_const. Qed.
Lemma cderiv_add F G x l m : cderiv F x l -> cderiv G x m -> cderiv (fun t => F t + G t) x (l + m).
Proof. intros [A1 A2] [B1 B2]. split; cbn; now apply derivable_pt_lim_plus. Qed.
Lemma cderiv_mul F G x l m : cderiv F x l -> cderiv G x m -> cderiv (fun t => F t * G t) x (l * G x + F x * m).
Proof.
  intros [A1 A2] [B1 B2]. split.
  - eapply dpl_ext with (f := ((fun t => fst (F t)) * (fun t => fst (G t)) - (fun t => snd (F t)) * (fun t => snd (G t)))%F); [reflexivity|].
    cbn. replace (fst l * fst (G x) - snd l * snd (G x) + (fst (F x) * fst m - snd (F x) * snd m))%R
      with ((fst l * fst (G x) + fst (F x) * fst m) - (snd l * snd (G x) + snd (F x) * snd m))%R by ring.
    apply derivable_pt_lim_minus; now apply (derivable_pt_lim_mult (fun t => _) (fun t => _)).
  - eapply dpl_ext with (f := ((fun t => fst (F t)) * (fun t => snd (G t)) + (fun t => snd (F t)) * (fun t => fst (G t)))%F); [reflexivity|].
    cbn. replace (fst l * snd (G x) + snd l * fst (G x) + (fst (F x) * snd m + snd (F x) * fst m))%R
      with ((fst l * snd (G x) + fst (F x) * snd m) + (snd l * fst (G x) + snd (F x) * fst m))%R by ring.
    apply derivable_pt_lim_plus; now apply (derivable_pt_lim_mult (fun t => _) (fun t => _)).
Qed.
Lemma cderiv_scale c F x l : cderiv F x l -> cderiv (fun t => c * F t) x (c * l).
Proof. intros D. replace (c * l) with (0 * F x + c * l) by ring. apply (cderiv_mul (fun _ => c)); [apply cderiv_const|exact D]. Qed.
Lemma cderiv_scale_r c F x l : cderiv F x l -> cderiv (fun t => F t * c) x (l * c).
Proof. intros D. replace (l * c) with (l * c + F x * 0) by ring. apply (cderiv_mul F (fun _ => c)); [exact D|apply cderiv_const]. Qed.
Lemma cderiv_opp F x l : cderiv F x l -> cderiv (fun t => - F t) x (- l).
Proof. intros D. replace (- l) with ((- (1)) * l) by ring. eapply cderiv_ext; [|apply cderiv_scale, D]. intros t. cbv beta. ring. Qed.
Lemma cderiv_sub F G x l m : cderiv F x l -> cderiv G x m -> cderiv (fun t => F t - G t) x (l - m).
Proof.
  intros D E. replace (l - m) with (l + - m) by ring.
  eapply cderiv_ext; [|apply cderiv_add; [exact D|apply cderiv_opp, E]]. intros t. cbv beta. ring.
Qed.
Lemma cderiv_sum {A} (l : list A) (F : A -> R -> CR) (D : A -> CR) x :
  (forall a, In a l -> cderiv (F a) x (D a)) -> cderiv (fun t => ksum (map (fun a => F a t) l)) x (ksum (map D l)).
Proof.
  induction l as [|a l IH]; intros H.
  - exact (cderiv_const 0 x).
  - cbn [map]. eapply cderiv_ext; [|rewrite ksum_cons; apply cderiv_add; [apply H; now left|apply IH; intros b I; apply H; now right]].
    intros t. cbv beta. now rewrite ksum_cons.
Qed.
(* d/dx x^a = a / x * x^a *)
Lemma cderiv_cpow a x : (0 < x)%R -> cderiv (fun t => cpow t a) x (a * rc (/ x)%R * cpow x a).
Proof.
  intros X. destruct a as [a b].
  assert (L : forall c, derivable_pt_lim (fun t => (c * ln t)%R) x (c * / x)%R).
  { intros c. apply (derivable_pt_lim_scal ln c x (/ x)%R). now apply derivable_pt_lim_ln. }
  assert (E : derivable_pt_lim (fun t => exp (a * ln t)%R) x (exp (a * ln x) * (a * / x))%R).
  { apply (derivable_pt_lim_comp (fun t => (a * ln t)%R) exp); [apply L|apply derivable_pt_lim_exp]. }
  assert (Co : derivable_pt_lim (fun t => cos (b * ln t)%R) x (- sin (b * ln x) * (b * / x))%R).
  { apply (derivable_pt_lim_comp (fun t => (b * ln t)%R) cos); [apply L|apply derivable_pt_lim_cos]. }
  assert (Si : derivable_pt_lim (fun t => sin (b * ln t)%R) x (cos (b * ln x) * (b * / x))%R).
  { apply (derivable_pt_lim_comp (fun t => (b * ln t)%R) sin); [apply L|apply derivable_pt_lim_sin]. }
  unfold cpow, cderiv, rc. cbn. unfold cx_mul. cbn [fst snd]. split.
  - match goal with |- derivable_pt_lim _ _ ?l =>
      replace l with (exp (a * ln x) * (a * / x) * cos (b * ln x) + exp (a * ln x) * (- sin (b * ln x) * (b * / x)))%R by ring end.
    apply (derivable_pt_lim_mult (fun t => exp (a * ln t)%R) (fun t => cos (b * ln t)%R)); assumption.
  - match goal with |- derivable_pt_lim _ _ ?l =>
      replace l with (exp (a * ln x) * (a * / x) * sin (b * ln x) + exp (a * ln x) * (cos (b * ln x) * (b * / x)))%R by ring end.
    apply (derivable_pt_lim_mult (fun t => exp (a * ln t)%R) (fun t => sin (b * ln t)%R)); assumption.
Qed.
(* the factor of the QED part *)
Lemma ue_factor_1 a b : ue_factor 1 a b = 0.
Proof.
  unfold ue_factor. destruct (ceqb_spec (a - b) 1) as [E|N]; cbn [negb].
  - replace (1 / 1)%R with 1%R by field. rewrite ln_1, cpow_1. change (rc 0) with (0 : CR). ring.
  - rewrite !cpow_1. field. intros Z. change (a - b - 1 = 0) in Z. apply N. replace (a - b) with (a - b - 1 + 1) by ring. rewrite Z. ring.
Qed.
(* d/dx phi(a, b) = a / x * phi(a, b) - x^b *)
Lemma cderiv_ue a b x : (0 < x)%R -> cderiv (fun t => ue_factor t a b) x (a * rc (/ x)%R * ue_factor x a b - cpow x b).
Proof.
  intros X. assert (Xn : rc x <> 0) by (intros E; apply rc_inj in E; lra).
  assert (Ix : rc (/ x)%R = kinv (rc x)) by (apply rc_inv; lra).
  unfold ue_factor. destruct (ceqb_spec (a - b) 1) as [E|N]; cbn [negb].
  - assert (D : cderiv (fun t => rc (ln (1 / t)%R)) x (rc (- / x)%R)).
    { split; cbn; [|apply derivable_pt_lim_const].
      assert (F : derivable_pt_lim (fun t => (1 / t)%R) x (- (1) / (x * x))%R).
      { replace (- (1) / (x * x))%R with ((0 * x - 1 * 1) / (Rsqr x))%R by (unfold Rsqr; field; lra).
        apply (derivable_pt_lim_div (fun _ => 1%R) id); [apply derivable_pt_lim_const|apply derivable_pt_lim_id|unfold id; lra]. }
      replace (- / x)%R with (/ (1 / x) * (- (1) / (x * x)))%R by (field; lra).
      apply (derivable_pt_lim_comp (fun t => (1 / t)%R) ln); [exact F|]. apply derivable_pt_lim_ln.
      apply Rdiv_lt_0_compat; lra. }
    pose proof (cderiv_mul _ _ _ _ _ (cderiv_cpow a x X) D) as H.
    assert (Ea : a = b + 1) by (rewrite <- E; ring).
    replace (cpow x b) with (cpow x a * rc (/ x)%R).
    2:{ rewrite Ea, cpow_add, cpow_one, Ix by exact X. field. exact Xn. }
    rewrite rc_opp in H. 
    replace (a * rc (/ x)%R * (cpow x a * rc (ln (1 / x)%R)) - cpow x a * rc (/ x)%R)
      with (a * rc (/ x)%R * cpow x a * rc (ln (1 / x)%R) + cpow x a * - rc (/ x)%R) by ring. exact H.
  - assert (Nz : a - b - 1 <> 0).
    { intros Z. apply N. replace (a - b) with (a - b - 1 + 1) by ring. rewrite Z. ring. }
    assert (H := cderiv_scale_r (kinv (a - b - 1)) _ _ _ (cderiv_sub _ _ _ _ _ (cderiv_cpow (b + 1) x X) (cderiv_cpow a x X))).
    assert (Eb : cpow x (b + 1) = cpow x b * rc x) by (rewrite cpow_add, cpow_one; auto).
    replace (a * rc (/ x)%R * ((cpow x (b + 1) - cpow x a) / (a - b - 1)) - cpow x b)
      with (((b + 1) * rc (/ x)%R * cpow x (b + 1) - a * rc (/ x)%R * cpow x a) * kinv (a - b - 1)).
    + eapply cderiv_ext; [|exact H]. intros t. cbv beta. now rewrite kdiv_def.
    + rewrite Eb, Ix. field. split; assumption.
Qed.
