(* The modulus and the argument determine a complex number *)
From Coq Require Import List Bool ZArith Reals Lra Psatz String.
From Verif Require Import PyBase Num RealC SimModel.
Local Open Scope R_scope.

Lemma sqrt_scale x y : x <> 0 -> sqrt (x * x + y * y) = Rabs x * sqrt (1 + (y / x)²).
Proof.
  intros N. replace (x * x + y * y) with ((x * x) * (1 + (y / x)²)) by (unfold Rsqr; field; exact N).
  rewrite sqrt_mult_alt by nra. f_equal. change (x * x) with (Rsqr x). apply sqrt_Rsqr_abs.
Qed.
Lemma sq_pos t : 0 < sqrt (1 + t²). Proof. apply sqrt_lt_R0. pose proof (Rle_0_sqr t). lra. Qed.
Lemma polar x y : let r := sqrt (x * x + y * y) in let t := atan2 y x in x = r * cos t /\ y = r * sin t.
Proof.
  cbv zeta. unfold atan2. destruct (Rlt_dec 0 x) as [P|NP].
  - rewrite sqrt_scale, Rabs_pos_eq, cos_atan, sin_atan by lra. pose proof (sq_pos (y / x)). split; field; lra.
  - destruct (Rlt_dec x 0) as [N|Z].
    + rewrite sqrt_scale by lra. rewrite Rabs_left by lra. pose proof (sq_pos (y / x)) as SP. destruct (Rlt_dec y 0).
      * replace (atan (y / x) - PI) with (- (PI - atan (y / x))) by ring. rewrite cos_neg, sin_neg, sin_PI_x.
        replace (PI - atan (y / x)) with (- atan (y / x) + PI) by ring. rewrite neg_cos, cos_neg, cos_atan, sin_atan. split; field; lra.
      * rewrite neg_cos, neg_sin, cos_atan, sin_atan. split; field; lra.
    + assert (x = 0) by lra. subst x. destruct (Rlt_dec 0 y) as [P|NQ].
      * rewrite cos_PI2, sin_PI2. replace (0 * 0 + y * y) with (Rsqr y) by (unfold Rsqr; ring). rewrite sqrt_Rsqr by lra. split; ring.
      * destruct (Rlt_dec y 0).
        -- rewrite cos_neg, sin_neg, cos_PI2, sin_PI2. replace (0 * 0 + y * y) with (Rsqr y) by (unfold Rsqr; ring).
           rewrite sqrt_Rsqr_abs, Rabs_left by lra. split; ring.
        -- assert (y = 0) by lra. subst y. replace (0 * 0 + 0 * 0) with 0 by ring. rewrite sqrt_0. split; ring.
Qed.
Lemma abs_angle_inj (z w : CR) : c_abs z = c_abs w -> c_angle z = c_angle w -> z = w.
Proof.
  intros A B. apply rc_inj in A, B. destruct z as [x y], w as [u v]. unfold cx_n2 in A. cbn [fst snd] in *.
  destruct (polar x y) as [P1 P2]. destruct (polar u v) as [Q1 Q2]. rewrite <- A, <- B in Q1, Q2. f_equal; congruence.
Qed.
Lemma c_abs_scale (z : CR) (r : R) : 0 <= r -> c_abs (kmul z (rc r)) = kmul (c_abs z) (rc r).
Proof.
  intros H. unfold c_abs. rewrite <- rc_mul. f_equal. destruct z as [x y]. unfold cx_n2, rc. cbn -[Rmult Rplus Rminus]. 
  replace ((x * r - y * 0) * (x * r - y * 0) + (x * 0 + y * r) * (x * 0 + y * r)) with ((x * x + y * y) * (r * r)) by ring.
  rewrite sqrt_mult_alt by nra. f_equal. change (r * r) with (Rsqr r). now apply sqrt_Rsqr.
Qed.
Lemma c_abs_opp (z : CR) : c_abs (kopp z) = c_abs z.
Proof. unfold c_abs. f_equal. f_equal. destruct z as [x y]. unfold cx_n2. cbn. ring. Qed.
