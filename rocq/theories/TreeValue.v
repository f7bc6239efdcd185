(* The tree-level matching agrees with the specification of TreeSpec to first order. *)
From Coq Require Import List Bool ZArith Arith Lia String Ascii Field.
From Verif Require Import PyBase Num SymModel EftModel EftProofs NpModel NpProofs BetaSpec BetaModel TreeProg TreeModel TreeElem TreeSpec TreeProofs.
Import ListNotations.
Local Open Scope string_scope.
Local Open Scope list_scope.

Section Value.
Context {K : StarField}.
Local Open Scope K_scope.
Add Field KFtv : (k_field K) (morphism (kZ_morph (K := K)), constants [kz_const]).
Notation cdict := (dict string (cval K)).

(* ---------- scaled points ---------- *)
Lemma dget_scaled x (C : cdict) k : dget (scaled x C) k =
  option_map (fun v => match v with CNum z => CNum (x * z) | CArr s a => CArr s (fun I => x * a I) end) (dget C k).
Proof. exact (dget_dmap (fun _ v => match v with CNum z => CNum (x * z) | CArr s a => CArr s (fun I => x * a I) end) C k). Qed.
Lemma coef_scaled x (C : cdict) k I : coef (scaled x C) k I = x * coef C k I.
Proof. unfold coef. rewrite dget_scaled. destruct (dget C k) as [[z|s a]|]; cbn; try reflexivity. ring. Qed.
Lemma wc_scaled x (C : cdict) : wc_point C -> wc_point (scaled x C).
Proof.
  intros W k ts G. destruct (W k ts G) as (v & D & S & Z). rewrite dget_scaled, D. cbn [option_map]. eexists. split; [reflexivity|]. split.
  - now destruct v.
  - intros E. destruct (Z E) as (z & ->). eauto.
Qed.

(* ---------- first order ---------- *)
Lemma u2_refl (F : K -> K) : upto2 F F.
Proof. exists 0, 0. intros. ring. Qed.
Lemma u2_ext (F F' G G' : K -> K) : (forall x, kreal x -> F x = F' x) -> (forall x, kreal x -> G x = G' x) -> upto2 F' G' -> upto2 F G.
Proof. intros A B (r2 & r3 & H). exists r2, r3. intros x R. rewrite (A x R), (B x R). auto. Qed.
Lemma u2_add (F G F' G' : K -> K) : upto2 F G -> upto2 F' G' -> upto2 (fun x => F x + F' x) (fun x => G x + G' x).
Proof. intros (a & b & H) (a' & b' & H'). exists (a + a'), (b + b'). intros x R. rewrite (H x R), (H' x R). ring. Qed.
Lemma u2_scale k (F G : K -> K) : upto2 F G -> upto2 (fun x => k * F x) (fun x => k * G x).
Proof. intros (a & b & H). exists (k * a), (k * b). intros x R. rewrite (H x R). ring. Qed.
Lemma u2_prod (a0 a1 b0 b1 c0 c1 : K) : upto2 (fun x => (a0 + x * a1) * (b0 + x * b1) * (c0 + x * c1))
  (fun x => a0 * b0 * c0 + x * (a1 * b0 * c0 + a0 * b1 * c0 + a0 * b0 * c1)).
Proof. exists (a1 * b1 * c0 + a1 * b0 * c1 + a0 * b1 * c1), (a1 * b1 * c1). intros. ring. Qed.

Section Env.
Variables sqrt2 mW mZ vT g1 : K.
Hypotheses (NS : sqrt2 <> 0) (NZ : mZ <> 0) (NV : vT <> 0) (RV : kreal vT).
Variable C : cdict.
Notation c0 := (coef C).
Notation cx x := (coef (scaled x C)).
(* zeroth and first order of the couplings *)
Definition s0 : K := 1 - sq mW / sq mZ.
Definition s1 : K := - (sq mW * sq vT / (kZ 2 * sq mZ) * c0 "phiD" [] + g1 * mW * (vT * sq vT) / (kZ 2 * sq mZ) * c0 "phiWB" []).
Definition z0 (f : wf) (p r : nat) : K := delta p r * (T3 f - Qel f * s0).
Definition z1 (f : wf) (p r : nat) : K := - (delta p r * Qel f * s1 + sq vT / kZ 2 * hcurrent c0 f p r).
Definition Zlin (f g : wf) (p r s t : nat) (x : K) : K :=
  - (kZ 4 / sq vT * z0 f p r * z0 g s t + x * (- (kZ 2 * c0 "phiD" []) * z0 f p r * z0 g s t + kZ 4 / sq vT * z1 f p r * z0 g s t + kZ 4 / sq vT * z0 f p r * z1 g s t)).
Lemma hcurrent_x f p r x : hcurrent (cx x) f p r = x * hcurrent c0 f p r.
Proof. destruct f; unfold hcurrent; rewrite !coef_scaled; ring. Qed.
Lemma Zc_x f p r x : Zc mW mZ vT g1 (cx x) f p r = z0 f p r + x * z1 f p r.
Proof. unfold Zc, z0, z1, sw2, s0, s1. rewrite hcurrent_x, !coef_scaled. ring. Qed.
Lemma gZ2_x x : gZ2 vT (cx x) = kZ 4 / sq vT + x * - (kZ 2 * c0 "phiD" []).
Proof. unfold gZ2. rewrite !coef_scaled. ring. Qed.
Lemma Zex_lin f g p r s t : upto2 (fun x => Zex mW mZ vT g1 (cx x) f g p r s t) (Zlin f g p r s t).
Proof.
  eapply u2_ext; [| |exact (u2_scale (- (1)) _ _ (u2_prod (kZ 4 / sq vT) (- (kZ 2 * c0 "phiD" [])) (z0 f p r) (z1 f p r) (z0 g s t) (z1 g s t)))].
  - intros x _. unfold Zex. rewrite !Zc_x, gZ2_x. ring.
  - intros x _. unfold Zlin. ring.
Qed.
Lemma u2_eq (F G G' : K -> K) : upto2 F G -> (forall x, kreal x -> G x = G' x) -> upto2 F G'.
Proof. intros (a & b & H) E. exists a, b. intros x R. rewrite <- (E x R). auto. Qed.
Notation val x e I := (value sqrt2 mW mZ vT g1 (scaled x C) e I).
Lemma n2 : kZ 2 <> (0 : K). Proof. apply kZ_neq0. lia. Qed.
Lemma n3 : kZ 3 <> (0 : K). Proof. apply kZ_neq0. lia. Qed.
Lemma n4 : kZ 4 <> (0 : K). Proof. apply kZ_neq0. lia. Qed.
Lemma delta_sym i j : delta i j = delta j i :> K. Proof. unfold delta. now rewrite Nat.eqb_sym. Qed.
Lemma delta_conj i j : (delta i j)^* = delta i j :> K.
Proof. unfold delta. destruct (Nat.eqb i j); [apply kconj_1|apply kconj_0]. Qed.
Lemma neutral_lin f g p r s t : upto2 (fun x => neutral mW mZ vT g1 (cx x) f g [p; r; s; t]) (fun x => contact (cx x) f g p r s t + Zlin f g p r s t x).
Proof. unfold neutral. apply u2_add; [apply u2_refl|apply Zex_lin]. Qed.
Lemma lagr2_lin f p r s t : upto2 (fun x => lagr2 mW mZ vT g1 (cx x) f p r s t) (fun x => contact2 (cx x) f p r s t + kinv (kZ 2) * Zlin f f p r s t x).
Proof.
  eapply u2_ext; [| |exact (u2_add _ _ _ _ (u2_refl (fun x => contact2 (cx x) f p r s t)) (u2_scale (kinv (kZ 2)) _ _ (Zex_lin f f p r s t)))].
  - intros x _. unfold lagr2. field. exact n2.
  - reflexivity.
Qed.
Lemma quarks2_lin f p r s t : upto2 (fun x => quarks2 mW mZ vT g1 (cx x) f [p; r; s; t])
  (fun x => kinv (kZ 2) * ((contact2 (cx x) f p r s t + kinv (kZ 2) * Zlin f f p r s t x) + (contact2 (cx x) f s t p r + kinv (kZ 2) * Zlin f f s t p r x))).
Proof.
  eapply u2_ext; [| |exact (u2_scale (kinv (kZ 2)) _ _ (u2_add _ _ _ _ (lagr2_lin f p r s t) (lagr2_lin f s t p r)))].
  - intros x _. unfold quarks2. field. exact n2.
  - reflexivity.
Qed.
Lemma leptons2_lin f p r s t : upto2 (fun x => leptons2 mW mZ vT g1 (cx x) f [p; r; s; t])
  (fun x => kinv (kZ 4) * ((contact2 (cx x) f p r s t + kinv (kZ 2) * Zlin f f p r s t x) + (contact2 (cx x) f p t s r + kinv (kZ 2) * Zlin f f p t s r x) +
    (contact2 (cx x) f s r p t + kinv (kZ 2) * Zlin f f s r p t x) + (contact2 (cx x) f s t p r + kinv (kZ 2) * Zlin f f s t p r x))).
Proof.
  eapply u2_ext; [| |exact (u2_scale (kinv (kZ 4)) _ _ (u2_add _ _ _ _ (u2_add _ _ _ _ (u2_add _ _ _ _ (lagr2_lin f p r s t) (lagr2_lin f p t s r)) (lagr2_lin f s r p t)) (lagr2_lin f s t p r)))].
  - intros x _. unfold leptons2. field. exact n4.
  - reflexivity.
Qed.
Hypotheses (HL : hermitian C "phil3") (HQ : hermitian C "phiq3").
Lemma Wq_x p r x : Wq vT (cx x) p r = delta p r + x * (sq vT * c0 "phiq3" [p; r]).
Proof. unfold Wq. rewrite coef_scaled. ring. Qed.
Lemma Wl_x p r x : Wl vT (cx x) p r = delta p r + x * (sq vT * c0 "phil3" [p; r]).
Proof. unfold Wl. rewrite coef_scaled. ring. Qed.
Lemma sq_real : (sq vT)^* = sq vT. Proof. unfold sq. now rewrite kconj_mul, RV. Qed.
Lemma Wq_cj p r x : kreal x -> (p < 3)%nat -> (r < 3)%nat -> (Wq vT (cx x) p r)^* = delta p r + x * (sq vT * c0 "phiq3" [r; p]).
Proof. intros R P Q. rewrite Wq_x, kconj_add, delta_conj, !kconj_mul, R, sq_real, (HQ p r P Q). ring. Qed.
Lemma Wl_cj p r x : kreal x -> (p < 3)%nat -> (r < 3)%nat -> (Wl vT (cx x) p r)^* = delta p r + x * (sq vT * c0 "phil3" [r; p]).
Proof. intros R P Q. rewrite Wl_x, kconj_add, delta_conj, !kconj_mul, R, sq_real, (HL p r P Q). ring. Qed.
Lemma WR_cj p r x : kreal x -> (WR vT (cx x) p r)^* = x * (sq vT / kZ 2 * (c0 "phiud" [p; r])^*).
Proof. intros R. unfold WR. rewrite coef_scaled, !kconj_mul, R, kconj_div, sq_real, kconj_Z by exact n2. ring. Qed.
(* products of two linear functions *)
Lemma u2_prod2 (k a0 a1 b0 b1 : K) : upto2 (fun x => k * (a0 + x * a1) * (b0 + x * b1)) (fun x => k * (a0 * b0 + x * (a1 * b0 + a0 * b1))).
Proof. exists (k * (a1 * b1)), 0. intros. ring. Qed.
Lemma charged_l_lin p r s t : (r < 3)%nat -> (s < 3)%nat -> upto2 (fun x => charged_l vT (cx x) p r s t)
  (fun x => - (kZ 2 / sq vT) * (delta p t * delta r s + x * (sq vT * c0 "phil3" [p; t] * delta r s + delta p t * (sq vT * c0 "phil3" [s; r])))).
Proof.
  intros R S. eapply u2_ext; [| |exact (u2_prod2 (- (kZ 2 / sq vT)) (delta p t) (sq vT * c0 "phil3" [p; t]) (delta r s) (sq vT * c0 "phil3" [s; r]))].
  - intros x X. unfold charged_l, gW2. rewrite Wl_x, (Wl_cj r s x X R S). ring.
  - reflexivity.
Qed.
Lemma charged_q_lin p r s t : (r < 3)%nat -> (s < 3)%nat -> upto2 (fun x => charged_q vT (cx x) p r s t)
  (fun x => kZ 2 * (cx x "qq3" [p; t; s; r] + cx x "qq3" [s; r; p; t]) +
     - (kZ 2 / sq vT) * (delta p t * delta r s + x * (sq vT * c0 "phiq3" [p; t] * delta r s + delta p t * (sq vT * c0 "phiq3" [s; r])))).
Proof.
  intros R S. eapply u2_ext; [| |exact (u2_add _ _ _ _ (u2_refl (fun x => kZ 2 * (cx x "qq3" [p; t; s; r] + cx x "qq3" [s; r; p; t])))
    (u2_prod2 (- (kZ 2 / sq vT)) (delta p t) (sq vT * c0 "phiq3" [p; t]) (delta r s) (sq vT * c0 "phiq3" [s; r])))].
  - intros x X. unfold charged_q, gW2. rewrite Wq_x, (Wq_cj r s x X R S). ring.
  - reflexivity.
Qed.
Notation spec_value := (spec_value sqrt2 mW mZ vT g1).
Ltac values := lazy -[kZ coef scaled delta kadd kmul ksub kopp kdiv kinv kconj k0 k1 car contact contact2 Zlin s0 s1 sq cw sw].
Ltac fin p r s t := 
  unfold contact, contact2, Zlin, z0, z1, s0, s1, T3, Qel, hcurrent, cw, sw, sq; rewrite ?coef_scaled;
  rewrite ?(delta_sym r p), ?(delta_sym s p), ?(delta_sym t p), ?(delta_sym s r), ?(delta_sym t r), ?(delta_sym t s);
  field; repeat split; first [assumption|apply kZ_neq0; lia].
Lemma linear_case (F G : K -> K) : (forall x, kreal x -> F x = G x) -> upto2 F G.
Proof. intros H. eapply u2_eq; [apply u2_refl|exact H]. Qed.
Ltac lin e := intros p r s t Lp Lr Ls Lt; apply linear_case; intros x X; unfold spec_value, e; values; fin p r s t.
Ltac neut f g e := intros p r s t Lp Lr Ls Lt;
  change (upto2 (fun x => neutral mW mZ vT g1 (cx x) f g [p; r; s; t]) (fun x => val x e [p; r; s; t]));
  eapply u2_eq; [apply neutral_lin|]; intros x X; cbn beta; unfold e; values; fin p r s t.
Ltac qq f e := intros p r s t Lp Lr Ls Lt;
  change (upto2 (fun x => quarks2 mW mZ vT g1 (cx x) f [p; r; s; t]) (fun x => val x e [p; r; s; t]));
  eapply u2_eq; [apply quarks2_lin|]; intros x X; cbn beta; unfold e; values; fin p r s t.
Ltac ll f e := intros p r s t Lp Lr Ls Lt;
  change (upto2 (fun x => leptons2 mW mZ vT g1 (cx x) f [p; r; s; t]) (fun x => val x e [p; r; s; t]));
  eapply u2_eq; [apply leptons2_lin|]; intros x X; cbn beta; unfold e; values; fin p r s t.
Definition first_order4 (k : string) (e : ex) : Prop := forall p r s t, (p < 3)%nat -> (r < 3)%nat -> (s < 3)%nat -> (t < 3)%nat ->
  upto2 (fun x => spec_value (cx x) k [p; r; s; t]) (fun x => val x e [p; r; s; t]).
Definition first_order2 (k : string) (e : ex) : Prop := forall p r, (p < 3)%nat -> (r < 3)%nat ->
  upto2 (fun x => spec_value (cx x) k [p; r]) (fun x => val x e [p; r]).
Definition first_order0 (k : string) (e : ex) : Prop := upto2 (fun x => spec_value (cx x) k []) (fun x => val x e []).
Lemma fo_G : first_order0 "G" t_G.
Proof.
  apply linear_case; intros x X; unfold spec_value, t_G; values; reflexivity.
Qed.
Lemma fo_Gtilde : first_order0 "Gtilde" t_Gtilde.
Proof.
  apply linear_case; intros x X; unfold spec_value, t_Gtilde; values; reflexivity.
Qed.
Lemma fo_egamma : first_order2 "egamma" t_egamma.
Proof.
  intros p r Lp Lr; apply linear_case; intros x X; unfold spec_value, t_egamma; values; fin p r p r.
Qed.
Lemma fo_dgamma : first_order2 "dgamma" t_dgamma.
Proof.
  intros p r Lp Lr; apply linear_case; intros x X; unfold spec_value, t_dgamma; values; fin p r p r.
Qed.
Lemma fo_ugamma : first_order2 "ugamma" t_ugamma.
Proof.
  intros p r Lp Lr; apply linear_case; intros x X; unfold spec_value, t_ugamma; values; fin p r p r.
Qed.
Lemma fo_dG : first_order2 "dG" t_dG.
Proof.
  intros p r Lp Lr; apply linear_case; intros x X; unfold spec_value, t_dG; values; fin p r p r.
Qed.
Lemma fo_uG : first_order2 "uG" t_uG.
Proof.
  intros p r Lp Lr; apply linear_case; intros x X; unfold spec_value, t_uG; values; fin p r p r.
Qed.
Lemma fo_VnueLL : first_order4 "VnueLL" t_VnueLL.
Proof.
  intros p r s t Lp Lr Ls Lt.
  change (upto2 (fun x => neutral mW mZ vT g1 (cx x) NU EL [p; r; s; t] + charged_l vT (cx x) p r s t) (fun x => val x t_VnueLL [p; r; s; t])).
  eapply u2_eq; [apply u2_add; [apply neutral_lin|now apply charged_l_lin]|]; intros x X; cbn beta; unfold t_VnueLL; values; fin p r s t.
Qed.
Lemma fo_VnuuLL : first_order4 "VnuuLL" t_VnuuLL.
Proof.
  neut NU UL t_VnuuLL.
Qed.
Lemma fo_VnudLL : first_order4 "VnudLL" t_VnudLL.
Proof.
  neut NU DL t_VnudLL.
Qed.
Lemma fo_VeuLL : first_order4 "VeuLL" t_VeuLL.
Proof.
  neut EL UL t_VeuLL.
Qed.
Lemma fo_VedLL : first_order4 "VedLL" t_VedLL.
Proof.
  neut EL DL t_VedLL.
Qed.
Lemma fo_V1udLL : first_order4 "V1udLL" t_V1udLL.
Proof.
  intros p r s t Lp Lr Ls Lt.
  eapply (u2_ext _ (fun x => neutral mW mZ vT g1 (cx x) UL DL [p; r; s; t] + kinv (kZ 3) * charged_q vT (cx x) p r s t) _ (fun x => val x t_V1udLL [p; r; s; t]));
    [intros x X; unfold spec_value; cbn -[kZ neutral charged_q]; field; exact n3|reflexivity|].
  eapply u2_eq; [apply u2_add; [apply neutral_lin|now apply u2_scale, charged_q_lin]|]; intros x X; cbn beta; unfold t_V1udLL; values; fin p r s t.
Qed.
Lemma fo_V8udLL : first_order4 "V8udLL" t_V8udLL.
Proof.
  intros p r s t Lp Lr Ls Lt.
  change (upto2 (fun x => kZ 2 * charged_q vT (cx x) p r s t) (fun x => val x t_V8udLL [p; r; s; t])).
  eapply u2_eq; [now apply u2_scale, charged_q_lin|]; intros x X; cbn beta; unfold t_V8udLL; values; fin p r s t.
Qed.
Lemma fo_VnueLR : first_order4 "VnueLR" t_VnueLR.
Proof.
  neut NU ER t_VnueLR.
Qed.
Lemma fo_VnuuLR : first_order4 "VnuuLR" t_VnuuLR.
Proof.
  neut NU UR t_VnuuLR.
Qed.
Lemma fo_VnudLR : first_order4 "VnudLR" t_VnudLR.
Proof.
  neut NU DR t_VnudLR.
Qed.
Lemma fo_VeeLR : first_order4 "VeeLR" t_VeeLR.
Proof.
  neut EL ER t_VeeLR.
Qed.
Lemma fo_VeuLR : first_order4 "VeuLR" t_VeuLR.
Proof.
  neut EL UR t_VeuLR.
Qed.
Lemma fo_VedLR : first_order4 "VedLR" t_VedLR.
Proof.
  neut EL DR t_VedLR.
Qed.
Lemma fo_VueLR : first_order4 "VueLR" t_VueLR.
Proof.
  neut UL ER t_VueLR.
Qed.
Lemma fo_VdeLR : first_order4 "VdeLR" t_VdeLR.
Proof.
  neut DL ER t_VdeLR.
Qed.
Lemma fo_V1uuLR : first_order4 "V1uuLR" t_V1uuLR.
Proof.
  neut UL UR t_V1uuLR.
Qed.
Lemma fo_V1udLR : first_order4 "V1udLR" t_V1udLR.
Proof.
  neut UL DR t_V1udLR.
Qed.
Lemma fo_V1duLR : first_order4 "V1duLR" t_V1duLR.
Proof.
  neut DL UR t_V1duLR.
Qed.
Lemma fo_V1ddLR : first_order4 "V1ddLR" t_V1ddLR.
Proof.
  neut DL DR t_V1ddLR.
Qed.
Lemma fo_V8uuLR : first_order4 "V8uuLR" t_V8uuLR.
Proof.
  lin t_V8uuLR.
Qed.
Lemma fo_V8udLR : first_order4 "V8udLR" t_V8udLR.
Proof.
  lin t_V8udLR.
Qed.
Lemma fo_V8duLR : first_order4 "V8duLR" t_V8duLR.
Proof.
  lin t_V8duLR.
Qed.
Lemma fo_V8ddLR : first_order4 "V8ddLR" t_V8ddLR.
Proof.
  lin t_V8ddLR.
Qed.
Lemma fo_VeuRR : first_order4 "VeuRR" t_VeuRR.
Proof.
  neut ER UR t_VeuRR.
Qed.
Lemma fo_VedRR : first_order4 "VedRR" t_VedRR.
Proof.
  neut ER DR t_VedRR.
Qed.
Lemma fo_V1udRR : first_order4 "V1udRR" t_V1udRR.
Proof.
  neut UR DR t_V1udRR.
Qed.
Lemma fo_V8udRR : first_order4 "V8udRR" t_V8udRR.
Proof.
  lin t_V8udRR.
Qed.
Lemma fo_VnunuLL : first_order4 "VnunuLL" t_VnunuLL.
Proof.
  ll NU t_VnunuLL.
Qed.
Lemma fo_VeeLL : first_order4 "VeeLL" t_VeeLL.
Proof.
  ll EL t_VeeLL.
Qed.
Lemma fo_VeeRR : first_order4 "VeeRR" t_VeeRR.
Proof.
  ll ER t_VeeRR.
Qed.
Lemma fo_VuuLL : first_order4 "VuuLL" t_VuuLL.
Proof.
  qq UL t_VuuLL.
Qed.
Lemma fo_VddLL : first_order4 "VddLL" t_VddLL.
Proof.
  qq DL t_VddLL.
Qed.
Lemma fo_VuuRR : first_order4 "VuuRR" t_VuuRR.
Proof.
  qq UR t_VuuRR.
Qed.
Lemma fo_VddRR : first_order4 "VddRR" t_VddRR.
Proof.
  qq DR t_VddRR.
Qed.
Lemma fo_VnueduLL : first_order4 "VnueduLL" t_VnueduLL.
Proof.
  intros p r s t Lp Lr Ls Lt.
  eapply (u2_ext _ (fun x => kZ 2 * cx x "lq3" [p; r; s; t] + - (kZ 2 / sq vT) * (delta p r + x * (sq vT * c0 "phil3" [p; r])) * (delta t s + x * (sq vT * c0 "phiq3" [s; t])))
     _ (fun x => val x t_VnueduLL [p; r; s; t]));
    [intros x X; unfold spec_value; cbn -[kZ Wl Wq gW2]; rewrite Wl_x, (Wq_cj t s x X Lt Ls); unfold gW2; ring|reflexivity|].
  eapply u2_eq; [apply u2_add; [apply u2_refl|apply u2_prod2]|]; intros x X; cbn beta; unfold t_VnueduLL; values; fin p r s t.
Qed.
Lemma fo_VnueduLR : first_order4 "VnueduLR" t_VnueduLR.
Proof.
  intros p r s t Lp Lr Ls Lt.
  eapply (u2_ext _ (fun x => - (kZ 2 / sq vT) * (delta p r + x * (sq vT * c0 "phil3" [p; r])) * (0 + x * (sq vT / kZ 2 * (c0 "phiud" [t; s])^*)))
     _ (fun x => val x t_VnueduLR [p; r; s; t]));
    [intros x X; unfold spec_value; cbn -[kZ Wl WR gW2]; rewrite Wl_x, (WR_cj t s x X); unfold gW2; ring|reflexivity|].
  eapply u2_eq; [apply u2_prod2|]; intros x X; cbn beta; unfold t_VnueduLR; values.
  rewrite coef_scaled, kconj_mul, X. fin p r s t.
Qed.
Lemma fo_V1udduLR : first_order4 "V1udduLR" t_V1udduLR.
Proof.
  intros p r s t Lp Lr Ls Lt.
  eapply (u2_ext _ (fun x => - (kZ 2 / sq vT) * (delta p r + x * (sq vT * c0 "phiq3" [p; r])) * (0 + x * (sq vT / kZ 2 * (c0 "phiud" [t; s])^*)))
     _ (fun x => val x t_V1udduLR [p; r; s; t]));
    [intros x X; unfold spec_value; cbn -[kZ Wq WR gW2]; rewrite Wq_x, (WR_cj t s x X); unfold gW2; ring|reflexivity|].
  eapply u2_eq; [apply u2_prod2|]; intros x X; cbn beta; unfold t_V1udduLR; values.
  rewrite coef_scaled, kconj_mul, X. fin p r s t.
Qed.
Lemma fo_V8udduLR : first_order4 "V8udduLR" t_V8udduLR.
Proof.
  lin t_V8udduLR.
Qed.
Lemma fo_S1udRR : first_order4 "S1udRR" t_S1udRR.
Proof.
  lin t_S1udRR.
Qed.
Lemma fo_S1udduRR : first_order4 "S1udduRR" t_S1udduRR.
Proof.
  lin t_S1udduRR.
Qed.
Lemma fo_S8udRR : first_order4 "S8udRR" t_S8udRR.
Proof.
  lin t_S8udRR.
Qed.
Lemma fo_S8udduRR : first_order4 "S8udduRR" t_S8udduRR.
Proof.
  lin t_S8udduRR.
Qed.
Lemma fo_SnueduRR : first_order4 "SnueduRR" t_SnueduRR.
Proof.
  lin t_SnueduRR.
Qed.
Lemma fo_SeuRR : first_order4 "SeuRR" t_SeuRR.
Proof.
  lin t_SeuRR.
Qed.
Lemma fo_TnueduRR : first_order4 "TnueduRR" t_TnueduRR.
Proof.
  lin t_TnueduRR.
Qed.
Lemma fo_TeuRR : first_order4 "TeuRR" t_TeuRR.
Proof.
  lin t_TeuRR.
Qed.
Lemma fo_SnueduRL : first_order4 "SnueduRL" t_SnueduRL.
Proof.
  lin t_SnueduRL.
Qed.
Lemma fo_SedRL : first_order4 "SedRL" t_SedRL.
Proof.
  lin t_SedRL.
Qed.
Lemma fo_S1uuRR : first_order4 "S1uuRR" t_S1uuRR.
Proof.
  lin t_S1uuRR.
Qed.
Lemma fo_S8uuRR : first_order4 "S8uuRR" t_S8uuRR.
Proof.
  lin t_S8uuRR.
Qed.
Lemma fo_S1ddRR : first_order4 "S1ddRR" t_S1ddRR.
Proof.
  lin t_S1ddRR.
Qed.
Lemma fo_S8ddRR : first_order4 "S8ddRR" t_S8ddRR.
Proof.
  lin t_S8ddRR.
Qed.
Lemma fo_SedRR : first_order4 "SedRR" t_SedRR.
Proof.
  lin t_SedRR.
Qed.
Lemma fo_SeeRR : first_order4 "SeeRR" t_SeeRR.
Proof.
  lin t_SeeRR.
Qed.
Lemma fo_TedRR : first_order4 "TedRR" t_TedRR.
Proof.
  lin t_TedRR.
Qed.
Lemma fo_SeuRL : first_order4 "SeuRL" t_SeuRL.
Proof.
  lin t_SeuRL.
Qed.
Lemma fo_SuudLR : first_order4 "SuudLR" t_SuudLR.
Proof.
  lin t_SuudLR.
Qed.
Lemma fo_SuudRL : first_order4 "SuudRL" t_SuudRL.
Proof.
  lin t_SuudRL.
Qed.
Lemma fo_SdduRL : first_order4 "SdduRL" t_SdduRL.
Proof.
  lin t_SdduRL.
Qed.
Lemma fo_SduuRL : first_order4 "SduuRL" t_SduuRL.
Proof.
  lin t_SduuRL.
Qed.
Lemma fo_SdudRL : first_order4 "SdudRL" t_SdudRL.
Proof.
  lin t_SdudRL.
Qed.
Lemma fo_SduuRR : first_order4 "SduuRR" t_SduuRR.
Proof.
  lin t_SduuRR.
Qed.

Definition first_order (k : string) (n : nat) (e : ex) : Prop := forall I, In I (idxs n) ->
  upto2 (fun x => spec_value (cx x) k I) (fun x => val x e I).
Lemma lift4 k e : first_order4 k e -> first_order k 4 e.
Proof.
  intros H I HI. apply in_idxs in HI as [HLn HB]. destruct I as [|p [|r [|s [|t [|]]]]]; try discriminate HLn.
  apply H; apply HB; cbn; auto 6.
Qed.
Lemma lift2 k e : first_order2 k e -> first_order k 2 e.
Proof. intros H I HI. destruct (in_idxs_2 I HI) as (p & r & -> & A & B). now apply H. Qed.
Lemma lift0 k e : first_order0 k e -> first_order k 0 e.
Proof. intros H I [<-|[]]. exact H. Qed.
(* every entry of the specification is computed by the program *)
Definition entry_ok (kn : string * nat) : Prop :=
  exists e, dget tree_prog (fst kn) = Some e /\ rank_ex ck lk nzv e = Some (snd kn) /\ first_order (fst kn) (snd kn) e.
Lemma entries_ok : Forall entry_ok [("G", 0%nat); ("Gtilde", 0%nat); ("egamma", 2%nat); ("dgamma", 2%nat); ("ugamma", 2%nat); ("dG", 2%nat); ("uG", 2%nat); ("VnueLL", 4%nat); ("VnuuLL", 4%nat); ("VnudLL", 4%nat); ("VeuLL", 4%nat); ("VedLL", 4%nat); ("V1udLL", 4%nat); ("V8udLL", 4%nat); ("VnueLR", 4%nat); ("VnuuLR", 4%nat); ("VnudLR", 4%nat); ("VeeLR", 4%nat); ("VeuLR", 4%nat); ("VedLR", 4%nat); ("VueLR", 4%nat); ("VdeLR", 4%nat); ("V1uuLR", 4%nat); ("V1udLR", 4%nat); ("V1duLR", 4%nat); ("V1ddLR", 4%nat); ("V8uuLR", 4%nat); ("V8udLR", 4%nat); ("V8duLR", 4%nat); ("V8ddLR", 4%nat); ("VeuRR", 4%nat); ("VedRR", 4%nat); ("V1udRR", 4%nat); ("V8udRR", 4%nat); ("VnunuLL", 4%nat); ("VeeLL", 4%nat); ("VeeRR", 4%nat); ("VuuLL", 4%nat); ("VddLL", 4%nat); ("VuuRR", 4%nat); ("VddRR", 4%nat); ("VnueduLL", 4%nat); ("VnueduLR", 4%nat); ("V1udduLR", 4%nat); ("V8udduLR", 4%nat); ("S1udRR", 4%nat); ("S1udduRR", 4%nat); ("S8udRR", 4%nat); ("S8udduRR", 4%nat); ("SnueduRR", 4%nat); ("SeuRR", 4%nat); ("TnueduRR", 4%nat); ("TeuRR", 4%nat); ("SnueduRL", 4%nat); ("SedRL", 4%nat); ("S1uuRR", 4%nat); ("S8uuRR", 4%nat); ("S1ddRR", 4%nat); ("S8ddRR", 4%nat); ("SedRR", 4%nat); ("SeeRR", 4%nat); ("TedRR", 4%nat); ("SeuRL", 4%nat); ("SuudLR", 4%nat); ("SuudRL", 4%nat); ("SdduRL", 4%nat); ("SduuRL", 4%nat); ("SdudRL", 4%nat); ("SduuRR", 4%nat)].
Proof.
  repeat constructor.
  - exists t_G. split; [reflexivity|]. split; [vm_compute; reflexivity|]. exact (lift0 _ _ fo_G).
  - exists t_Gtilde. split; [reflexivity|]. split; [vm_compute; reflexivity|]. exact (lift0 _ _ fo_Gtilde).
  - exists t_egamma. split; [reflexivity|]. split; [vm_compute; reflexivity|]. exact (lift2 _ _ fo_egamma).
  - exists t_dgamma. split; [reflexivity|]. split; [vm_compute; reflexivity|]. exact (lift2 _ _ fo_dgamma).
  - exists t_ugamma. split; [reflexivity|]. split; [vm_compute; reflexivity|]. exact (lift2 _ _ fo_ugamma).
  - exists t_dG. split; [reflexivity|]. split; [vm_compute; reflexivity|]. exact (lift2 _ _ fo_dG).
  - exists t_uG. split; [reflexivity|]. split; [vm_compute; reflexivity|]. exact (lift2 _ _ fo_uG).
  - exists t_VnueLL. split; [reflexivity|]. split; [vm_compute; reflexivity|]. exact (lift4 _ _ fo_VnueLL).
  - exists t_VnuuLL. split; [reflexivity|]. split; [vm_compute; reflexivity|]. exact (lift4 _ _ fo_VnuuLL).
  - exists t_VnudLL. split; [reflexivity|]. split; [vm_compute; reflexivity|]. exact (lift4 _ _ fo_VnudLL).
  - exists t_VeuLL. split; [reflexivity|]. split; [vm_compute; reflexivity|]. exact (lift4 _ _ fo_VeuLL).
  - exists t_VedLL. split; [reflexivity|]. split; [vm_compute; reflexivity|]. exact (lift4 _ _ fo_VedLL).
  - exists t_V1udLL. split; [reflexivity|]. split; [vm_compute; reflexivity|]. exact (lift4 _ _ fo_V1udLL).
  - exists t_V8udLL. split; [reflexivity|]. split; [vm_compute; reflexivity|]. exact (lift4 _ _ fo_V8udLL).
  - exists t_VnueLR. split; [reflexivity|]. split; [vm_compute; reflexivity|]. exact (lift4 _ _ fo_VnueLR).
  - exists t_VnuuLR. split; [reflexivity|]. split; [vm_compute; reflexivity|]. exact (lift4 _ _ fo_VnuuLR).
  - exists t_VnudLR. split; [reflexivity|]. split; [vm_compute; reflexivity|]. exact (lift4 _ _ fo_VnudLR).
  - exists t_VeeLR. split; [reflexivity|]. split; [vm_compute; reflexivity|]. exact (lift4 _ _ fo_VeeLR).
  - exists t_VeuLR. split; [reflexivity|]. split; [vm_compute; reflexivity|]. exact (lift4 _ _ fo_VeuLR).
  - exists t_VedLR. split; [reflexivity|]. split; [vm_compute; reflexivity|]. exact (lift4 _ _ fo_VedLR).
  - exists t_VueLR. split; [reflexivity|]. split; [vm_compute; reflexivity|]. exact (lift4 _ _ fo_VueLR).
  - exists t_VdeLR. split; [reflexivity|]. split; [vm_compute; reflexivity|]. exact (lift4 _ _ fo_VdeLR).
  - exists t_V1uuLR. split; [reflexivity|]. split; [vm_compute; reflexivity|]. exact (lift4 _ _ fo_V1uuLR).
  - exists t_V1udLR. split; [reflexivity|]. split; [vm_compute; reflexivity|]. exact (lift4 _ _ fo_V1udLR).
  - exists t_V1duLR. split; [reflexivity|]. split; [vm_compute; reflexivity|]. exact (lift4 _ _ fo_V1duLR).
  - exists t_V1ddLR. split; [reflexivity|]. split; [vm_compute; reflexivity|]. exact (lift4 _ _ fo_V1ddLR).
  - exists t_V8uuLR. split; [reflexivity|]. split; [vm_compute; reflexivity|]. exact (lift4 _ _ fo_V8uuLR).
  - exists t_V8udLR. split; [reflexivity|]. split; [vm_compute; reflexivity|]. exact (lift4 _ _ fo_V8udLR).
  - exists t_V8duLR. split; [reflexivity|]. split; [vm_compute; reflexivity|]. exact (lift4 _ _ fo_V8duLR).
  - exists t_V8ddLR. split; [reflexivity|]. split; [vm_compute; reflexivity|]. exact (lift4 _ _ fo_V8ddLR).
  - exists t_VeuRR. split; [reflexivity|]. split; [vm_compute; reflexivity|]. exact (lift4 _ _ fo_VeuRR).
  - exists t_VedRR. split; [reflexivity|]. split; [vm_compute; reflexivity|]. exact (lift4 _ _ fo_VedRR).
  - exists t_V1udRR. split; [reflexivity|]. split; [vm_compute; reflexivity|]. exact (lift4 _ _ fo_V1udRR).
  - exists t_V8udRR. split; [reflexivity|]. split; [vm_compute; reflexivity|]. exact (lift4 _ _ fo_V8udRR).
  - exists t_VnunuLL. split; [reflexivity|]. split; [vm_compute; reflexivity|]. exact (lift4 _ _ fo_VnunuLL).
  - exists t_VeeLL. split; [reflexivity|]. split; [vm_compute; reflexivity|]. exact (lift4 _ _ fo_VeeLL).
  - exists t_VeeRR. split; [reflexivity|]. split; [vm_compute; reflexivity|]. exact (lift4 _ _ fo_VeeRR).
  - exists t_VuuLL. split; [reflexivity|]. split; [vm_compute; reflexivity|]. exact (lift4 _ _ fo_VuuLL).
  - exists t_VddLL. split; [reflexivity|]. split; [vm_compute; reflexivity|]. exact (lift4 _ _ fo_VddLL).
  - exists t_VuuRR. split; [reflexivity|]. split; [vm_compute; reflexivity|]. exact (lift4 _ _ fo_VuuRR).
  - exists t_VddRR. split; [reflexivity|]. split; [vm_compute; reflexivity|]. exact (lift4 _ _ fo_VddRR).
  - exists t_VnueduLL. split; [reflexivity|]. split; [vm_compute; reflexivity|]. exact (lift4 _ _ fo_VnueduLL).
  - exists t_VnueduLR. split; [reflexivity|]. split; [vm_compute; reflexivity|]. exact (lift4 _ _ fo_VnueduLR).
  - exists t_V1udduLR. split; [reflexivity|]. split; [vm_compute; reflexivity|]. exact (lift4 _ _ fo_V1udduLR).
  - exists t_V8udduLR. split; [reflexivity|]. split; [vm_compute; reflexivity|]. exact (lift4 _ _ fo_V8udduLR).
  - exists t_S1udRR. split; [reflexivity|]. split; [vm_compute; reflexivity|]. exact (lift4 _ _ fo_S1udRR).
  - exists t_S1udduRR. split; [reflexivity|]. split; [vm_compute; reflexivity|]. exact (lift4 _ _ fo_S1udduRR).
  - exists t_S8udRR. split; [reflexivity|]. split; [vm_compute; reflexivity|]. exact (lift4 _ _ fo_S8udRR).
  - exists t_S8udduRR. split; [reflexivity|]. split; [vm_compute; reflexivity|]. exact (lift4 _ _ fo_S8udduRR).
  - exists t_SnueduRR. split; [reflexivity|]. split; [vm_compute; reflexivity|]. exact (lift4 _ _ fo_SnueduRR).
  - exists t_SeuRR. split; [reflexivity|]. split; [vm_compute; reflexivity|]. exact (lift4 _ _ fo_SeuRR).
  - exists t_TnueduRR. split; [reflexivity|]. split; [vm_compute; reflexivity|]. exact (lift4 _ _ fo_TnueduRR).
  - exists t_TeuRR. split; [reflexivity|]. split; [vm_compute; reflexivity|]. exact (lift4 _ _ fo_TeuRR).
  - exists t_SnueduRL. split; [reflexivity|]. split; [vm_compute; reflexivity|]. exact (lift4 _ _ fo_SnueduRL).
  - exists t_SedRL. split; [reflexivity|]. split; [vm_compute; reflexivity|]. exact (lift4 _ _ fo_SedRL).
  - exists t_S1uuRR. split; [reflexivity|]. split; [vm_compute; reflexivity|]. exact (lift4 _ _ fo_S1uuRR).
  - exists t_S8uuRR. split; [reflexivity|]. split; [vm_compute; reflexivity|]. exact (lift4 _ _ fo_S8uuRR).
  - exists t_S1ddRR. split; [reflexivity|]. split; [vm_compute; reflexivity|]. exact (lift4 _ _ fo_S1ddRR).
  - exists t_S8ddRR. split; [reflexivity|]. split; [vm_compute; reflexivity|]. exact (lift4 _ _ fo_S8ddRR).
  - exists t_SedRR. split; [reflexivity|]. split; [vm_compute; reflexivity|]. exact (lift4 _ _ fo_SedRR).
  - exists t_SeeRR. split; [reflexivity|]. split; [vm_compute; reflexivity|]. exact (lift4 _ _ fo_SeeRR).
  - exists t_TedRR. split; [reflexivity|]. split; [vm_compute; reflexivity|]. exact (lift4 _ _ fo_TedRR).
  - exists t_SeuRL. split; [reflexivity|]. split; [vm_compute; reflexivity|]. exact (lift4 _ _ fo_SeuRL).
  - exists t_SuudLR. split; [reflexivity|]. split; [vm_compute; reflexivity|]. exact (lift4 _ _ fo_SuudLR).
  - exists t_SuudRL. split; [reflexivity|]. split; [vm_compute; reflexivity|]. exact (lift4 _ _ fo_SuudRL).
  - exists t_SdduRL. split; [reflexivity|]. split; [vm_compute; reflexivity|]. exact (lift4 _ _ fo_SdduRL).
  - exists t_SduuRL. split; [reflexivity|]. split; [vm_compute; reflexivity|]. exact (lift4 _ _ fo_SduuRL).
  - exists t_SdudRL. split; [reflexivity|]. split; [vm_compute; reflexivity|]. exact (lift4 _ _ fo_SdudRL).
  - exists t_SduuRR. split; [reflexivity|]. split; [vm_compute; reflexivity|]. exact (lift4 _ _ fo_SduuRR).
Qed.
Lemma spec_first_order k n f : dget (tree_spec sqrt2 mW mZ vT g1 c0) k = Some (n, f) -> entry_ok (k, n).
Proof.
  intros H. apply dget_In in H. pose proof entries_ok as E. rewrite Forall_forall in E. apply E.
  change (In (k, n) (map (fun kv => (fst kv, fst (snd kv))) (tree_spec sqrt2 mW mZ vT g1 c0))).
  exact (in_map (fun kv => (fst kv, fst (snd kv))) _ _ H).
Qed.
End Env.

(* ---------- baryon number violation ---------- *)
Ltac sums := unfold sum4; cbn [all_indices flat_map map app seq ksum fold_right]; unfold ksum; cbn [fold_right].
Lemma sum4_1023 (f : nat -> nat -> nat -> nat -> K) : sum4 (fun p r s t => f r p s t) = sum4 f.
Proof. sums. ring. Qed.
Lemma sum4_2013 (f : nat -> nat -> nat -> nat -> K) : sum4 (fun p r s t => f s p r t) = sum4 f.
Proof. sums. ring. Qed.
Lemma sum4_2103 (f : nat -> nat -> nat -> nat -> K) : sum4 (fun p r s t => f s r p t) = sum4 f.
Proof. sums. ring. Qed.
Lemma sum4_ext (f g : nat -> nat -> nat -> nat -> K) :
  (forall p r s t, (p < 3)%nat -> (r < 3)%nat -> (s < 3)%nat -> (t < 3)%nat -> f p r s t = g p r s t) -> sum4 f = sum4 g.
Proof.
  intros H. unfold sum4. apply ksum_ext. intros I HI. change (In I (idxs 4)) in HI. apply in_idxs in HI as [HLn HB].
  destruct I as [|p [|r [|s [|t [|]]]]]; try discriminate HLn. apply H; apply HB; cbn; auto 6.
Qed.
Lemma sum4_add (f g : nat -> nat -> nat -> nat -> K) : sum4 (fun p r s t => f p r s t + g p r s t) = sum4 f + sum4 g.
Proof.
  unfold sum4. rewrite <- ksum_add. apply ksum_ext. intros I _. destruct I as [|p [|r [|s [|t [|]]]]]; ring.
Qed.
Lemma qqql_ok (c : string -> idx -> K) (u d nu e : nat -> spinor) :
  let w p r s t := c "qqql" [r; p; s; t] - c "qqql" [r; s; p; t] + c "qqql" [s; r; p; t] in
  lagr_qqql c u d nu e = sum4 (fun p r s t => w p r s t * (dot (d p) (u r) * dot (u s) (e t)))
                         + sum4 (fun p r s t => w p r s t * (dot (u p) (d r) * dot (d s) (nu t))).
Proof.
  intros w. set (q p r s t := c "qqql" [p; r; s; t]). rewrite <- sum4_add.
  set (D p r s t := dot (d p) (u r) * dot (u s) (e t) + dot (u p) (d r) * dot (d s) (nu t)).
  transitivity (sum4 (fun p r s t => q r p s t * D p r s t) + (sum4 (fun p r s t => - (q r s p t * D p r s t)) + sum4 (fun p r s t => q s r p t * D p r s t))).
  - rewrite <- (sum4_1023 (fun p r s t => q r p s t * D p r s t)), <- (sum4_2013 (fun p r s t => - (q r s p t * D p r s t))),
      <- (sum4_2103 (fun p r s t => q s r p t * D p r s t)), <- !sum4_add.
    unfold lagr_qqql. apply sum4_ext. intros p r s t _ _ _ _.
    cbn [all_indices flat_map map app seq Nat.eqb]. unfold ksum. cbn [fold_right]. unfold D, q, dot. ring.
  - rewrite <- !sum4_add. apply sum4_ext. intros p r s t _ _ _ _. unfold w, D, q. ring.
Qed.
Lemma qque_ok (c : string -> idx -> K) (u d uR eR : nat -> spinor) :
  lagr_qque c u d uR eR = sum4 (fun p r s t => (- c "qque" [p; r; s; t] - c "qque" [r; p; s; t]) * (dot (d p) (u r) * dot (uR s) (eR t))).
Proof.
  set (q p r s t := c "qque" [p; r; s; t]). set (D p r s t := dot (d p) (u r) * dot (uR s) (eR t)).
  transitivity (sum4 (fun p r s t => - (q p r s t * D p r s t)) + sum4 (fun p r s t => - (q r p s t * D p r s t))).
  - rewrite <- (sum4_1023 (fun p r s t => - (q r p s t * D p r s t))), <- sum4_add.
    unfold lagr_qque. apply sum4_ext. intros p r s t _ _ _ _.
    cbn [all_indices flat_map map app seq Nat.eqb]. unfold ksum. cbn [fold_right]. unfold D, q, dot. ring.
  - rewrite <- sum4_add. apply sum4_ext. intros p r s t _ _ _ _. unfold D, q. ring.
Qed.
End Value.
