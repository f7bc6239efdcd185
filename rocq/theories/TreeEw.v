(* The electroweak input parameters of the tree-level matching. *)
From Coq Require Import List Bool ZArith Reals Arith Lia Lra Psatz String Ascii Field.
From Verif Require Import PyBase Num Lin SymModel EftModel NpModel NpProofs RealC BetaSpec RotModel JmsModel BetaModel SmparModel WetModel TreeProg TreeModel TreeElem TreeSpec TreeProofs.
Import ListNotations.
Local Open Scope string_scope.
Local Open Scope list_scope.
Local Open Scope R_scope.
Notation cdictR := (dict string (cval CR)).

(* ---------- specification: 1709.04486, sections 2 and 6 ---------- *)
(* the Fermi constant without the contributions of dimension-6 operators to muon decay *)
Definition GF_sm (GF : R) (C : cdictR) : R :=
  GF - sqrt 2 / 4 * (2 * fst (coef C "phil3" [1; 1]%nat) + 2 * fst (coef C "phil3" [0; 0]%nat) - fst (coef C "ll" [1; 0; 0; 1]%nat) - fst (coef C "ll" [0; 1; 1; 0]%nat)).
(* the vacuum expectation value: GF_sm = 1 / (sqrt(2) vT^2) *)
Definition vev (GF : R) (C : cdictR) : R := sqrt (1 / (sqrt 2 * GF_sm GF C)).
Definition g2_of (mW v : R) : R := 2 * mW / v.
Definition e_of (alpha : R) : R := sqrt (4 * PI * alpha).
(* the photon couples with e = g1 g2 / sqrt(g1^2 + g2^2) (1 - eps g1 g2 / (g1^2 + g2^2)), where eps = v^2 C_phiWB *)
Definition charge (g1 g2 eps : R) : R := g1 * g2 / sqrt (g1 ^ 2 + g2 ^ 2) * (1 - eps * (g1 * g2) / (g1 ^ 2 + g2 ^ 2)).
Definition mZ2_of (v g1 g2 phiD eps : R) : R := v ^ 2 / 4 * (1 + v ^ 2 / 2 * phiD) * (g1 ^ 2 + g2 ^ 2) + v ^ 2 / 2 * eps * g1 * g2.
(* g1 as computed by the code *)
Definition g1_of (e g2 eps : R) : R := e * g2 / sqrt (g2 ^ 2 - e ^ 2) + e ^ 2 * g2 / (g2 ^ 2 - e ^ 2) * eps.
(* parameters and coefficients for which masses and couplings are real and positive *)
Record physical (C : cdictR) (mW GF alpha : R) : Prop := {
  ph_W : 0 < mW;
  ph_F : 0 < GF_sm GF C;
  ph_a : 0 <= alpha;
  ph_e : (e_of alpha) ^ 2 < (g2_of mW (vev GF C)) ^ 2;
  ph_Z : 0 < mZ2_of (vev GF C) (g1_of (e_of alpha) (g2_of mW (vev GF C)) (fst (coef C "phiWB" []) * vev GF C ^ 2)) (g2_of mW (vev GF C))
               (fst (coef C "phiD" [])) (fst (coef C "phiWB" []) * vev GF C ^ 2) }.
Definition inputs (p : params) (mW GF alpha : R) : Prop :=
  dget p "m_W" = Some mW /\ dget p "GF" = Some GF /\ dget p "alpha_e" = Some alpha.

(* ---------- proofs ---------- *)
Lemma sqrt2_pos : 0 < sqrt 2. Proof. apply sqrt_lt_R0. lra. Qed.
Lemma real_snd (z : CR) : kreal z -> z = rc (fst z).
Proof. destruct z as [a b]. unfold kreal. cbn. unfold cx_conj. cbn. intros [= H]. unfold rc. f_equal. lra. Qed.
Lemma cabs_pos x : 0 < x -> cabs (rc x) = x.
Proof. intros H. unfold cabs, cx_n2, rc. cbn [fst snd]. replace (x * x + 0 * 0) with (x * x) by ring. apply sqrt_square. lra. Qed.
Lemma vev_pos GF C : 0 < GF_sm GF C -> 0 < vev GF C.
Proof. intros H. unfold vev. apply sqrt_lt_R0. apply Rdiv_lt_0_compat; [lra|]. apply Rmult_lt_0_compat; [exact sqrt2_pos|exact H]. Qed.
Lemma vev_sq GF C : 0 < GF_sm GF C -> vev GF C ^ 2 = 1 / (sqrt 2 * GF_sm GF C).
Proof.
  intros H. unfold vev. rewrite pow2_sqrt; [reflexivity|]. left. apply Rdiv_lt_0_compat; [lra|]. apply Rmult_lt_0_compat; [exact sqrt2_pos|exact H].
Qed.
Section Ew.
Variables (C : cdictR) (p : params) (mW GF alpha : R).
Hypotheses (W : wc_point C) (S : wc_symmetric C) (P : inputs p mW GF alpha) (PH : physical C mW GF alpha).
Notation v := (vev GF C).
Notation g2 := (g2_of mW v).
Notation e := (e_of alpha).
Notation eps := (fst (coef C "phiWB" []) * v ^ 2).
Notation g1 := (g1_of e g2 eps).
Notation mZ := (sqrt (mZ2_of v g1 g2 (fst (coef C "phiD" [])) eps)).

Lemma coef_real k ts I : dget wc_fields k = Some ts -> In I (indices_of k) ->
  (exists gs g, dget symmetries k = Some gs /\ In g gs /\ snd g = true /\ permute (fst g) I = I) -> kreal (coef C k I).
Proof.
  intros D HI (gs & g & G & IG & T & PI). unfold kreal.
  assert (M : kmem k (map fst wc_fields) = true) by (apply kmem_In; apply (dget_Some_key _ _ _ D)).
  pose proof (S k gs g G M IG I HI) as E. rewrite T, PI in E. cbn [cj] in E. now symmetry.
Qed.
Lemma phiWB_r : coef C "phiWB" [] = rc (fst (coef C "phiWB" [])).
Proof. apply real_snd. apply (coef_real "phiWB" []); [reflexivity|now left|]. exists real0, ([], true). repeat split. now left. Qed.
Lemma phiD_r : coef C "phiD" [] = rc (fst (coef C "phiD" [])).
Proof. apply real_snd. apply (coef_real "phiD" []); [reflexivity|now left|]. exists real0, ([], true). repeat split. now left. Qed.
Lemma phil3_r i : (i < 3)%nat -> coef C "phil3" [i; i] = rc (fst (coef C "phil3" [i; i])).
Proof.
  intros L. apply real_snd. eapply (coef_real "phil3"); [reflexivity| |].
  - destruct i as [|[|[|]]]; [vm_compute; tauto..|lia].
  - exists herm2, ([1; 0]%nat, true). repeat split. now left.
Qed.
Lemma ll_r : coef C "ll" [1; 0; 0; 1]%nat = rc (fst (coef C "ll" [1; 0; 0; 1]%nat)) /\ coef C "ll" [0; 1; 1; 0]%nat = coef C "ll" [1; 0; 0; 1]%nat.
Proof.
  assert (I1 : In [1; 0; 0; 1]%nat (indices_of "ll")) by (apply kmem_In; vm_compute; reflexivity).
  pose proof (S "ll" exch4 ([2; 3; 0; 1]%nat, false) eq_refl eq_refl (or_introl eq_refl) _ I1) as A. cbn in A.
  pose proof (S "ll" exch4 ([1; 0; 3; 2]%nat, true) eq_refl eq_refl (or_intror (or_introl eq_refl)) _ I1) as B. cbn in B.
  split; [|now symmetry]. apply real_snd. unfold kreal. rewrite A at 1. now symmetry.
Qed.
Lemma GFx_r : (rc GF - rc (sqrt 2 / 4) * (- coef C "ll" [1; 0; 0; 1]%nat - coef C "ll" [0; 1; 1; 0]%nat + kZ 2 * coef C "phil3" [1; 1]%nat + kZ 2 * coef C "phil3" [0; 0]%nat))%K
  = rc (GF_sm GF C).
Proof.
  destruct ll_r as [A B]. unfold GF_sm. rewrite B, A, (phil3_r 1), (phil3_r 0) by lia.
  unfold kZ, kpos. cbn. unfold rc, cx_sub, cx_mul, cx_add, cx_opp. cbn [fst snd]. f_equal; ring.
Qed.
Theorem ew_ok : ew_inputs C p = Ok {| e_mW := mW; e_mZ := mZ; e_vT := v; e_g1 := rc g1 |} /\ 0 < mZ /\ 0 < v.
Proof.
  destruct P as (P1 & P2 & P3). destruct PH as [H1 H2 H3 H4 H5].
  pose proof (vev_pos GF C H2) as VP. pose proof (vev_sq GF C H2) as VS. pose proof sqrt2_pos as SP.
  split; [|split; [apply sqrt_lt_R0; exact H5|exact VP]].
  unfold ew_inputs, getp. rewrite P1, P2. cbn [bind].
  destruct (W "ll" _ eq_refl) as (vl & Dl & Sl & _). destruct (W "phil3" _ eq_refl) as (vh & Dh & Sh & _).
  destruct (W "phiWB" _ eq_refl) as (vb & Db & _ & Zb). destruct (Zb eq_refl) as (zb & ->). clear Zb.
  destruct (W "phiD" _ eq_refl) as (vd & Dd & _ & Zd). destruct (Zd eq_refl) as (zd & ->). clear Zd.
  change (vshape vl = [3; 3; 3; 3]%nat) in Sl. change (vshape vh = [3; 3]%nat) in Sh. destruct vl as [|sl al]; [discriminate Sl|]. destruct vh as [|sh ah]; [discriminate Sh|]. cbn [vshape] in Sl, Sh. subst sl sh.
  unfold getk, getn, getk, lookup. rewrite Dl, Dh, Db, Dd. cbn [bind item num List.length Nat.eqb in_shape andb Nat.ltb Nat.leb].
  replace (al [1; 0; 0; 1]%nat) with (coef C "ll" [1; 0; 0; 1]%nat) by (unfold coef; now rewrite Dl).
  replace (al [0; 1; 1; 0]%nat) with (coef C "ll" [0; 1; 1; 0]%nat) by (unfold coef; now rewrite Dl).
  replace (ah [1; 1]%nat) with (coef C "phil3" [1; 1]%nat) by (unfold coef; now rewrite Dh).
  replace (ah [0; 0]%nat) with (coef C "phil3" [0; 0]%nat) by (unfold coef; now rewrite Dh).
  replace zb with (coef C "phiWB" []) by (unfold coef; now rewrite Db). replace zd with (coef C "phiD" []) by (unfold coef; now rewrite Dd).
  rewrite GFx_r, (cabs_pos _ H2). unfold fdiv at 1. destruct (Req_EM_T (GF_sm GF C) 0) as [X|_]; [lra|]. cbn [bind].
  replace (1 / sqrt 2 / GF_sm GF C) with (1 / (sqrt 2 * GF_sm GF C)) by (field; lra). fold (vev GF C).
  unfold fdiv at 1. destruct (Req_EM_T v 0) as [X|_]; [lra|]. cbn [bind]. rewrite P3. cbn [bind]. unfold fsqrt at 1.
  assert (A0 : 0 <= 4 * PI * alpha). { pose proof PI_RGT_0. apply Rmult_le_pos; lra. }
  destruct (Rlt_dec (4 * PI * alpha) 0) as [X|_]; [lra|]. cbn [bind]. fold (e_of alpha). fold (g2_of mW v).
  unfold fsqrt at 1. destruct (Rlt_dec (g2 ^ 2 - e ^ 2) 0) as [X|_]; [lra|]. cbn [bind]. unfold fdiv at 1.
  assert (Q : 0 < sqrt (g2 ^ 2 - e ^ 2)) by (apply sqrt_lt_R0; lra).
  destruct (Req_EM_T (sqrt (g2 ^ 2 - e ^ 2)) 0) as [X|_]; [lra|]. cbn [bind]. unfold fdiv at 1.
  destruct (Req_EM_T (g2 ^ 2 - e ^ 2) 0) as [X|_]; [lra|]. cbn [bind]. 
  rewrite phiWB_r, phiD_r. set (x := fst (coef C "phiWB" [])) in *. set (y := fst (coef C "phiD" [])) in *.
  set (G := (rc (e * g2 / sqrt (g2 ^ 2 - e ^ 2)) + rc (e ^ 2 * g2 / (g2 ^ 2 - e ^ 2)) * (rc x * rc (v ^ 2)))%K).
  assert (EG : G = rc g1) by (unfold G, g1_of; rewrite <- !rc_mul, <- rc_add; reflexivity).
  rewrite EG. 
  assert (EM : (rc (v ^ 2 / 4) * (1 + rc (v ^ 2 / 2) * rc y) * (rc (g2 ^ 2) + rc g1 * rc g1) + rc (v ^ 2 / 2) * (rc x * rc (v ^ 2)) * rc g1 * rc g2)%K
     = rc (mZ2_of v g1 g2 y (x * v ^ 2))).
  { unfold mZ2_of. rewrite <- rc_1, <- !rc_mul, <- !rc_add, <- !rc_mul, <- rc_add. f_equal. ring. }
  rewrite EM. unfold csqrt. cbn [rc fst snd]. destruct (Req_EM_T 0 0) as [_|X]; [|lra]. unfold fsqrt. destruct (Rlt_dec (mZ2_of v g1 g2 y (x * v ^ 2)) 0) as [X|_]; [destruct (Rlt_asym _ _ X H5)|]. cbn [bind]. reflexivity.
Qed.
End Ew.

(* ---------- the electric charge ---------- *)
Lemma g1_root e g2 : 0 <= e -> e ^ 2 < g2 ^ 2 -> 0 < g2 -> let a := e * g2 / sqrt (g2 ^ 2 - e ^ 2) in
  a ^ 2 + g2 ^ 2 = g2 ^ 4 / (g2 ^ 2 - e ^ 2) /\ sqrt (a ^ 2 + g2 ^ 2) = g2 ^ 2 / sqrt (g2 ^ 2 - e ^ 2).
Proof.
  intros E L G a. assert (D : 0 < g2 ^ 2 - e ^ 2) by lra. pose proof (sqrt_lt_R0 _ D) as Q. assert (QS : sqrt (g2 ^ 2 - e ^ 2) ^ 2 = g2 ^ 2 - e ^ 2) by (apply pow2_sqrt; lra).
  assert (A2 : a ^ 2 = e ^ 2 * g2 ^ 2 / (g2 ^ 2 - e ^ 2)). { unfold a. rewrite <- QS at 2. field. lra. }
  assert (S : a ^ 2 + g2 ^ 2 = g2 ^ 4 / (g2 ^ 2 - e ^ 2)). { rewrite A2. field. lra. }
  split; [exact S|]. rewrite S. unfold Rdiv. rewrite sqrt_mult_alt by (apply pow_le; lra). rewrite sqrt_inv. f_equal.
  replace (g2 ^ 4) with ((g2 ^ 2) * (g2 ^ 2)) by ring. apply sqrt_square. apply pow2_ge_0.
Qed.
Lemma charge_0 e g2 : 0 <= e -> e ^ 2 < g2 ^ 2 -> 0 < g2 -> charge (g1_of e g2 0) g2 0 = e.
Proof.
  intros E L G. destruct (g1_root e g2 E L G) as [_ S]. unfold charge, g1_of. replace (e * g2 / sqrt (g2 ^ 2 - e ^ 2) + e ^ 2 * g2 / (g2 ^ 2 - e ^ 2) * 0) with (e * g2 / sqrt (g2 ^ 2 - e ^ 2)) by ring.
  rewrite S. assert (0 < sqrt (g2 ^ 2 - e ^ 2)) by (apply sqrt_lt_R0; lra). rewrite !Rmult_0_l. unfold Rdiv at 4. rewrite !Rmult_0_l. field. repeat split; lra.
Qed.
Lemma derivable_ext f g x l : (forall y, f y = g y) -> derivable_pt_lim f x l -> derivable_pt_lim g x l.
Proof. intros H D e0 He. destruct (D e0 He) as (d & Hd). exists d. intros h H1 H2. rewrite <- !H. now apply Hd. Qed.
Lemma derivable_eq f x l l' : l = l' -> derivable_pt_lim f x l -> derivable_pt_lim f x l'.
Proof. now intros ->. Qed.
Lemma charge_derivative e g2 : 0 <= e -> e ^ 2 < g2 ^ 2 -> 0 < g2 -> derivable_pt_lim (fun eps => charge (g1_of e g2 eps) g2 eps) 0 0.
Proof.
  intros E L G. destruct (g1_root e g2 E L G) as [S2 S]. assert (D : 0 < g2 ^ 2 - e ^ 2) by lra. pose proof (sqrt_lt_R0 _ D) as Q.
  assert (QS : sqrt (g2 ^ 2 - e ^ 2) * sqrt (g2 ^ 2 - e ^ 2) = g2 ^ 2 - e ^ 2) by (apply sqrt_sqrt; lra).
  set (q := sqrt (g2 ^ 2 - e ^ 2)) in *. set (a := e * g2 / q) in *. set (b := e ^ 2 * g2 / (g2 ^ 2 - e ^ 2)).
  assert (G1 : derivable_pt_lim (fun x => a + b * x) 0 b).
  { pose proof (derivable_pt_lim_plus (fun _ => a) _ 0 _ _ (derivable_pt_lim_const a 0) (derivable_pt_lim_mult (fun _ => b) (fun x => x) 0 _ _ (derivable_pt_lim_const b 0) (derivable_pt_lim_id 0))) as H.
    refine (derivable_eq _ _ _ _ _ H). ring. }
  assert (GS : derivable_pt_lim (fun x => (a + b * x) ^ 2 + g2 ^ 2) 0 (2 * a * b)).
  { replace (2 * a * b) with ((b * (a + b * 0) + (a + b * 0) * b) + 0) by ring.
    apply (derivable_pt_lim_plus (fun x => (a + b * x) ^ 2) (fun _ => g2 ^ 2)); [|apply derivable_pt_lim_const].
    apply (derivable_ext (fun x => (a + b * x) * (a + b * x))); [intros; ring|]. exact (derivable_pt_lim_mult _ _ 0 b b G1 G1). }
  assert (SP : 0 < a ^ 2 + g2 ^ 2). { assert (0 < g2 ^ 2) by (apply pow_lt; lra). pose proof (pow2_ge_0 a). lra. }
  assert (S0 : (a + b * 0) ^ 2 + g2 ^ 2 = a ^ 2 + g2 ^ 2) by ring.
  assert (GQ : derivable_pt_lim (fun x => sqrt ((a + b * x) ^ 2 + g2 ^ 2)) 0 (/ (2 * sqrt (a ^ 2 + g2 ^ 2)) * (2 * a * b))).
  { apply (derivable_pt_lim_comp (fun x => (a + b * x) ^ 2 + g2 ^ 2) sqrt 0); [exact GS|]. rewrite S0. apply derivable_pt_lim_sqrt. exact SP. }
  assert (GN : derivable_pt_lim (fun x => (a + b * x) * g2) 0 (b * g2 + (a + b * 0) * 0)).
  { apply (derivable_pt_lim_mult (fun x => a + b * x) (fun _ => g2)); [exact G1|apply derivable_pt_lim_const]. }
  assert (NQ : sqrt ((a + b * 0) ^ 2 + g2 ^ 2) <> 0) by (rewrite S0; pose proof (sqrt_lt_R0 _ SP); lra).
  pose proof (derivable_pt_lim_div (fun x => (a + b * x) * g2) (fun x => sqrt ((a + b * x) ^ 2 + g2 ^ 2)) 0 _ _ GN GQ NQ) as G3.
  assert (GE : derivable_pt_lim (fun x => x * ((a + b * x) * g2)) 0 (1 * ((a + b * 0) * g2) + 0 * (b * g2 + (a + b * 0) * 0))).
  { apply (derivable_pt_lim_mult (fun x => x) (fun x => (a + b * x) * g2)); [apply derivable_pt_lim_id|exact GN]. }
  assert (NS : (a + b * 0) ^ 2 + g2 ^ 2 <> 0) by (rewrite S0; lra).
  pose proof (derivable_pt_lim_div (fun x => x * ((a + b * x) * g2)) (fun x => (a + b * x) ^ 2 + g2 ^ 2) 0 _ _ GE GS NS) as G4.
  pose proof (derivable_pt_lim_minus (fun _ => 1) _ 0 _ _ (derivable_pt_lim_const 1 0) G4) as G5.
  pose proof (derivable_pt_lim_mult _ _ 0 _ _ G3 G5) as G6.
  refine (derivable_ext _ _ _ _ _ (derivable_eq _ _ _ _ _ G6)).
  - intros x. unfold mult_fct, div_fct, minus_fct, charge, g1_of. reflexivity.
  - unfold mult_fct, div_fct, minus_fct. rewrite S0, S, S2. unfold Rsqr. 
    assert (BE : b = a * a / g2). { unfold a, b. rewrite <- QS. field. lra. }
    rewrite BE. replace (g2 ^ 4 / (g2 ^ 2 - e ^ 2)) with (g2 ^ 4 / (q * q)) by (now rewrite QS).
    transitivity (a * a * (q * q * q) / g2 ^ 6 * (g2 ^ 4 / (q * q) - (a ^ 2 + g2 ^ 2))); [field; split; lra|]. rewrite S2, <- QS. field. lra.
Qed.
