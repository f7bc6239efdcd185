(* Proofs about the Higgs-Warsaw up <-> Warsaw up translations. *)
From Coq Require Import List Bool ZArith QArith Arith Lia String Ascii.
From Verif Require Import PyBase Num SymModel EftModel HiggsModel.
Import ListNotations.
Local Open Scope string_scope.
Local Open Scope list_scope.

(* the coefficients that differ between the two bases *)
Definition new_higgs : list string :=
  ["deltalambda3"; "deltacz"; "czBox"; "cgg"; "cgammagamma"; "czz"; "czgamma"; "cggtilde"; "cgammagammatilde"; "czztilde"; "czgammatilde"]
  ++ flat_map tri ["deltagWlL"; "deltagZeL"; "deltagZeR"; "deltagZuL"; "deltagZdL"; "deltagZuR"; "deltagZdR"] ++ full "deltagWqR".
Definition new_warsaw : list string :=
  ["phi"; "phiBox"; "phiD"; "phiG"; "phiW"; "phiB"; "phiWB"; "phiGtilde"; "phiWtilde"; "phiBtilde"; "phiWtildeB"]
  ++ flat_map tri ["phil3"; "phiq3"; "phil1"; "phiq1"; "phie"; "phiu"; "phid"] ++ full "phiud".

Section Higgs.
Context {K : StarField}.
Local Open Scope K_scope.
Add Field KFh : (k_field K).
Local Notation "2" := (1 + 1).
Local Notation "3" := (1 + (1 + 1)).

Lemma h2_neq : (2 : K) <> 0. Proof. exact (k_char0 K 2%positive). Qed.
Lemma h3_neq : (3 : K) <> 0. Proof. exact (k_char0 K 3%positive). Qed.

(* ---------- dictionaries ---------- *)
Lemma dget_complete all (C : dict string K) k :
  dget (complete all C) k = if kmem k all then Some (dgetd C k 0) else None.
Proof.
  unfold complete.
  assert (G : forall all d, dget (fold_left (fun d k => dset d k (dgetd C k 0)) all d) k
              = if kmem k all then Some (dgetd C k 0) else dget d k).
  { clear all. induction all as [|a all IH]; intros d; cbn [fold_left kmem]; [reflexivity|].
    rewrite IH, dget_dset. destruct (keqb_spec k a) as [->|N]; cbn [orb]; [now destruct (kmem a all)|reflexivity]. }
  now rewrite G.
Qed.
Lemma wf_complete all (C : dict string K) : wfdict (complete all C).
Proof.
  unfold complete.
  assert (G : forall d, wfdict d -> wfdict (fold_left (fun d k => dset d k (dgetd C k 0)) all d)).
  { induction all as [|a all' IH]; intros d Hd; cbn [fold_left]; [exact Hd|]. apply IH. now apply wf_dset. }
  apply G. constructor.
Qed.
Lemma dmem_dget (d : dict string K) k : dmem d k = match dget d k with Some _ => true | None => false end.
Proof.
  induction d as [|[a v] d IH]; [reflexivity|]. unfold dmem in *. cbn [dkeys map fst kmem dget].
  destruct (keqb k a); [reflexivity|exact IH].
Qed.

Definition pick (l : list (string * K)) (h : string -> K) (k : string) : K :=
  match dget l k with Some v => v | None => h k end.

Lemma translate_with_spec reads (values : (string -> K) -> list (string * K)) from to C :
  (forall f, wfdict (values f)) -> (forall f g, (forall k, In k reads -> f k = g k) -> values f = values g) ->
  (forall k, In k reads -> In k from) ->
  (forall k f, In k to -> In k from \/ dget (values f) k <> None) ->
  exists d, translate_with reads values from to C = Ok d /\ wfdict d /\
    (forall k, dget d k <> None -> In k to) /\
    forall k, In k to -> dget d k = Some (pick (values (fun k => dgetd C k 0)) (fun k => dgetd C k 0) k).
Proof.
  intros HW HF HR HT. unfold translate_with. cbn zeta.
  assert (E : forallb (fun k => dmem (complete from C) k) reads = true).
  { apply forallb_forall. intros k Hk. rewrite dmem_dget, dget_complete.
    now rewrite (proj2 (kmem_In k from) (HR k Hk)). }
  rewrite E.
  assert (V : values (fun k => dgetd (complete from C) k 0) = values (fun k => dgetd C k 0)).
  { apply HF. intros k Hk. unfold dgetd at 1. rewrite dget_complete, (proj2 (kmem_In k from) (HR k Hk)). reflexivity. }
  rewrite V. eexists. split; [reflexivity|].
  assert (W : wfdict (dupdate (complete from C) (values (fun k => dgetd C k 0)))) by (apply wf_dupdate, wf_complete).
  split; [now apply wf_dfilter|]. split.
  - intros k. rewrite dget_dfilter by exact W.
    destruct (dget (dupdate _ _) k) as [v|]; [|congruence]. destruct (kmem k to) eqn:M; [|congruence].
    intros _. now apply kmem_In.
  - intros k Hk. rewrite dget_dfilter by exact W. rewrite dget_dupdate by apply HW.
    rewrite (proj2 (kmem_In k to) Hk). unfold pick.
    destruct (HT k (fun k => dgetd C k 0) Hk) as [I|N].
    + destruct (dget (values (fun k => dgetd C k 0)) k) as [v|]; [reflexivity|].
      rewrite dget_complete, (proj2 (kmem_In k from) I). reflexivity.
    + destruct (dget (values (fun k => dgetd C k 0)) k) as [v|]; [reflexivity|congruence].
Qed.

(* ---------- matrices ---------- *)
Definition hermitian3 (X : nat -> nat -> K) : Prop := forall i j, (i < 3)%nat -> (j < 3)%nat -> (X i j)^* = X j i.

Lemma msym_herm (f : nat -> nat -> K) : (forall i, (i < 3)%nat -> kreal (f i i)) -> hermitian3 (msym (upper f)).
Proof.
  intros R i j Hi Hj. unfold msym, upper, kreal in *.
  pose proof (R 0%nat ltac:(lia)) as R0. pose proof (R 1%nat ltac:(lia)) as R1. pose proof (R 2%nat ltac:(lia)) as R2.
  destruct i as [|[|[|?]]]; try lia; destruct j as [|[|[|?]]]; try lia; cbn;
    rewrite ?kconj_sub, ?kconj_add, ?kconj_conj, ?kconj_0, ?R0, ?R1, ?R2; ring.
Qed.
Lemma msym_up (f : nat -> nat -> K) i j : (forall i, (i < 3)%nat -> kreal (f i i)) -> (i <= j)%nat -> (j < 3)%nat -> msym (upper f) i j = f i j.
Proof.
  intros R L Hj. unfold msym, upper, kreal in *.
  pose proof (R 0%nat ltac:(lia)) as R0. pose proof (R 1%nat ltac:(lia)) as R1. pose proof (R 2%nat ltac:(lia)) as R2.
  destruct i as [|[|[|?]]]; try lia; destruct j as [|[|[|?]]]; try lia; cbn;
    rewrite ?kconj_sub, ?kconj_add, ?kconj_conj, ?kconj_0, ?R0, ?R1, ?R2; ring.
Qed.
(* a hermitian matrix is recovered from its upper triangle *)
Lemma msym_fill (f M : nat -> nat -> K) i j : hermitian3 M -> (forall a b, (a <= b)%nat -> (b < 3)%nat -> f a b = M a b) ->
  (i < 3)%nat -> (j < 3)%nat -> msym (upper f) i j = M i j.
Proof.
  intros R E Hi Hj.
  assert (D : forall a, (a < 3)%nat -> kreal (f a a)).
  { intros a Ha. unfold kreal. rewrite E by lia. now apply R. }
  destruct (Nat.le_gt_cases i j) as [L|G].
  - rewrite msym_up by auto. now apply E.
  - rewrite <- (msym_herm f D j i Hj Hi), msym_up by (auto; lia). rewrite E by lia. now apply R.
Qed.
Lemma mmul_dag_herm (U X : nat -> nat -> K) : hermitian3 X -> hermitian3 (mmul (mmul U X) (mdag U)).
Proof.
  intros R i j Hi Hj. unfold mmul, mdag.
  repeat rewrite ?kconj_add, ?kconj_mul, ?kconj_conj.
  rewrite !(R 0%nat), !(R 1%nat), !(R 2%nat) by lia. ring.
Qed.

(* ---------- the values depend on the keys read only ---------- *)
Definition only (reads : list string) (f : string -> K) : string -> K :=
  fun k => dgetd (map (fun r => (r, f r)) reads) k 0.
Lemma only_ext reads f g : (forall k, In k reads -> f k = g k) -> only reads f = only reads g.
Proof. intros E. unfold only. now rewrite (map_ext_in (fun r => (r, f r)) (fun r => (r, g r)) reads) by (intros k Hk; now rewrite E). Qed.
Lemma hw_values_only (p : hpar K) V f : hw_values p V f = hw_values p V (only hw_reads f).
Proof. reflexivity. Qed.
Lemma wh_values_only (p : hpar K) V f : wh_values p V f = wh_values p V (only wh_reads f).
Proof. reflexivity. Qed.
Lemma hw_wf (p : hpar K) V f : wfdict (hw_values p V f).
Proof. apply knodup_NoDup. vm_compute. reflexivity. Qed.
Lemma wh_wf (p : hpar K) V f : wfdict (wh_values p V f).
Proof. apply knodup_NoDup. vm_compute. reflexivity. Qed.

(* ---------- parameters for which both directions are defined ---------- *)
Record par_ok (p : hpar K) : Prop := {
  ok_gw : h_gw p <> 0; ok_gp : h_gp p <> 0; ok_gs : h_gs p <> 0;
  ok_diff : h_gw p * h_gw p - h_gp p * h_gp p <> 0;
  ok_sum : h_gw p * h_gw p + h_gp p * h_gp p <> 0;
  ok_s2w : h_s2w p = h_gp p * h_gp p / (h_gw p * h_gw p + h_gp p * h_gp p);
  ok_gw_real : kreal (h_gw p); ok_gp_real : kreal (h_gp p) }.

Section RoundH.
Variables (p : hpar K) (V : nat -> nat -> K) (h : string -> K).
Hypothesis OK : par_ok p.
Let w := pick (hw_values p V h) h.

Lemma kre_of_real (x : K) : kreal x -> kre x = x.
Proof. intros R. unfold kre, kreal in *. rewrite R. unfold k2. field. apply h2_neq. Qed.
Lemma meye_diag c i : meye c i i = (c : K).
Proof. unfold meye. now rewrite Nat.eqb_refl. Qed.

Ltac side1 := first [exact h2_neq | exact h3_neq | exact (ok_gw p OK) | exact (ok_gp p OK) | exact (ok_gs p OK) | exact (ok_diff p OK) | exact (ok_sum p OK)].
Ltac side := repeat match goal with |- _ /\ _ => split end; first [side1 | apply kmul_neq_0; side1 | idtac].
Ltac alg := unfold hw_dM; rewrite ?(ok_s2w p OK); field; side.

Lemma w_other k : ~ In k new_warsaw -> w k = h k.
Proof.
  intros N. unfold w, pick. destruct (dget (hw_values p V h) k) as [v|] eqn:E; [|reflexivity].
  exfalso. apply N. apply dget_Some_key in E.
  assert (F : forallb (fun a => kmem a new_warsaw) (dkeys (hw_values p V h)) = true) by (vm_compute; reflexivity).
  rewrite forallb_forall in F. apply kmem_In. now apply F.
Qed.

Lemma w_phil3 i j : (i <= j)%nat -> (j < 3)%nat -> w (label "phil3" [i; j]) = h (label "deltagWlL" [i; j]) + meye (hw_C1 p h) i j / 2.
Proof. intros; destruct i as [|[|[|?]]]; try lia; destruct j as [|[|[|?]]]; try lia; reflexivity. Qed.
Lemma w_phiq3 i j : (i <= j)%nat -> (j < 3)%nat -> w (label "phiq3" [i; j]) = h (label "deltagZuL" [i; j]) - hw_rot V h i j + meye (hw_C1 p h) i j / 2.
Proof. intros; destruct i as [|[|[|?]]]; try lia; destruct j as [|[|[|?]]]; try lia; reflexivity. Qed.
Lemma w_phil1 i j : (i <= j)%nat -> (j < 3)%nat -> w (label "phil1" [i; j]) = - (2) * h (label "deltagZeL" [i; j]) - h (label "deltagWlL" [i; j]) + meye (hw_C2 p h) i j / 2.
Proof. intros; destruct i as [|[|[|?]]]; try lia; destruct j as [|[|[|?]]]; try lia; reflexivity. Qed.
Lemma w_phiq1 i j : (i <= j)%nat -> (j < 3)%nat -> w (label "phiq1" [i; j]) = - h (label "deltagZuL" [i; j]) - hw_rot V h i j - meye (hw_C2 p h) i j / (2 * 3).
Proof. intros; destruct i as [|[|[|?]]]; try lia; destruct j as [|[|[|?]]]; try lia; reflexivity. Qed.
Lemma w_phie i j : (i <= j)%nat -> (j < 3)%nat -> w (label "phie" [i; j]) = - (2) * h (label "deltagZeR" [i; j]) + meye (hw_C2 p h) i j.
Proof. intros; destruct i as [|[|[|?]]]; try lia; destruct j as [|[|[|?]]]; try lia; reflexivity. Qed.
Lemma w_phiu i j : (i <= j)%nat -> (j < 3)%nat -> w (label "phiu" [i; j]) = - (2) * h (label "deltagZuR" [i; j]) - 2 / 3 * meye (hw_C2 p h) i j.
Proof. intros; destruct i as [|[|[|?]]]; try lia; destruct j as [|[|[|?]]]; try lia; reflexivity. Qed.
Lemma w_phid i j : (i <= j)%nat -> (j < 3)%nat -> w (label "phid" [i; j]) = - (2) * h (label "deltagZdR" [i; j]) + 1 / 3 * meye (hw_C2 p h) i j.
Proof. intros; destruct i as [|[|[|?]]]; try lia; destruct j as [|[|[|?]]]; try lia; reflexivity. Qed.
Lemma w_phiud i j : (i < 3)%nat -> (j < 3)%nat -> w (label "phiud" [i; j]) = - (2) * h (label "deltagWqR" [i; j]).
Proof. intros; destruct i as [|[|[|?]]]; try lia; destruct j as [|[|[|?]]]; try lia; reflexivity. Qed.
Definition nthv (n : nat) (l : list (string * K)) : K := snd (nth n l ("", 0)).
Lemma w_phi : w "phi" = nthv 0 (hw_scalars p h). Proof. reflexivity. Qed.
Lemma w_phiBox : w "phiBox" = nthv 1 (hw_scalars p h). Proof. reflexivity. Qed.
Lemma w_phiD : w "phiD" = nthv 2 (hw_scalars p h). Proof. reflexivity. Qed.
Lemma w_phiG : w "phiG" = nthv 3 (hw_scalars p h). Proof. reflexivity. Qed.
Lemma w_phiW : w "phiW" = nthv 4 (hw_scalars p h). Proof. reflexivity. Qed.
Lemma w_phiB : w "phiB" = nthv 5 (hw_scalars p h). Proof. reflexivity. Qed.
Lemma w_phiWB : w "phiWB" = nthv 6 (hw_scalars p h). Proof. reflexivity. Qed.
Lemma w_phiGt : w "phiGtilde" = nthv 7 (hw_scalars p h). Proof. reflexivity. Qed.
Lemma w_phiWt : w "phiWtilde" = nthv 8 (hw_scalars p h). Proof. reflexivity. Qed.
Lemma w_phiBt : w "phiBtilde" = nthv 9 (hw_scalars p h). Proof. reflexivity. Qed.
Lemma w_phiWtB : w "phiWtildeB" = nthv 10 (hw_scalars p h). Proof. reflexivity. Qed.
Lemma w_ll : w "ll_1221" = h "ll_1221". Proof. reflexivity. Qed.
Lemma w_phil3_11 : w "phil3_11" = h "deltagWlL_11" + hw_C1 p h / 2. Proof. reflexivity. Qed.
Lemma w_phil3_22 : w "phil3_22" = h "deltagWlL_22" + hw_C1 p h / 2. Proof. reflexivity. Qed.

Ltac back := rewrite ?w_phi, ?w_phiBox, ?w_phiD, ?w_phiG, ?w_phiW, ?w_phiB, ?w_phiWB, ?w_phiGt, ?w_phiWt, ?w_phiBt, ?w_phiWtB,
   ?w_ll, ?w_phil3_11, ?w_phil3_22; unfold nthv; cbn [nth snd hw_scalars]; unfold hw_C1, hw_C2, hw_dM; rewrite ?(ok_s2w p OK); field; side.

Lemma back_scalars n k : nth_error ["deltalambda3"; "deltacz"; "czBox"; "cgg"; "cgammagamma"; "czz"; "czgamma"; "cggtilde"; "cgammagammatilde"; "czztilde"; "czgammatilde"] n = Some k ->
  nth_error (wh_scalars p w) n = Some (k, h k).
Proof.
  do 11 (destruct n as [|n]; [cbn [nth_error]; intros E; injection E; intros <-; cbn [nth_error wh_scalars]; f_equal; f_equal; back|]).
  cbn [nth_error]. destruct n; discriminate.
Qed.

Hypothesis UV : forall a b, (a < 3)%nat -> (b < 3)%nat -> mmul (mdag V) V a b = meye 1 a b.
Hypothesis R11 : kreal (h "deltagWlL_11").
Hypothesis R22 : kreal (h "deltagWlL_22").
Hypothesis Rs : forall k, In k ["czBox"; "czz"; "czgamma"; "cgammagamma"] -> kreal (h k).
Hypothesis Rd : forall i, (i < 3)%nat -> kreal (h (label "deltagZdL" [i; i])).
Hypothesis Ru : forall i, (i < 3)%nat -> kreal (h (label "deltagZuL" [i; i])).

Lemma kreal_div (x y : K) : y <> 0 -> kreal x -> kreal y -> kreal (x / y).
Proof. intros N A B. unfold kreal in *. rewrite kconj_div, A, B by exact N. reflexivity. Qed.
Lemma kreal_sub (x y : K) : kreal x -> kreal y -> kreal (x - y).
Proof. intros A B. unfold kreal in *. now rewrite kconj_sub, A, B. Qed.
Lemma kreal_1 : kreal (1 : K).
Proof. apply kconj_1. Qed.
Lemma kreal_2 : kreal (2 : K).
Proof. unfold kreal. now rewrite kconj_add, kconj_1. Qed.
Lemma kreal_3 : kreal (3 : K).
Proof. unfold kreal. now rewrite !kconj_add, kconj_1. Qed.
Lemma gw2_real : kreal (h_gw p * h_gw p).
Proof. apply kreal_mul; apply OK. Qed.
Lemma gp2_real : kreal (h_gp p * h_gp p).
Proof. apply kreal_mul; apply OK. Qed.
Lemma s2w_real : kreal (h_s2w p).
Proof. rewrite (ok_s2w p OK). apply kreal_div; [apply OK|apply gp2_real|apply kreal_add; [apply gw2_real|apply gp2_real]]. Qed.
Lemma diff_real : kreal (h_gw p * h_gw p - h_gp p * h_gp p).
Proof. apply kreal_sub; [apply gw2_real|apply gp2_real]. Qed.
Ltac reals := repeat first [apply gw2_real | apply gp2_real | apply diff_real | apply s2w_real | apply kreal_1 | apply (Rs "czBox"); now left
   | apply (Rs "czz"); right; now left | apply (Rs "czgamma"); do 2 right; now left | apply (Rs "cgammagamma"); do 3 right; now left
   | apply kreal_sub | apply kreal_add | apply kreal_mul].
Lemma C1_real : kreal (hw_C1 p h).
Proof. unfold hw_C1. apply kreal_div; [apply OK|reals|reals]. Qed.
Lemma C2_real : kreal (hw_C2 p h).
Proof. unfold hw_C2. apply kreal_div; [apply OK|reals|reals]. Qed.
Lemma re_11 : kre (w "phil3_11") = w "phil3_11".
Proof. apply kre_of_real. rewrite w_phil3_11. apply kreal_add; [exact R11|]. apply kreal_div; [apply h2_neq|apply C1_real|apply kreal_2]. Qed.
Lemma re_22 : kre (w "phil3_22") = w "phil3_22".
Proof. apply kre_of_real. rewrite w_phil3_22. apply kreal_add; [exact R22|]. apply kreal_div; [apply h2_neq|apply C1_real|apply kreal_2]. Qed.

(* the coefficient matrix of the left-handed down quarks comes back *)
Lemma rot_herm : hermitian3 (hw_rot V h).
Proof. apply mmul_dag_herm. now apply msym_herm. Qed.
Lemma UV' a b : (a < 3)%nat -> (b < 3)%nat ->
  (V 0%nat a)^* * V 0%nat b + (V 1%nat a)^* * V 1%nat b + (V 2%nat a)^* * V 2%nat b = meye 1 a b.
Proof. intros Ha Hb. rewrite <- (UV a b Ha Hb). reflexivity. Qed.
Definition w13c : K := hw_C1 p h / 2 - hw_C2 p h / (2 * 3).
Definition w13 : nat -> nat -> K := fun i j => - (2) * hw_rot V h i j + meye w13c i j.
Lemma sym13 i j : (i < 3)%nat -> (j < 3)%nat ->
  msym (upper (fun i j => w (label "phiq3" [i; j]))) i j + msym (upper (fun i j => w (label "phiq1" [i; j]))) i j = w13 i j.
Proof.
  intros Hi Hj.
  assert (A : msym (upper (fun i j => w (label "phiq3" [i; j]))) i j + msym (upper (fun i j => w (label "phiq1" [i; j]))) i j
              = msym (upper (fun i j => w (label "phiq3" [i; j]) + w (label "phiq1" [i; j]))) i j).
  { unfold msym, upper. destruct (i <=? j)%nat, (j <=? i)%nat, (i =? j)%nat; rewrite ?kconj_add, ?kconj_0; ring. }
  rewrite A. apply msym_fill; [| |exact Hi|exact Hj].
  - intros a b Ha Hb. unfold w13. rewrite kconj_add, kconj_mul, kconj_opp, (kreal_2 : (2)^* = 2), (rot_herm a b Ha Hb).
    f_equal. unfold meye. rewrite Nat.eqb_sym. destruct (b =? a)%nat; [|apply kconj_0].
    apply kreal_sub; apply kreal_div; try apply C1_real; try apply C2_real; try apply kmul_neq_0; try apply h2_neq; try apply h3_neq;
      try apply kreal_2. apply kreal_mul; [apply kreal_2|apply kreal_3].
  - intros a b L Hb. rewrite w_phiq3, w_phiq1 by assumption. unfold w13, meye, w13c.
    destruct (a =? b)%nat; field; side.
Qed.
Lemma back_rot i j : (i < 3)%nat -> (j < 3)%nat ->
  wh_rot V w i j = - (2) * msym (upper (fun i j => h (label "deltagZdL" [i; j]))) i j + meye w13c i j.
Proof.
  intros Hi Hj. unfold wh_rot. cbn zeta. unfold mmul at 1 2. unfold mdag.
  rewrite !sym13 by lia. unfold w13, hw_rot. set (X := msym (upper (fun i j => h (label "deltagZdL" [i; j])))).
  transitivity (- (2) * (meye 1 i 0%nat * (X 0%nat 0%nat * meye 1 0%nat j + X 0%nat 1%nat * meye 1 1%nat j + X 0%nat 2%nat * meye 1 2%nat j)
     + meye 1 i 1%nat * (X 1%nat 0%nat * meye 1 0%nat j + X 1%nat 1%nat * meye 1 1%nat j + X 1%nat 2%nat * meye 1 2%nat j)
     + meye 1 i 2%nat * (X 2%nat 0%nat * meye 1 0%nat j + X 2%nat 1%nat * meye 1 1%nat j + X 2%nat 2%nat * meye 1 2%nat j)) + w13c * meye 1 i j).
  - rewrite <- !UV' by lia. unfold mmul, mdag. cbn [meye Nat.eqb]. unfold meye. cbn [Nat.eqb]. ring.
  - unfold meye. destruct i as [|[|[|?]]]; try lia; destruct j as [|[|[|?]]]; try lia; cbn [Nat.eqb]; ring.
Qed.
Lemma f_offdiag T3 Q i j : i <> j -> wh_f p w T3 Q i j = 0.
Proof. intros N. unfold wh_f. apply Nat.eqb_neq in N. now rewrite N. Qed.
Lemma f_diag T3 Q i : wh_f p w T3 Q i i =
  - (h_gw p * h_gp p) / (h_gw p * h_gw p - h_gp p * h_gp p) * w "phiWB" * Q
  + (w "ll_1221" / (2 * 2) - w "phil3_11" / 2 - w "phil3_22" / 2 - w "phiD" / (2 * 2)) * (T3 + Q * (h_gp p * h_gp p) / (h_gw p * h_gw p - h_gp p * h_gp p)).
Proof. unfold wh_f. rewrite Nat.eqb_refl, re_11, re_22. cbn zeta. field. side. Qed.

Ltac vertex := match goal with |- context [wh_f p w _ _ ?i ?j] =>
  destruct (Nat.eq_dec i j) as [->|N];
  [rewrite !f_diag; rewrite ?meye_diag; back | rewrite !f_offdiag by exact N; unfold meye; rewrite (proj2 (Nat.eqb_neq i j) N); field; side] end.
Lemma back_vertex i j : (i < 3)%nat -> (j < 3)%nat ->
  wh_vertex p V w (i, j) =
  (if (i <=? j)%nat then map (fun n => (label n [i; j], h (label n [i; j]))) ["deltagWlL"; "deltagZeL"; "deltagZeR"; "deltagZuL"; "deltagZdL"; "deltagZuR"; "deltagZdR"] else [])
  ++ [(label "deltagWqR" [i; j], h (label "deltagWqR" [i; j]))].
Proof.
  intros Hi Hj. unfold wh_vertex. f_equal.
  - destruct (Nat.leb_spec i j) as [L|G]; [|reflexivity]. cbn [map].
    rewrite w_phil3, w_phil1, w_phie, w_phiq3, w_phiq1, w_phiu, w_phid, back_rot by assumption.
    rewrite msym_up by assumption. unfold w13c.
    repeat (apply f_equal2; [apply f_equal2; [reflexivity|]|]); [vertex..|reflexivity].
  - rewrite w_phiud by assumption. f_equal. f_equal. field. side.
Qed.
Lemma back_values k v : In (k, v) (wh_values p V w) -> v = h k.
Proof.
  unfold wh_values. intros I. apply in_app_or in I as [I|I].
  - apply in_flat_map in I as ([i j] & Iij & I).
    assert (B : (i < 3 /\ j < 3)%nat).
    { unfold pairs3 in Iij. apply in_prod_iff in Iij as [A B]. apply in_seq in A. apply in_seq in B. lia. }
    rewrite back_vertex in I by tauto. apply in_app_or in I as [I|I].
    + destruct (i <=? j)%nat; [|destruct I]. apply in_map_iff in I as (n & E & _). injection E. intros; subst. reflexivity.
    + destruct I as [E|[]]. injection E. intros; subst. reflexivity.
  - apply In_nth_error in I as (n & I).
    assert (L : (n < 11)%nat) by (apply (nth_error_Some (wh_scalars p w)); rewrite I; discriminate).
    destruct (nth_error ["deltalambda3"; "deltacz"; "czBox"; "cgg"; "cgammagamma"; "czz"; "czgamma"; "cggtilde"; "cgammagammatilde"; "czztilde"; "czgammatilde"] n) as [k'|] eqn:E.
    + apply back_scalars in E. rewrite E in I. injection I. intros; subst. reflexivity.
    + apply nth_error_None in E. cbn in E. lia.
Qed.
Lemma wh_keys f k : In k (dkeys (wh_values p V f)) <-> In k new_higgs.
Proof.
  assert (F : forallb (fun a => kmem a new_higgs) (dkeys (wh_values p V f)) = true) by (vm_compute; reflexivity).
  assert (G : forallb (fun a => kmem a (dkeys (wh_values p V f))) new_higgs = true) by (vm_compute; reflexivity).
  rewrite forallb_forall in F, G. split; intros I; apply kmem_In; auto.
Qed.
Lemma round_h k : In k new_higgs \/ ~ In k new_warsaw -> pick (wh_values p V w) w k = h k.
Proof.
  intros D. unfold pick. destruct (dget (wh_values p V w) k) as [v|] eqn:E.
  - apply dget_In in E. now apply back_values.
  - apply dget_None in E. rewrite wh_keys in E. apply w_other. tauto.
Qed.
End RoundH.

Section RoundW.
Variables (p : hpar K) (V : nat -> nat -> K) (w : string -> K).
Hypothesis OK : par_ok p.
Let u := pick (wh_values p V w) w.
Ltac side1 := first [exact h2_neq | exact h3_neq | exact (ok_gw p OK) | exact (ok_gp p OK) | exact (ok_gs p OK) | exact (ok_diff p OK) | exact (ok_sum p OK)].
Ltac side := repeat match goal with |- _ /\ _ => split end; first [side1 | apply kmul_neq_0; side1 | idtac].
Lemma u_other k : ~ In k new_higgs -> u k = w k.
Proof.
  intros N. unfold u, pick. destruct (dget (wh_values p V w) k) as [v|] eqn:E; [|reflexivity].
  exfalso. apply N. apply dget_Some_key in E. now apply wh_keys in E.
Qed.
Local Notation half := (1 / 2).
Lemma u_deltagWlL i j : (i <= j)%nat -> (j < 3)%nat -> u (label "deltagWlL" [i; j]) = w (label "phil3" [i; j]) + wh_f p w half 0 i j - wh_f p w (- half) (- (1)) i j.
Proof. intros; destruct i as [|[|[|?]]]; try lia; destruct j as [|[|[|?]]]; try lia; reflexivity. Qed.
Lemma u_deltagZeL i j : (i <= j)%nat -> (j < 3)%nat -> u (label "deltagZeL" [i; j]) = - half * w (label "phil3" [i; j]) - half * w (label "phil1" [i; j]) + wh_f p w (- half) (- (1)) i j.
Proof. intros; destruct i as [|[|[|?]]]; try lia; destruct j as [|[|[|?]]]; try lia; reflexivity. Qed.
Lemma u_deltagZeR i j : (i <= j)%nat -> (j < 3)%nat -> u (label "deltagZeR" [i; j]) = - half * w (label "phie" [i; j]) + wh_f p w 0 (- (1)) i j.
Proof. intros; destruct i as [|[|[|?]]]; try lia; destruct j as [|[|[|?]]]; try lia; reflexivity. Qed.
Lemma u_deltagZuL i j : (i <= j)%nat -> (j < 3)%nat -> u (label "deltagZuL" [i; j]) = half * w (label "phiq3" [i; j]) - half * w (label "phiq1" [i; j]) + wh_f p w half (2 / 3) i j.
Proof. intros; destruct i as [|[|[|?]]]; try lia; destruct j as [|[|[|?]]]; try lia; reflexivity. Qed.
Lemma u_deltagZdL i j : (i <= j)%nat -> (j < 3)%nat -> u (label "deltagZdL" [i; j]) = - half * wh_rot V w i j + wh_f p w (- half) (- (1 / 3)) i j.
Proof. intros; destruct i as [|[|[|?]]]; try lia; destruct j as [|[|[|?]]]; try lia; reflexivity. Qed.
Lemma u_deltagZuR i j : (i <= j)%nat -> (j < 3)%nat -> u (label "deltagZuR" [i; j]) = - half * w (label "phiu" [i; j]) + wh_f p w 0 (2 / 3) i j.
Proof. intros; destruct i as [|[|[|?]]]; try lia; destruct j as [|[|[|?]]]; try lia; reflexivity. Qed.
Lemma u_deltagZdR i j : (i <= j)%nat -> (j < 3)%nat -> u (label "deltagZdR" [i; j]) = - half * w (label "phid" [i; j]) + wh_f p w 0 (- (1 / 3)) i j.
Proof. intros; destruct i as [|[|[|?]]]; try lia; destruct j as [|[|[|?]]]; try lia; reflexivity. Qed.
Lemma u_deltagWqR i j : (i < 3)%nat -> (j < 3)%nat -> u (label "deltagWqR" [i; j]) = - w (label "phiud" [i; j]) / 2.
Proof. intros; destruct i as [|[|[|?]]]; try lia; destruct j as [|[|[|?]]]; try lia; reflexivity. Qed.
Lemma u_deltalambda3 : u "deltalambda3" = nthv 0 (wh_scalars p w). Proof. reflexivity. Qed.
Lemma u_deltacz : u "deltacz" = nthv 1 (wh_scalars p w). Proof. reflexivity. Qed.
Lemma u_czBox : u "czBox" = nthv 2 (wh_scalars p w). Proof. reflexivity. Qed.
Lemma u_cgg : u "cgg" = nthv 3 (wh_scalars p w). Proof. reflexivity. Qed.
Lemma u_cgammagamma : u "cgammagamma" = nthv 4 (wh_scalars p w). Proof. reflexivity. Qed.
Lemma u_czz : u "czz" = nthv 5 (wh_scalars p w). Proof. reflexivity. Qed.
Lemma u_czgamma : u "czgamma" = nthv 6 (wh_scalars p w). Proof. reflexivity. Qed.
Lemma u_cggtilde : u "cggtilde" = nthv 7 (wh_scalars p w). Proof. reflexivity. Qed.
Lemma u_cgammagammatilde : u "cgammagammatilde" = nthv 8 (wh_scalars p w). Proof. reflexivity. Qed.
Lemma u_czztilde : u "czztilde" = nthv 9 (wh_scalars p w). Proof. reflexivity. Qed.
Lemma u_czgammatilde : u "czgammatilde" = nthv 10 (wh_scalars p w). Proof. reflexivity. Qed.
Lemma u_ll : u "ll_1221" = w "ll_1221". Proof. reflexivity. Qed.

Hypothesis UV : forall a b, (a < 3)%nat -> (b < 3)%nat -> mmul V (mdag V) a b = meye 1 a b.
Hypothesis Rs : forall k, In k ["phil3_11"; "phil3_22"; "phiWB"; "phiD"; "ll_1221"] -> kreal (w k).
Hypothesis R1 : forall i, (i < 3)%nat -> kreal (w (label "phiq1" [i; i])).
Hypothesis R3 : forall i, (i < 3)%nat -> kreal (w (label "phiq3" [i; i])).

Definition fval (T3 Q : K) : K :=
  - (h_gw p * h_gp p) / (h_gw p * h_gw p - h_gp p * h_gp p) * w "phiWB" * Q
  + (w "ll_1221" / (2 * 2) - w "phil3_11" / 2 - w "phil3_22" / 2 - w "phiD" / (2 * 2)) * (T3 + Q * (h_gp p * h_gp p) / (h_gw p * h_gw p - h_gp p * h_gp p)).
Lemma wf_val T3 Q i j : wh_f p w T3 Q i j = meye (fval T3 Q) i j.
Proof.
  unfold wh_f, meye, fval. rewrite !kre_of_real by (apply Rs; cbn; tauto). cbn zeta.
  destruct (i =? j)%nat; [|reflexivity]. field. side.
Qed.
Lemma fval_real T3 Q : kreal T3 -> kreal Q -> kreal (fval T3 Q).
Proof.
  intros A B. unfold fval.
  assert (D : kreal (h_gw p * h_gw p - h_gp p * h_gp p)) by now apply diff_real.
  assert (G : kreal (h_gp p * h_gp p)) by now apply gp2_real.
  assert (T4 : kreal ((2 : K) * 2)) by (apply kreal_mul; apply kreal_2).
  assert (N4 : (2 : K) * 2 <> 0) by (apply kmul_neq_0; apply h2_neq).
  repeat first [apply kreal_add | apply kreal_sub | apply kreal_mul | apply kreal_opp | assumption
    | apply kreal_div; [first [exact N4 | exact h2_neq | exact (ok_diff p OK)] | | ] | apply OK | apply kreal_1 | apply Rs; cbn; tauto].
Qed.
Lemma u_l11 : u "deltagWlL_11" = w "phil3_11" + fval half 0 - fval (- half) (- (1)).
Proof. rewrite (u_deltagWlL 0 0 ltac:(lia) ltac:(lia) : u "deltagWlL_11" = _), !wf_val, !meye_diag. reflexivity. Qed.
Lemma u_l22 : u "deltagWlL_22" = w "phil3_22" + fval half 0 - fval (- half) (- (1)).
Proof. rewrite (u_deltagWlL 1 1 ltac:(lia) ltac:(lia) : u "deltagWlL_22" = _), !wf_val, !meye_diag. reflexivity. Qed.
Ltac back := rewrite ?u_deltalambda3, ?u_deltacz, ?u_czBox, ?u_cgg, ?u_cgammagamma, ?u_czz, ?u_czgamma, ?u_cggtilde, ?u_cgammagammatilde, ?u_czztilde, ?u_czgammatilde, ?u_ll, ?u_l11, ?u_l22; unfold nthv; cbn [nth snd wh_scalars]; unfold fval; rewrite ?(ok_s2w p OK); field; side.

Lemma uC1 : hw_C1 p u = - (2) * (fval half 0 - fval (- half) (- (1))).
Proof. unfold hw_C1. back. Qed.
Lemma uC2 : hw_C2 p u = (2) * fval 0 (- (1)).
Proof. unfold hw_C2. back. Qed.
Lemma u_dM : hw_dM u = (w "phil3_11" + w "phil3_22" - w "ll_1221" / 2) / 2 + fval half 0 - fval (- half) (- (1)).
Proof. unfold hw_dM. back. Qed.
Lemma uback_scalars n k : nth_error ["phi"; "phiBox"; "phiD"; "phiG"; "phiW"; "phiB"; "phiWB"; "phiGtilde"; "phiWtilde"; "phiBtilde"; "phiWtildeB"] n = Some k ->
  nth_error (hw_scalars p u) n = Some (k, w k).
Proof.
  do 11 (destruct n as [|n]; [cbn [nth_error]; intros E; injection E; intros <-; cbn [nth_error hw_scalars]; f_equal; f_equal; rewrite ?u_dM; back|]).
  cbn [nth_error]. destruct n; discriminate.
Qed.

Lemma wrot_herm : hermitian3 (wh_rot V w).
Proof.
  unfold wh_rot. cbn zeta. set (X := fun i j => _ + _).
  assert (H : hermitian3 X).
  { intros a b Ha Hb. unfold X. rewrite kconj_add. f_equal; now apply msym_herm. }
  intros a b Ha Hb. unfold mmul, mdag. repeat rewrite ?kconj_add, ?kconj_mul, ?kconj_conj.
  rewrite !(H 0%nat), !(H 1%nat), !(H 2%nat) by lia. ring.
Qed.
Definition zd : nat -> nat -> K := fun i j => - half * wh_rot V w i j + meye (fval (- half) (- (1 / 3))) i j.
Lemma zd_herm : hermitian3 zd.
Proof.
  intros a b Ha Hb. unfold zd. rewrite kconj_add, kconj_mul, kconj_opp, (wrot_herm a b Ha Hb).
  f_equal; [f_equal; f_equal; apply kreal_div; [apply h2_neq|apply kreal_1|apply kreal_2]|].
  unfold meye. rewrite Nat.eqb_sym. destruct (b =? a)%nat; [|apply kconj_0].
  apply fval_real; apply kreal_opp, kreal_div; auto using h2_neq, h3_neq, kreal_1, kreal_2, kreal_3.
Qed.
Lemma zd_sym i j : (i < 3)%nat -> (j < 3)%nat -> msym (upper (fun i j => u (label "deltagZdL" [i; j]))) i j = zd i j.
Proof.
  intros Hi Hj. apply msym_fill; [apply zd_herm| |exact Hi|exact Hj].
  intros a b L Hb. rewrite u_deltagZdL, wf_val by assumption. reflexivity.
Qed.
Lemma UV'' a b : (a < 3)%nat -> (b < 3)%nat ->
  V a 0%nat * (V b 0%nat)^* + V a 1%nat * (V b 1%nat)^* + V a 2%nat * (V b 2%nat)^* = meye 1 a b.
Proof. intros Ha Hb. rewrite <- (UV a b Ha Hb). reflexivity. Qed.
Lemma uback_rot i j : (i <= j)%nat -> (j < 3)%nat ->
  hw_rot V u i j = - half * (w (label "phiq3" [i; j]) + w (label "phiq1" [i; j])) + meye (fval (- half) (- (1 / 3))) i j.
Proof.
  intros L Hj. assert (Hi : (i < 3)%nat) by lia.
  rewrite <- (msym_up (fun i j => w (label "phiq3" [i; j])) i j R3 L Hj), <- (msym_up (fun i j => w (label "phiq1" [i; j])) i j R1 L Hj).
  unfold hw_rot. unfold mmul at 1 2. unfold mdag.
  rewrite !zd_sym by lia. unfold zd, wh_rot. cbn zeta.
  set (X3 := msym (upper (fun i j => w (label "phiq3" [i; j])))). set (X1 := msym (upper (fun i j => w (label "phiq1" [i; j])))).
  set (c := fval (- half) (- (1 / 3))).
  transitivity (- half * (meye 1 i 0%nat * ((X3 0%nat 0%nat + X1 0%nat 0%nat) * meye 1 0%nat j + (X3 0%nat 1%nat + X1 0%nat 1%nat) * meye 1 1%nat j + (X3 0%nat 2%nat + X1 0%nat 2%nat) * meye 1 2%nat j)
     + meye 1 i 1%nat * ((X3 1%nat 0%nat + X1 1%nat 0%nat) * meye 1 0%nat j + (X3 1%nat 1%nat + X1 1%nat 1%nat) * meye 1 1%nat j + (X3 1%nat 2%nat + X1 1%nat 2%nat) * meye 1 2%nat j)
     + meye 1 i 2%nat * ((X3 2%nat 0%nat + X1 2%nat 0%nat) * meye 1 0%nat j + (X3 2%nat 1%nat + X1 2%nat 1%nat) * meye 1 1%nat j + (X3 2%nat 2%nat + X1 2%nat 2%nat) * meye 1 2%nat j)) + c * meye 1 i j).
  - rewrite <- !UV'' by lia. unfold mmul, mdag. unfold meye. cbn [Nat.eqb]. generalize (1 / 2 : K) as hf. intros. ring.
  - unfold meye. generalize (1 / 2 : K) as hf. intros. destruct i as [|[|[|?]]]; try lia; destruct j as [|[|[|?]]]; try lia; cbn [Nat.eqb]; ring.
Qed.
Ltac vertex := match goal with |- context [meye _ ?i ?j] =>
  destruct (Nat.eq_dec i j) as [->|N];
  [rewrite ?meye_diag; unfold fval; field; side | unfold meye; rewrite (proj2 (Nat.eqb_neq i j) N); field; side] end.
Lemma uback_vertex i j : (i < 3)%nat -> (j < 3)%nat ->
  hw_vertex p V u (i, j) =
  (if (i <=? j)%nat then map (fun n => (label n [i; j], w (label n [i; j]))) ["phil3"; "phiq3"; "phil1"; "phiq1"; "phie"; "phiu"; "phid"] else [])
  ++ [(label "phiud" [i; j], w (label "phiud" [i; j]))].
Proof.
  intros Hi Hj. unfold hw_vertex. cbn zeta. f_equal.
  - destruct (Nat.leb_spec i j) as [L|G]; [|reflexivity]. cbn [map].
    rewrite u_deltagWlL, u_deltagZeL, u_deltagZeR, u_deltagZuL, u_deltagZuR, u_deltagZdR, uback_rot, !wf_val, uC1, uC2 by assumption.
    repeat (apply f_equal2; [apply f_equal2; [reflexivity|]|]); [vertex..|reflexivity].
  - rewrite u_deltagWqR by assumption. f_equal. f_equal. field. side.
Qed.
Lemma uback_values k v : In (k, v) (hw_values p V u) -> v = w k.
Proof.
  unfold hw_values. intros I. apply in_app_or in I as [I|I].
  - apply In_nth_error in I as (n & I).
    assert (L : (n < 11)%nat) by (apply (nth_error_Some (hw_scalars p u)); rewrite I; discriminate).
    destruct (nth_error ["phi"; "phiBox"; "phiD"; "phiG"; "phiW"; "phiB"; "phiWB"; "phiGtilde"; "phiWtilde"; "phiBtilde"; "phiWtildeB"] n) as [k'|] eqn:E.
    + apply uback_scalars in E. rewrite E in I. injection I. intros; subst. reflexivity.
    + apply nth_error_None in E. cbn in E. lia.
  - apply in_flat_map in I as ([i j] & Iij & I).
    assert (B : (i < 3 /\ j < 3)%nat).
    { unfold pairs3 in Iij. apply in_prod_iff in Iij as [A B]. apply in_seq in A. apply in_seq in B. lia. }
    rewrite uback_vertex in I by tauto. apply in_app_or in I as [I|I].
    + destruct (i <=? j)%nat; [|destruct I]. apply in_map_iff in I as (n & E & _). injection E. intros; subst. reflexivity.
    + destruct I as [E|[]]. injection E. intros; subst. reflexivity.
Qed.
Lemma hw_keys f k : In k (dkeys (hw_values p V f)) <-> In k new_warsaw.
Proof.
  assert (F : forallb (fun a => kmem a new_warsaw) (dkeys (hw_values p V f)) = true) by (vm_compute; reflexivity).
  assert (G : forallb (fun a => kmem a (dkeys (hw_values p V f))) new_warsaw = true) by (vm_compute; reflexivity).
  rewrite forallb_forall in F, G. split; intros I; apply kmem_In; auto.
Qed.
Lemma round_w k : In k new_warsaw \/ ~ In k new_higgs -> pick (hw_values p V u) u k = w k.
Proof.
  intros D. unfold pick. destruct (dget (hw_values p V u) k) as [v|] eqn:E.
  - apply dget_In in E. now apply uback_values.
  - apply dget_None in E. rewrite hw_keys in E. apply u_other. tauto.
Qed.
End RoundW.
End Higgs.
