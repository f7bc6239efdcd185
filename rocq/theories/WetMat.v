(* Linear algebra for WetProofs.v *)
From Coq Require Import List Bool ZArith Reals Arith Lia Lra String Ascii.
From Verif Require Import PyBase Num SymModel EftModel NpModel NpProofs RealC WcxfModel AdmData WetModel WetSpec.
Import ListNotations.
Local Open Scope list_scope.
Local Open Scope K_scope.
Add Field KFW : (k_field CR).

Lemma sum_delta n (f : nat -> CR) i : (i < n)%nat -> ksum (map (fun k => (if (i =? k)%nat then f k else 0)) (seq 0 n)) = f i.
Proof.
  intros L.
  assert (G : forall a m, (a <= i < a + m)%nat -> ksum (map (fun k => (if (i =? k)%nat then f k else 0)) (seq a m)) = f i).
  { intros a m. revert a. induction m as [|m IH]; intros a B; [lia|]. cbn [seq map]. rewrite ksum_cons.
    destruct (Nat.eqb_spec i a) as [->|N].
    - rewrite ksum_zero; [ring|]. intros k I. apply in_seq in I. destruct (Nat.eqb_spec a k); [lia|reflexivity].
    - rewrite IH by lia. ring. }
  apply G. lia.
Qed.
Lemma mmul_ext n A A' B B' : meqn n A A' -> meqn n B B' -> meqn n (mmul n A B) (mmul n A' B').
Proof. intros E F i j L M. unfold mmul. apply ksum_ext. intros k I. apply in_seq in I. now rewrite E, F by lia. Qed.
Lemma mmul_assoc n A B C : meqn n (mmul n (mmul n A B) C) (mmul n A (mmul n B C)).
Proof.
  intros i j L M. unfold mmul.
  rewrite (ksum_ext _ (fun k => ksum (map (fun l => A i l * B l k * C k j) (seq 0 n)))).
  2:{ intros k _. now rewrite <- ksum_scale_r. }
  rewrite ksum_swap. apply ksum_ext. intros l _. rewrite <- ksum_scale. apply ksum_ext. intros k _. ring.
Qed.
Lemma mmul_eye_l n A : meqn n (mmul n meye A) A.
Proof.
  intros i j L M. unfold mmul, meye. rewrite (ksum_ext _ (fun k => if (i =? k)%nat then A k j else 0)).
  - now apply (sum_delta n (fun k => A k j)).
  - intros k _. destruct (i =? k)%nat; ring.
Qed.
Lemma mmul_eye_r n A : meqn n (mmul n A meye) A.
Proof.
  intros i j L M. unfold mmul, meye. rewrite (ksum_ext _ (fun k => if (j =? k)%nat then A i k else 0)).
  - now apply (sum_delta n (fun k => A i k)).
  - intros k _. rewrite Nat.eqb_sym. destruct (j =? k)%nat; ring.
Qed.
Lemma mmul_diag_r n A d i j : (j < n)%nat -> mmul n A (mdiag d) i j = A i j * d j.
Proof.
  intros M. unfold mmul, mdiag. rewrite (ksum_ext _ (fun k => if (j =? k)%nat then A i k * d k else 0)).
  - now apply (sum_delta n (fun k => A i k * d k)).
  - intros k _. rewrite Nat.eqb_sym. destruct (j =? k)%nat; ring.
Qed.
Lemma mmul_diag_l n A d i j : (i < n)%nat -> mmul n (mdiag d) A i j = d i * A i j.
Proof.
  intros M. unfold mmul, mdiag. rewrite (ksum_ext _ (fun k => if (i =? k)%nat then d i * A k j else 0)).
  - now apply (sum_delta n (fun k => d i * A k j)).
  - intros k _. destruct (i =? k)%nat; ring.
Qed.
Lemma meqn_refl n A : meqn n A A. Proof. now intros i j _ _. Qed.
Lemma meqn_sym n A B : meqn n A B -> meqn n B A. Proof. intros E i j L M. symmetry. now apply E. Qed.
Lemma meqn_trans n A B C : meqn n A B -> meqn n B C -> meqn n A C.
Proof. intros E F i j L M. rewrite E by assumption. now apply F. Qed.

(* v diag(d) u: entries *)
Lemma fmat_entry n v d u i j : (i < n)%nat -> (j < n)%nat ->
  mmul n (mmul n v (mdiag d)) u i j = ksum (map (fun k => v i k * d k * u k j) (seq 0 n)).
Proof.
  intros L M. unfold mmul at 1. apply ksum_ext. intros k I. apply in_seq in I. now rewrite mmul_diag_r by lia.
Qed.

Section Unique.
Variables (n : nat) (A : mat) (w w' : nat -> CR) (v u v' u' : mat).
Hypothesis AV : meqn n (mmul n A v) (fun i j => w j * v i j).
Hypothesis VU : meqn n (mmul n v u) meye.
Hypothesis UV : meqn n (mmul n u v) meye.
Hypothesis AV' : meqn n (mmul n A v') (fun i j => w' j * v' i j).
Hypothesis VU' : meqn n (mmul n v' u') meye.
Hypothesis UV' : meqn n (mmul n u' v') meye.

(* left eigenvectors *)
Lemma left_eig : meqn n (mmul n u A) (fun i j => w i * u i j).
Proof.
  (* u A = u A v u = u (v D) u = D u *)
  assert (E : meqn n (mmul n A v) (mmul n v (mdiag w))).
  { intros i j L M. rewrite AV, mmul_diag_r by assumption. ring. }
  apply meqn_trans with (mmul n (mmul n u A) (mmul n v u)).
  { apply meqn_sym. eapply meqn_trans; [apply mmul_ext; [apply meqn_refl|exact VU]|apply mmul_eye_r]. }
  eapply meqn_trans. { apply meqn_sym, mmul_assoc. }
  eapply meqn_trans. { apply mmul_ext; [|apply meqn_refl]. eapply meqn_trans; [apply mmul_assoc|].
    eapply meqn_trans; [apply mmul_ext; [apply meqn_refl|exact E]|].
    eapply meqn_trans; [apply meqn_sym, mmul_assoc|]. eapply meqn_trans; [apply mmul_ext; [exact UV|apply meqn_refl]|]. apply mmul_eye_l. }
  intros i j L M. now apply mmul_diag_l.
Qed.
(* S = u v' connects equal eigenvalues only *)
Lemma S_zero i j : (i < n)%nat -> (j < n)%nat -> mmul n u v' i j = 0 \/ w i = w' j.
Proof.
  intros L M.
  assert (E : w i * mmul n u v' i j = w' j * mmul n u v' i j).
  { transitivity (mmul n (mmul n u A) v' i j).
    - unfold mmul at 1. rewrite <- ksum_scale. unfold mmul at 1. apply ksum_ext. intros k I. apply in_seq in I.
      rewrite left_eig by lia. ring.
    - rewrite mmul_assoc by assumption. unfold mmul at 1 3. rewrite <- ksum_scale. apply ksum_ext. intros k I. apply in_seq in I.
      rewrite AV' by lia. ring. }
  destruct (kdec_spec CR (w i) (w' j)) as [?|Nw]; [now right|left].
  assert (F : (w i - w' j) * mmul n u v' i j = 0).
  { replace ((w i - w' j) * mmul n u v' i j) with (w i * mmul n u v' i j - w' j * mmul n u v' i j) by ring. rewrite E. ring. }
  apply kmul_integral in F as [F|F]; [|exact F]. exfalso. apply Nw.
  replace (w i) with (w i - w' j + w' j) by ring. rewrite F. ring.
Qed.
(* v' = v S *)
Lemma v'_vS : meqn n v' (mmul n v (mmul n u v')).
Proof.
  apply meqn_sym. eapply meqn_trans; [apply meqn_sym, mmul_assoc|].
  eapply meqn_trans; [apply mmul_ext; [exact VU|apply meqn_refl]|apply mmul_eye_l].
Qed.
Lemma Su'_u : meqn n (mmul n (mmul n u v') u') u.
Proof.
  eapply meqn_trans; [apply mmul_assoc|]. eapply meqn_trans; [apply mmul_ext; [apply meqn_refl|exact VU']|apply mmul_eye_r].
Qed.
Variable g : CR -> CR.
Theorem fmat_unique : meqn n (mmul n (mmul n v (mdiag (fun k => g (w k)))) u) (mmul n (mmul n v' (mdiag (fun k => g (w' k)))) u').
Proof.
  (* v' g(D') u' = v S g(D') u' = v g(D) S u' = v g(D) u *)
  apply meqn_sym.
  eapply meqn_trans. { apply mmul_ext; [|apply meqn_refl]. apply mmul_ext; [exact v'_vS|apply meqn_refl]. }
  eapply meqn_trans. { apply mmul_ext; [|apply meqn_refl]. eapply meqn_trans; [apply mmul_assoc|]. apply mmul_ext; [apply meqn_refl|].
    instantiate (1 := mmul n (mdiag (fun k => g (w k))) (mmul n u v')).
    intros i j L M. rewrite mmul_diag_r, mmul_diag_l by assumption.
    destruct (S_zero i j L M) as [->| ->]; ring. }
  eapply meqn_trans. { apply mmul_ext; [apply meqn_sym, mmul_assoc|apply meqn_refl]. }
  eapply meqn_trans; [apply mmul_assoc|]. apply mmul_ext; [apply meqn_refl|apply Su'_u].
Qed.
End Unique.

(* the QED part: v (phi(w_i, w_j) (u B v)_ij) u *)
Section Unique2.
Variables (n : nat) (A B : mat) (w w' : nat -> CR) (v u v' u' : mat).
Hypothesis AV : meqn n (mmul n A v) (fun i j => w j * v i j).
Hypothesis VU : meqn n (mmul n v u) meye.
Hypothesis UV : meqn n (mmul n u v) meye.
Hypothesis AV' : meqn n (mmul n A v') (fun i j => w' j * v' i j).
Hypothesis VU' : meqn n (mmul n v' u') meye.
Hypothesis UV' : meqn n (mmul n u' v') meye.
Variable phi : CR -> CR -> CR.
Definition kmat (w : nat -> CR) (v u : mat) : mat := fun i j => mmul n (mmul n u B) v i j * phi (w i) (w j).
Theorem kmat_unique :
  meqn n (mmul n (mmul n v (kmat w v u)) u) (mmul n (mmul n v' (kmat w' v' u')) u').
Proof.
  set (Sm := mmul n u v'). set (T := mmul n u' v).
  assert (ZS : forall i j, (i < n)%nat -> (j < n)%nat -> Sm i j = 0 \/ w i = w' j)
    by (intros; eapply S_zero; eassumption).
  assert (ZT : forall i j, (i < n)%nat -> (j < n)%nat -> T i j = 0 \/ w' i = w j)
    by (intros; eapply S_zero; eassumption).
  assert (Ev' : meqn n v' (mmul n v Sm)) by (apply v'_vS; assumption).
  assert (Eu : meqn n (mmul n Sm u') u) by (apply Su'_u; assumption).
  assert (Eu' : meqn n (mmul n T u) u') by (apply Su'_u; assumption).
  (* S K' = K S *)
  assert (SK : meqn n (mmul n Sm (kmat w' v' u')) (mmul n (kmat w v u) Sm)).
  { (* both are (S M')_ij phi(w_i, w'_j) = (M S)_ij phi(w_i, w'_j) *)
    set (M := mmul n (mmul n u B) v). set (M' := mmul n (mmul n u' B) v').
    assert (MS : meqn n (mmul n Sm M') (mmul n M Sm)).
    { apply meqn_trans with (mmul n (mmul n u B) v').
      - eapply meqn_trans; [apply meqn_sym, mmul_assoc|]. apply mmul_ext; [|apply meqn_refl].
        eapply meqn_trans; [apply meqn_sym, mmul_assoc|]. apply mmul_ext; [exact Eu|apply meqn_refl].
      - apply meqn_sym. eapply meqn_trans; [apply mmul_assoc|]. apply mmul_ext; [apply meqn_refl|]. now apply meqn_sym. }
    intros i j L N.
    transitivity (phi (w i) (w' j) * mmul n Sm M' i j).
    - unfold mmul at 1. unfold mmul at 1. rewrite <- ksum_scale. apply ksum_ext. intros k I. apply in_seq in I.
      unfold kmat. fold M'. destruct (ZS i k) as [->|E]; [lia|lia|ring|]. rewrite <- E. ring.
    - rewrite MS by assumption. unfold mmul at 1. unfold mmul at 1. rewrite <- ksum_scale. apply ksum_ext. intros k I. apply in_seq in I.
      unfold kmat. fold M. destruct (ZS k j) as [->|E]; [lia|lia|ring|]. rewrite <- E. ring. }
  apply meqn_sym.
  eapply meqn_trans. { apply mmul_ext; [|apply meqn_refl]. apply mmul_ext; [exact Ev'|apply meqn_refl]. }
  eapply meqn_trans. { apply mmul_ext; [|apply meqn_refl]. eapply meqn_trans; [apply mmul_assoc|]. apply mmul_ext; [apply meqn_refl|exact SK]. }
  eapply meqn_trans. { apply mmul_ext; [apply meqn_sym, mmul_assoc|apply meqn_refl]. }
  eapply meqn_trans; [apply mmul_assoc|]. apply mmul_ext; [apply meqn_refl|exact Eu].
Qed.
End Unique2.
