(* The complex numbers over the real numbers of Coq's standard library: the star field in
   which the functions log, sqrt and the constant pi of Python's math module live. *)
From Coq Require Import List Bool ZArith Reals Field Lra Psatz.
From Verif Require Import PyBase Num.
Import ListNotations.
Local Open Scope R_scope.

Definition cx : Type := (R * R)%type.
Definition cx_add (x y : cx) : cx := (fst x + fst y, snd x + snd y).
Definition cx_mul (x y : cx) : cx := (fst x * fst y - snd x * snd y, fst x * snd y + snd x * fst y).
Definition cx_opp (x : cx) : cx := (- fst x, - snd x).
Definition cx_sub (x y : cx) : cx := (fst x - fst y, snd x - snd y).
Definition cx_n2 (x : cx) : R := fst x * fst x + snd x * snd x.
Definition cx_inv (x : cx) : cx := (fst x / cx_n2 x, - snd x / cx_n2 x).
Definition cx_div (x y : cx) : cx := cx_mul x (cx_inv y).
Definition cx_conj (x : cx) : cx := (fst x, - snd x).
Definition cx_eqb (x y : cx) : bool := if Req_EM_T (fst x) (fst y) then if Req_EM_T (snd x) (snd y) then true else false else false.
Lemma cx_eqb_spec x y : reflect (x = y) (cx_eqb x y).
Proof.
  destruct x as [a b], y as [c d]. unfold cx_eqb. cbn [fst snd].
  destruct (Req_EM_T a c) as [->|N]; [destruct (Req_EM_T b d) as [->|N]|]; constructor; congruence.
Qed.
Lemma cx_n2_neq0 x : x <> (0, 0) -> cx_n2 x <> 0.
Proof. destruct x as [a b]. unfold cx_n2. cbn [fst snd]. intros N E. apply N. assert (a = 0) by nra. assert (b = 0) by nra. now subst. Qed.
Lemma cx_field : field_theory (0, 0) (1, 0) cx_add cx_mul cx_sub cx_opp cx_div cx_inv eq.
Proof.
  constructor.
  - constructor; repeat (intros [? ?]); unfold cx_add, cx_mul, cx_sub, cx_opp; cbn [fst snd]; f_equal; ring.
  - intros E. injection E. intros. lra.
  - reflexivity.
  - intros x N. pose proof (cx_n2_neq0 x N) as M. destruct x as [a b]. unfold cx_mul, cx_inv, cx_n2 in *. cbn [fst snd] in *.
    f_equal; field; exact M.
Qed.
Lemma cx_pos p : exists r, 0 < r /\ gen_pos (1, 0) cx_add p = (r, 0).
Proof.
  induction p as [p (r & L & E)|p (r & L & E)|]; cbn [gen_pos].
  - rewrite E. exists (1 + (r + r)). split; [lra|]. unfold cx_add. cbn [fst snd]. f_equal; ring.
  - rewrite E. exists (r + r). split; [lra|]. unfold cx_add. cbn [fst snd]. f_equal; ring.
  - exists 1. split; [lra|reflexivity].
Qed.
Definition CR : StarField.
Proof.
  refine {| car := cx; k0 := (0, 0); k1 := (1, 0); kadd := cx_add; kmul := cx_mul; ksub := cx_sub;
            kopp := cx_opp; kdiv := cx_div; kinv := cx_inv; kconj := cx_conj; ki := (0, 1);
            kdec := cx_eqb; k_field := cx_field; kdec_spec := cx_eqb_spec |}.
  - intros [a b] [c d]; unfold cx_conj, cx_add; cbn [fst snd]; f_equal; ring.
  - intros [a b] [c d]; unfold cx_conj, cx_mul; cbn [fst snd]; f_equal; ring.
  - intros [a b]; unfold cx_conj; cbn [fst snd]; f_equal; ring.
  - unfold cx_mul, cx_opp; cbn [fst snd]; f_equal; ring.
  - unfold cx_conj, cx_opp; cbn [fst snd]; f_equal; ring.
  - intros p E. destruct (cx_pos p) as (r & L & F). pose proof (eq_trans (eq_sym F) E) as G. injection G. intros. lra.
Defined.
(* a real number as a complex number *)
Definition rc (r : R) : CR := (r, 0).
Lemma rc_inj a b : rc a = rc b -> a = b.
Proof. intros E. now injection E. Qed.
Lemma rc_0 : rc 0 = k0. Proof. reflexivity. Qed.
Lemma rc_1 : rc 1 = k1. Proof. reflexivity. Qed.
Lemma rc_add a b : rc (a + b) = kadd (rc a) (rc b).
Proof. unfold rc. cbn. unfold cx_add. cbn [fst snd]. f_equal. ring. Qed.
Lemma rc_mul a b : rc (a * b) = kmul (rc a) (rc b).
Proof. unfold rc. cbn. unfold cx_mul. cbn [fst snd]. f_equal; ring. Qed.
Lemma rc_opp a : rc (- a) = kopp (rc a).
Proof. unfold rc. cbn. unfold cx_opp. cbn [fst snd]. f_equal; ring. Qed.
Lemma rc_sub a b : rc (a - b) = ksub (rc a) (rc b).
Proof. unfold rc. cbn. unfold cx_sub. cbn [fst snd]. f_equal; ring. Qed.
Lemma rc_inv a : a <> 0 -> rc (/ a) = kinv (rc a).
Proof. intros N. unfold rc. cbn. unfold cx_inv, cx_n2. cbn [fst snd]. f_equal; field; exact N. Qed.
Lemma rc_div a b : b <> 0 -> rc (a / b) = kdiv (rc a) (rc b).
Proof. intros N. unfold Rdiv. rewrite rc_mul, rc_inv by exact N. reflexivity. Qed.
Lemma rc_real a : kconj (rc a) = rc a.
Proof. unfold rc. cbn. unfold cx_conj. cbn [fst snd]. f_equal. ring. Qed.
