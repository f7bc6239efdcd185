(* Rational linear forms over atoms, with a sound equality test (reflection tool;
   nothing here models the code). *)
From Coq Require Import List Bool ZArith QArith Lia.
From Verif Require Import PyBase Num.
Import ListNotations.

#[global] Arguments kQ : simpl never.
#[global] Arguments Qred : simpl never.

Section Lin.
Context {A : Type} `{EqKey A}.
Definition lin := list (Q * A).
Definition lscale (q : Q) (l : lin) : lin := map (fun x => (Qred (q * fst x), snd x)) l.
Fixpoint linsert (q : Q) (a : A) (l : lin) : lin :=
  match l with
  | [] => [(q, a)]
  | (q', a') :: r => if keqb a a' then (Qred (q + q'), a') :: r else (q', a') :: linsert q a r
  end.
Definition lnorm (l : lin) : lin :=
  filter (fun x => negb (Qeq_bool (fst x) 0)) (fold_right (fun x r => linsert (fst x) (snd x) r) [] l).
Definition ladd (l l' : lin) : lin := lnorm (l ++ l').
Definition lzero (l : lin) : bool := forallb (fun x => Qeq_bool (fst x) 0) (lnorm l).
Definition leqb (l l' : lin) : bool := lzero (l ++ lscale (-1) l').
Definition lsum (ls : list (Q * lin)) : lin := lnorm (flat_map (fun x => lscale (fst x) (snd x)) ls).

Context {K : StarField}.
Local Open Scope K_scope.
Add Field KF1 : (k_field K).
Fixpoint ldenote (f : A -> K) (l : lin) : K :=
  match l with [] => 0 | (q, a) :: r => kQ q * f a + ldenote f r end.

Lemma kQ_red q : @kQ K (Qred q) = kQ q.
Proof. apply kQ_Qeq, Qred_correct. Qed.
Lemma ldenote_app f l l' : ldenote f (l ++ l') = ldenote f l + ldenote f l'.
Proof. induction l as [|[q a] l IH]; simpl; [ring|rewrite IH; ring]. Qed.
Lemma ldenote_scale f q l : ldenote f (lscale q l) = kQ q * ldenote f l.
Proof.
  induction l as [|[q' a] l IH]; simpl; [ring|].
  rewrite IH, kQ_red, kQ_mul. ring.
Qed.
Lemma ldenote_insert f q a l : ldenote f (linsert q a l) = kQ q * f a + ldenote f l.
Proof.
  induction l as [|[q' a'] l IH]; simpl; [ring|].
  destruct (keqb_spec a a') as [->|]; simpl.
  - rewrite kQ_red, kQ_add. ring.
  - rewrite IH. ring.
Qed.
Lemma ldenote_filter f l : ldenote f (filter (fun x => negb (Qeq_bool (fst x) 0)) l) = ldenote f l.
Proof.
  induction l as [|[q a] l IH]; simpl; [reflexivity|].
  destruct (Qeq_bool q 0) eqn:E; simpl; rewrite IH; [|reflexivity].
  apply Qeq_bool_eq in E. rewrite (kQ_Qeq _ _ E), kQ_0. ring.
Qed.
Lemma ldenote_norm f l : ldenote f (lnorm l) = ldenote f l.
Proof.
  unfold lnorm. rewrite ldenote_filter. induction l as [|[q a] l IH]; simpl; [reflexivity|].
  now rewrite ldenote_insert, IH.
Qed.
Lemma ldenote_add f l l' : ldenote f (ladd l l') = ldenote f l + ldenote f l'.
Proof. unfold ladd. now rewrite ldenote_norm, ldenote_app. Qed.
Lemma lzero_sound f l : lzero l = true -> ldenote f l = 0.
Proof.
  unfold lzero. intros Z. rewrite <- ldenote_norm. induction (lnorm l) as [|[q a] r IH]; simpl in *; [reflexivity|].
  apply andb_prop in Z as [Z1 Z2]. apply Qeq_bool_eq in Z1. rewrite (kQ_Qeq _ _ Z1), kQ_0, IH by assumption. ring.
Qed.
Lemma leqb_sound f l l' : leqb l l' = true -> ldenote f l = ldenote f l'.
Proof.
  unfold leqb. intros Z. apply (lzero_sound f) in Z. rewrite ldenote_app, ldenote_scale in Z.
  replace (ldenote f l) with (ldenote f l + kQ (-1) * ldenote f l' + ldenote f l').
  - rewrite Z. ring.
  - change (-1)%Q with (- (1))%Q. rewrite kQ_opp, kQ_1. ring.
Qed.
Lemma ldenote_sum f ls :
  ldenote f (lsum ls) = fold_right (fun x r => kQ (fst x) * ldenote f (snd x) + r) 0 ls.
Proof.
  unfold lsum. rewrite ldenote_norm. induction ls as [|[q l] ls IH]; simpl; [reflexivity|].
  now rewrite ldenote_app, ldenote_scale, IH.
Qed.
Lemma ldenote_real f l : (forall a, kreal (f a)) -> kreal (ldenote f l).
Proof.
  intros R. induction l as [|[q a] l IH]; simpl; [apply kreal_0|].
  apply kreal_add; [apply kreal_mul; [apply kreal_Q|apply R]|exact IH].
Qed.
Lemma ldenote_ext f g l : (forall a, In a (map snd l) -> f a = g a) -> ldenote f l = ldenote g l.
Proof.
  induction l as [|[q a] l IH]; simpl; intros E; [reflexivity|].
  rewrite E by (now left). rewrite IH by (intros; apply E; now right). reflexivity.
Qed.
End Lin.
Arguments lin A : clear implicits.
