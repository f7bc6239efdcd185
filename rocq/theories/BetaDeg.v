(* How many Wilson coefficients each monomial of beta.py contains, and which. *)
From Coq Require Import List Bool ZArith QArith Arith Lia String Ascii Permutation.
From Verif Require Import PyBase Num SymModel EftModel EftSpec EftProofs EftProps NpModel NpProofs BetaModel BetaProg BetaNorm BetaSpec BetaSound BetaCov BetaFacts BetaProofs.
Import ListNotations.
Local Open Scope string_scope.
Local Open Scope list_scope.

Definition is_wc (f : fac) : bool := match fst (fst f) with FC k => dmem wc_fields k | _ => false end.
Definition wc_count (m : mono) : nat := List.length (filter is_wc (m_f m)).
Definition arity_chk (k : string) (n : nform) : bool := forallb (fun m => forallb arity_ok (m_f m)) (snd n).
Definition deg_chk (k : string) (n : nform) : bool :=
  forallb (fun m => if dmem wc_fields k then Nat.eqb (wc_count m) 1 else (wc_count m <=? 1)%nat) (snd n).
Definition charge_of (k : string) : Z * Z := match dget op_fields k with Some ts => charges ts | None => (0, 0)%Z end.
(* every Wilson coefficient in a monomial of beta[k] has the charges of k *)
Definition charge_chk (k : string) (n : nform) : bool :=
  forallb (fun m => forallb (fun f => match fst (fst f) with
    | FC j => if dmem wc_fields j then keqb (charge_of j) (charge_of k) else true | _ => true end) (m_f m)) (snd n).
Lemma beta_arity : all_entries (beta_nf true) arity_chk = true. Proof. vm_compute. reflexivity. Qed.
Lemma beta_deg : all_entries (beta_nf true) deg_chk = true. Proof. vm_compute. reflexivity. Qed.
Lemma beta_charge : all_entries (beta_nf true) charge_chk = true. Proof. vm_compute. reflexivity. Qed.
(* with new physics switched off the SM entries are the same *)
Definition fname_eqb (a b : fname) : bool :=
  match a, b with FC j, FC k => String.eqb j k | FI3, FI3 | FH, FH | FHinv, FHinv => true | _, _ => false end.
Lemma fname_eqb_spec a b : reflect (a = b) (fname_eqb a b).
Proof.
  destruct a as [j| | |], b as [k| | |]; cbn; try (constructor; congruence).
  destruct (String.eqb_spec j k); constructor; congruence.
Qed.
#[global] Instance EqKey_fname : EqKey fname := {| keqb := fname_eqb; keqb_spec := fname_eqb_spec |}.
Definition mono_eqb (a b : mono) : bool :=
  keqb (Qnum (m_re a), QDen (m_re a), (Qnum (m_im a), QDen (m_im a))) (Qnum (m_re b), QDen (m_re b), (Qnum (m_im b), QDen (m_im b))) &&
  Nat.eqb (m_b a) (m_b b) && keqb (m_f a) (m_f b).
Lemma mono_eqb_spec a b : reflect (a = b) (mono_eqb a b).
Proof.
  destruct a as [[p q] [r s] n f], b as [[p' q'] [r' s'] n' f']. unfold mono_eqb. cbn [m_re m_im m_b m_f Qnum Qden].
  destruct (keqb_spec (p, Zpos q, (r, Zpos s)) (p', Zpos q', (r', Zpos s'))) as [E|E]; [|constructor; congruence].
  destruct (Nat.eqb_spec n n') as [E1|E1]; [|constructor; congruence].
  destruct (keqb_spec f f') as [E2|E2]; constructor; congruence.
Qed.
#[global] Instance EqKey_mono : EqKey mono := {| keqb := mono_eqb; keqb_spec := mono_eqb_spec |}.
Definition same_entries (o o' : option (dict string nform)) (ks : list string) : bool :=
  match o, o' with
  | Some R, Some R' => forallb (fun k => keqb (dget R k) (dget R' k)) ks
  | _, _ => false
  end.
Lemma beta_same_sm : same_entries (beta_nf false) (beta_nf true) (dkeys sm_fields) = true. Proof. vm_compute. reflexivity. Qed.
Lemma same_entries_spec o o' R R' ks k : same_entries o o' ks = true -> o = Some R -> o' = Some R' -> In k ks -> dget R k = dget R' k.
Proof. intros F -> -> IN. cbn [same_entries] in F. rewrite forallb_forall in F. apply F in IN. now apply keqb_true in IN. Qed.

Section Deg.
Context {K : StarField}.
Local Open Scope K_scope.
Add Field KFbd : (k_field K).
Notation cdict := (dict string (cval K)).

Lemma kprod_deg0 {A} (P : A -> bool) (f g : A -> K) fs : filter P fs = [] ->
  (forall x, In x fs -> P x = false -> f x = g x) -> kprod (map f fs) = kprod (map g fs).
Proof.
  intros E H. apply kprod_ext. intros x X. apply H; [exact X|]. destruct (P x) eqn:PX; [|reflexivity].
  assert (In x (filter P fs)) by (apply filter_In; auto). rewrite E in H0. destruct H0.
Qed.
Lemma kprod_deg1 {A} (P : A -> bool) (a b : K) (f f1 f2 : A -> K) fs : List.length (filter P fs) = 1%nat ->
  (forall x, In x fs -> P x = false -> f x = f1 x /\ f x = f2 x) ->
  (forall x, In x fs -> P x = true -> f x = a * f1 x + b * f2 x) ->
  kprod (map f fs) = a * kprod (map f1 fs) + b * kprod (map f2 fs).
Proof.
  induction fs as [|x fs IH]; intros L N Y; [discriminate|]. cbn [map filter] in *. rewrite !kprod_cons.
  destruct (P x) eqn:PX.
  - cbn [List.length] in L. injection L as L. apply length_zero_iff_nil in L.
    rewrite (Y x (or_introl eq_refl) PX).
    rewrite <- (kprod_deg0 P f f1 fs L) by (intros y Hy Py; now apply (N y (or_intror Hy) Py)).
    rewrite <- (kprod_deg0 P f f2 fs L) by (intros y Hy Py; now apply (N y (or_intror Hy) Py)). ring.
  - destruct (N x (or_introl eq_refl) PX) as [E1 E2]. rewrite (IH L).
    + rewrite <- E1, <- E2. ring.
    + intros y Hy. apply N. now right.
    + intros y Hy. apply Y. now right.
Qed.

(* a point with the SM parameters of C1 and C2, and the Wilson coefficients a C1 + b C2 *)
Definition combination (a b : K) (C1 C2 C : cdict) : Prop :=
  (forall k, In k (dkeys sm_fields) -> same k C C1 /\ same k C C2) /\
  (forall k I, In k (dkeys wc_fields) -> In I (indices_of k) -> coef C k I = a * coef C1 k I + b * coef C2 k I).

Lemma fname_split k : dget op_fields k <> None -> In k (dkeys sm_fields) /\ dmem wc_fields k = false \/ In k (dkeys wc_fields) /\ dmem wc_fields k = true.
Proof.
  intros N. assert (IN : In k (dkeys op_fields)) by (destruct (dget op_fields k) eqn:E; [now apply dget_Some_key in E|congruence]).
  unfold dmem. destruct (kmem k (dkeys wc_fields)) eqn:M; [right; split; [now apply kmem_In|reflexivity]|]. left. split; [|reflexivity].
  apply kmem_nIn in M. unfold op_fields, dkeys in IN. rewrite map_app in IN. apply in_app_iff in IN as [IN|IN]; [exact IN|contradiction].
Qed.
Lemma fac_index f z : arity_ok f = true -> (forall x, In x z -> (x < 3)%nat) -> forall k, fst (fst f) = FC k ->
  dget op_fields k <> None /\ In (map (fun l => nth l z 0%nat) (snd f)) (indices_of k).
Proof.
  unfold arity_ok. intros A HZ k E. rewrite E in A. destruct (dget op_fields k) as [ts|] eqn:T; [|discriminate]. split; [congruence|].
  apply Nat.eqb_eq in A. rewrite (indices_of_idxs k ts T). apply in_idxs. rewrite map_length. split; [exact A|].
  intros x X. apply in_map_iff in X as (l & <- & _). now apply nth_lt3.
Qed.
Lemma fval_comb a b (C1 C2 C : cdict) H z f : combination a b C1 C2 C -> kreal a -> kreal b -> arity_ok f = true ->
  (forall x, In x z -> (x < 3)%nat) ->
  if is_wc f then fval (venv C H) z f = a * fval (venv C1 H) z f + b * fval (venv C2 H) z f
  else fval (venv C H) z f = fval (venv C1 H) z f /\ fval (venv C H) z f = fval (venv C2 H) z f.
Proof.
  intros [S W] RA RB A HZ. pose proof (fac_index f z A HZ) as FI. unfold is_wc. destruct f as [[n c] L]. cbn [fst snd] in *.
  destruct n as [k| | |]; try (split; reflexivity). destruct (FI k eq_refl) as [N IN].
  destruct (fname_split k N) as [[IS ->]|[IW ->]].
  - destruct (S k IS) as [S1 S2]. split; apply fval_agree; cbn [fst snd venv]; [apply S1|apply S2]; exact IN.
  - unfold fval. cbn [fst snd].
    pose proof (W k _ IW IN) as E. change (coef C k) with (venv C H (FC k)) in E. change (coef C1 k) with (venv C1 H (FC k)) in E.
    change (coef C2 k) with (venv C2 H (FC k)) in E. rewrite E. destruct c; [|reflexivity].
    rewrite kconj_add, !kconj_mul, RA, RB. reflexivity.
Qed.
Lemma mval_comb a b (C1 C2 C : cdict) H m I : combination a b C1 C2 C -> kreal a -> kreal b ->
  forallb arity_ok (m_f m) = true -> (forall x, In x I -> (x < 3)%nat) ->
  (wc_count m = 1%nat -> mval (venv C H) m I = a * mval (venv C1 H) m I + b * mval (venv C2 H) m I) /\
  (wc_count m = 0%nat -> mval (venv C H) m I = mval (venv C1 H) m I /\ mval (venv C H) m I = mval (venv C2 H) m I).
Proof.
  intros CB RA RB AR HI. rewrite forallb_forall in AR.
  assert (HZ : forall x, In x (idxs (m_b m)) -> forall y, In y (I ++ x) -> (y < 3)%nat).
  { intros x Hx y Y. apply in_app_iff in Y as [Y|Y]; [now apply HI|]. apply in_idxs in Hx. now apply Hx. }
  assert (FV : forall x f, In x (idxs (m_b m)) -> In f (m_f m) ->
     if is_wc f then fval (venv C H) (I ++ x) f = a * fval (venv C1 H) (I ++ x) f + b * fval (venv C2 H) (I ++ x) f
     else fval (venv C H) (I ++ x) f = fval (venv C1 H) (I ++ x) f /\ fval (venv C H) (I ++ x) f = fval (venv C2 H) (I ++ x) f).
  { intros x f Hx Hf. exact (fval_comb a b C1 C2 C H (I ++ x) f CB RA RB (AR f Hf) (HZ x Hx)). }
  split; intros CT; unfold wc_count in CT; unfold mval.
  - assert (E : ksum (map (fun x => kprod (map (fval (venv C H) (I ++ x)) (m_f m))) (idxs (m_b m))) =
       a * ksum (map (fun x => kprod (map (fval (venv C1 H) (I ++ x)) (m_f m))) (idxs (m_b m))) +
       b * ksum (map (fun x => kprod (map (fval (venv C2 H) (I ++ x)) (m_f m))) (idxs (m_b m)))).
    { rewrite <- !ksum_scale, <- ksum_add. apply ksum_ext. intros x Hx. apply (kprod_deg1 is_wc); [exact CT| |];
        intros f Hf W; specialize (FV x f Hx Hf); rewrite W in FV; exact FV. }
    rewrite E. ring.
  - apply length_zero_iff_nil in CT. split; f_equal; apply ksum_ext; intros x Hx; apply (kprod_deg0 is_wc); auto;
      intros f Hf W; specialize (FV x f Hx Hf); rewrite W in FV; apply FV.
Qed.
Lemma nval_comb a b (C1 C2 C : cdict) H k n I : combination a b C1 C2 C -> kreal a -> kreal b ->
  arity_chk k n = true -> deg_chk k n = true -> (forall x, In x I -> (x < 3)%nat) ->
  (dmem wc_fields k = true \/ a + b = 1) ->
  nval (venv C H) n I = a * nval (venv C1 H) n I + b * nval (venv C2 H) n I.
Proof.
  intros CB RA RB AR DG HI AB. unfold nval. rewrite <- !ksum_scale, <- ksum_add. apply ksum_ext. intros m Hm.
  unfold arity_chk in AR. unfold deg_chk in DG. rewrite forallb_forall in AR, DG. specialize (AR m Hm). specialize (DG m Hm).
  cbn beta in *. destruct (mval_comb a b C1 C2 C H m I CB RA RB AR HI) as [M1 M0].
  destruct (dmem wc_fields k).
  - apply Nat.eqb_eq in DG. now apply M1.
  - apply Nat.leb_le in DG. destruct AB as [AB|AB]; [discriminate|].
    destruct (wc_count m) as [|[|]] eqn:CT; [|now apply M1|lia].
    destruct (M0 eq_refl) as [E1 E2]. rewrite <- E1, <- E2. replace (a * mval (venv C H) m I + b * mval (venv C H) m I) with ((a + b) * mval (venv C H) m I) by ring. rewrite AB. ring.
Qed.

(* only the coefficients of the same charges matter *)
Lemma nval_charge (C C' : cdict) H k n I : arity_chk k n = true -> charge_chk k n = true -> (forall x, In x I -> (x < 3)%nat) ->
  (forall j, In j (dkeys sm_fields) -> same j C C') ->
  (forall j, In j (dkeys wc_fields) -> charge_of j = charge_of k -> same j C C') ->
  nval (venv C H) n I = nval (venv C' H) n I.
Proof.
  intros AR CH HI S W. unfold nval. apply ksum_ext. intros m Hm. unfold arity_chk in AR. unfold charge_chk in CH.
  rewrite forallb_forall in AR, CH. specialize (AR m Hm). specialize (CH m Hm). cbn beta in *. rewrite forallb_forall in AR, CH.
  apply mval_agree; [|exact HI]. intros f z Hf HZ. specialize (AR f Hf). specialize (CH f Hf). cbn beta in CH.
  apply same_fval; auto. intros j EJ. destruct (fac_index f z AR HZ j EJ) as [N _]. rewrite EJ in CH.
  destruct (fname_split j N) as [[IS _]|[IW M]]; [now apply S|]. rewrite M in CH. apply keqb_true in CH. now apply W.
Qed.
End Deg.
