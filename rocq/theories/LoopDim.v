(* Proof of the dimensional homogeneity of the one-loop matching. *)
From Coq Require Import List Bool ZArith Arith Lia String Ascii Field.
From Verif Require Import PyBase Num SymModel EftModel EftProofs NpModel NpProofs BetaSpec BetaModel TreeModel TreeSpec TreeProofs LoopSyntax LoopData LoopModel LoopSpec LoopProofs.
Import ListNotations.
Local Open Scope string_scope.
Local Open Scope list_scope.

Definition bdim (b : base) : Z := match b with BW | BZ | BH | Bt | Bv => 1 | _ => 0 end%Z.
Definition zsum (l : list Z) : Z := fold_right Z.add 0%Z l.
Definition powers_dim (l : powers) : Z := zsum (map (fun bn => bdim (fst bn) * snd bn)%Z l).
Definition psum_dim (s : psum) : Z := match s with [] => 0%Z | t :: _ => powers_dim (snd t) end.
Definition psum_homog (s : psum) : bool := forallb (fun t => Z.eqb (powers_dim (snd t)) (psum_dim s)) s.
Definition mono_dim (m : mono) : Z := (powers_dim (fst m) + zsum (map (fun sn => psum_dim (fst sn) * snd sn) (snd m)))%Z.
Definition mono_homog (d : Z) (m : mono) : bool := Z.eqb (mono_dim m) d && forallb (fun sn => psum_homog (fst sn)) (snd m).
Definition pref_homog (d : Z) (p : pref) : bool := forallb (fun t => let 'T _ _ m := t in mono_homog d m) p.
Definition odim (o : opnd) : Z := match o with OC _ => -2 | OM _ | OD _ => 1 | _ => 0 end%Z.
Definition wdim (w : option string) : Z := match w with Some _ => -2 | None => 0 end%Z.
Definition tdim (t : option tensor) : Z := match t with Some t => zsum (map odim (snd t)) | None => 0%Z end.
(* two-fermion (dipole) coefficients have dimension -1, the others -2 *)
Definition kdim (ts : list jslot) : Z := match ts with [_; _] => -1 | _ => -2 end%Z.
Definition group_homog (d : Z) (g : group) : bool := let '(t, w, p) := g in pref_homog (d - wdim w - tdim t) p.
Definition kg_homog (kg : string * list group) : bool :=
  match dget jms_fields (fst kg) with Some ts => forallb (group_homog (kdim ts)) (snd kg) | None => false end.
Lemma prog_homog_true : forallb kg_homog loop_prog = true.
Proof. vm_cast_no_check (eq_refl true). Qed.
Lemma sums_homog_true : forallb psum_homog loop_sums = true.
Proof. vm_cast_no_check (eq_refl true). Qed.

Section Gen.
Context {K : StarField}.
Local Open Scope K_scope.
Add Field KFdm : (k_field K) (morphism (kZ_morph (K := K)), constants [kz_const]).
Notation cdict := (dict string (cval K)).
Lemma kpow_neq0 (x : K) n : x <> 0 -> kpow x n <> 0.
Proof. intros N. induction n as [|n IH]; cbn [kpow]; [apply k_1_neq_0|now apply kmul_neq_0]. Qed.
Lemma kpow_mul (x y : K) n : kpow (x * y) n = kpow x n * kpow y n.
Proof. induction n as [|n IH]; cbn [kpow]; [ring|rewrite IH; ring]. Qed.
Lemma kpow_add (x : K) a b : kpow x (a + b) = kpow x a * kpow x b.
Proof. induction a as [|a IH]; cbn [kpow Nat.add]; [ring|rewrite IH; ring]. Qed.
Lemma zpw_mul (x y : K) n : ((n < 0)%Z -> x <> 0 /\ y <> 0) -> zpw (x * y) n = zpw x n * zpw y n.
Proof.
  destruct n as [|p|p]; cbn [zpw]; intros H; [ring|apply kpow_mul|]. destruct H as [NX NY]; [lia|]. rewrite kpow_mul. field.
  split; now apply kpow_neq0.
Qed.
Lemma zpw_neq0 (x : K) n : x <> 0 -> zpw x n <> 0.
Proof.
  intros N. destruct n as [|p|p]; cbn [zpw]; [apply k_1_neq_0|now apply kpow_neq0|]. pose proof (kpow_neq0 x (Pos.to_nat p) N) as NK. intros E.
  apply (k_1_neq_0 (K := K)). transitivity (1 / kpow x (Pos.to_nat p) * kpow x (Pos.to_nat p)); [field; exact NK|]. rewrite E. ring.
Qed.
Lemma zpw_succ (x : K) n : x <> 0 -> zpw x (n + 1) = x * zpw x n.
Proof.
  intros N. destruct n as [|p|p].
  - change (0 + 1)%Z with 1%Z. cbn [zpw]. change (Pos.to_nat 1) with 1%nat. cbn [kpow]. ring.
  - change (Z.pos p + 1)%Z with (Z.pos (p + 1)). cbn [zpw]. rewrite Pos2Nat.inj_add. rewrite kpow_add. change (Pos.to_nat 1) with 1%nat. cbn [kpow]. ring.
  - destruct (Pos.eq_dec p 1) as [->|NE].
    + change (-1 + 1)%Z with 0%Z. cbn [zpw]. change (Pos.to_nat 1) with 1%nat. cbn [kpow]. field. exact N.
    + replace (Z.neg p + 1)%Z with (Z.neg (p - 1)) by lia. cbn [zpw]. rewrite Pos2Nat.inj_sub by lia.
      assert (EQ : kpow x (Pos.to_nat p) = x * kpow x (Pos.to_nat p - Pos.to_nat 1)).
      { change (x * kpow x (Pos.to_nat p - Pos.to_nat 1)) with (kpow x (S (Pos.to_nat p - Pos.to_nat 1))). f_equal. lia. }
      rewrite EQ. field. split; [now apply kpow_neq0|exact N].
Qed.
Lemma zpw_pred (x : K) n : x <> 0 -> x * zpw x (n - 1) = zpw x n.
Proof. intros N. rewrite <- (zpw_succ x (n - 1) N). f_equal. lia. Qed.
Lemma zpw_add (x : K) a b : x <> 0 -> zpw x (a + b) = zpw x a * zpw x b.
Proof.
  intros N. revert b. induction a as [|a IH|a IH] using Z.peano_ind; intros b.
  - cbn [Z.add zpw]. ring.
  - replace (Z.succ a + b)%Z with ((a + b) + 1)%Z by lia. unfold Z.succ. rewrite !zpw_succ, IH by exact N. ring.
  - assert (E : x * zpw x (Z.pred a + b) = x * (zpw x (Z.pred a) * zpw x b)).
    { replace (Z.pred a + b)%Z with ((a + b) - 1)%Z by lia. rewrite zpw_pred, IH by exact N. replace (Z.pred a) with (a - 1)%Z by lia.
      rewrite <- (zpw_pred x a N). ring. }
    apply (f_equal (fun y => kinv x * y)) in E. transitivity (kinv x * (x * zpw x (Z.pred a + b))); [field; exact N|]. rewrite E. field. exact N.
Qed.
Lemma zpw_1 n : zpw (1 : K) n = 1.
Proof.
  assert (H : forall m, kpow (1 : K) m = 1) by (induction m as [|m IH]; cbn [kpow]; [reflexivity|rewrite IH; ring]).
  destruct n; cbn [zpw]; rewrite ?H; [reflexivity|reflexivity|field; apply k_1_neq_0].
Qed.
Lemma zpw_pow (x : K) a b : x <> 0 -> zpw (zpw x a) b = zpw x (a * b).
Proof.
  intros N. pose proof (zpw_neq0 x a N) as NA. induction b as [|b IH|b IH] using Z.peano_ind.
  - now rewrite Z.mul_0_r.
  - unfold Z.succ. rewrite zpw_succ, IH by exact NA. rewrite <- zpw_add by exact N. f_equal. lia.
  - assert (E : zpw x a * zpw (zpw x a) (Z.pred b) = zpw x a * zpw x (a * Z.pred b)).
    { replace (Z.pred b) with (b - 1)%Z by lia. rewrite zpw_pred, IH by exact NA. rewrite <- zpw_add by exact N. f_equal. lia. }
    apply (f_equal (fun y => kinv (zpw x a) * y)) in E. transitivity (kinv (zpw x a) * (zpw x a * zpw (zpw x a) (Z.pred b))); [field; exact NA|].
    rewrite E. field. exact NA.
Qed.

Variable x : K.
Hypothesis NX : x <> 0.
Variables val val' : base -> K.
Hypothesis HD : forall b, dbase b = true -> val b <> 0.
Hypothesis HS : forall s, In s loop_sums -> vpsum val s <> 0.
Hypothesis HB : forall b, val' b = zpw x (bdim b) * val b.
Lemma powers_scale l : powers_ok l = true -> vpowers val' l = zpw x (powers_dim l) * vpowers val l.
Proof.
  induction l as [|[b n] l IH]; intros OK; [unfold vpowers, powers_dim, kprod; cbn; ring|].
  unfold powers_ok in OK. cbn [forallb fst snd] in OK. apply andb_true_iff in OK as [O OK]. specialize (IH OK).
  unfold vpowers, powers_dim in *. cbn [map zsum fold_right fst snd]. rewrite !kprod_cons, IH. cbn [fst snd].
  rewrite HB, zpw_mul, zpw_pow by (exact NX || (intros LN; split; [now apply zpw_neq0|]; apply HD; apply orb_true_iff in O as [O|O]; [lia|exact O])).
  rewrite zpw_add by exact NX. unfold zsum. ring.
Qed.
Lemma psum_scale s : psum_ok s = true -> psum_homog s = true -> vpsum val' s = zpw x (psum_dim s) * vpsum val s.
Proof.
  unfold psum_ok, psum_homog. generalize (psum_dim s). intros d. rewrite !forallb_forall. intros OK H. unfold vpsum. rewrite <- ksum_scale.
  apply ksum_ext. intros t Ht. rewrite (powers_scale _ (OK t Ht)). specialize (H t Ht). apply Z.eqb_eq in H as ->. ring.
Qed.
Lemma mono_scale d m : mono_ok m = true -> mono_homog d m = true -> vmono val' m = zpw x d * vmono val m.
Proof.
  unfold mono_ok, mono_homog. rewrite !andb_true_iff. intros [P S] [D H]. apply Z.eqb_eq in D as <-. unfold vmono, mono_dim.
  rewrite (powers_scale _ P), zpw_add by exact NX.
  assert (E : kprod (map (fun sn => zpw (vpsum val' (fst sn)) (snd sn)) (snd m)) =
    zpw x (zsum (map (fun sn => psum_dim (fst sn) * snd sn)%Z (snd m))) * kprod (map (fun sn => zpw (vpsum val (fst sn)) (snd sn)) (snd m))).
  { clear P. revert S H. induction (snd m) as [|[s n] l IH]; cbn [forallb map zsum fold_right fst snd]; [intros _ _; unfold kprod; cbn; ring|].
    rewrite !andb_true_iff. intros [[S1 S2] S] [H1 H]. rewrite !kprod_cons. fold (zsum (map (fun sn => (psum_dim (fst sn) * snd sn)%Z) l)).
    rewrite (IH S H), (psum_scale s S1 H1). cbn [fst snd].
    rewrite zpw_mul, zpw_pow, zpw_add by (exact NX || (intros _; split; [now apply zpw_neq0|]; apply existsb_exists in S2 as (s' & I & E); apply psum_eqb_eq in E as ->; now apply HS)).
    ring. }
  rewrite E. ring.
Qed.
Lemma pref_scale d p : pref_ok p = true -> pref_homog d p = true -> vpref val' p = zpw x d * vpref val p.
Proof.
  unfold pref_ok, pref_homog. rewrite !forallb_forall. intros OK H. unfold vpref. rewrite <- ksum_scale. apply ksum_ext.
  intros [n q m] I. cbn [vterm]. rewrite (mono_scale d m (OK _ I) (H _ I)). ring.
Qed.
(* ---------- tensors ---------- *)
Variables (V : nat -> nat -> K) (mass mass' : field -> nat -> K) (c c' : string -> idx -> K).
Hypothesis HM : forall f i, mass' f i = zpw x 1 * mass f i.
Hypothesis HC : forall k ts, dget wc_fields k = Some ts -> forall I, In I (idxs (List.length ts)) -> c' k I = zpw x (-2) * c k I.
Hypothesis RX : kreal x.
Lemma zpw_conj (y : K) n : y <> 0 -> (zpw y n)^* = zpw (y^*) n.
Proof.
  intros N. assert (H : forall m, (kpow y m)^* = kpow (y^*) m) by (induction m as [|m IH]; cbn [kpow]; [apply kconj_1|now rewrite kconj_mul, IH]).
  destruct n as [|p|p]; cbn [zpw]; [apply kconj_1|apply H|]. rewrite kconj_div, kconj_1, H by (now apply kpow_neq0). reflexivity.
Qed.
Lemma zpw_real n : (zpw x n)^* = zpw x n.
Proof. rewrite zpw_conj by exact NX. f_equal. exact RX. Qed.
Lemma lcf_scale k n I : lck k = Some n -> In I (idxs n) -> lcf c' k I = zpw x (-2) * lcf c k I.
Proof.
  unfold lck, lcf. destruct (dget dagbase k) as [b|] eqn:GB.
  - intros E HI. injection E as <-.
    assert (W : exists t0 t1, dget wc_fields b = Some [t0; t1]).
    { cbn in GB. repeat (match type of GB with context [String.eqb k ?x] => destruct (String.eqb k x); [injection GB as <-; do 2 eexists; reflexivity|] end). discriminate GB. }
    destruct W as (t0 & t1 & W). apply in_idxs_2 in HI as (i & j & -> & Hi & Hj). cbn [nth].
    rewrite (HC b _ W) by (now apply idxs_2_in). now rewrite kconj_mul, zpw_real.
  - destruct (dget wc_fields k) as [ts|] eqn:G; [|discriminate]. intros E. injection E as <-. now apply (HC k ts G).
Qed.
Lemma opnd_scale o r I : opnd_rank o = Some r -> In I (idxs r) -> fopnd V mass' (lcf c') o I = zpw x (odim o) * fopnd V mass (lcf c) o I.
Proof.
  destruct o as [k| | | | |f|f]; cbn [opnd_rank fopnd odim]; intros R HI.
  - exact (lcf_scale k r I R HI).
  - cbn [zpw]. ring.
  - cbn [zpw]. ring.
  - cbn [zpw]. ring.
  - cbn [zpw]. ring.
  - apply HM.
  - destruct (Nat.eqb _ _); [apply HM|ring].
Qed.
Lemma ein_scale L vals ins : forall os, (forall x, In x vals -> (x < 3)%nat) -> opnds_ok ins os = true ->
  ein_fun L vals ins (map (fopnd V mass' (lcf c')) os) = zpw x (zsum (map odim os)) * ein_fun L vals ins (map (fopnd V mass (lcf c)) os).
Proof.
  induction ins as [|ls ins IH]; intros [|o os] L3 OK; cbn [opnds_ok] in OK; try discriminate OK; [cbn; ring|].
  apply andb_true_iff in OK as [R OK]. cbn [ein_fun map zsum fold_right]. fold (zsum (map odim os)). rewrite (IH os L3 OK), zpw_add by exact NX.
  destruct (opnd_rank o) as [r|] eqn:RO; [|discriminate R]. apply Nat.eqb_eq in R as ->.
  rewrite (opnd_scale o _ _ RO); [ring|]. apply in_idxs. split; [apply map_length|]. intros y Y. apply in_map_iff in Y as (a & <- & _). now apply nth_lt3.
Qed.
Lemma tensor_scale n t O : tensor_ok n t = true -> In O (idxs n) ->
  ftensor V mass' (lcf c') t O = zpw x (zsum (map odim (snd t))) * ftensor V mass (lcf c) t O.
Proof.
  unfold tensor_ok, ftensor. destruct (parse_spec (fst t)) as [ins out]. rewrite !andb_true_iff. intros [[_ OK] LN] HO. apply Nat.eqb_eq in LN.
  rewrite <- ksum_scale. apply ksum_ext. intros s Hs. apply ein_scale; [|exact OK].
  intros y Y. apply in_app_iff in Y as [Y|Y]; [apply in_idxs in HO; now apply HO|apply in_idxs in Hs; now apply Hs].
Qed.
Lemma group_scale d n g O : group_ok n g = true -> group_homog d g = true -> In O (idxs n) ->
  fgroup val' V mass' (lcf c') g O = zpw x d * fgroup val V mass (lcf c) g O.
Proof.
  destruct g as [[t w] p]. cbn [group_ok group_homog fgroup]. rewrite !andb_true_iff. intros [[P W] T] H HO.
  rewrite (pref_scale _ p P H).
  assert (WE : match w with Some k => lcf c' k [] | None => 1 end = zpw x (wdim w) * match w with Some k => lcf c k [] | None => 1 end).
  { destruct w as [k|]; [|cbn; ring]. destruct (lck k) as [r|] eqn:LK; [|discriminate]. apply Nat.eqb_eq in W as ->. apply (lcf_scale k 0 [] LK). now left. }
  assert (TE : match t with Some t => ftensor V mass' (lcf c') t O | None => 1 end = zpw x (tdim t) * match t with Some t => ftensor V mass (lcf c) t O | None => 1 end).
  { destruct t as [t|]; [|cbn; ring]. exact (tensor_scale n t O T HO). }
  rewrite WE, TE. replace d with ((d - wdim w - tdim t) + (wdim w + tdim t))%Z at 2 by lia. rewrite !zpw_add by exact NX. ring.
Qed.
Lemma floop_scale k ts I : dget jms_fields k = Some ts -> In I (idxs (List.length ts)) ->
  floop val' V mass' c' k I = zpw x (kdim ts) * floop val V mass c k I.
Proof.
  intros G HI.
  assert (F0 : forall J, In J (idxs (List.length ts)) -> floop0 val' V mass' c' k J = zpw x (kdim ts) * floop0 val V mass c k J).
  { intros J HJ. unfold floop0. destruct (dget loop_prog k) as [gs|] eqn:GP; [|ring]. apply dget_In in GP.
    pose proof (proj1 (forallb_forall kg_homog loop_prog) prog_homog_true _ GP) as PH. destruct (prog_In k gs GP) as (n & JR & OK).
    unfold kg_homog in PH. unfold jrank in JR. cbn [fst snd] in PH. rewrite G in PH, JR. injection JR as <-.
    assert (OK' : forallb (group_ok (List.length ts)) gs = true) by (destruct gs; [discriminate OK|exact OK]).
    rewrite forallb_forall in PH, OK'. unfold fassign. rewrite <- ksum_scale. apply ksum_ext. intros g Hg.
    apply (group_scale (kdim ts) (List.length ts)); auto. }
  unfold floop. destruct (rotated k) eqn:R; [|now apply F0].
  assert (T2 : ts = [bar_ DL; fld_ DR]).
  { unfold rotated in R. apply orb_true_iff in R as [R|R]; apply String.eqb_eq in R as ->; now injection G. }
  subst ts. apply in_idxs_2 in HI as (i & j & -> & Hi & Hj). cbn [nth]. rewrite <- ksum_scale. apply ksum_ext. intros a Ha.
  apply in_idxs in Ha as [La Ha]. destruct a as [|a [|]]; try discriminate La. assert (A3 : (a < 3)%nat) by (apply Ha; now left). cbn [nth].
  rewrite F0 by (now apply idxs_2_in). ring.
Qed.
End Gen.
