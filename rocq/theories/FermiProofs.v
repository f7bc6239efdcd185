(* C52: the translators to the JMS basis preserve the Lagrangian. *)
From Coq Require Import List Bool ZArith QArith Lia String Ascii.
From Verif Require Import PyBase Num Lin SymModel SymClass SymSpec EftModel EftSpec JmsModel BasisProps TrLang TrData TrBlocks TrModel TrNorm TrFast AdmData TreeSpec TrSpec TrProofs FermiSpec NpModel NpProofs FermiNorm FermiTab FermiRen.
Import ListNotations.
Local Open Scope string_scope.
Local Open Scope list_scope.

(* ---------- the coefficients of JMS by source coefficient ---------- *)
Definition entry : Type := (opr * (Q * (bool * mono)))%type.
Definition entries (t : trie lf) (ks : list string) : list (string * entry) :=
  flat_map (fun k => match jms_op k with
    | Some o => map (fun x => (fst (fst (snd x)), (o, (fst x, (snd (fst (snd x)), snd (snd x)))))) (tlook t k)
    | None => [] end) ks.
Definition bucket_of (t : trie (list entry)) (k : string) : list entry := match sget t k with Some l => l | None => [] end.
Definition group (E : list (string * entry)) : trie (list entry) :=
  fold_right (fun x t => tset (bits (fst x)) (snd x :: bucket_of t (fst x)) t) TrFast.TL E.
Lemma group_ok E k : bucket_of (group E) k = map snd (filter (fun x => keqb k (fst x)) E).
Proof.
  induction E as [|[k' e] E IH]; [reflexivity|]. cbn [group fold_right fst snd filter]. fold (group E). unfold bucket_of at 1. rewrite sget_set.
  destruct (keqb_spec k k') as [<-|]; cbn [map snd]; [|exact IH]. now rewrite <- IH.
Qed.

(* ---------- the check of one coefficient ---------- *)
Definition wq (o : opr) : Q := if self_adjoint o then (1 # 2)%Q else 1%Q.
Definition qterm : Type := (Q * (bool * cop))%type.
Fixpoint mono_eqb (m n : mono) : bool :=
  match m, n with [], [] => true | (i, e) :: m, (j, f) :: n => Nat.eqb i j && Z.eqb e f && mono_eqb m n | _, _ => false end.
Fixpoint terms (m : mono) (l : list entry) : option (list qterm) :=
  match l with
  | [] => Some []
  | (o, (q, (cf, n))) :: l =>
      if mono_eqb (if cf then mconj n else n) m then
        match resolve o, terms m l with Some c, Some r => Some ((Qred (wq o * q), (cf, c)) :: r) | _, _ => None end
      else None
  end.
Definition scale_of (l : list qterm) : Q :=
  let L := fold_right (fun t n => Z.lcm n (Zpos (Qden (fst t)))) 1%Z l in
  let g := fold_right (fun t n => Z.gcd n (Qnum (Qred (inject_Z L * fst t)))) 0%Z l in
  match l with (q, _) :: _ => Qred (inject_Z (Z.sgn (Qnum q) * L) / inject_Z g) | [] => 1%Q end.
Fixpoint scaled (x : Q) (l : list qterm) : option prob :=
  match l with
  | [] => Some []
  | (q, hc) :: l => let y := Qred (x * q) in
      if Pos.eqb (Qden y) 1 then match scaled x l with Some r => Some ((Qnum y, hc) :: r) | None => None end else None
  end.
Definition problem (l : list entry) (o : opr) (s : sc) : option (list qterm) :=
  match snorm s, resolve o with
  | Some (q, m), Some c => match terms m l with Some r => Some ((Qred (- (wq o * q)), (false, c)) :: r) | None => None end
  | _, _ => None
  end.
Definition canonical (T : list qterm) : option (Q * (list ferm * prob)) :=
  let x := scale_of T in
  match scaled x T with Some P => let env := env_of P in Some (x, (env, pren (canon env) P)) | None => None end.
(* problems solved before, by a part of their form *)
Definition fkey (f : ferm) (k : list bool) : list bool :=
  match f with (Nu, G1) => false :: false :: k | (Nu, G2) => false :: true :: k | (Nu, G3) => true :: false :: k | _ => true :: true :: k end.
Definition skey (d : dstruct) (k : list bool) : list bool :=
  match d with Scalar => false :: false :: k | Vector => false :: true :: k | Tensor => true :: false :: k | _ => true :: true :: k end.
Definition xkey (x : chir) (k : list bool) : list bool :=
  match x with PL => false :: false :: k | PR => false :: true :: k | P1 => true :: false :: k | P5 => true :: true :: k end.
Definition lkey4 (c : ckey) (k : list bool) : list bool :=
  match c with (c, (a, b)) => a :: b :: match c with Singlet => false :: false :: k | Octet => false :: true :: k | Crossed => true :: false :: k end end.
Definition okey (c : cop) (k : list bool) : list bool :=
  match c with
  | CFour (d, (x, y)) c f1 f2 f3 f4 => skey d (xkey x (xkey y (lkey4 c (fkey f1 (fkey f2 (fkey f3 (fkey f4 k)))))))
  | CDip r g q f1 f2 => r :: g :: q :: fkey f1 (fkey f2 k)
  | CGG d => d :: k
  end.
Definition pkey (P : prob) : list bool :=
  match P with
  | (_, (_, c)) :: (_, (_, c')) :: _ => okey c (okey c' [])
  | [(_, (_, c))] => okey c []
  | [] => []
  end.
Definition tbucket (t : trie (list prob)) (k : list bool) : list prob := match tget t k with Some l => l | None => [] end.
Definition solve (t : trie (list prob)) (P : prob) : option (trie (list prob)) :=
  let k := pkey P in let b := tbucket t k in
  if existsb (prob_eqb P) b then Some t else if pvanish P then Some (tset k (P :: b) t) else None.
Definition step (acc : option (trie (list prob))) (o : option (list qterm)) : option (trie (list prob)) :=
  match acc, o with
  | Some t, Some T => match canonical T with
      | Some (x, (env, P)) => if negb (Qeq_bool x 0) && env_ok env then solve t P else None
      | None => None end
  | _, _ => None
  end.
Definition all_vanish (l : list (option (list qterm))) : bool := match fold_left step l (Some TrFast.TL) with Some _ => true | None => false end.
Definition check_group (E : list (string * entry)) (g : trie (list entry)) (tB : trie unit) (B : basis) : bool :=
  fnodup TrFast.TL (map fst B) && forallb (fun x => smem tB (fst x)) E &&
  all_vanish (map (fun e => problem (bucket_of g (fst e)) (fst (snd e)) (snd (snd e))) B).
Definition check_entries (E : list (string * entry)) (B : basis) : bool := check_group E (group E) (tkeys (map fst B)) B.
Definition check_basis (od : option (dict string lf)) (ks : list string) (B : basis) : bool :=
  match od with Some d => check_entries (entries (tdict d) ks) B | None => false end.
Lemma check_B : check_basis B2Jf (of_sectors bern_sectors) bern_basis = true.
Proof. vm_cast_no_check (eq_refl true). Qed.
Lemma check_F : check_basis F2Jf (of_sectors flavio_sectors) flavio_basis = true.
Proof. vm_cast_no_check (eq_refl true). Qed.

(* ---------- the checks are sound ---------- *)
Lemma mono_eqb_eq m : forall n, mono_eqb m n = true -> m = n.
Proof.
  induction m as [|[i e] m IH]; intros [|[j f] n] H; try discriminate; [reflexivity|]. cbn [mono_eqb] in H. ands.
  apply Nat.eqb_eq in H. apply Z.eqb_eq in H1. apply IH in H0. now subst.
Qed.
Section Sound.
Context {K : StarField}.
Local Open Scope K_scope.
Add Ring KRp : (F_R (k_field K)).
Variable p : tpar K.
Hypothesis PO : par_ok p.
Lemma kQ_weight o : @kQ K (wq o) = weight o.
Proof. unfold wq, weight. destruct (self_adjoint o); [reflexivity|apply kQ_1]. Qed.
Definition qsum (m : mon) (fl : bool) (T : list qterm) : K := ksum (map (fun t => kQ (fst t) * bvalc m (xorb fl (fst (snd t))) (snd (snd t))) T).
Definition psum (m : mon) (fl : bool) (P : prob) : K := ksum (map (fun t => kZ (fst t) * bvalc m (xorb fl (fst (snd t))) (snd (snd t))) P).
Lemma scaled_sum m fl x T P : scaled x T = Some P -> psum m fl P = kQ x * qsum m fl T.
Proof.
  revert P. induction T as [|[q hc] T IH]; intros P H; cbn [scaled] in H.
  - injection H as <-. unfold psum, qsum, ksum. cbn. ring.
  - cbv zeta in H. destruct (Pos.eqb_spec (Qden (Qred (x * q))) 1) as [E|]; [|discriminate]. destruct (scaled x T) as [r|]; [|discriminate].
    assert (HP : P = (Qnum (Qred (x * q)), hc) :: r) by congruence. rewrite HP. unfold psum, qsum. cbn [map]. rewrite !ksum_cons. fold (psum m fl r). fold (qsum m fl T). rewrite (IH r eq_refl). cbn [fst snd].
    assert (X : @kZ K (Qnum (Qred (x * q))) = kQ x * kQ q).
    { rewrite <- kQ_mul, <- (kQ_red (x * q)), <- kQ_Z. apply kQ_Qeq. unfold Qeq, inject_Z. cbn [Qnum Qden]. rewrite E. reflexivity. }
    rewrite X. ring.
Qed.
Lemma psum_spv m P : psum m false P = spv (hm m) (ppoly P) /\ psum m true P = spv (hm m) (ppoly (pflip P)).
Proof.
  rewrite !spv_ppoly. unfold psum, pflip. split; [|rewrite map_map]; apply ksum_ext; intros [n [h c]] _; cbn [fst snd]; destruct h; reflexivity.
Qed.
Definition good (t : trie (list prob)) : Prop := forall k P, In P (tbucket t k) -> pvanish P = true.
Lemma solve_good t P t' : good t -> solve t P = Some t' -> good t' /\ pvanish P = true.
Proof.
  intros G H. unfold solve in H. cbv zeta in H. destruct (existsb (prob_eqb P) (tbucket t (pkey P))) eqn:E.
  - injection H as <-. split; [exact G|]. apply existsb_exists in E as (P' & IN & E). apply prob_eqb_eq in E. subst. exact (G _ _ IN).
  - destruct (pvanish P) eqn:V; [|discriminate]. injection H as <-. split; [|reflexivity]. intros k Q. unfold tbucket at 1. rewrite tget_tset.
    destruct (list_eqb k (pkey P)); [|exact (G k Q)]. intros [<-|IN]; [exact V|exact (G _ _ IN)].
Qed.
Lemma step_sum t o t' : good t -> step (Some t) o = Some t' ->
  good t' /\ exists T, o = Some T /\ forall b m fl, NoDup m -> qsum (b, m) fl T = 0.
Proof.
  intros G H. unfold step in H. destruct o as [T|]; [|discriminate]. unfold canonical in H. cbv zeta in H.
  destruct (scaled (scale_of T) T) as [P|] eqn:S; [|discriminate]. destruct (negb _ && env_ok _) eqn:X; [|discriminate]. ands.
  apply solve_good in H as [G' TB]; [|exact G]. split; [exact G'|]. exists T. split; [reflexivity|]. intros b m fl ND.
  destruct (env_ok_inv _ H1) as [E1 E2]. apply negb_true_iff in H0.
  assert (NZ : @kQ K (scale_of T) <> 0).
  { intros Z. apply Qeq_bool_neq in H0. apply H0. apply (kQ_inj (K := K)). now rewrite kQ_0. }
  destruct (@pvanish_ren K (uncanon (env_of P)) (canon (env_of P)) E1 E2 P b m ND TB) as [V1 V2].
  destruct (psum_spv (b, m) P) as [W1 W2]. apply (kmul_cancel_l (kQ (scale_of T))); [exact NZ|].
  rewrite <- (scaled_sum _ _ _ _ _ S). destruct fl; [rewrite W2, V2|rewrite W1, V1]; ring.
Qed.
Lemma all_vanish_sum l o : all_vanish l = true -> In o l -> exists T, o = Some T /\ forall b m fl, NoDup m -> qsum (b, m) fl T = 0.
Proof.
  unfold all_vanish. assert (G : good TrFast.TL) by (intros k P []). revert G. generalize (@TrFast.TL (list prob)).
  assert (N : forall l, fold_left step l None = None) by (induction l0 as [|x r IH]; [reflexivity|exact IH]).
  induction l as [|x l IH]; intros t G H IN; [destruct IN|]. destruct IN as [E|E].
  - cbn [fold_left] in H. destruct (step (Some t) x) as [t'|] eqn:S; [|rewrite N in H; discriminate]. subst. now destruct (step_sum _ _ _ G S).
  - cbn [fold_left] in H. destruct (step (Some t) x) as [t'|] eqn:S; [|rewrite N in H; discriminate]. destruct (step_sum _ _ _ G S) as [G' _]. exact (IH t' G' H E).
Qed.

(* the contribution of an operator with coefficient z *)
Definition part (m : mon) (o : opr) (z : K) : K := weight o * (z * coefficient (poly_of o) m + z^* * coefficient (hc (poly_of o)) m).
Variable rho : string -> K.
Definition zeta (k : string) (e : entry) : K := mval p (snd (snd (snd e))) * (if fst (snd (snd e)) then (rho k)^* else rho k).
Definition epart (m : mon) (k : string) (e : entry) : K := part m (fst e) (kQ (fst (snd e)) * zeta k e).
Lemma part_add m o x y : part m o (x + y) = part m o x + part m o y.
Proof. unfold part. rewrite kconj_add. ring. Qed.
Lemma part_0 m o : part m o 0 = 0.
Proof. unfold part. rewrite kconj_0. ring. Qed.
Lemma terms_sum b t m l T k : terms m l = Some T ->
  ksum (map (epart (b, t) k) l) = kQ (1 # 6) * (mval p m * rho k * qsum (b, t) false T + (mval p m * rho k)^* * qsum (b, t) true T).
Proof.
  revert T. induction l as [|[o [q [cf n]]] l IH]; intros T H; cbn [terms] in H.
  - injection H as <-. unfold qsum, ksum. cbn. ring.
  - destruct (mono_eqb _ m) eqn:E; [|discriminate]. apply mono_eqb_eq in E. destruct (resolve o) as [c|] eqn:R; [|discriminate].
    destruct (terms m l) as [r|]; [|discriminate]. assert (HT : T = (Qred (wq o * q), (cf, c)) :: r) by congruence. rewrite HT.
    cbn [map]. rewrite ksum_cons, (IH r eq_refl). unfold qsum. cbn [map]. rewrite !ksum_cons. fold (qsum (b, t) false r) (qsum (b, t) true r). cbn [fst snd].
    rewrite kQ_red, kQ_mul, kQ_weight. unfold epart, part, zeta. cbn [fst snd]. destruct (@coefficient_cop K o c b t R) as [-> ->].
    rewrite kconj_mul, kconj_Q.
    assert (Z : (if cf then (mval p n * (rho k)^*) = (mval p m * rho k)^* else mval p n * rho k = mval p m * rho k)).
    { destruct cf; [|now rewrite E]. rewrite <- E. rewrite (mval_conj p PO), kconj_mul, kconj_conj. reflexivity. }
    destruct cf; rewrite Z; rewrite ?kconj_conj; cbn [xorb]; ring.
Qed.
Lemma checked_part l o s b t k T : problem l o s = Some T -> (forall fl, qsum (b, t) fl T = 0) -> 
  ksum (map (epart (b, t) k) l) = part (b, t) o (sval p s * rho k).
Proof.
  intros HT Z. unfold problem in HT.
  destruct (snorm s) as [[q m]|] eqn:N; [|discriminate]. destruct (resolve o) as [c|] eqn:R; [|discriminate].
  destruct (terms m l) as [r|] eqn:TE; [|discriminate]. assert (X : T = (Qred (- (wq o * q)), (false, c)) :: r) by congruence. subst T.
  rewrite (terms_sum b t m l r k TE). destruct (snorm_sound p PO s _ N) as [SV _]. rewrite SV. unfold smval. cbn [fst snd].
  unfold part. destruct (@coefficient_cop K o c b t R) as [-> ->]. rewrite !kconj_mul, kconj_Q.
  pose proof (Z false) as Z1. pose proof (Z true) as Z2. unfold qsum in Z1, Z2. cbn [map] in Z1, Z2. rewrite ksum_cons in Z1, Z2.
  fold (qsum (b, t) false r) in Z1. fold (qsum (b, t) true r) in Z2. cbn [fst snd xorb] in Z1, Z2. rewrite kQ_red, kQ_opp, kQ_mul, kQ_weight in Z1, Z2.
  assert (Y1 : qsum (b, t) false r = weight o * kQ q * bvalc (b, t) false c) by (transitivity (weight o * kQ q * bvalc (b, t) false c + (- (weight o * kQ q) * bvalc (b, t) false c + qsum (b, t) false r)); [ring|rewrite Z1; ring]).
  assert (Y2 : qsum (b, t) true r = weight o * kQ q * bvalc (b, t) true c) by (transitivity (weight o * kQ q * bvalc (b, t) true c + (- (weight o * kQ q) * bvalc (b, t) true c + qsum (b, t) true r)); [ring|rewrite Z2; ring]).
  rewrite Y1, Y2. ring.
Qed.
Lemma form_part m o l : ksum (map (fun x => epart m (fst (fst (snd x))) (o, (fst x, (snd (fst (snd x)), snd (snd x))))) l) = part m o (lval p rho l).
Proof.
  induction l as [|[q [[k cf] n]] l IH]; cbn [map]; [symmetry; apply part_0|]. rewrite ksum_cons, IH. unfold lval. cbn [ldenote]. rewrite part_add. reflexivity.
Qed.
Lemma lagrangian_entries d ks m : lagrangian p (jms_basis ks) (fun k => lval p rho (look d k)) m = ksum (map (fun x => epart m (fst x) (snd x)) (entries (tdict d) ks)).
Proof.
  unfold entries, jms_basis, lagrangian. rewrite !ksum_flat_map. apply ksum_ext. intros k _. destruct (jms_op k) as [o|]; [|reflexivity].
  cbn [map fst snd]. rewrite ksum_cons. rewrite map_map, tlook_eq. cbn [fst snd]. rewrite form_part. unfold part. cbn [sval]. 
  unfold ksum. cbn [fold_right]. assert (E : @kZ K 1 = 1) by reflexivity. rewrite E. replace (1 * lval p rho (look d k)) with (lval p rho (look d k)) by ring. ring.
Qed.
Lemma sum_keys {X} (L : list string) (E : list (string * X)) (f : string -> X -> K) : NoDup L -> (forall x, In x E -> In (fst x) L) ->
  ksum (map (fun k => ksum (map (f k) (map snd (filter (fun x => keqb k (fst x)) E)))) L) = ksum (map (fun x => f (fst x) (snd x)) E).
Proof.
  intros ND. induction E as [|[k0 x] E IH]; intros I.
  - cbn [filter map]. apply ksum_zero. reflexivity.
  - cbn [map]. rewrite ksum_cons. rewrite <- IH by (intros y Y; apply I; now right). cbn [fst snd].
    assert (I0 : In k0 L) by (apply (I (k0, x)); now left).
    rewrite (ksum_ext _ (fun k => (if keqb k k0 then f k0 x else 0) + ksum (map (f k) (map snd (filter (fun x => keqb k (fst x)) E))))).
    2:{ intros k _. cbn [filter fst]. destruct (keqb_spec k k0) as [->|]; cbn [map snd]; [rewrite ksum_cons|]; ring. }
    rewrite ksum_add. f_equal. clear - ND I0. induction L as [|k L IH]; [destruct I0|]. inversion ND as [|? ? N1 N2]; subst. cbn [map]. rewrite ksum_cons.
    destruct (keqb_spec k k0) as [->|NE].
    + rewrite ksum_zero; [ring|]. intros y Y. destruct (keqb_spec y k0) as [->|]; [contradiction|reflexivity].
    + destruct I0 as [|I0]; [contradiction|]. rewrite (IH N2 I0). ring.
Qed.
Lemma check_sound d ks B b t : check_basis (Some d) ks B = true -> NoDup t ->
  lagrangian p (jms_basis ks) (fun k => lval p rho (look d k)) (b, t) = lagrangian p B rho (b, t).
Proof.
  intros H ND. rewrite lagrangian_entries. unfold check_basis, check_entries, check_group in H. revert H. generalize (entries (tdict d) ks). intros E H.
  unfold check_group in H. ands. destruct (fnodup_NoDup _ _ H) as [NB _].
  rewrite <- (sum_keys (map fst B) E (fun k e => epart (b, t) k e) NB).
  2:{ intros x X. rewrite forallb_forall in H1. specialize (H1 x X). cbv beta in H1. rewrite smem_keys in H1. now apply kmem_In. }
  rewrite map_map. unfold lagrangian. apply ksum_ext. intros [k [o s]] X.
  destruct (all_vanish_sum _ _ H0 (in_map _ _ _ X)) as (T & HT & Z). cbn [fst snd] in *.
  rewrite group_ok in HT. exact (checked_part _ o s b t k T HT (fun fl => Z b t fl ND)).
Qed.
End Sound.

(* ---------- the symmetries of the operators ---------- *)
Definition job : Type := (string * (string * bool))%type.
Definition job_terms (j : job) : option (list qterm) :=
  match jms_op (fst j), jms_op (fst (snd j)) with
  | Some o, Some o' => match resolve o, resolve o' with Some c, Some c' => Some [(1%Q, (false, c')); ((-1)%Q, (snd (snd j), c))] | _, _ => None end
  | _, _ => None
  end.
Definition jobs_ok (l : list job) : bool := all_vanish (map job_terms l).
Definition perm_fierz (I : idx) : idx := match I with [i; j; k; l] => [i; l; k; j] | _ => I end.
Definition perms_of (c : cls) : list ((idx -> idx) * bool) :=
  match c with
  | Cl4 => [(perm_curr, false); (perm_herm, true)]
  | Cl41 => [(perm_curr, false)]
  | Cl5 => [(perm_herm, true)]
  | Cl6 => [(perm_curr, false); (perm_herm, true); (perm_fierz, false)]
  | _ => []
  end.
Definition sym_jobs : list job :=
  flat_map (fun o => match o with (n, (c, s)) =>
    flat_map (fun I => map (fun ph => (label n I, (label n (fst ph I), snd ph))) (perms_of c)) (filter (in_shape s) (indices c)) end) jms_ops.
Lemma sym_jobs_ok : jobs_ok sym_jobs = true.
Proof. vm_cast_no_check (eq_refl true). Qed.
(* coefficients of operators that are their own conjugate *)
Definition self_jobs : list job := flat_map (fun k => match jms_op k with Some o => if self_adjoint o then [(k, (k, true))] else [] | None => [] end) alljms.
Lemma self_jobs_ok : jobs_ok self_jobs = true.
Proof. vm_cast_no_check (eq_refl true). Qed.
Lemma real_self : forallb (fun kr => match jms_op (fst kr) with Some o => Bool.eqb (snd kr) (self_adjoint o) | None => true end) (coeffs_of jms_ops) = true.
Proof. vm_cast_no_check (eq_refl true). Qed.
Section Jobs.
Context {K : StarField}.
Local Open Scope K_scope.
Add Ring KRj : (F_R (k_field K)).
Lemma job_sound L k k' h : jobs_ok L = true -> In (k, (k', h)) L ->
  exists o o', jms_op k = Some o /\ jms_op k' = Some o' /\
    forall b t, NoDup t -> @coefficient K (poly_of o') (b, t) = coefficient (if h then hc (poly_of o) else poly_of o) (b, t).
Proof.
  intros H IN. destruct (@all_vanish_sum K _ _ H (in_map _ _ _ IN)) as (T & HT & Z). unfold job_terms in HT. cbn [fst snd] in HT.
  destruct (jms_op k) as [o|]; [|discriminate]. destruct (jms_op k') as [o'|]; [|discriminate]. exists o, o'. do 2 (split; [reflexivity|]). intros b t ND.
  destruct (resolve o) as [c|] eqn:R; [|discriminate]. destruct (resolve o') as [c'|] eqn:R'; [|discriminate].
  assert (X : T = [(1%Q, (false, c')); ((-1)%Q, (h, c))]) by congruence. subst T.
  pose proof (Z b t false ND) as V. unfold qsum in V. cbn [map fst snd xorb] in V. rewrite !ksum_cons in V. unfold ksum in V. cbn [fold_right] in V.
  destruct (@coefficient_cop K o c b t R) as [X1 X2]. destruct (@coefficient_cop K o' c' b t R') as [Y1 _]. rewrite Y1.
  assert (W : @bvalc K (b, t) false c' = bvalc (b, t) h c).
  { assert (E1 : @kQ K 1 = 1) by apply kQ_1. assert (E2 : @kQ K (-1) = - (1)) by apply kQ_m1. rewrite E1, E2 in V. replace (if h then true else false) with h in V by (destruct h; reflexivity).
    transitivity (@bvalc K (b, t) h c + (1 * bvalc (b, t) false c' + (- (1) * bvalc (b, t) h c + 0))); [ring|rewrite V; ring]. }
  rewrite W. destruct h; [now rewrite X2|now rewrite X1].
Qed.
End Jobs.
