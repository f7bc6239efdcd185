(* Normal forms of four-fermion operators, and the check of a matrix of anomalous dimensions. *)
From Coq Require Import List Bool ZArith QArith Reals Arith Lia String.
From Verif Require Import PyBase Num RealC AdmData WetModel FermiSpec NpModel NpProofs FermiNorm FermiTab GammaSpec GammaTab GammaProofs GammaOps.
Import ListNotations.
Local Open Scope list_scope.

Definition swap_op (o : opr) : opr := match o with Four d c x y f1 f2 f3 f4 => Four d c y x f3 f4 f1 f2 | _ => o end.
Definition cross_op (o : opr) : opr := match o with Four d c x y f1 f2 f3 f4 => Four d c x y f1 f4 f3 f2 | _ => o end.
Definition hcop (o : opr) : opr := match o with Four d c x y f1 f2 f3 f4 => Four d c (hchir d x) (hchir d y) f2 f1 f4 f3 | _ => o end.
Definition flt (a b : ferm) : bool := Pos.ltb (ferm_code a) (ferm_code b).
Definition one_kind (o : opr) : bool := match o with Four d c x y f1 f2 f3 f4 => chir_eqb x y && Bool.eqb (quark f1) (quark f3) | _ => false end.
(* the chiralities in a fixed order *)
Definition step1 (o : opr) : opr := match o with Four Vector _ PR PL _ _ _ _ | Four Scalar _ PL PR _ _ _ _ => swap_op o | _ => o end.
Definition fz_op (x y : chir) (f1 f2 f3 f4 : ferm) (t : Q * (bool * (dstruct * cstruct))) : opr :=
  match t with (_, (b, (d, c))) => if b then Four d c x y f1 f4 f3 f2 else Four d c x y f1 f2 f3 f4 end.
(* colour octet vectors and tensors eliminated *)
Definition step2 (o : opr) : fl opr :=
  match o with
  | Four d c x y f1 f2 f3 f4 =>
      if one_kind o && match d, c with Vector, Octet | Tensor, _ => true | _, _ => false end then
        map (fun t => (rq (fst t), fz_op x y f1 f2 f3 f4 t)) (fierz d c (quark f1))
      else [(rq 1, o)]
  | _ => [(rq 1, o)]
  end.
(* the bilinears sorted; leptons sorted *)
Definition step3 (o : opr) : opr :=
  match o with
  | Four d c x y f1 f2 f3 f4 => if chir_eqb x y && (flt f3 f1 || (ferm_eqb f1 f3 && flt f4 f2)) then swap_op o else o
  | _ => o
  end.
Definition step4 (o : opr) : opr :=
  match o with
  | Four Vector Singlet x y f1 f2 f3 f4 => if chir_eqb x y && negb (quark f1) && negb (quark f3) && flt f4 f2 then cross_op o else o
  | _ => o
  end.
Definition canon (o : opr) : fl opr := map (fun t => (fst t, step4 (step3 (snd t)))) (step2 (step1 o)).

Lemma flavs_swap o : flavs o = true -> flavs (swap_op o) = true.
Proof.
  destruct o as [d c x y f1 f2 f3 f4| |]; try discriminate. cbn [flavs swap_op]. intros H. apply andb_prop in H as [H H4]. apply andb_prop in H as [H H3]. apply andb_prop in H as [H1 H2].
  rewrite H4, H3. assert (E1 : dok d y x = true) by (destruct d, x, y; try discriminate H1; reflexivity).
  assert (E2 : cok c (quark f3) (quark f1) = true) by (destruct c; cbn [cok] in *; [reflexivity|now rewrite andb_comm|discriminate]). now rewrite E1, E2.
Qed.
Lemma flavs_hc o : flavs o = true -> flavs (hcop o) = true.
Proof.
  destruct o as [d c x y f1 f2 f3 f4| |]; try discriminate. cbn [flavs hcop]. intros H. apply andb_prop in H as [H H4]. apply andb_prop in H as [H H3]. apply andb_prop in H as [H1 H2].
  apply eqb_prop in H3, H4. rewrite <- H3, <- H4, H2, !eqb_reflx. destruct d, x, y; try discriminate H1; reflexivity.
Qed.

Section G.
Context {K : StarField}.
Local Open Scope K_scope.
Add Ring KRgc : (F_R (k_field K)).
Lemma tens_value (Hf : sp4 -> co4 -> K) d c x y q q' : fv (fun s : scq => Hf (fst s) (snd s)) (tens d c x y q q') = fv2 Hf (D4 d x y) (C4 c q q').
Proof. exact (fv_bind (fun s : scq => Hf (fst s) (snd s)) (fun (a : sp4) (b : co4) => (a, b)) (fun _ => C4 c q q') (D4 d x y)). Qed.
Lemma permute_value (G : scq -> K) f g l : fv G (permute f g l) = fv (fun s : scq => G (f (fst s), g (snd s))) l.
Proof. unfold fv, permute. rewrite map_map. apply ksum_ext. intros [z [s t]] _. reflexivity. Qed.
Lemma sc_eqb_eq a b : sc_eqb a b = true -> a = b.
Proof. destruct a, b. unfold sc_eqb. cbn [fst snd]. intros H. apply andb_prop in H as [H1 H2]. now rewrite (sp4_eqb_eq _ _ H1), (co4_eqb_eq _ _ H2). Qed.
Lemma gval_conj c : (@gval K c)^* = gval (fst c, - snd c)%Q.
Proof. unfold gval. cbn [fst snd]. rewrite kconj_add, kconj_mul, kconj_i, !kconj_Q, kQ_opp. ring. Qed.
Lemma conjl_value (G : scq -> K) l : fv G (conjl l) = (fv (fun s : scq => (G s)^*) l)^*.
Proof. unfold fv, conjl. rewrite map_map, ksum_conj. apply ksum_ext. intros t _. cbn [fst snd]. now rewrite kconj_mul, kconj_conj, gval_conj. Qed.
(* hermitian conjugation of a valuation *)
Definition hcv (h : mon -> K) (m : mon) : K := (h (hc_bos (fst m), rev (map hc_comp (snd m))))^*.
Lemma hc_value h p : pv h (hc p) = (pv (hcv h) p)^*.
Proof. unfold pv, hc. rewrite map_map, ksum_conj. apply ksum_ext. intros t _. cbn [fst snd]. unfold hcv. now rewrite kconj_mul, kconj_conj, gval_conj. Qed.

Section H.
Variable h : mon -> K.
Hypothesis AH : anti h.
Lemma tens_op d c x y f1 f2 f3 f4 : dok d x y = true -> cok c (quark f1) (quark f3) = true ->
  pv h (poly_of (Four d c x y f1 f2 f3 f4)) = fv (fun s : scq => hs h f1 f2 f3 f4 (fst s) (snd s)) (tens d c x y (quark f1) (quark f3)).
Proof. intros HD HC. now rewrite four_value, tens_value. Qed.
Lemma swap_ok o : flavs o = true -> pv h (poly_of (swap_op o)) = pv h (poly_of o).
Proof.
  intros V. pose proof (flavs_swap _ V) as V'. destruct o as [d c x y f1 f2 f3 f4| |]; try discriminate. cbn [swap_op] in *.
  destruct (V4 _ _ _ _ _ _ _ _ V) as (HD & HC & _). destruct (V4 _ _ _ _ _ _ _ _ V') as (HD' & HC' & _).
  rewrite (tens_op d c x y), (tens_op d c y x) by assumption. destruct checks as (_ & _ & _ & _ & T & _). unfold chk_swap in T. rewrite forallb_forall in T. specialize (T _ (dok_In _ _ _ HD)). cbn beta iota in T.
  rewrite forallb_forall in T. specialize (T _ (cok_In _ _ _ HC)). cbn beta iota in T.
  rewrite (fleq_sound sc_eqb sc_hash sc_eqb_eq (fun s : scq => hs h f1 f2 f3 f4 (fst s) (snd s)) _ _ T), permute_value. apply fv_ext. intros [[[a b] [e g]] [[i j] [k l]]]. cbn [fst snd sperm].
  unfold hs, slots. cbn [get4]. symmetry. exact (proj1 (proj2 (proj2 (proj2 (proj2 (proj2 (proj2 (proj2 (perms h AH _ _ _ _))))))))).
Qed.
Lemma hc_ok o : flavs o = true -> pv h (hc (poly_of o)) = pv h (poly_of (hcop o)).
Proof.
  intros V. pose proof (flavs_hc _ V) as V'. destruct o as [d c x y f1 f2 f3 f4| |]; try discriminate. cbn [hcop] in *.
  destruct (V4 _ _ _ _ _ _ _ _ V) as (HD & HC & Q2 & Q4). destruct (V4 _ _ _ _ _ _ _ _ V') as (HD' & HC' & _).
  rewrite hc_value, four_value, <- tens_value by assumption. rewrite tens_op by assumption. rewrite Q2, Q4.
  destruct checks as (_ & _ & _ & _ & _ & T & _). unfold chk_hc in T. rewrite forallb_forall in T. specialize (T _ (dok_In _ _ _ HD)). cbn beta iota in T.
  rewrite forallb_forall in T. specialize (T _ (cok_In _ _ _ HC)). cbn beta iota in T.
  transitivity (fv (fun s : scq => (hs (hcv h) f1 f2 f3 f4 (fst s) (snd s))^*) (conjl (tens d c x y (quark f1) (quark f3)))).
  { rewrite conjl_value. f_equal. apply fv_ext. intros s. now rewrite kconj_conj. }
  rewrite (fleq_sound sc_eqb sc_hash sc_eqb_eq (fun s : scq => (hs (hcv h) f1 f2 f3 f4 (fst s) (snd s))^*) _ _ T), permute_value. apply fv_ext. intros [[[a b] [e g]] [[i j] [k l]]]. cbn [fst snd hperm].
  unfold hs, hcv, slots. cbn [get4 fst snd map rev app hc_comp hc_bos cp negb]. rewrite kconj_conj. unfold hc_comp, cp. cbn [negb].
  exact (proj1 (proj2 (proj2 (proj2 (proj2 (proj2 (proj2 (proj2 (perms h AH _ _ _ _))))))))).
Qed.
Lemma fierz_ok d c x f1 f2 f3 f4 : flavs (Four d c x x f1 f2 f3 f4) = true -> quark f1 = quark f3 -> In (d, (c, quark f1)) fz_list ->
  pv h (poly_of (Four d c x x f1 f2 f3 f4)) =
  fvO h (map (fun t => (rq (fst t), fz_op x x f1 f2 f3 f4 t)) (fierz d c (quark f1))) /\
  forall t, In t (fierz d c (quark f1)) -> flavs (fz_op x x f1 f2 f3 f4 t) = true.
Proof.
  intros V QE IF. destruct (V4 _ _ _ _ _ _ _ _ V) as (HD & HC & Q2 & Q4).
  assert (LX : In x LR) by (destruct d, x; try discriminate HD; cbn; tauto).
  assert (DC : forall t, In t (fierz d c (quark f1)) -> dok (fst (snd (snd t))) x x = true /\ cok (snd (snd (snd t))) (quark f1) (quark f3) = true).
  { intros t It. rewrite <- QE. clear - HD LX IF It. destruct (quark f1); destruct d, x; try discriminate HD; destruct c; cbn [fz_list In] in IF;
      try (exfalso; repeat (destruct IF as [IF|IF]; [discriminate IF|]); exact IF); cbn [fierz In] in It; repeat match type of It with _ \/ _ => destruct It as [<-|It]; [split; reflexivity|] end; destruct It. }
  split.
  - rewrite tens_op by assumption. destruct checks as (_ & _ & _ & _ & _ & _ & T). unfold chk_fierz in T. rewrite forallb_forall in T. specialize (T _ IF). cbn beta iota in T.
    rewrite forallb_forall in T. specialize (T _ LX). cbn beta in T. rewrite <- QE.
    rewrite (fleq_sound sc_eqb sc_hash sc_eqb_eq (fun s : scq => hs h f1 f2 f3 f4 (fst s) (snd s)) _ _ T), fv_flat_map. unfold fvO. rewrite fv_map_rq. apply ksum_ext.
    intros [z [b [d' c']]] It. destruct (DC _ It) as [DT CT]. cbn [fst snd fz_op] in *. destruct b.
    + rewrite tens_op by (first [assumption|exact CT]). rewrite <- QE. rewrite fv_scale, gval_rq, kQ_opp, permute_value.
      rewrite (fv_ext _ (fun s : scq => - (1) * hs h f1 f4 f3 f2 (fst s) (snd s))).
      * rewrite fv_mul. ring.
      * intros [[[a b] [e g]] [[i j] [k l]]]. cbn [fst snd fperm]. unfold hs, slots. cbn [get4].
        rewrite (a2 h AH), (a3 h AH), (a2 h AH). ring.
    + rewrite tens_op by assumption. rewrite <- QE. now rewrite fv_scale, gval_rq.
  - intros [z [b [d' c']]] It. destruct (DC _ It) as [DT CT]. cbn [fst snd fz_op] in *. destruct b; cbn [flavs]; rewrite DT, CT; cbn [andb];
      rewrite ?Q2, ?Q4, <- ?QE, ?eqb_reflx; reflexivity.
Qed.
Lemma chir_eqb_eq x y : chir_eqb x y = true -> x = y. Proof. destruct x, y; try discriminate; reflexivity. Qed.
Lemma step1_ok o : flavs o = true -> flavs (step1 o) = true /\ pv h (poly_of (step1 o)) = pv h (poly_of o).
Proof.
  intros V. assert (E : step1 o = o \/ step1 o = swap_op o) by (destruct o as [[] ? [] [] ? ? ? ?| |]; auto).
  destruct E as [-> | ->]; [auto|]. split; [now apply flavs_swap|now apply swap_ok].
Qed.
Lemma step2_ok o : flavs o = true -> pv h (poly_of o) = fvO h (step2 o) /\ forall t, In t (step2 o) -> flavs (snd t) = true.
Proof.
  intros V. assert (ID : pv h (poly_of o) = fvO h [(rq 1, o)] /\ forall t, In t [(rq 1, o)] -> flavs (snd t) = true).
  { split; [unfold fvO; rewrite fv_cons, fv_nil, gval_rq, kQ_1; ring|]. intros t [<-|[]]. exact V. }
  destruct o as [d c x y f1 f2 f3 f4| |]; try discriminate. cbn [step2]. destruct (one_kind _ && _) eqn:B; [|exact ID].
  apply andb_prop in B as [B1 B2]. cbn [one_kind] in B1. apply andb_prop in B1 as [B0 B1]. apply chir_eqb_eq in B0. apply eqb_prop in B1. subst y.
  destruct (V4 _ _ _ _ _ _ _ _ V) as (HD & HC & _).
  destruct (fierz_ok d c x f1 f2 f3 f4 V B1) as [F1 F2].
  { destruct d, c; try discriminate B2; cbn [cok] in HC; rewrite <- ?B1 in HC; try discriminate HC; destruct (quark f1); try discriminate HC; cbn; tauto. }
  split; [exact F1|]. intros t It. apply in_map_iff in It as (u & <- & Iu). cbn [snd]. exact (F2 u Iu).
Qed.
Lemma step34_ok o : flavs o = true -> pv h (poly_of (step4 (step3 o))) = pv h (poly_of o).
Proof.
  intros V. assert (E : flavs (step3 o) = true /\ pv h (poly_of (step3 o)) = pv h (poly_of o)).
  { assert (E : step3 o = o \/ step3 o = swap_op o) by (destruct o; cbn [step3]; auto; destruct (_ && _); auto).
    destruct E as [-> | ->]; [auto|]. split; [now apply flavs_swap|now apply swap_ok]. }
  destruct E as [V3 E3]. rewrite <- E3. set (o3 := step3 o) in *. clearbody o3.
  destruct o3 as [d c x y f1 f2 f3 f4| |]; try discriminate. destruct d; try reflexivity. destruct c; try reflexivity. cbn [step4].
  destruct (_ && _) eqn:B; [|reflexivity]. apply andb_prop in B as [B _]. apply andb_prop in B as [B B3]. apply andb_prop in B as [B1 B2].
  apply chir_eqb_eq in B1. apply negb_true_iff in B2, B3. subst y. cbn [cross_op].
  destruct (fierz_ok Vector Singlet x f1 f2 f3 f4 V3 ltac:(congruence)) as [F _]; [rewrite B2; cbn; tauto|].
  rewrite F, B2. cbn [fierz map fst snd fz_op]. unfold fvO. rewrite fv_cons, fv_nil, gval_rq, kQ_1. ring.
Qed.
Lemma canon_ok o : flavs o = true -> pv h (poly_of o) = fvO h (canon o).
Proof.
  intros V. destruct (step1_ok o V) as [V1 E1]. destruct (step2_ok _ V1) as [E2 V2]. rewrite <- E1, E2. unfold canon, fvO, fv. rewrite map_map. apply ksum_ext. intros t It.
  cbn [fst snd]. now rewrite step34_ok by exact (V2 t It).
Qed.
Definition canonL (L : fl opr) : fl opr := flat_map (fun t => flscale (fst t) (canon (snd t))) L.
Lemma canonL_ok L : forallb (fun t => flavs (snd t)) L = true -> fvO h L = fvO h (canonL L).
Proof.
  intros V. rewrite forallb_forall in V. unfold fvO, canonL. rewrite fv_flat_map. unfold fv at 1. apply ksum_ext. intros t It. rewrite fv_scale. f_equal. exact (canon_ok _ (V t It)).
Qed.
End H.
(* dressing keeps the signs *)
Lemma exch_shape g c c' : forall v, In v (exchange g c c' ++ penguin g c c') -> exists a b, snd v = [a; b].
Proof.
  intros v I. apply in_app_or in I as [I|I].
  - destruct c as [[[d f] a] i], c' as [[[d' f'] b] j]. unfold exchange in I. apply in_map_iff in I as ([[a' b'] [i' j']] & <- & _). exists (cp d f a' i'), (cp d' f' b' j'). reflexivity.
  - destruct c as [[[[] f] a] i]; [destruct I|]. destruct c' as [[[[] f'] b] j]; [|destruct I]. cbn [penguin] in I. destruct (ferm_eqb f f'); [|destruct I].
    apply in_flat_map in I as (k & _ & I). apply in_map_iff in I as ([[a' b'] [i' j']] & <- & _). exists (cp true k a' i'), (cp false k b' j'). reflexivity.
Qed.
Lemma dv_anti g (h : mon -> K) : anti h -> anti (dv g h).
Proof.
  intros AH. set (A := fun c c' r => EX g h c c' r + PN g h c c' r).
  assert (SW : forall c c' r s, A c c' [s; r] = - A c c' [r; s]).
  { intros c c' r s. unfold A, EX, PN, lv. rewrite <- !ksum_app, <- !map_app, <- ksum_opp. apply ksum_ext. intros v I. destruct (exch_shape g c c' v I) as (a & b & E).
    rewrite E. cbn [app]. rewrite (a3 h AH). ring. }
  assert (DV : forall a b c e, dv g h (NoB, [a; b; c; e]) =
    A a b [c; e] - A a c [b; e] + A a e [b; c] - A b a [c; e] + A b c [a; e] - A b e [a; c] + A c a [b; e] - A c b [a; e] + A c e [a; b] - A e a [b; c] + A e b [a; c] - A e c [a; b]).
  { intros a b c e. rewrite dv_eq. cbn [fronts map fst snd]. assert (S1 : @kZ K 1 = 1) by reflexivity. assert (S2 : @kZ K (-1) = - (1)) by reflexivity.
    cbn [Z.mul Z.opp Pos.mul]. unfold ksum. cbn [fold_right]. rewrite ?S1, ?S2. unfold A. ring. }
  split; intros a b c e; rewrite !DV.
  - rewrite (SW c e b a). rewrite (SW e c b a). ring.
  - rewrite (SW a e b c), (SW e a b c). ring.
  - rewrite (SW a b c e), (SW b a c e). ring.
Qed.
(* the coefficient of a monomial is such a valuation *)
Definition cfv (m : mon) (u : mon) : K := if bos_eqb (fst u) (fst m) then kZ (sgn comp_eqb (snd u) (snd m)) else 0.
Lemma coefficient_pv p m : coefficient p m = pv (cfv m) p.
Proof. unfold coefficient, pv, cfv. apply ksum_ext. intros t _. destruct (bos_eqb _ _); [reflexivity|ring]. Qed.
Lemma cfv_anti b l : NoDup l -> anti (cfv (b, l)).
Proof.
  intros ND. assert (SW : forall a c r m, NoDup m -> sgn comp_eqb (a :: c :: r) m = (- sgn comp_eqb (c :: a :: r) m)%Z).
  { intros a c r m NM. destruct (comp_eqb_spec a c) as [->|N]; [rewrite (sgn_dup comp_eqb comp_eqb_spec c r m NM); reflexivity|]. exact (sgn_swap comp_eqb comp_eqb_spec a c r m N). }
  assert (CO : forall a r s m, NoDup m -> (forall m, NoDup m -> sgn comp_eqb r m = (- sgn comp_eqb s m)%Z) -> sgn comp_eqb (a :: r) m = (- sgn comp_eqb (a :: s) m)%Z).
  { intros a r s m NM E. rewrite (sgn_cons_eq comp_eqb comp_eqb_spec a r s m (-1) NM); [lia|]. intros m' NM'. rewrite (E m' NM'). lia. }
  split; intros a c e g; unfold cfv; cbn [fst snd]; destruct (bos_eqb NoB b); try ring; rewrite <- kZ_opp; f_equal.
  - now apply SW.
  - apply CO; [exact ND|]. intros m NM. now apply SW.
  - apply CO; [exact ND|]. intros m NM. apply CO; [exact NM|]. intros m' NM'. now apply SW.
Qed.
End G.
