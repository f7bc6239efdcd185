(* Identities between operators, up to the names of the fermions (reflection tool; nothing here
   models the code). *)
From Coq Require Import List Bool ZArith QArith Lia String Ascii.
From Verif Require Import PyBase Num TrLang AdmData TreeSpec TrSpec FermiSpec NpModel NpProofs FermiNorm FermiTab.
Import ListNotations.
Local Open Scope list_scope.

(* an operator with the colours resolved *)
Inductive cop :=
| CFour (k : dkey) (c : ckey) (f1 f2 f3 f4 : ferm)
| CDip (rt gluon qk : bool) (f1 f2 : ferm)
| CGG (dual : bool).
Definition dtab (k : dkey) : list (gz * ((spin * spin) * (spin * spin))) := match find_dirac k with Some D => D | None => [] end.
Definition cpoly (c : cop) : spoly :=
  match c with
  | CFour k c f1 f2 f3 f4 => sfour (dtab k) (the_col c) f1 f2 f3 f4
  | CDip rt g q f1 f2 => sdip (if rt then the_dipR else the_dipL) g q f1 f2
  | CGG dual => [((6, 0)%Z, (if dual then GGGtilde else GGG, []))]
  end.
Definition resolve (o : opr) : option cop :=
  match o with
  | Four d c x y f1 f2 f3 f4 =>
      let ck := (c, (quark f1, quark f3)) in
      if ckey_ok ck then match find_dirac (d, (x, y)) with Some _ => Some (CFour (d, (x, y)) ck f1 f2 f3 f4) | None => None end else None
  | Dipole g PL f1 f2 => Some (CDip false g (quark f1) f1 f2)
  | Dipole g PR f1 f2 => Some (CDip true g (quark f1) f1 f2)
  | Dipole _ _ _ _ => None
  | ThreeGluon dual => Some (CGG dual)
  end.
Lemma resolve_ok o c : resolve o = Some c -> spoly_of o = Some (cpoly c).
Proof.
  destruct o as [d k x y f1 f2 f3 f4|g x f1 f2|dual]; cbn [resolve spoly_of].
  - cbv zeta. destruct (ckey_ok _); [|discriminate]. destruct (find_dirac (d, (x, y))) as [D|] eqn:E; [|discriminate].
    intros H. assert (X : c = CFour (d, (x, y)) (k, (quark f1, quark f3)) f1 f2 f3 f4) by congruence. rewrite X. cbn [cpoly]. unfold dtab. now rewrite E.
  - destruct x; [| |discriminate|discriminate]; intros H.
    + assert (X : c = CDip false g (quark f1) f1 f2) by congruence. rewrite X. reflexivity.
    + assert (X : c = CDip true g (quark f1) f1 f2) by congruence. rewrite X. reflexivity.
  - intros H. assert (X : c = CGG dual) by congruence. rewrite X. reflexivity.
Qed.

(* ---------- renaming ---------- *)
Definition rcomp (g : ferm -> ferm) (x : comp) : comp := match x with (d, f, s, c) => (d, g f, s, c) end.
Definition rpoly (g : ferm -> ferm) (p : spoly) : spoly := map (fun t => (fst t, (fst (snd t), map (rcomp g) (snd (snd t))))) p.
Definition rcop (g : ferm -> ferm) (c : cop) : cop :=
  match c with
  | CFour k c f1 f2 f3 f4 => CFour k c (g f1) (g f2) (g f3) (g f4)
  | CDip rt gl q f1 f2 => CDip rt gl q (g f1) (g f2)
  | CGG dual => CGG dual
  end.
Lemma map_flat_map {A B C} (f : B -> C) (h : A -> list B) l : map f (flat_map h l) = flat_map (fun x => map f (h x)) l.
Proof. induction l as [|x l IH]; cbn [flat_map map]; [reflexivity|]. now rewrite map_app, IH. Qed.
Lemma cpoly_ren g c : cpoly (rcop g c) = rpoly g (cpoly c).
Proof.
  destruct c as [k c f1 f2 f3 f4|rt gl q f1 f2|dual]; cbn [rcop cpoly].
  - unfold sfour, rpoly. rewrite map_flat_map. apply flat_map_ext. intros [z [[a b] [cc e]]]. rewrite map_map. apply map_ext. intros [w [[i j] [k' l]]]. reflexivity.
  - unfold sdip, rpoly. rewrite map_flat_map. apply flat_map_ext. intros [z [[m n] [a b]]]. rewrite map_map. apply map_ext. intros [i j]. reflexivity.
  - reflexivity.
Qed.
Lemma shc_ren g p : shc (rpoly g p) = rpoly g (shc p).
Proof.
  unfold shc, rpoly. rewrite !map_map. apply map_ext. intros [z [b l]]. cbn [fst snd]. rewrite map_rev, !map_map. 
  rewrite (map_ext (fun x => hc_comp (rcomp g x)) (fun x => rcomp g (hc_comp x))); [reflexivity|]. intros [[[d f] s] c]. reflexivity.
Qed.

(* ---------- sums of operators ---------- *)
Definition pterm : Type := (Z * (bool * cop))%type.          (* factor, conjugated, operator *)
Definition prob : Type := list pterm.
Definition tpoly (t : pterm) : spoly := let p := cpoly (snd (snd t)) in map (fun x => (gzscale (fst t) (fst x), snd x)) (if fst (snd t) then shc p else p).
Definition ppoly (P : prob) : spoly := flat_map tpoly P.
Definition pflip (P : prob) : prob := map (fun t => (fst t, (negb (fst (snd t)), snd (snd t)))) P.
Definition pren (g : ferm -> ferm) (P : prob) : prob := map (fun t => (fst t, (fst (snd t), rcop g (snd (snd t))))) P.
Lemma ppoly_ren g P : ppoly (pren g P) = rpoly g (ppoly P).
Proof.
  unfold ppoly, pren, rpoly. rewrite map_flat_map. induction P as [|[n [h c]] P IH]; cbn [map flat_map]; [reflexivity|]. rewrite IH. f_equal.
  unfold tpoly. cbn [fst snd]. rewrite cpoly_ren. rewrite map_map. destruct h; [rewrite shc_ren|]; unfold rpoly; rewrite !map_map; reflexivity.
Qed.
Lemma pflip_ren g P : pflip (pren g P) = pren g (pflip P).
Proof. unfold pflip, pren. rewrite !map_map. reflexivity. Qed.
Lemma pren_id g g' P : (forall f, g (g' f) = f) -> pren g (pren g' P) = P.
Proof.
  intros H. unfold pren. rewrite map_map. rewrite <- (map_id P) at 2. apply map_ext. intros [n [h c]]. cbn [fst snd].
  destruct c; cbn [rcop]; rewrite ?H; reflexivity.
Qed.
Definition pvanish (P : prob) : bool := izero (to_i (ppoly P)) && izero (to_i (ppoly (pflip P))).

Section Val.
Context {K : StarField}.
Local Open Scope K_scope.
Add Ring KRh : (F_R (k_field K)).
Lemma nodup_code l : NoDup l -> NoDup (map code l).
Proof.
  induction 1 as [|x l N ND IH]; cbn [map]; constructor; [|exact IH]. intros X. apply in_map_iff in X as (y & E & Y). apply code_inj in E. now subst.
Qed.
Lemma izero_spv p b l : NoDup l -> izero (to_i p) = true -> @spv K (hm (b, l)) p = 0.
Proof. intros ND H. rewrite <- coefP_spv. apply izero_sound; [now apply nodup_code|exact H]. Qed.
Section Ren.
Variables g g' : ferm -> ferm.
Hypothesis GG : forall f, g (g' f) = f.
Hypothesis GG' : forall f, g' (g f) = f.
Lemma rcomp_id x : rcomp g (rcomp g' x) = x.
Proof. destruct x as [[[d f] s] c]. cbn [rcomp]. now rewrite GG. Qed.
Lemma rcomp_inj x y : rcomp g' x = rcomp g' y -> x = y.
Proof. intros H. rewrite <- (rcomp_id x), <- (rcomp_id y). now rewrite H. Qed.
Lemma rcomp_eqb x y : comp_eqb (rcomp g x) (rcomp g y) = comp_eqb x y.
Proof.
  destruct (comp_eqb_spec x y) as [->|N].
  - destruct (comp_eqb_spec (rcomp g y) (rcomp g y)); [reflexivity|congruence].
  - destruct (comp_eqb_spec (rcomp g x) (rcomp g y)) as [E|]; [|reflexivity]. exfalso. apply N.
    destruct x as [[[d f] s] c], y as [[[d2 f2] s2] c2]. cbn [rcomp] in E.
    assert (g f = g f2 /\ d = d2 /\ s = s2 /\ c = c2) as (A & -> & -> & ->) by (injection E; auto). rewrite <- (GG' f), A, GG'. reflexivity.
Qed.
Lemma spv_ren p b l : @spv K (hm (b, l)) (rpoly g p) = spv (hm (b, map (rcomp g') l)) p.
Proof.
  unfold spv, rpoly. rewrite map_map. apply ksum_ext. intros [z [b' t]] _. unfold hm. cbn [fst snd]. destruct (bos_eqb b' b); [|reflexivity].
  f_equal. f_equal. rewrite <- (sgn_map comp_eqb comp_eqb (rcomp g) rcomp_eqb t (map (rcomp g') l)). f_equal.
  rewrite map_map. rewrite (map_ext _ (fun x => x) rcomp_id), map_id. reflexivity.
Qed.
Lemma nodup_ren l : NoDup l -> NoDup (map (rcomp g') l).
Proof.
  induction 1 as [|x l N ND IH]; cbn [map]; constructor; [|exact IH]. intros X. apply in_map_iff in X as (y & E & Y). apply rcomp_inj in E. now subst.
Qed.
Lemma pvanish_ren P b l : NoDup l -> pvanish (pren g' P) = true -> @spv K (hm (b, l)) (ppoly P) = 0 /\ @spv K (hm (b, l)) (ppoly (pflip P)) = 0.
Proof.
  intros ND H. apply andb_prop in H as [H1 H2]. rewrite pflip_ren in H2.
  rewrite <- (pren_id g g' P GG) at 1. rewrite <- (pren_id g g' (pflip P) GG). rewrite !(ppoly_ren g), !spv_ren.
  split; apply izero_spv; auto using nodup_ren.
Qed.
End Ren.
Definition bvalc (m : mon) (h : bool) (c : cop) : K := spv (hm m) (if h then shc (cpoly c) else cpoly c).
Lemma spv_ppoly m P : @spv K (hm m) (ppoly P) = ksum (map (fun t => kZ (fst t) * bvalc m (fst (snd t)) (snd (snd t))) P).
Proof.
  unfold ppoly. unfold spv at 1. rewrite ksum_flat_map. apply ksum_ext. intros [n [h c]] _. unfold tpoly. cbn [fst snd]. rewrite map_map.
  unfold bvalc, spv. rewrite <- ksum_scale. apply ksum_ext. intros [z x] _. cbn [fst snd]. rewrite gzval_scale. ring.
Qed.
Lemma coefficient_cop o c b l : resolve o = Some c ->
  @coefficient K (poly_of o) (b, l) = kQ (1 # 6) * bvalc (b, l) false c /\ @coefficient K (hc (poly_of o)) (b, l) = kQ (1 # 6) * bvalc (b, l) true c.
Proof.
  intros H. apply resolve_ok in H. unfold bvalc. rewrite (coefficient_of _ _ b l H), (coefficient_of_hc _ _ b l H), !coefP_spv. auto.
Qed.
End Val.

(* ---------- permutations of the fermions ---------- *)
Definition all_f : list ferm := [(Nu, G1); (Nu, G2); (Nu, G3); (El, G1); (El, G2); (El, G3); (Up, G1); (Up, G2); (Up, G3); (Dn, G1); (Dn, G2); (Dn, G3)].
Definition fidx (f : ferm) : nat :=
  match f with
  | (Nu, G1) => 0 | (Nu, G2) => 1 | (Nu, G3) => 2 | (El, G1) => 3 | (El, G2) => 4 | (El, G3) => 5
  | (Up, G1) => 6 | (Up, G2) => 7 | (Up, G3) => 8 | (Dn, G1) => 9 | (Dn, G2) => 10 | (Dn, G3) => 11
  end%nat.
Fixpoint tosel (f : ferm) (e a : list ferm) : ferm :=
  match e, a with x :: e, y :: a => if ferm_eqb x f then y else tosel f e a | _, _ => f end.
Definition canon (env : list ferm) (f : ferm) : ferm := tosel f env all_f.
Definition uncanon (env : list ferm) (f : ferm) : ferm := nth (fidx f) env f.
Definition env_ok (env : list ferm) : bool :=
  forallb (fun f => ferm_eqb (uncanon env (canon env f)) f) all_f && forallb (fun f => ferm_eqb (canon env (uncanon env f)) f) all_f.
Lemma ferm_eqb_eq f f' : ferm_eqb f f' = true -> f = f'.
Proof. destruct f as [s g], f' as [s' g']. destruct s, s'; try discriminate; destruct g, g'; try discriminate; reflexivity. Qed.
Lemma all_f_in f : In f all_f.
Proof. destruct f as [[] []]; cbn; tauto. Qed.
Lemma env_ok_inv env : env_ok env = true -> (forall f, uncanon env (canon env f) = f) /\ (forall f, canon env (uncanon env f) = f).
Proof.
  intros H. apply andb_prop in H as [A B]. rewrite forallb_forall in A, B. split; intros f; apply ferm_eqb_eq; [apply A|apply B]; apply all_f_in.
Qed.
Definition fmem (f : ferm) (l : list ferm) : bool := existsb (ferm_eqb f) l.
Fixpoint fadd (l acc : list ferm) : list ferm := match l with [] => acc | x :: r => fadd r (if fmem x acc then acc else acc ++ [x]) end.
Definition ferms_of (c : cop) : list ferm := match c with CFour _ _ f1 f2 f3 f4 => [f1; f2; f3; f4] | CDip _ _ _ f1 f2 => [f1; f2] | CGG _ => [] end.
Definition env_of (P : prob) : list ferm :=
  fadd all_f (fadd (flat_map (fun t => ferms_of (snd (snd t))) P) []).

(* ---------- equality of problems ---------- *)
Definition cs_eqb (a b : cstruct) : bool := match a, b with Singlet, Singlet | Octet, Octet | Crossed, Crossed => true | _, _ => false end.
Definition ckey_eqb (a b : ckey) : bool := cs_eqb (fst a) (fst b) && Bool.eqb (fst (snd a)) (fst (snd b)) && Bool.eqb (snd (snd a)) (snd (snd b)).
Definition cop_eqb (a b : cop) : bool :=
  match a, b with
  | CFour k c f1 f2 f3 f4, CFour k' c' f1' f2' f3' f4' =>
      dkey_eqb k k' && ckey_eqb c c' && ferm_eqb f1 f1' && ferm_eqb f2 f2' && ferm_eqb f3 f3' && ferm_eqb f4 f4'
  | CDip r g q f1 f2, CDip r' g' q' f1' f2' => Bool.eqb r r' && Bool.eqb g g' && Bool.eqb q q' && ferm_eqb f1 f1' && ferm_eqb f2 f2'
  | CGG d, CGG d' => Bool.eqb d d'
  | _, _ => false
  end.
Fixpoint prob_eqb (P P' : prob) : bool :=
  match P, P' with
  | [], [] => true
  | (n, (h, c)) :: P, (n', (h', c')) :: P' => if Z.eqb n n' then if Bool.eqb h h' then if cop_eqb c c' then prob_eqb P P' else false else false else false
  | _, _ => false
  end.
Ltac ands := repeat match goal with H : _ && _ = true |- _ => apply andb_prop in H as [? ?] end.
Lemma cop_eqb_eq a b : cop_eqb a b = true -> a = b.
Proof.
  destruct a, b; cbn [cop_eqb]; intros H; try discriminate; ands.
  - repeat match goal with X : ferm_eqb _ _ = true |- _ => apply ferm_eqb_eq in X; subst end. match goal with X : dkey_eqb _ _ = true |- _ => apply dkey_eqb_eq in X; subst end.
    f_equal. destruct c as [a [x y]], c0 as [a' [x' y']]. unfold ckey_eqb in *. cbn [fst snd] in *. ands.
    repeat match goal with X : Bool.eqb _ _ = true |- _ => apply eqb_prop in X; subst end. destruct a, a'; try discriminate; reflexivity.
  - repeat match goal with X : ferm_eqb _ _ = true |- _ => apply ferm_eqb_eq in X; subst | X : Bool.eqb _ _ = true |- _ => apply eqb_prop in X; subst end. reflexivity.
  - apply eqb_prop in H. now subst.
Qed.
Lemma prob_eqb_eq P : forall P', prob_eqb P P' = true -> P = P'.
Proof.
  induction P as [|[n [h c]] P IH]; intros [|[n' [h' c']] P'] H; try discriminate; [reflexivity|]. cbn [prob_eqb] in H.
  destruct (Z.eqb_spec n n') as [->|]; [|discriminate]. destruct (Bool.eqb h h') eqn:E1; [|discriminate]. destruct (cop_eqb c c') eqn:E2; [|discriminate].
  apply eqb_prop in E1. apply cop_eqb_eq in E2. apply IH in H. now subst.
Qed.
