(* Polynomials in anticommuting variables: a sound test of equality (reflection tool; nothing here
   models the code). *)
From Coq Require Import List Bool ZArith QArith Lia String Ascii.
From Verif Require Import PyBase Num TrLang AdmData TreeSpec TrSpec FermiSpec NpModel NpProofs.
Import ListNotations.
Local Open Scope list_scope.

(* ---------- signs ---------- *)
Section Sgn.
Context {A : Type} (eqb : A -> A -> bool) (eqb_spec : forall x y, reflect (x = y) (eqb x y)).
Local Open Scope Z_scope.
Notation take := (take eqb).
Notation sgn := (sgn eqb).
Lemma take_incl a m s m' : take a m = Some (s, m') -> incl m' m.
Proof.
  revert s m'. induction m as [|b r IH]; intros s m' H; [discriminate|]. cbn [FermiSpec.take] in H. destruct (eqb_spec a b) as [->|].
  - injection H as <- <-. intros x X. now right.
  - destruct (take a r) as [[s1 r1]|]; [|discriminate]. injection H as <- <-. intros x [->|X]; [now left|right]. exact (IH _ _ eq_refl x X).
Qed.
Lemma take_nodup a m s m' : NoDup m -> take a m = Some (s, m') -> NoDup m' /\ ~ In a m'.
Proof.
  revert s m'. induction m as [|b r IH]; intros s m' ND H; [discriminate|]. inversion ND as [|? ? N1 N2]; subst. cbn [FermiSpec.take] in H.
  destruct (eqb_spec a b) as [->|NE].
  - injection H as <- <-. now split.
  - destruct (take a r) as [[s1 r1]|] eqn:E; [|discriminate]. injection H as <- <-. destruct (IH _ _ N2 eq_refl) as [X Y]. split.
    + constructor; [|exact X]. intros Z. apply N1. exact (take_incl _ _ _ _ E _ Z).
    + intros [->|Z]; [now apply NE|now apply Y].
Qed.
Lemma take_notin a m : ~ In a m -> take a m = None.
Proof.
  induction m as [|b r IH]; intros H; [reflexivity|]. cbn [FermiSpec.take]. destruct (eqb_spec a b) as [->|]; [exfalso; apply H; now left|].
  rewrite IH; [reflexivity|]. intros X. apply H. now right.
Qed.
(* the two ways to take a and b out differ in the sign *)
Lemma take_take a b m : a <> b ->
  match take a m with Some (s, m') => match take b m' with Some (t, m'') => Some (s * t, m'') | None => None end | None => None end =
  match take b m with Some (s, m') => match take a m' with Some (t, m'') => Some (- (s * t), m'') | None => None end | None => None end.
Proof.
  intros NE. induction m as [|c r IH]; [reflexivity|]. cbn [FermiSpec.take]. destruct (eqb_spec a c) as [->|NA].
  - destruct (eqb_spec b c) as [->|NB]; [congruence|]. destruct (take b r) as [[t r']|]; [|reflexivity]. cbn [FermiSpec.take].
    destruct (eqb_spec c c) as [_|]; [|congruence]. f_equal. f_equal. lia.
  - destruct (eqb_spec b c) as [->|NB].
    + destruct (take a r) as [[t r']|]; [|reflexivity]. cbn [FermiSpec.take]. destruct (eqb_spec c c) as [_|]; [|congruence]. f_equal. f_equal. lia.
    + destruct (take a r) as [[s1 r1]|], (take b r) as [[s2 r2]|]; cbn [FermiSpec.take]; try reflexivity.
      * destruct (eqb_spec b c) as [|_]; [congruence|]. destruct (eqb_spec a c) as [|_]; [congruence|].
        destruct (take b r1) as [[t1 q1]|], (take a r2) as [[t2 q2]|]; try discriminate; [|reflexivity].
        injection IH as E1 E2. subst. f_equal. f_equal. lia.
      * destruct (eqb_spec b c) as [|_]; [congruence|]. destruct (take b r1) as [[t1 q1]|]; [discriminate|reflexivity].
      * destruct (eqb_spec a c) as [|_]; [congruence|]. destruct (take a r2) as [[t1 q1]|]; [discriminate|reflexivity].
Qed.
Lemma sgn_swap a b l m : a <> b -> sgn (a :: b :: l) m = - sgn (b :: a :: l) m.
Proof.
  intros NE. cbn [FermiSpec.sgn]. pose proof (take_take a b m NE) as H.
  destruct (take a m) as [[s1 r1]|], (take b m) as [[s2 r2]|]; try reflexivity.
  - destruct (take b r1) as [[t1 q1]|], (take a r2) as [[t2 q2]|]; try discriminate; [|lia]. injection H as E1 E2. subst. rewrite !Z.mul_assoc, E1. lia.
  - destruct (take b r1) as [[t1 q1]|]; [discriminate|lia].
  - destruct (take a r2) as [[t1 q1]|]; [discriminate|lia].
Qed.
Lemma sgn_dup a l m : NoDup m -> sgn (a :: a :: l) m = 0.
Proof.
  intros ND. cbn [FermiSpec.sgn]. destruct (take a m) as [[s r]|] eqn:E; [|reflexivity].
  destruct (take_nodup _ _ _ _ ND E) as [_ N]. rewrite (take_notin _ _ N). lia.
Qed.
Lemma sgn_cons_eq a l l' m s : NoDup m -> (forall m', NoDup m' -> sgn l m' = s * sgn l' m') -> sgn (a :: l) m = s * sgn (a :: l') m.
Proof.
  intros ND H. cbn [FermiSpec.sgn]. destruct (take a m) as [[t r]|] eqn:E; [|lia]. destruct (take_nodup _ _ _ _ ND E) as [X _]. rewrite (H r X). lia.
Qed.
End Sgn.
Lemma take_map {A B} (e : A -> A -> bool) (e' : B -> B -> bool) (f : A -> B) : (forall x y, e' (f x) (f y) = e x y) ->
  forall a m, take e' (f a) (map f m) = match take e a m with Some (s, r) => Some (s, map f r) | None => None end.
Proof.
  intros H a m. induction m as [|b r IH]; [reflexivity|]. cbn [take map]. rewrite H. destruct (e a b); [reflexivity|]. rewrite IH.
  destruct (take e a r) as [[s r']|]; reflexivity.
Qed.
Lemma sgn_map {A B} (e : A -> A -> bool) (e' : B -> B -> bool) (f : A -> B) : (forall x y, e' (f x) (f y) = e x y) ->
  forall l m, sgn e' (map f l) (map f m) = sgn e l m.
Proof.
  intros H l. induction l as [|a l IH]; intros m; [destruct m; reflexivity|]. cbn [sgn map]. rewrite (take_map e e' f H).
  destruct (take e a m) as [[s r]|]; [|reflexivity]. now rewrite IH.
Qed.

(* ---------- the variables as numbers ---------- *)
Local Open Scope positive_scope.
Definition b1 (b : bool) (p : positive) : positive := if b then p~1 else p~0.
Definition spin_code (s : spin) (p : positive) : positive := match s with S0 => p~0~0 | S1 => p~0~1 | S2 => p~1~0 | S3 => p~1~1 end.
Definition colr_code (c : colr) (p : positive) : positive := match c with C0 => p~0~0 | C1 => p~0~1 | C2 => p~1~0 end.
Definition ferm_code (f : ferm) : positive :=
  match f with
  | (Nu, G1) => 16 | (Nu, G2) => 17 | (Nu, G3) => 18 | (El, G1) => 20 | (El, G2) => 21 | (El, G3) => 22
  | (Up, G1) => 24 | (Up, G2) => 25 | (Up, G3) => 26 | (Dn, G1) => 28 | (Dn, G2) => 29 | (Dn, G3) => 30
  end.
(* the lowest four bits are those of the spin and the colour *)
Definition code (c : comp) : positive := match c with (d, f, s, i) => spin_code s (colr_code i (b1 d (ferm_code f))) end.
Definition all_comps : list comp :=
  flat_map (fun d => flat_map (fun f => flat_map (fun s => map (fun i => (d, f, s, i)) colrs) spins)
    [(Nu, G1); (Nu, G2); (Nu, G3); (El, G1); (El, G2); (El, G3); (Up, G1); (Up, G2); (Up, G3); (Dn, G1); (Dn, G2); (Dn, G3)]) [true; false].
Definition decode (p : positive) : option comp := find (fun c => Pos.eqb (code c) p) all_comps.
Lemma decode_code c : decode (code c) = Some c.
Proof. destruct c as [[[d [s g]] p] i]. destruct d, s, g, p, i; vm_compute; reflexivity. Qed.
Lemma code_inj c c' : code c = code c' -> c = c'.
Proof. intros H. apply (f_equal decode) in H. rewrite !decode_code in H. congruence. Qed.
Lemma comp_eqb_spec x y : reflect (x = y) (comp_eqb x y).
Proof.
  destruct x as [[[d [s g]] p] i], y as [[[d' [s' g']] p'] i']. unfold comp_eqb, ferm_eqb. cbn [fst snd].
  destruct (Bool.eqb d d') eqn:E1; [apply eqb_prop in E1; subst|constructor; intros [=]; subst; rewrite eqb_reflx in E1; discriminate].
  destruct s, s'; try (constructor; congruence); destruct g, g'; try (constructor; congruence);
  destruct p, p'; try (constructor; congruence); destruct i, i'; constructor; congruence.
Qed.
Lemma code_eqb x y : Pos.eqb (code x) (code y) = comp_eqb x y.
Proof. destruct (comp_eqb_spec x y) as [->|N]; [apply Pos.eqb_refl|]. apply Pos.eqb_neq. intros H. now apply code_inj in H. Qed.
Lemma bos_eqb_spec x y : reflect (x = y) (bos_eqb x y).
Proof.
  assert (CE : forall a b, reflect (a = b) (colr_eqb a b)) by (intros [] []; constructor; congruence).
  destruct x as [|m n|m n i j| |], y as [|m' n'|m' n' i' j'| |]; cbn [bos_eqb]; try (constructor; congruence).
  - destruct (Nat.eqb_spec m m'), (Nat.eqb_spec n n'); cbn [andb]; constructor; congruence.
  - destruct (Nat.eqb_spec m m'), (Nat.eqb_spec n n'), (CE i i'), (CE j j'); cbn [andb]; constructor; congruence.
Qed.

(* ---------- normal form of a monomial ---------- *)
Fixpoint ins (a : positive) (l : list positive) : option (bool * list positive) :=
  match l with
  | [] => Some (false, [a])
  | b :: r => match Pos.compare a b with
              | Lt => Some (false, a :: l)
              | Eq => None
              | Gt => match ins a r with Some (s, l') => Some (negb s, b :: l') | None => None end
              end
  end.
Fixpoint isort (l : list positive) : option (bool * list positive) :=
  match l with
  | [] => Some (false, [])
  | a :: r => match isort r with
              | Some (s, r') => match ins a r' with Some (t, l') => Some (xorb s t, l') | None => None end
              | None => None
              end
  end.
Definition sz (b : bool) : Z := if b then (-1)%Z else 1%Z.
Definition psgn := sgn Pos.eqb.
Lemma ins_sound a l : forall m, NoDup m -> psgn (a :: l) m = match ins a l with Some (s, l') => (sz s * psgn l' m)%Z | None => 0%Z end.
Proof.
  induction l as [|b r IH]; intros m ND; cbn [ins]; [unfold sz; lia|].
  destruct (Pos.compare_spec a b) as [->|L|G].
  - apply (sgn_dup Pos.eqb Pos.eqb_spec _ _ _ ND).
  - unfold sz. lia.
  - unfold psgn. rewrite (sgn_swap Pos.eqb Pos.eqb_spec a b r m) by lia. fold psgn.
    destruct (ins a r) as [[s l']|] eqn:E.
    + unfold psgn. rewrite (sgn_cons_eq Pos.eqb Pos.eqb_spec b (a :: r) l' m (sz s) ND).
      * destruct s; cbn [negb sz]; lia.
      * intros m' ND'. exact (IH m' ND').
    + unfold psgn. rewrite (sgn_cons_eq Pos.eqb Pos.eqb_spec b (a :: r) r m 0 ND); [lia|]. intros m' ND'. rewrite Z.mul_0_l. exact (IH m' ND').
Qed.
Lemma isort_sound l : forall m, NoDup m -> psgn l m = match isort l with Some (s, l') => (sz s * psgn l' m)%Z | None => 0%Z end.
Proof.
  induction l as [|a r IH]; intros m ND; cbn [isort]; [unfold sz; lia|].
  destruct (isort r) as [[s r']|].
  - unfold psgn. rewrite (sgn_cons_eq Pos.eqb Pos.eqb_spec a r r' m (sz s) ND); [|intros m' ND'; exact (IH m' ND')].
    fold psgn. rewrite (ins_sound a r' m ND). destruct (ins a r') as [[t l']|]; [|lia]. destruct s, t; cbn [xorb sz]; lia.
  - unfold psgn. rewrite (sgn_cons_eq Pos.eqb Pos.eqb_spec a r r m 0 ND); [lia|]. intros m' ND'. rewrite Z.mul_0_l. exact (IH m' ND').
Qed.

(* ---------- collecting terms ---------- *)
Definition imon : Type := (bos * list positive)%type.
Definition ipoly : Type := list (gz * imon).
Definition lp_eqb : list positive -> list positive -> bool := fix f l m := match l, m with [], [] => true | a :: l, b :: m => Pos.eqb a b && f l m | _, _ => false end.
Lemma lp_eqb_eq l m : lp_eqb l m = true -> l = m.
Proof.
  revert m. induction l as [|a l IH]; intros [|b m] H; try discriminate; [reflexivity|]. cbn in H. apply andb_prop in H as [X Y].
  apply Pos.eqb_eq in X. rewrite X, (IH m Y). reflexivity.
Qed.
Definition bucket : Type := list (gz * imon).
Fixpoint binsert (z : gz) (m : imon) (l : bucket) : bucket :=
  match l with
  | [] => [(z, m)]
  | (z', m') :: r => if bos_eqb (fst m) (fst m') && lp_eqb (snd m) (snd m') then (gzadd z z', m') :: r else (z', m') :: binsert z m r
  end.
Inductive tr := TL | TN (l : tr) (b : bucket) (r : tr).
Fixpoint tins (k : positive) (z : gz) (m : imon) (t : tr) : tr :=
  match t with
  | TL => match k with
          | xH => TN TL [(z, m)] TL
          | xO k => TN (tins k z m TL) [] TL
          | xI k => TN TL [] (tins k z m TL)
          end
  | TN l b r => match k with
                | xH => TN l (binsert z m b) r
                | xO k => TN (tins k z m l) b r
                | xI k => TN l b (tins k z m r)
                end
  end.
Fixpoint lowbits (n : nat) (p k : positive) : positive :=
  match n with
  | O => k
  | S n => match p with xO p => xO (lowbits n p k) | xI p => xI (lowbits n p k) | xH => k end
  end.
Definition hash (m : imon) : positive := fold_right (lowbits 4) 1 (snd m).
Definition gzopp (z : gz) : gz := (- fst z, - snd z)%Z.
Fixpoint collect (p : ipoly) (t : tr) : tr :=
  match p with
  | [] => t
  | (z, (b, l)) :: r =>
      match isort l with
      | Some (s, l') => collect r (tins (hash (b, l')) (if s then gzopp z else z) (b, l') t)
      | None => collect r t
      end
  end.
Fixpoint tzero (t : tr) : bool :=
  match t with
  | TL => true
  | TN l b r => forallb (fun x => Z.eqb (fst (fst x)) 0 && Z.eqb (snd (fst x)) 0) b && tzero l && tzero r
  end.
Definition izero (p : ipoly) : bool := tzero (collect p TL).

Section Val.
Context {K : StarField}.
Local Open Scope K_scope.
Add Ring KRf : (F_R (k_field K)).
Definition gzval (z : gz) : K := kZ (fst z) + ki * kZ (snd z).
Lemma gzval_add a b : gzval (gzadd a b) = gzval a + gzval b.
Proof. unfold gzval, gzadd. cbn [fst snd]. rewrite !kZ_add. ring. Qed.
Lemma gzval_opp a : gzval (gzopp a) = - gzval a.
Proof. unfold gzval, gzopp. cbn [fst snd]. rewrite !kZ_opp. ring. Qed.
Definition tv (m : imon) (z : gz) (x : imon) : K := if bos_eqb (fst x) (fst m) then gzval z * kZ (psgn (snd x) (snd m)) else 0.
Definition coefP (p : ipoly) (m : imon) : K := ksum (map (fun t => tv m (fst t) (snd t)) p).
Fixpoint tsum (m : imon) (t : tr) : K := match t with TL => 0 | TN l b r => coefP b m + (tsum m l + tsum m r) end.
Lemma tv_add m z z' x : tv m (gzadd z z') x = tv m z x + tv m z' x.
Proof. unfold tv. cbn [fst snd]. destruct (bos_eqb (fst x) (fst m)); [rewrite gzval_add|]; ring. Qed.
Lemma binsert_sum m z x b : coefP (binsert z x b) m = tv m z x + coefP b m.
Proof.
  induction b as [|[z' m'] r IH]; [reflexivity|]. cbn [binsert]. destruct (bos_eqb (fst x) (fst m') && lp_eqb (snd x) (snd m')) eqn:E.
  - apply andb_prop in E as [E1 E2]. destruct (bos_eqb_spec (fst x) (fst m')) as [B|]; [|discriminate]. apply lp_eqb_eq in E2.
    assert (x = m') as -> by (destruct x, m'; cbn [fst snd] in *; congruence).
    unfold coefP. cbn [map]. rewrite !ksum_cons. cbn [fst snd]. rewrite tv_add. ring.
  - unfold coefP in *. cbn [map]. rewrite !ksum_cons, IH. cbn [fst snd]. ring.
Qed.
Lemma tins_sum m k : forall z x t, tsum m (tins k z x t) = tv m z x + tsum m t.
Proof.
  assert (N : coefP [] m = 0) by reflexivity.
  assert (O : forall t, coefP [t] m = tv m (fst t) (snd t)) by (intros t; unfold coefP; cbn [map]; rewrite ksum_cons; unfold ksum; cbn [fold_right]; ring).
  induction k as [k IH|k IH|]; intros z x [|l b r]; cbn [tins tsum]; rewrite ?IH, ?binsert_sum, ?O, ?N; cbn [tsum fst snd]; ring.
Qed.
Lemma collect_sum m : NoDup (snd m) -> forall p t, tsum m (collect p t) = coefP p m + tsum m t.
Proof.
  intros ND p. induction p as [|[z [b l]] r IH]; intros t; cbn [collect].
  - unfold coefP. cbn. ring.
  - unfold coefP at 1. cbn [map]. rewrite ksum_cons. fold (coefP r m).
    cbn [fst snd]. assert (E : tv m z (b, l) = match isort l with Some (s, l') => tv m (if s then gzopp z else z) (b, l') | None => 0 end).
    { unfold tv. cbn [fst snd]. rewrite (isort_sound l (snd m) ND). destruct (isort l) as [[s l']|].
      - destruct (bos_eqb b (fst m)); [|reflexivity]. rewrite kZ_mul. assert (E1 : @kZ K 1 = 1) by reflexivity. assert (E2 : @kZ K (-1) = - (1)) by reflexivity. destruct s; cbn [sz]; rewrite ?gzval_opp, ?E1, ?E2; ring.
      - destruct (bos_eqb b (fst m)); [|reflexivity]. cbn [kZ]. ring. }
    rewrite E. destruct (isort l) as [[s l']|]; rewrite IH; [rewrite tins_sum|]; ring.
Qed.
Lemma tzero_sound m t : tzero t = true -> tsum m t = 0.
Proof.
  induction t as [|l IHl b r IHr]; intros H; [reflexivity|]. cbn [tzero] in H. apply andb_prop in H as [H H3]. apply andb_prop in H as [H1 H2].
  cbn [tsum]. rewrite (IHl H2), (IHr H3). unfold coefP. rewrite (ksum_zero _ b); [ring|].
  intros [z x] X. rewrite forallb_forall in H1. specialize (H1 _ X). cbn [fst snd] in H1. apply andb_prop in H1 as [Y1 Y2].
  apply Z.eqb_eq in Y1, Y2. unfold tv, gzval. cbn [fst snd]. rewrite Y1, Y2. destruct (bos_eqb _ _); [cbn [kZ]|]; ring.
Qed.
Lemma izero_sound p m : NoDup (snd m) -> izero p = true -> coefP p m = 0.
Proof.
  intros ND H. pose proof (collect_sum m ND p TL) as X. rewrite (tzero_sound m _ H) in X. cbn [tsum] in X.
  rewrite X. ring.
Qed.
Definition iscale (z : Z) (p : ipoly) : ipoly := map (fun t => ((z * fst (fst t), z * snd (fst t))%Z, snd t)) p.
Lemma coefP_app p q m : coefP (p ++ q) m = coefP p m + coefP q m.
Proof. unfold coefP. now rewrite map_app, ksum_app. Qed.
Lemma coefP_scale z p m : coefP (iscale z p) m = kZ z * coefP p m.
Proof.
  unfold coefP, iscale. rewrite map_map, <- ksum_scale. apply ksum_ext. intros [[x y] [b l]] _. unfold tv, gzval. cbn [fst snd].
  destruct (bos_eqb b (fst m)); [rewrite !kZ_mul|]; ring.
Qed.
End Val.
