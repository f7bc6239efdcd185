(* Proof that the one-loop matching keeps the symmetries of the coefficients (hermiticity, exchange
   of identical currents, Fierz identity). *)
From Coq Require Import List Bool ZArith Arith Lia String Ascii Field Permutation.
From Verif Require Import PyBase Num SymModel EftModel EftProofs NpModel NpProofs BetaSpec BetaModel TreeModel TreeElem TreeSpec TreeProofs LoopSyntax LoopData LoopModel LoopSpec LoopProofs LoopPhase LoopDim.
Import ListNotations.
Local Open Scope string_scope.
Local Open Scope list_scope.

Definition item : Type := (opnd * list ascii)%type.
Definition lperm (p : list nat) (ls : list ascii) : list ascii := map (fun i => nth i ls "0"%char) p.
Definition perm_ok (n : nat) (p : list nat) : bool := Nat.eqb (List.length p) n && forallb (fun i => Nat.ltb i n) p.
Definition chars_eqb : list ascii -> list ascii -> bool := list_eqb Ascii.eqb.
Lemma chars_eqb_eq l m : chars_eqb l m = true -> l = m.
Proof. apply list_eqb_eq. intros x y E. now apply Ascii.eqb_eq. Qed.
Definition syms (k : string) : list (list nat * bool) := match dget symmetries k with Some gs => gs | None => [] end.
(* the permutations of the indices of an operand that do not change it *)
Definition exch (o : opnd) (n : nat) : list (list nat) :=
  seq 0 n :: match o with
  | OC k => match dget dagbase k with Some _ => [] | None => map fst (filter (fun g => negb (snd g)) (syms k)) end
  | Okd | Okt => [[1; 0]%nat]
  | _ => []
  end.
Definition opnd_eqb (a b : opnd) : bool :=
  match a, b with
  | OC k, OC j => String.eqb k j
  | Okd, Okd | Okt, Okt | OV, OV | OVd, OVd => true
  | OM f, OM g | OD f, OD g => field_eqb f g
  | _, _ => false
  end.
Lemma opnd_eqb_eq a b : opnd_eqb a b = true -> a = b.
Proof. destruct a as [k| | | | |f|f], b as [j| | | | |g|g]; cbn; try discriminate; try reflexivity; [intros E; apply String.eqb_eq in E; now subst|destruct f, g; (reflexivity || discriminate)..]. Qed.
Definition item_eqb (a b : item) : bool :=
  opnd_eqb (fst a) (fst b) &&
  let ps := exch (fst a) (List.length (snd a)) in
  existsb (fun p => perm_ok (List.length (snd a)) p && existsb (fun q => perm_ok (List.length (snd a)) q && chars_eqb (lperm q (lperm p (snd a))) (snd b)) ps) ps.
(* the complex conjugate of an operand *)
Definition undag (k : string) : option string := match filter (fun kb => String.eqb k (snd kb)) dagbase with kb :: _ => Some (fst kb) | [] => None end.
Definition conj_item (a : item) : option item :=
  match fst a with
  | OC k =>
      match dget dagbase k with
      | Some b => Some (OC b, lperm [1; 0]%nat (snd a))
      | None =>
          match undag k with
          | Some d => Some (OC d, lperm [1; 0]%nat (snd a))
          | None => match find (fun g => snd g) (syms k) with
                    | Some (p, _) => if perm_ok (List.length (snd a)) p then Some (OC k, lperm p (snd a)) else None
                    | None => None
                    end
          end
      end
  | Okd | Okt => Some a
  | _ => None
  end.
Fixpoint omap {A B} (f : A -> option B) (l : list A) : option (list B) :=
  match l with [] => Some [] | x :: r => match f x, omap f r with Some y, Some ys => Some (y :: ys) | _, _ => None end end.
(* the letters after a permutation of the output *)
Definition rename (p : list nat) (out : list ascii) (c : ascii) : ascii := if kmem c out then nth (nth (pos_of c out) p 0%nat) out "0"%char else c.
Fixpoint remove_eq {A B} (eqb : A -> B -> bool) (x : A) (l : list B) : option (list B) :=
  match l with [] => None | y :: r => if eqb x y then Some r else match remove_eq eqb x r with Some r' => Some (y :: r') | None => None end end.
Fixpoint matches {A B} (eqb : A -> B -> bool) (l : list A) (m : list B) : bool :=
  match l with [] => match m with [] => true | _ => false end | x :: r => match remove_eq eqb x m with Some m' => matches eqb r m' | None => false end end.
(* output letters, summed letters and operands of a tensor *)
Definition tview : Type := (list ascii * list ascii * list item)%type.
Definition view (t : tensor) : tview := let (ins, out) := parse_spec (fst t) in (out, summed_letters ins out, combine (snd t) ins).
Definition map_view (g : list nat * bool) (v : tview) : option tview :=
  let '(out, summed, l) := v in
  let l' := map (fun a => (fst a, map (rename (fst g) out) (snd a))) l in
  match (if snd g then omap conj_item l' else Some l') with Some l2 => Some (out, summed, l2) | None => None end.
(* the tensor t' is the transformed tensor *)
Definition tensor_sym (v v' : option tview) : bool :=
  match v, v' with
  | Some (o, s, l), Some (o', s', l') => chars_eqb o o' && chars_eqb s s' && matches item_eqb l l'
  | None, None => true
  | _, _ => false
  end.
(* complex conjugation of the scalar factors *)
Definition bi_power (l : powers) : Z := zsum (map (fun bn => match fst bn with Bi => snd bn | _ => 0%Z end) l).
Definition no_bi (l : powers) : bool := forallb (fun bn => negb (base_eqb (fst bn) Bi)) l.
Definition conj_term (t : term) : term := let 'T n d m := t in T (if Z.odd (bi_power (fst m)) then - n else n) d m.
Definition conj_pref (b : bool) (p : pref) : pref := if b then map conj_term p else p.
Definition pref_real_ok (p : pref) : bool :=
  forallb (fun t => let 'T _ _ m := t in forallb (fun bn => negb (base_eqb (fst bn) Bi) || Z.leb 0 (snd bn)) (fst m) && forallb (fun sn => forallb (fun x => no_bi (snd x)) (fst sn)) (snd m)) p.
Definition mono_eqb (a b : mono) : bool :=
  powers_eqb (fst a) (fst b) && list_eqb (fun x y => Z.eqb (snd x) (snd y) && psum_eqb (fst x) (fst y)) (snd a) (snd b).
Definition term_eqb (a b : term) : bool := let 'T n d m := a in let 'T n' d' m' := b in Z.eqb n n' && Pos.eqb d d' && mono_eqb m m'.
Lemma mono_eqb_eq a b : mono_eqb a b = true -> a = b.
Proof.
  destruct a as [x l], b as [y m]. unfold mono_eqb. cbn [fst snd]. rewrite andb_true_iff. intros [P Q]. apply powers_eqb_eq in P as ->. f_equal.
  revert Q. apply list_eqb_eq. intros [s i] [t j]. cbn [fst snd]. rewrite andb_true_iff. intros [P Q]. apply psum_eqb_eq in Q as ->. apply Z.eqb_eq in P as ->. reflexivity.
Qed.
Lemma term_eqb_eq a b : term_eqb a b = true -> a = b.
Proof.
  destruct a, b. cbn [term_eqb]. rewrite !andb_true_iff. intros [[P Q] R]. apply Z.eqb_eq in P as ->. apply Pos.eqb_eq in Q as ->. now apply mono_eqb_eq in R as ->.
Qed.
Definition w_eqb (w w' : option string) : bool :=
  match w, w' with Some k, Some j => String.eqb k j && kmem k bosonic | None, None => true | _, _ => false end.
Definition gview : Type := (option tview * option string * pref)%type.
Definition rview (a : group) : gview := let '(t, w, p) := a in (option_map view t, w, p).
(* None: not possible *)
Definition lview (g : list nat * bool) (a : group) : option gview :=
  let '(t, w, p) := a in
  if pref_real_ok p then
    match t with
    | Some t => match map_view g (view t) with Some v => Some (Some v, w, conj_pref (snd g) p) | None => None end
    | None => Some (None, w, conj_pref (snd g) p)
    end
  else None.
Definition group_sym (a : option gview) (b : gview) : bool :=
  match a with
  | Some (t, w, p) => let '(t', w', p') := b in tensor_sym t t' && w_eqb w w' && list_eqb term_eqb p p'
  | None => false
  end.
Definition kg_sym (kg : string * list group) : bool :=
  match dget jms_symmetries (fst kg) with
  | None => true
  | Some gs => negb (rotated (fst kg)) &&
      let rs := map rview (snd kg) in
      forallb (fun g => match jrank (fst kg) with Some n => perm_ok n (fst g) | None => false end && matches group_sym (map (lview g) (snd kg)) rs) gs
  end.
Lemma prog_sym_true : forallb kg_sym loop_prog = true.
Proof. vm_cast_no_check (eq_refl true). Qed.

Lemma perm_ok_iff n p : perm_ok n p = true -> List.length p = n /\ (forall i, In i p -> (i < n)%nat).
Proof.
  unfold perm_ok. rewrite andb_true_iff, forallb_forall. intros [L F]. apply Nat.eqb_eq in L. split; [exact L|].
  intros i I. apply F in I. now apply Nat.ltb_lt.
Qed.
Lemma map_lperm (e : ascii -> nat) p ls : perm_ok (List.length ls) p = true -> map e (lperm p ls) = permute p (map e ls).
Proof.
  intros H. apply perm_ok_iff in H as [_ H]. unfold lperm, permute. rewrite map_map. apply map_ext_in. intros i I.
  rewrite (nth_indep (map e ls) 0%nat (e "0"%char)) by (rewrite map_length; auto). now rewrite map_nth.
Qed.
Lemma lperm_length p ls : List.length (lperm p ls) = List.length p.
Proof. apply map_length. Qed.
Lemma permute_seq (I : idx) : permute (seq 0 (List.length I)) I = I.
Proof.
  unfold permute. apply nth_ext with (d := 0%nat) (d' := 0%nat); [now rewrite map_length, seq_length|]. rewrite map_length, seq_length. intros n Hn.
  rewrite (nth_indep _ 0%nat (nth 0 I 0%nat)) by (now rewrite map_length, seq_length). rewrite (map_nth (fun i => nth i I 0%nat)). now rewrite seq_nth.
Qed.
Lemma pos_app_in c out l : In c out -> pos_of c (out ++ l) = pos_of c out /\ (pos_of c out < List.length out)%nat.
Proof.
  induction out as [|x out IH]; intros []; cbn [app pos_of List.length].
  - subst. rewrite Ascii.eqb_refl. split; [reflexivity|lia].
  - destruct (IH H) as [-> L]. destruct (Ascii.eqb c x); split; (reflexivity || lia).
Qed.
Lemma pos_app_nin c out l : ~ In c out -> pos_of c (out ++ l) = (List.length out + pos_of c l)%nat.
Proof.
  induction out as [|x out IH]; intros N; [reflexivity|]. cbn [app pos_of List.length]. destruct (Ascii.eqb_spec c x) as [->|]; [elim N; now left|].
  rewrite IH by (intros H; apply N; now right). reflexivity.
Qed.
Lemma pos_nth out d n : NoDup out -> (n < List.length out)%nat -> pos_of (nth n out d) out = n.
Proof.
  revert n. induction out as [|x out IH]; intros n ND Hn; [cbn in Hn; lia|]. inversion_clear ND as [|? ? NI ND']. cbn [pos_of].
  destruct n as [|n]; cbn [nth].
  - now rewrite Ascii.eqb_refl.
  - cbn [List.length] in Hn. destruct (Ascii.eqb_spec (nth n out d) x) as [E|_].
    + exfalso. apply NI. rewrite <- E. apply nth_In. lia.
    + now rewrite IH by (assumption || lia).
Qed.
Lemma genv_rename p out summed O s c : NoDup out -> List.length O = List.length out -> perm_ok (List.length out) p = true ->
  genv (out ++ summed) (permute p O ++ s) c = genv (out ++ summed) (O ++ s) (rename p out c).
Proof.
  intros ND LO PO. apply perm_ok_iff in PO as [LP PO]. unfold genv, rename. destruct (kmem c out) eqn:M.
  - apply kmem_In in M. destruct (pos_app_in c out summed M) as [-> LT].
    assert (LT2 : (nth (pos_of c out) p 0 < List.length out)%nat) by (apply PO, nth_In; lia).
    assert (M2 : In (nth (nth (pos_of c out) p 0%nat) out "0"%char) out) by (now apply nth_In).
    destruct (pos_app_in _ out summed M2) as [-> _]. rewrite pos_nth by assumption.
    rewrite !app_nth1 by (rewrite ?LO; unfold permute; rewrite ?map_length; lia).
    unfold permute. rewrite (nth_indep _ 0%nat (nth 0 O 0%nat)) by (rewrite map_length; lia). now rewrite (map_nth (fun i => nth i O 0%nat)).
  - apply kmem_nIn in M. rewrite (pos_app_nin _ _ _ M). rewrite !app_nth2 by (unfold permute; rewrite ?map_length; lia).
    unfold permute. rewrite map_length. now rewrite LP, LO.
Qed.

Section Gen.
Context {K : StarField}.
Local Open Scope K_scope.
Add Field KFsy : (k_field K) (morphism (kZ_morph (K := K)), constants [kz_const]).
Notation cdict := (dict string (cval K)).
Lemma cj_mul b (x y : K) : cj b (x * y) = cj b x * cj b y.
Proof. destruct b; [apply kconj_mul|reflexivity]. Qed.
Lemma cj_1 b : cj b (1 : K) = 1.
Proof. destruct b; [apply kconj_1|reflexivity]. Qed.
Lemma cj_sum {A} b (f : A -> K) l : cj b (ksum (map f l)) = ksum (map (fun x => cj b (f x)) l).
Proof. destruct b; [apply ksum_conj|reflexivity]. Qed.
Lemma cj_prod {A} b (f : A -> K) l : cj b (kprod (map f l)) = kprod (map (fun x => cj b (f x)) l).
Proof. destruct b; [apply kprod_conj|reflexivity]. Qed.

Lemma matches_prod {A B} (eqb : A -> B -> bool) (f : A -> K) (g : B -> K) l : forall m,
  (forall x y, In x l -> In y m -> eqb x y = true -> f x = g y) -> matches eqb l m = true -> kprod (map f l) = kprod (map g m).
Proof.
  assert (RM : forall x (m : list B) m', remove_eq eqb x m = Some m' -> exists y, In y m /\ eqb x y = true /\ Permutation m (y :: m')).
  { intros x m. induction m as [|y m IH]; intros m'; cbn [remove_eq]; [discriminate|]. destruct (eqb x y) eqn:E.
    - intros H. injection H as <-. exists y. split; [now left|]. split; [exact E|]. apply Permutation_refl.
    - destruct (remove_eq eqb x m) as [r|]; [|discriminate]. intros H. injection H as <-. destruct (IH r eq_refl) as (z & I & Z & PZ).
      exists z. split; [now right|]. split; [exact Z|]. rewrite PZ. apply perm_swap. }
  induction l as [|x l IH]; intros m H M; cbn [matches] in M.
  - destruct m; [reflexivity|discriminate].
  - destruct (remove_eq eqb x m) as [m'|] eqn:R; [|discriminate]. destruct (RM x m m' R) as (y & I & E & PM).
    rewrite (kprod_perm _ _ (Permutation_map g PM)). cbn [map]. rewrite !kprod_cons, (H x y (or_introl eq_refl) I E). f_equal.
    apply IH; [|exact M]. intros a b A1 B1. apply H; [now right|]. apply (Permutation_in b (Permutation_sym PM)). now right.
Qed.
Lemma matches_sum {A B} (eqb : A -> B -> bool) (f : A -> K) (g : B -> K) l : forall m,
  (forall x y, In x l -> In y m -> eqb x y = true -> f x = g y) -> matches eqb l m = true -> ksum (map f l) = ksum (map g m).
Proof.
  assert (RM : forall x (m : list B) m', remove_eq eqb x m = Some m' -> exists y, In y m /\ eqb x y = true /\ Permutation m (y :: m')).
  { intros x m. induction m as [|y m IH]; intros m'; cbn [remove_eq]; [discriminate|]. destruct (eqb x y) eqn:E.
    - intros H. injection H as <-. exists y. split; [now left|]. split; [exact E|]. apply Permutation_refl.
    - destruct (remove_eq eqb x m) as [r|]; [|discriminate]. intros H. injection H as <-. destruct (IH r eq_refl) as (z & I & Z & PZ).
      exists z. split; [now right|]. split; [exact Z|]. rewrite PZ. apply perm_swap. }
  induction l as [|x l IH]; intros m H M; cbn [matches] in M.
  - destruct m; [reflexivity|discriminate].
  - destruct (remove_eq eqb x m) as [m'|] eqn:R; [|discriminate]. destruct (RM x m m' R) as (y & I & E & PM).
    rewrite (ksum_perm _ _ (Permutation_map g PM)). cbn [map]. rewrite !ksum_cons, (H x y (or_introl eq_refl) I E). f_equal.
    apply IH; [|exact M]. intros a b A1 B1. apply H; [now right|]. apply (Permutation_in b (Permutation_sym PM)). now right.
Qed.

(* ---------- scalar factors ---------- *)
Section Scalars.
Variable val : base -> K.
Hypothesis HD : forall b, dbase b = true -> val b <> 0.
Hypothesis HS : forall s, In s loop_sums -> vpsum val s <> 0.
Hypothesis HR : forall b, (val b)^* = if base_eqb b Bi then - val b else val b.
Lemma kpow_conj (y : K) m : (kpow y m)^* = kpow (y^*) m.
Proof. induction m as [|m IH]; cbn [kpow]; [apply kconj_1|now rewrite kconj_mul, IH]. Qed.
Lemma kpow_opp (y : K) m : kpow (- y) m = if Nat.odd m then - kpow y m else kpow y m.
Proof.
  induction m as [|m IH]; [reflexivity|]. rewrite Nat.odd_succ, <- Nat.negb_odd. cbn [kpow]. rewrite IH. destruct (Nat.odd m); cbn [negb]; ring.
Qed.
Lemma odd_pos p : Nat.odd (Pos.to_nat p) = Z.odd (Z.pos p).
Proof. rewrite <- Z2Nat.inj_pos. rewrite <- (Nat2Z.id (Z.to_nat (Z.pos p))). rewrite Z2Nat.id by lia. destruct p; cbn [Z.odd]; rewrite Z2Nat.inj_pos. 
  - rewrite Pos2Nat.inj_xI. rewrite Nat.odd_succ. apply Nat.even_spec. exists (Pos.to_nat p). reflexivity.
  - rewrite Pos2Nat.inj_xO. rewrite <- Nat.negb_even. apply negb_false_iff. apply Nat.even_spec. exists (Pos.to_nat p). reflexivity.
  - reflexivity.
Qed.
Lemma zpw_conj1 b n : ((n < 0)%Z -> dbase b = true) -> (zpw (val b) n)^* = if base_eqb b Bi && Z.odd n then - zpw (val b) n else zpw (val b) n.
Proof.
  intros H. destruct n as [|p|p]; cbn [zpw].
  - rewrite kconj_1. now rewrite andb_false_r.
  - rewrite kpow_conj, HR. destruct (base_eqb b Bi); cbn [andb]; [|reflexivity]. now rewrite kpow_opp, odd_pos.
  - specialize (H eq_refl). pose proof (HD b H) as N. rewrite kconj_div, kconj_1, kpow_conj, HR by (now apply kpow_neq0).
    destruct b; cbn [base_eqb andb]; (reflexivity || discriminate H).
Qed.
Lemma powers_conj l : powers_ok l = true -> (vpowers val l)^* = if Z.odd (bi_power l) then - vpowers val l else vpowers val l.
Proof.
  induction l as [|[b n] l IH]; intros OK; [unfold vpowers, kprod; cbn; apply kconj_1|]. unfold powers_ok in OK. cbn [forallb fst snd] in OK.
  apply andb_true_iff in OK as [O OK]. specialize (IH OK). unfold vpowers, bi_power in *. cbn [map zsum fold_right fst snd]. rewrite kprod_cons, kconj_mul, IH. cbn [fst snd].
  fold (zsum (map (fun bn => match fst bn with Bi => snd bn | _ => 0%Z end) l)).
  rewrite zpw_conj1 by (intros L; apply orb_true_iff in O as [O|O]; [lia|exact O]). rewrite Z.odd_add.
  destruct b; cbn [base_eqb andb Z.odd xorb]; try (destruct (Z.odd (zsum _)); ring).
  destruct (Z.odd n), (Z.odd (zsum _)); cbn [xorb]; ring.
Qed.
Lemma no_bi_power l : no_bi l = true -> bi_power l = 0%Z.
Proof.
  induction l as [|[b n] l IH]; [reflexivity|]. unfold no_bi, bi_power in *. cbn [forallb map zsum fold_right fst snd]. rewrite andb_true_iff. intros [A B].
  fold (zsum (map (fun bn => match fst bn with Bi => snd bn | _ => 0%Z end) l)). rewrite (IH B). destruct b; (reflexivity || discriminate A).
Qed.
Lemma psum_conj s : psum_ok s = true -> forallb (fun x => no_bi (snd x)) s = true -> (vpsum val s)^* = vpsum val s.
Proof.
  unfold psum_ok. rewrite !forallb_forall. intros OK NB. unfold vpsum. rewrite ksum_conj. apply ksum_ext. intros t Ht.
  rewrite kconj_mul, kconj_Z, (powers_conj _ (OK t Ht)), (no_bi_power _ (NB t Ht)). reflexivity.
Qed.
Lemma pref_conj_ok b p : pref_ok p = true -> pref_real_ok p = true -> cj b (vpref val p) = vpref val (conj_pref b p).
Proof.
  destruct b; [|reflexivity]. cbn [cj conj_pref]. unfold pref_ok, pref_real_ok. rewrite !forallb_forall. intros OK RO. unfold vpref. rewrite ksum_conj, map_map.
  apply ksum_ext. intros [n d m] I. specialize (OK _ I). specialize (RO _ I). cbn beta iota in OK, RO. apply andb_true_iff in RO as [_ RO]. rewrite forallb_forall in RO.
  unfold mono_ok in OK. apply andb_true_iff in OK as [PO SO]. rewrite forallb_forall in SO. cbn [vterm conj_term].
  rewrite kconj_mul, kconj_div, !kconj_Z by (apply kZ_neq0; lia). unfold vmono.
  rewrite kconj_mul, (powers_conj _ PO), kprod_conj.
  rewrite (kprod_ext (fun sn => (zpw (vpsum val (fst sn)) (snd sn))^*) (fun sn => zpw (vpsum val (fst sn)) (snd sn))).
  - destruct (Z.odd (bi_power (fst m))); rewrite ?kZ_opp; field; apply kZ_neq0; lia.
  - intros sn Hs. pose proof (SO sn Hs) as S1. apply andb_true_iff in S1 as [S1 S2]. apply existsb_exists in S2 as (s & IN & E). apply psum_eqb_eq in E.
    assert (N : vpsum val (fst sn) <> 0) by (rewrite E; now apply HS).
    rewrite (zpw_conj _ _ N), (psum_conj _ S1 (RO sn Hs)). reflexivity.
Qed.
End Scalars.

(* ---------- operands and tensors ---------- *)
Variables (V : nat -> nat -> K) (mass : field -> nat -> K) (c : string -> idx -> K).
Hypothesis HC : forall k gs g ts, dget symmetries k = Some gs -> In g gs -> dget wc_fields k = Some ts ->
  forall I, In I (idxs (List.length ts)) -> c k I = cj (snd g) (c k (permute (fst g) I)).
Notation F := (fopnd V mass (lcf c)).
Definition iv (e : ascii -> nat) (a : item) : K := F (fst a) (map e (snd a)).
Definition item_ok (a : item) : Prop := opnd_rank (fst a) = Some (List.length (snd a)).
Section Env.
Variable e : ascii -> nat.
Hypothesis E3 : forall x, (e x < 3)%nat.
Lemma in_e ls : In (map e ls) (idxs (List.length ls)).
Proof. apply in_idxs. split; [apply map_length|]. intros x X. apply in_map_iff in X as (a & <- & _). apply E3. Qed.
Lemma exch_ok o ls p : opnd_rank o = Some (List.length ls) -> In p (exch o (List.length ls)) -> perm_ok (List.length ls) p = true ->
  F o (map e (lperm p ls)) = F o (map e ls).
Proof.
  intros R I PO. rewrite (map_lperm e p ls PO). destruct I as [<-|I].
  { rewrite <- (map_length e ls) at 1. now rewrite permute_seq. }
  destruct o as [k| | | | |f|f]; try (destruct I; fail).
  - cbn [opnd_rank] in R. cbn [fopnd]. unfold lck in R. unfold lcf. destruct (dget dagbase k) as [b|]; [destruct I|].
    destruct (dget wc_fields k) as [ts|] eqn:G; [|discriminate R]. injection R as R. unfold syms in I.
    destruct (dget symmetries k) as [gs|] eqn:GS; [|destruct I]. apply in_map_iff in I as ((q & b) & <- & I). apply filter_In in I as [I NB].
    destruct b; [discriminate NB|]. symmetry. apply (HC k gs (q, false) ts GS I G). rewrite R. apply in_e.
  - injection R as R. destruct ls as [|x [|y [|]]]; try discriminate R. destruct I as [<-|[]]. cbn [permute map fopnd nth]. unfold delta. now rewrite Nat.eqb_sym.
  - injection R as R. destruct ls as [|x [|y [|]]]; try discriminate R. destruct I as [<-|[]]. cbn [permute map fopnd nth]. unfold kt. now rewrite andb_comm.
Qed.
Lemma item_eqb_ok a b : item_ok b -> item_eqb a b = true -> iv e a = iv e b.
Proof.
  unfold item_ok, item_eqb, iv. destruct a as [o ls], b as [o' ls']. cbn [fst snd]. rewrite andb_true_iff. intros R [EO H]. apply opnd_eqb_eq in EO as <-.
  apply existsb_exists in H as (p & I & H). apply andb_true_iff in H as [P H]. apply existsb_exists in H as (q & J & H). apply andb_true_iff in H as [Q H].
  apply chars_eqb_eq in H as <-. pose proof (perm_ok_iff _ _ P) as [LP _]. pose proof (perm_ok_iff _ _ Q) as [LQ _].
  rewrite lperm_length, LQ in R.
  rewrite (exch_ok o (lperm p ls) q); rewrite ?lperm_length, ?LP; auto. now rewrite (exch_ok o ls p).
Qed.
Lemma conj_item_ok a b : item_ok a -> conj_item a = Some b -> (iv e a)^* = iv e b.
Proof.
  unfold item_ok, conj_item, iv. destruct a as [o ls]. cbn [fst snd]. intros R. destruct o as [k| | | | |f|f]; try discriminate.
  - cbn [opnd_rank] in R. unfold lck in R. cbn [fopnd]. unfold lcf at 1. destruct (dget dagbase k) as [b0|] eqn:GB.
    + intros H. injection H as <-. injection R as R. destruct ls as [|x [|y [|]]]; try discriminate R. cbn [map nth lperm fst snd fopnd].
      rewrite kconj_conj. unfold lcf. replace (dget dagbase b0) with (@None string); [reflexivity|].
      cbn in GB. repeat (match type of GB with context [String.eqb k ?x] => destruct (String.eqb k x); [injection GB as <-; reflexivity|] end). discriminate GB.
    + destruct (undag k) as [d|] eqn:UD.
      * intros H. injection H as <-. cbn [fst snd fopnd].
        assert (X : dget dagbase d = Some k /\ exists t0 t1, dget wc_fields k = Some [t0; t1]).
        { unfold undag in UD. cbn in UD. repeat (match type of UD with context [String.eqb k ?x] => destruct (String.eqb_spec k x) as [->|]; [injection UD as <-; split; [reflexivity|do 2 eexists; reflexivity]|] end). discriminate UD. }
        destruct X as [D (t0 & t1 & W)]. unfold lcf. rewrite D. rewrite W in R. injection R as R. destruct ls as [|x [|y [|]]]; try discriminate R. reflexivity.
      * destruct (dget wc_fields k) as [ts|] eqn:G; [|discriminate R]. injection R as R. unfold syms. destruct (dget symmetries k) as [gs|] eqn:GS; [|discriminate].
        destruct (find (fun g => snd g) gs) as [[p b0]|] eqn:FN; [|discriminate]. destruct (perm_ok (List.length ls) p) eqn:PO; [|discriminate].
        intros H. injection H as <-. cbn [fst snd fopnd]. unfold lcf. rewrite GB, (map_lperm e p ls PO). apply find_some in FN as [FN B]. cbn [snd] in B. subst b0.
        rewrite (HC k gs (p, true) ts GS FN G) by (rewrite R; apply in_e). cbn [cj fst snd]. apply kconj_conj.
  - intros H. injection H as <-. cbn [fst snd fopnd]. unfold delta. destruct (Nat.eqb _ _); [apply kconj_1|apply kconj_0].
  - intros H. injection H as <-. cbn [fst snd fopnd]. unfold kt. destruct (_ && _); [apply kconj_1|apply kconj_0].
Qed.
End Env.
Lemma ein_items L vals ins : forall os, ein_fun L vals ins (map F os) = kprod (map (iv (genv L vals)) (combine os ins)).
Proof.
  induction ins as [|ls ins IH]; intros [|o os]; try reflexivity. cbn [ein_fun map combine]. rewrite kprod_cons, IH. reflexivity.
Qed.
Definition vfun (v : tview) (O : idx) : K :=
  let '(out, summed, l) := v in ksum (map (fun s => kprod (map (iv (genv (out ++ summed) (O ++ s))) l)) (idxs (List.length summed))).
Lemma ftensor_view t O : ftensor V mass (lcf c) t O = vfun (view t) O.
Proof. unfold ftensor, view, vfun. destruct (parse_spec (fst t)) as [ins out]. apply ksum_ext. intros s _. apply ein_items. Qed.
Definition view_ok (n : nat) (v : tview) : Prop := let '(out, _, l) := v in NoDup out /\ List.length out = n /\ forall a, In a l -> item_ok a.
Lemma view_ok_tensor n t : tensor_ok n t = true -> view_ok n (view t).
Proof.
  unfold tensor_ok, view, view_ok. destruct (parse_spec (fst t)) as [ins out]. rewrite !andb_true_iff. intros [[[_ ND] OK] L].
  apply knodup_NoDup in ND. apply Nat.eqb_eq in L. split; [exact ND|]. split; [exact L|]. revert OK. generalize (snd t). induction ins as [|ls ins IH]; intros [|o os] OK a I;
    cbn [opnds_ok combine] in OK, I; try discriminate OK; try (destruct I; fail).
  apply andb_true_iff in OK as [R OK]. destruct I as [<-|I]; [|now apply (IH os)]. unfold item_ok. cbn [fst snd].
  destruct (opnd_rank o) as [r|]; [|discriminate R]. now apply Nat.eqb_eq in R as ->.
Qed.
Lemma omap_In {A B} (f : A -> option B) l m : omap f l = Some m -> Forall2 (fun x y => f x = Some y) l m.
Proof.
  revert m. induction l as [|x l IH]; intros m; cbn [omap]; [intros H; injection H as <-; constructor|].
  destruct (f x) as [y|] eqn:E; [|discriminate]. destruct (omap f l) as [ys|]; [|discriminate]. intros H. injection H as <-. constructor; auto.
Qed.
Lemma genv_lt3 L O s n m x : In O (idxs n) -> In s (idxs m) -> (genv L (O ++ s) x < 3)%nat.
Proof.
  intros HO Hs. apply nth_lt3. intros y Y. apply in_app_iff in Y as [Y|Y]; [apply in_idxs in HO; now apply HO|apply in_idxs in Hs; now apply Hs].
Qed.
Lemma conj_items_ok e (E3 : forall x, (e x < 3)%nat) l m : Forall2 (fun x y => conj_item x = Some y) l m -> (forall a, In a l -> item_ok a) ->
  kprod (map (fun a => (iv e a)^*) l) = kprod (map (iv e) m).
Proof.
  induction 1 as [|a b l1 l2 E M IH]; intros OK; [reflexivity|]. cbn [map]. rewrite !kprod_cons.
  rewrite (conj_item_ok e E3 a b) by (exact E || (apply OK; now left)). f_equal. apply IH. intros x X. apply OK. now right.
Qed.
Lemma map_view_ok n g v v2 O : view_ok n v -> perm_ok n (fst g) = true -> In O (idxs n) -> map_view g v = Some v2 ->
  cj (snd g) (vfun v (permute (fst g) O)) = vfun v2 O.
Proof.
  destruct v as [[out summed] l]. cbn [view_ok map_view]. intros (ND & LO & OK) PO HO.
  destruct (if snd g then _ else _) as [l2|] eqn:M; [|discriminate]. intros H. injection H as <-. cbn [vfun]. rewrite cj_sum. apply ksum_ext. intros s Hs.
  pose proof (idxs_length _ _ HO) as LOO.
  set (e := genv (out ++ summed) (O ++ s)). assert (E3 : forall x, (e x < 3)%nat) by (intros x; exact (genv_lt3 _ O s n _ x HO Hs)).
  assert (RN : forall a, iv (genv (out ++ summed) (permute (fst g) O ++ s)) a = iv e (fst a, map (rename (fst g) out) (snd a))).
  { intros a. unfold iv. cbn [fst snd]. f_equal. rewrite map_map. apply map_ext. intros x. apply genv_rename; [exact ND|congruence|now rewrite LO]. }
  rewrite cj_prod. rewrite (map_ext _ (fun a => cj (snd g) (iv e (fst a, map (rename (fst g) out) (snd a))))) by (intros a; now rewrite RN).
  set (l' := map (fun a : item => (fst a, map (rename (fst g) out) (snd a))) l) in M.
  transitivity (kprod (map (fun a => cj (snd g) (iv e a)) l')); [unfold l'; now rewrite map_map|].
  assert (OK' : forall a, In a l' -> item_ok a).
  { intros a I. apply in_map_iff in I as (b & <- & I). apply OK in I. unfold item_ok in *. cbn [fst snd]. now rewrite map_length. }
  destruct (snd g); cbn [cj] in *.
  - apply omap_In in M. exact (conj_items_ok e E3 _ _ M OK').
  - injection M as <-. reflexivity.
Qed.
Lemma tensor_sym_ok n v v' O : view_ok n v' -> In O (idxs n) -> tensor_sym (Some v) (Some v') = true -> vfun v O = vfun v' O.
Proof.
  destruct v as [[o s] l], v' as [[o' s'] l']. cbn [view_ok tensor_sym]. intros (_ & LO & OK) HO. rewrite !andb_true_iff. intros [[A B] M].
  apply chars_eqb_eq in A as <-. apply chars_eqb_eq in B as <-. cbn [vfun]. apply ksum_ext. intros x Hx.
  apply (matches_prod item_eqb); [|exact M]. intros a b _ I E. apply item_eqb_ok; [|now apply OK|exact E]. intros y. exact (genv_lt3 _ O x n _ y HO Hx).
Qed.
(* ---------- groups ---------- *)
Variable val : base -> K.
Hypothesis HD : forall b, dbase b = true -> val b <> 0.
Hypothesis HS : forall s, In s loop_sums -> vpsum val s <> 0.
Hypothesis HR : forall b, (val b)^* = if base_eqb b Bi then - val b else val b.
Lemma boson_real b k : kmem k bosonic = true -> cj b (lcf c k []) = lcf c k [].
Proof.
  intros M. destruct b; [|reflexivity]. cbn [cj]. apply kmem_In in M. cbn in M.
  repeat (destruct M as [<-|M]; [symmetry; refine (HC _ real0 ([], true) [] _ _ _ [] _); [reflexivity|now left|reflexivity|now left]|]). destruct M.
Qed.
Lemma group_sym_ok n g a b O : group_ok n a = true -> group_ok n b = true -> perm_ok n (fst g) = true -> In O (idxs n) ->
  group_sym (lview g a) (rview b) = true -> cj (snd g) (fgroup val V mass (lcf c) a (permute (fst g) O)) = fgroup val V mass (lcf c) b O.
Proof.
  destruct a as [[t w] p], b as [[t' w'] p']. cbn [group_ok lview rview]. rewrite !andb_true_iff. intros [[PA WA] TA] [[PB WB] TB] PO HO.
  destruct (pref_real_ok p) eqn:RE; [|discriminate].
  assert (FIN : forall x y, cj (snd g) x = y -> w_eqb w w' = true -> list_eqb term_eqb (conj_pref (snd g) p) p' = true ->
    cj (snd g) ((vpref val p * match w with Some k => lcf c k [] | None => 1 end) * x) = (vpref val p' * match w' with Some k => lcf c k [] | None => 1 end) * y).
  { intros x y XY W PE. apply list_eqb_eq in PE; [|exact term_eqb_eq]. rewrite !cj_mul, XY, (pref_conj_ok val HD HS HR _ _ PA RE), PE. f_equal. f_equal.
    destruct w as [k|], w' as [j|]; cbn [w_eqb] in W; try discriminate W; [|apply cj_1]. apply andb_true_iff in W as [W1 W2]. apply String.eqb_eq in W1 as <-.
    now apply boson_real. }
  unfold fgroup. destruct t as [t|].
  - destruct (map_view g (view t)) as [v|] eqn:MV; [|discriminate]. destruct t' as [t'|]; cbn [option_map group_sym].
    + rewrite !andb_true_iff. intros [[TS W] PE]. apply FIN; [|exact W|exact PE]. rewrite !ftensor_view.
      rewrite (map_view_ok n g (view t) v O (view_ok_tensor n t TA) PO HO MV). exact (tensor_sym_ok n v (view t') O (view_ok_tensor n t' TB) HO TS).
    + destruct v as [[? ?] ?]. discriminate.
  - destruct t' as [t'|]; cbn [option_map group_sym]; [discriminate|]. rewrite !andb_true_iff. intros [[TS W] PE]. apply FIN; [apply cj_1|exact W|exact PE].
Qed.
Lemma floop_sym k gs g ts I : dget jms_symmetries k = Some gs -> In g gs -> dget jms_fields k = Some ts -> In I (idxs (List.length ts)) ->
  floop val V mass c k I = cj (snd g) (floop val V mass c k (permute (fst g) I)).
Proof.
  intros GS HG G HI. unfold floop, floop0. destruct (dget loop_prog k) as [l|] eqn:GP.
  - apply dget_In in GP. pose proof (proj1 (forallb_forall kg_sym loop_prog) prog_sym_true _ GP) as S. destruct (prog_In k l GP) as (n & JR & OK).
    unfold kg_sym in S. cbn [fst snd] in S. rewrite GS, JR in S. apply andb_true_iff in S as [NR S]. apply negb_true_iff in NR. rewrite NR.
    unfold jrank in JR. rewrite G in JR. injection JR as <-. rewrite forallb_forall in S. specialize (S g HG). apply andb_true_iff in S as [PO M].
    assert (OK' : forallb (group_ok (List.length ts)) l = true) by (destruct l; [discriminate OK|exact OK]). rewrite forallb_forall in OK'.
    unfold fassign. rewrite cj_sum. symmetry.
    assert (M2 : matches (fun a b => group_sym (lview g a) (rview b)) l l = true).
    { revert M. clear. generalize l at 2 4. induction l as [|a l IH]; intros m; cbn [map matches]; [destruct m; [reflexivity|discriminate]|].
      assert (RQ : remove_eq group_sym (lview g a) (map rview m) = option_map (map rview) (remove_eq (fun a b => group_sym (lview g a) (rview b)) a m)).
      { clear. induction m as [|b m IH]; [reflexivity|]. cbn [map remove_eq]. destruct (group_sym _ _); [reflexivity|]. rewrite IH. now destruct (remove_eq _ a m). }
      rewrite RQ. destruct (remove_eq _ a m) as [m'|]; [|discriminate]. cbn [option_map]. apply IH. }
    refine (matches_sum (fun a b => group_sym (lview g a) (rview b)) _ _ l l _ M2). intros a b A B E. apply (group_sym_ok (List.length ts)); auto.
  - assert (Z : forall r : bool, (if r then ksum (map (fun a => V (nth 0 I 0%nat) (nth 0 a 0%nat) * 0) (idxs 1)) else 0) = 0).
    { intros [|]; [|reflexivity]. apply ksum_zero. intros; ring. }
    assert (Z2 : forall (r : bool) J, (if r then ksum (map (fun a => V (nth 0 J 0%nat) (nth 0 a 0%nat) * 0) (idxs 1)) else 0) = 0).
    { intros [|] J; [|reflexivity]. apply ksum_zero. intros; ring. }
    rewrite !Z2. destruct (snd g); [symmetry; apply kconj_0|reflexivity].
Qed.
End Gen.
