(* Symbolic evaluation of translator programs into linear forms (proof tool for C26-C28;
   nothing here models the code).

   The value of every key computed by a prog is a linear form in the input coefficients and
   their conjugates, whose coefficients are rational multiples of Laurent monomials in the
   symbols and in the CKM elements.  srun computes these forms; srun_sound says that run
   succeeds and returns their values, for every input. *)
From Coq Require Import List Bool ZArith QArith Arith Lia String Ascii.
From Verif Require Import PyBase Num Lin SymModel SymClass SymSpec EftModel EftSpec EftProofs EftLabels EftRound EftInit
  JmsModel JmsSpec JmsProofs JmsArrays TrLang.
Import ListNotations.
Local Open Scope list_scope.

(* ---------- Laurent monomials ---------- *)
Definition mono := list (nat * Z).
Fixpoint madd (i : nat) (e : Z) (m : mono) : mono :=
  match m with
  | [] => if (e =? 0)%Z then [] else [(i, e)]
  | (j, f) :: r =>
      if (i =? j)%nat then (if (e + f =? 0)%Z then r else (i, e + f)%Z :: r)
      else if (i <? j)%nat then (if (e =? 0)%Z then m else (i, e) :: m)
      else (j, f) :: madd i e r
  end.
Definition mmul (m n : mono) : mono := fold_right (fun x r => madd (fst x) (snd x) r) n m.
Definition minv (m : mono) : mono := map (fun x => (fst x, - snd x)%Z) m.
Definition cidx (i : nat) : nat :=
  if (i <? 13)%nat then i else if (i <? 22)%nat then (i + 9)%nat else if (i <? 31)%nat then (i - 9)%nat else i.
(* the variable 31 is the imaginary unit, whose conjugate is its inverse *)
Definition cexp (i : nat) (e : Z) : Z := if (i =? 31)%nat then (- e)%Z else e.
Definition mconj (m : mono) : mono := fold_right (fun x r => madd (cidx (fst x)) (cexp (fst x) (snd x)) r) [] m.
Definition sym_idx (y : sym) : nat :=
  match y with
  | Ysqrt2 => 0 | Ypi => 1 | YGF => 2 | Ye => 3 | Ygs => 4 | Ym_b => 5 | Ym_c => 6 | Ym_s => 7 | Ym_u => 8
  | Ym_d => 9 | Ym_e => 10 | Ym_mu => 11 | Ym_tau => 12
  end.
Definition syms : list sym := [Ysqrt2; Ypi; YGF; Ye; Ygs; Ym_b; Ym_c; Ym_s; Ym_u; Ym_d; Ym_e; Ym_mu; Ym_tau].
Definition smon := (Q * mono)%type.
Definition smmul (a b : smon) : smon := (Qred (fst a * fst b), mmul (snd a) (snd b)).
Fixpoint smpow (a : smon) (n : nat) : smon := match n with O => (1%Q, []) | Datatypes.S m => smmul a (smpow a m) end.
Definition qnz (q : Q) : bool := negb (Qeq_bool q 0).
Definition z3 (i : Z) : bool := ((0 <=? i) && (i <? 3))%Z.
Definition vidx (i j : Z) : nat := (13 + 3 * Z.to_nat i + Z.to_nat j)%nat.
Fixpoint snorm (s : sc) : option smon :=
  match s with
  | SZ n => if (n =? 0)%Z then None else Some (inject_Z n, [])
  | SY y => Some (1%Q, [(sym_idx y, 1%Z)])
  | SV i j => if z3 i && z3 j then Some (1%Q, [(vidx i j, 1%Z)]) else None
  | SConj s => match snorm s with Some (q, m) => Some (q, mconj m) | None => None end
  | SNeg s => match snorm s with Some (q, m) => Some (Qred (- q), m) | None => None end
  | SMul s t => match snorm s, snorm t with Some a, Some b => Some (smmul a b) | _, _ => None end
  | SDiv s t => match snorm s, snorm t with Some a, Some (q, m) => Some (smmul a (Qred (/ q), minv m)) | _, _ => None end
  | SPow s n => match snorm s with Some a => Some (smpow a n) | None => None end
  end.

(* ---------- linear forms ---------- *)
Definition atom := ((string * bool) * mono)%type.
Definition lf := lin atom.
Definition lkey (k : string) : lf := [(1%Q, (k, false, []))].
Definition lmul (a : smon) (l : lf) : lf :=
  map (fun x => (Qred (fst a * fst x), (fst (snd x), mmul (snd a) (snd (snd x))))) l.
Definition lconj (l : lf) : lf :=
  map (fun x => (fst x, (fst (fst (snd x)), negb (snd (fst (snd x))), mconj (snd (snd x))))) l.

Record senv := mkSenv { sflat : dict string lf; sfull : bool; sarr : string -> list Z -> option lf }.
Definition no_arr (_ : string) (_ : list Z) : option lf := None.
Fixpoint seval (E : senv) (x : ex) : option lf :=
  match x with
  | E0 => Some []
  | EKey k => dget (sflat E) k
  | EGet k => if sfull E then Some (dgetd (sflat E) k []) else Some (lkey k)
  | EArr n ix => sarr E n ix
  | EAdd a b => match seval E a, seval E b with Some u, Some v => Some (ladd u v) | _, _ => None end
  | ESub a b => match seval E a, seval E b with Some u, Some v => Some (ladd u (lscale (-1) v)) | _, _ => None end
  | ENeg a => match seval E a with Some u => Some (lscale (-1) u) | None => None end
  | EScale s a => match snorm s, seval E a with Some m, Some u => Some (lmul m u) | _, _ => None end
  | EDivS a s => match snorm s, seval E a with Some (q, m), Some u => Some (lmul (Qred (/ q), minv m) u) | _, _ => None end
  | EConj a => match seval E a with Some u => Some (lconj u) | None => None end
  | ERe a => match seval E a with Some u => Some (lscale (1 # 2) (ladd u (lconj u))) | None => None end
  | EIm a => match seval E a with Some u => Some (lmul ((1 # 2)%Q, [(31%nat, (-1)%Z)]) (ladd u (lscale (-1) (lconj u)))) | None => None end
  end.
Definition sstep (E : senv) (acc : option (dict string lf)) (kx : string * ex) : option (dict string lf) :=
  match acc, seval E (snd kx) with Some d, Some v => Some (dset d (fst kx) v) | _, _ => None end.
Definition sdisplay (E : senv) (f : display) : option (dict string lf) := fold_left (sstep E) f (Some []).
(* the entry written by symmetrize_JMS_dict: the key and what is done to the value *)
Inductive sop := OpId | OpConj | OpNeg.
Definition sentry (all : list string) (op : string) : res (option (string * sop)) :=
  if negb (has_us op) || kmem op all then Ok (Some (op, OpId)) else
  match split_us op with
  | [name; ind] =>
      if in_class Cl5 name then unpack4 ind (fun i j k l => Some (join_label name [j; i; l; k], OpConj))
      else if in_class Cl41 name then unpack4 ind (fun i j k l => Some (join_label name [k; l; i; j], OpId))
      else if in_class Cl4 name then unpack4 ind (fun i j k l =>
        let n1 := join_label name [l; k; j; i] in
        if kmem n1 all then Some (n1, OpConj) else
        let n2 := join_label name [j; i; l; k] in
        if kmem n2 all then Some (n2, OpConj) else Some (join_label name [k; l; i; j], OpId))
      else if in_class Cl71 name then unpack4 ind (fun i j k l => Some (join_label name [j; i; k; l], OpNeg))
      else Ok None
  | _ => Err ValueError
  end.
Definition lop (o : sop) (l : lf) : lf := match o with OpId => l | OpConj => lconj l | OpNeg => lscale (-1) l end.
Definition ssymm (all : list string) (d : dict string lf) : option (dict string lf) :=
  fold_left (fun acc kv => match acc, sentry all (fst kv) with
    | Some r, Ok None => Some r
    | Some r, Ok (Some (k, o)) => Some (dset r k (lop o (snd kv)))
    | _, _ => None end) d (Some []).
Fixpoint srun (all : list string) (P : prog) (E : senv) {struct P} : option (dict string lf) :=
  match P with
  | PBlk f => match f with Ok g => sdisplay E g | Err _ => None end
  | PThen a b => match srun all a E with Some d => srun all b (mkSenv d true no_arr) | None => None end
  | PSymm a => match srun all a E with Some d => ssymm all d | None => None end
  | PExt f => if sfull E then fold_left (fun acc kx => match acc with
        Some d => match seval (mkSenv d true no_arr) (snd kx) with Some v => Some (dset d (fst kx) v) | None => None end
      | None => None end) f (Some (sflat E)) else None
  | PAssert chk => if sfull E then
      (if forallb (fun kv => match chk (fst kv) with Ok true => true | _ => false end) (sflat E) then Some (sflat E) else None)
      else None
  | PUpd l => (fix go (l : list prog) (d : dict string lf) : option (dict string lf) :=
      match l with [] => Some d | q :: r => match srun all q E with Some e => go r (dupdate d e) | None => None end end) l []
  | PScale s a => match srun all a E, snorm s with
      Some d, Some m => Some (dmap (fun _ l => lmul m l) d) | _, _ => None end
  | PDivS a s => match srun all a E, snorm s with
      Some d, Some (q, m) => Some (dmap (fun _ l => lmul (Qred (/ q), minv m) l) d) | _, _ => None end
  | PEach h => if sfull E then fold_left (fun acc kv => match acc, h (fst kv) with
      | Some d, Ok None => Some d
      | Some d, Ok (Some (k, x)) => match seval E x with Some v => Some (dset d k v) | None => None end
      | _, _ => None end) (sflat E) (Some []) else None
  | PCond l => if sfull E || forallb (fun jf => dmem (sflat E) (fst jf)) l then
      Some (fold_left (fun d jf => match dget (sflat E) (fst jf) with Some v => dset d (snd jf) v | None => d end) l []) else None
  | PFail _ => None
  end.

(* ---------- symbolic JMS arrays: sm says which coefficients were provided, g their values ---------- *)
Definition sfill (p : idx -> idx) (f : lf -> lf) (a : idx -> option lf) : idx -> option lf :=
  fun I => match a I with Some v => Some v | None => match a (p I) with Some v => Some (f v) | None => None end end.
Definition sfill_of (c : cls) (a : idx -> option lf) : idx -> option lf :=
  match c with
  | Cl5 => sfill perm_herm lconj a
  | Cl41 => sfill perm_curr (fun v => v) a
  | Cl4 => sfill perm_herm lconj (sfill perm_curr (fun v => v) a)
  | Cl71 => sfill perm_12 (lscale (-1)) a
  | _ => a
  end.
Definition sarrays (sp : list opspec) (sm : string -> cls -> idx -> bool) (g : string -> lf) (n : string) (ix : list Z) : option lf :=
  match dget sp n with
  | None => None
  | Some (c, s) =>
      if keqb c Cl0 then None else
      match norm_index (full_shape c) ix with
      | Err _ => None
      | Ok J => if negb (List.length J =? rank c)%nat then None else
          sfill_of c (fun I => if in_shape s I && sm n c I then Some (g (label n I)) else None) J
      end
  end.

Section Sound.
Context {K : StarField}.
Local Open Scope K_scope.
Add Field KFtn : (k_field K).
Variable p : tpar K.
(* the symbols are real and non-zero, the CKM elements are non-zero *)
Record par_ok : Prop := {
  par_real : forall y, kreal (ysym p y);
  par_nz : forall y, ysym p y <> 0;
  par_V : forall i j, (i < 3)%nat -> (j < 3)%nat -> yV p i j <> 0 }.
Hypothesis PO : par_ok.

Definition vvar (i : nat) : K :=
  if (i <? 13)%nat then ysym p (nth i syms Ypi)
  else if (i <? 22)%nat then yV p ((i - 13) / 3)%nat ((i - 13) mod 3)%nat
  else if (i <? 31)%nat then (yV p ((i - 22) / 3)%nat ((i - 22) mod 3)%nat)^*
  else if (i =? 31)%nat then ki else 1.
Lemma div3 i : (i < 9)%nat -> (i / 3 < 3)%nat /\ (i mod 3 < 3)%nat.
Proof. intros H. split; [apply Nat.div_lt_upper_bound; lia|apply Nat.mod_upper_bound; lia]. Qed.
Lemma vvar_nz i : vvar i <> 0.
Proof.
  unfold vvar. destruct (Nat.ltb_spec i 13); [apply (par_nz PO)|]. destruct (Nat.ltb_spec i 22).
  - destruct (div3 (i - 13)) as [A B]; [lia|]. now apply (par_V PO).
  - destruct (Nat.ltb_spec i 31); [|destruct (i =? 31)%nat; [apply ki_neq_0|apply k_1_neq_0]]. destruct (div3 (i - 22)) as [A B]; [lia|].
    apply kconj_neq_0. now apply (par_V PO).
Qed.
Lemma vvar_conj i : i <> 31%nat -> vvar (cidx i) = (vvar i)^*.
Proof.
  intros N31.
  unfold cidx. destruct (Nat.ltb_spec i 13).
  { unfold vvar. destruct (Nat.ltb_spec i 13); [|lia]. symmetry. apply (par_real PO). }
  destruct (Nat.ltb_spec i 22).
  { unfold vvar. destruct (Nat.ltb_spec (i + 9) 13), (Nat.ltb_spec (i + 9) 22), (Nat.ltb_spec (i + 9) 31), (Nat.ltb_spec i 13), (Nat.ltb_spec i 22); try lia.
    replace (i + 9 - 22)%nat with (i - 13)%nat by lia. reflexivity. }
  destruct (Nat.ltb_spec i 31).
  { unfold vvar. destruct (Nat.ltb_spec (i - 9) 13), (Nat.ltb_spec (i - 9) 22), (Nat.ltb_spec i 31), (Nat.ltb_spec i 13), (Nat.ltb_spec i 22); try lia.
    replace (i - 9 - 13)%nat with (i - 22)%nat by lia. symmetry. apply kconj_conj. }
  unfold vvar. destruct (Nat.ltb_spec i 31), (Nat.ltb_spec i 13), (Nat.ltb_spec i 22); try lia. destruct (Nat.eqb_spec i 31); [lia|]. symmetry. apply kconj_1.
Qed.

Lemma spow_nz (x : K) n : x <> 0 -> spow x n <> 0.
Proof. intros H. induction n as [|n IH]; simpl; [apply k_1_neq_0|now apply kmul_neq_0]. Qed.
Lemma spow_add (x : K) n m : spow x (n + m) = spow x n * spow x m.
Proof. induction n as [|n IH]; simpl; [ring|rewrite IH; ring]. Qed.
Lemma spow_conj (x : K) n : spow (x^*) n = (spow x n)^*.
Proof. induction n as [|n IH]; simpl; [now rewrite kconj_1|now rewrite IH, kconj_mul]. Qed.
Lemma spow_inv (x : K) n : x <> 0 -> spow (kinv x) n = kinv (spow x n).
Proof.
  intros H. induction n as [|n IH]; simpl; [field; apply k_1_neq_0|]. rewrite IH. field. split; [now apply spow_nz|exact H].
Qed.
Definition zpow (x : K) (z : Z) : K :=
  match z with Z0 => 1 | Zpos q => spow x (Pos.to_nat q) | Zneg q => kinv (spow x (Pos.to_nat q)) end.
Lemma zpow_nz x z : x <> 0 -> zpow x z <> 0.
Proof. intros H. destruct z; simpl; [apply k_1_neq_0|now apply spow_nz|now apply kinv_neq_0, spow_nz]. Qed.
Lemma zpow_conj x z : x <> 0 -> zpow (x^*) z = (zpow x z)^*.
Proof.
  intros H. destruct z; simpl; [now rewrite kconj_1|apply spow_conj|].
  rewrite kconj_inv by (now apply spow_nz). now rewrite spow_conj.
Qed.
Lemma zpow_opp x z : x <> 0 -> zpow x (- z) = kinv (zpow x z).
Proof.
  intros H. destruct z; simpl; [field; apply k_1_neq_0|reflexivity|]. field. split; [now apply spow_nz|apply k_1_neq_0].
Qed.
Lemma zpow_sub_pos x a b : x <> 0 -> zpow x (Z.pos_sub a b) = spow x (Pos.to_nat a) * kinv (spow x (Pos.to_nat b)).
Proof.
  intros H. rewrite Z.pos_sub_spec. destruct (Pos.compare_spec a b) as [->|L|L].
  - simpl. field. now apply spow_nz.
  - simpl. rewrite Pos2Nat.inj_sub by exact L. apply Pos2Nat.inj_lt in L.
    replace (Pos.to_nat b) with ((Pos.to_nat b - Pos.to_nat a) + Pos.to_nat a)%nat at 2 by lia.
    rewrite spow_add. field. split; now apply spow_nz.
  - simpl. rewrite Pos2Nat.inj_sub by exact L. apply Pos2Nat.inj_lt in L.
    replace (Pos.to_nat a) with ((Pos.to_nat a - Pos.to_nat b) + Pos.to_nat b)%nat at 2 by lia.
    rewrite spow_add. field. now apply spow_nz.
Qed.
Lemma zpow_add x a b : x <> 0 -> zpow x (a + b) = zpow x a * zpow x b.
Proof.
  intros H. destruct a as [|a|a], b as [|b|b]; cbn [Z.add].
  - simpl; ring. - simpl; ring. - simpl; ring. - simpl; ring.
  - simpl. rewrite Pos2Nat.inj_add. apply spow_add.
  - rewrite zpow_sub_pos by exact H. reflexivity.
  - simpl; ring.
  - rewrite zpow_sub_pos by exact H. simpl. ring.
  - simpl. rewrite Pos2Nat.inj_add, spow_add. field. split; now apply spow_nz.
Qed.
Fixpoint mval (m : mono) : K := match m with [] => 1 | (i, e) :: r => zpow (vvar i) e * mval r end.
Lemma mval_nz m : mval m <> 0.
Proof. induction m as [|[i e] m IH]; simpl; [apply k_1_neq_0|]. apply kmul_neq_0; [apply zpow_nz, vvar_nz|exact IH]. Qed.
Lemma mval_add i e m : mval (madd i e m) = zpow (vvar i) e * mval m.
Proof.
  induction m as [|[j f] m IH]; simpl.
  - destruct (Z.eqb_spec e 0) as [->|]; simpl; ring.
  - destruct (Nat.eqb_spec i j) as [->|].
    + destruct (Z.eqb_spec (e + f) 0) as [Z0|].
      * replace (zpow (vvar j) e * (zpow (vvar j) f * mval m)) with (zpow (vvar j) (e + f) * mval m) by (rewrite zpow_add by apply vvar_nz; ring).
        rewrite Z0. simpl. ring.
      * simpl. rewrite zpow_add by apply vvar_nz. ring.
    + destruct (i <? j)%nat.
      * destruct (Z.eqb_spec e 0) as [->|]; simpl; ring.
      * simpl. rewrite IH. ring.
Qed.
Lemma mval_mul m n : mval (mmul m n) = mval m * mval n.
Proof. induction m as [|[i e] m IH]; simpl; [ring|]. rewrite mval_add, IH. ring. Qed.
Lemma mval_inv m : mval (minv m) = kinv (mval m).
Proof.
  induction m as [|[i e] m IH]; simpl; [field; apply k_1_neq_0|]. rewrite IH, zpow_opp by apply vvar_nz.
  field. split; [apply mval_nz|apply zpow_nz, vvar_nz].
Qed.
Lemma mval_conj m : mval (mconj m) = (mval m)^*.
Proof.
  induction m as [|[i e] m IH]; simpl; [now rewrite kconj_1|].
  rewrite mval_add, IH, kconj_mul. f_equal. unfold cexp. destruct (Nat.eqb_spec i 31) as [->|N].
  - rewrite zpow_opp by apply vvar_nz. change (cidx 31) with 31%nat. change (vvar 31) with (ki : K).
    rewrite <- zpow_conj by apply ki_neq_0. rewrite kconj_i. clear IH m. rewrite <- zpow_opp by apply ki_neq_0.
    assert (X : - (ki : K) = kinv ki).
    { apply (kmul_cancel_l (ki : K)); [apply ki_neq_0|]. rewrite kinv_r by apply ki_neq_0.
      replace ((ki : K) * - ki) with (- (ki * ki) : K) by ring. rewrite ki_sq. ring. }
    rewrite X. destruct e as [|q|q]; cbn [zpow Z.opp]; [reflexivity| |].
    + symmetry. apply spow_inv, ki_neq_0.
    + rewrite spow_inv by apply ki_neq_0. field. split; [apply spow_nz, ki_neq_0|apply k_1_neq_0].
  - rewrite vvar_conj by exact N. apply zpow_conj, vvar_nz.
Qed.
Definition smval (a : smon) : K := kQ (fst a) * mval (snd a).
Lemma kQ_nz q : qnz q = true -> @kQ K q <> 0.
Proof.
  unfold qnz. intros H E. rewrite <- kQ_0 in E. apply kQ_inj in E. apply Qeq_bool_iff in E. rewrite E in H. discriminate.
Qed.
Lemma qnz_kQ q : @kQ K q <> 0 -> ~ (q == 0)%Q.
Proof. intros H E. apply H. rewrite (kQ_Qeq _ _ E). apply kQ_0. Qed.
Lemma kQ_inv q : @kQ K q <> 0 -> @kQ K (/ q) = kinv (kQ q).
Proof.
  intros H. apply (kmul_cancel_l (kQ q)); [exact H|]. rewrite kinv_r by exact H. rewrite <- kQ_mul.
  rewrite (kQ_Qeq _ 1%Q); [apply kQ_1|]. apply Qmult_inv_r. now apply qnz_kQ.
Qed.
Lemma smval_mul a b : smval (smmul a b) = smval a * smval b.
Proof. unfold smval, smmul. simpl. rewrite kQ_red, kQ_mul, mval_mul. ring. Qed.
Lemma smval_pow a n : smval (smpow a n) = spow (smval a) n.
Proof. induction n as [|n IH]; simpl; [unfold smval; simpl; rewrite kQ_1; ring|]. now rewrite smval_mul, IH. Qed.
Lemma smval_nz a : smval a <> 0 -> @kQ K (fst a) <> 0.
Proof. unfold smval. intros H E. apply H. rewrite E. ring. Qed.
Lemma smval_inv q m : @kQ K q <> 0 -> smval (Qred (/ q), minv m) = kinv (smval (q, m)).
Proof.
  intros H. unfold smval. simpl. rewrite kQ_red, kQ_inv, mval_inv by exact H. field. split; [apply mval_nz|exact H].
Qed.
Lemma snorm_sound s : forall a, snorm s = Some a -> sval p s = smval a /\ smval a <> 0.
Proof.
  induction s as [n|y|i j|s IH|s IH|s IHs t IHt|s IHs t IHt|s IH n]; cbn [snorm sval]; intros a E.
  - destruct (Z.eqb_spec n 0) as [|N]; [discriminate|]. injection E as <-. unfold smval. simpl.
    assert (X : kQ (inject_Z n) = @kZ K n). { unfold kQ, inject_Z. cbn [Qnum Qden]. change (kpos 1) with (1 : K). field. apply k_1_neq_0. }
    rewrite X. split; [ring|]. apply kmul_neq_0; [|apply k_1_neq_0]. intros Z0. apply N, (kZ_inj0 (K := K)), Z0.
  - injection E as <-. unfold smval. cbn [fst snd mval]. rewrite kQ_1.
    assert (X : vvar (sym_idx y) = ysym p y) by (destruct y; reflexivity).
    rewrite X. simpl. split; [ring|]. repeat apply kmul_neq_0; auto using k_1_neq_0; apply (par_nz PO).
  - destruct (z3 i && z3 j) eqn:Z; [|discriminate]. injection E as <-.
    apply andb_prop in Z as [Z1 Z2]. unfold z3 in *. apply andb_prop in Z1 as [A1 A2]. apply andb_prop in Z2 as [B1 B2].
    apply Z.leb_le in A1, B1. apply Z.ltb_lt in A2, B2.
    set (a := Z.to_nat i). set (b := Z.to_nat j). assert (a < 3)%nat by lia. assert (b < 3)%nat by lia.
    assert (X : vvar (13 + 3 * a + b) = yV p a b).
    { unfold vvar. destruct (Nat.ltb_spec (13 + 3 * a + b) 13), (Nat.ltb_spec (13 + 3 * a + b) 22); try lia.
      replace (13 + 3 * a + b - 13)%nat with (b + a * 3)%nat by lia.
      rewrite Nat.div_add, Nat.mod_add, Nat.div_small, Nat.mod_small by lia. reflexivity. }
    unfold smval. cbn [fst snd mval]. change (vidx i j) with (13 + 3 * a + b)%nat. rewrite X, kQ_1. simpl. split; [ring|].
    repeat apply kmul_neq_0; auto using k_1_neq_0. now apply (par_V PO).
  - destruct (snorm s) as [[q m]|]; [|discriminate]. injection E as <-. destruct (IH _ eq_refl) as [-> N].
    assert (X : (smval (q, m))^* = smval (q, mconj m)) by (unfold smval; simpl; now rewrite mval_conj, kconj_mul, kconj_Q).
    rewrite X. split; [reflexivity|]. rewrite <- X. now apply kconj_neq_0.
  - destruct (snorm s) as [[q m]|]; [|discriminate]. injection E as <-. destruct (IH _ eq_refl) as [-> N].
    assert (X : - (smval (q, m)) = smval (Qred (- q), m)) by (unfold smval; simpl; rewrite kQ_red, kQ_opp; ring).
    rewrite X. split; [reflexivity|]. rewrite <- X. now apply kopp_neq_0.
  - destruct (snorm s) as [u|]; [|discriminate]. destruct (snorm t) as [v|]; [|discriminate]. injection E as <-.
    destruct (IHs _ eq_refl) as [-> N], (IHt _ eq_refl) as [-> M]. rewrite smval_mul. split; [reflexivity|now apply kmul_neq_0].
  - destruct (snorm s) as [u|]; [|discriminate]. destruct (snorm t) as [[q m]|]; [|discriminate]. injection E as <-.
    destruct (IHs _ eq_refl) as [-> N], (IHt _ eq_refl) as [-> M]. rewrite smval_mul, smval_inv by (apply (smval_nz (q, m)), M).
    rewrite kdiv_def. split; [reflexivity|]. apply kmul_neq_0; [exact N|now apply kinv_neq_0].
  - destruct (snorm s) as [u|]; [|discriminate]. injection E as <-. destruct (IH _ eq_refl) as [-> N].
    rewrite smval_pow. split; [reflexivity|now apply spow_nz].
Qed.
Lemma snorm_div s q m (x : K) : snorm s = Some (q, m) -> x / sval p s = smval (Qred (/ q), minv m) * x.
Proof.
  intros E. destruct (snorm_sound s _ E) as [-> N]. rewrite smval_inv by (apply (smval_nz (q, m)), N).
  rewrite kdiv_def. ring.
Qed.

(* ---------- values of linear forms ---------- *)
Variable rho : string -> K.
Definition aval (a : atom) : K := mval (snd a) * (if snd (fst a) then (rho (fst (fst a)))^* else rho (fst (fst a))).
Definition lval (l : lf) : K := ldenote aval l.
Lemma lval_key k : lval (lkey k) = rho k.
Proof. unfold lval, lkey. simpl. unfold aval. simpl. rewrite kQ_1. ring. Qed.
Lemma lval_nil : lval [] = 0. Proof. reflexivity. Qed.
Lemma lval_add a b : lval (ladd a b) = lval a + lval b. Proof. apply ldenote_add. Qed.
Lemma lval_scale q a : lval (lscale q a) = kQ q * lval a. Proof. apply ldenote_scale. Qed.
Lemma kQ_m1 : @kQ K (-1) = - (1).
Proof. change (-1)%Q with (- (1))%Q. now rewrite kQ_opp, kQ_1. Qed.
Lemma lval_mul m l : lval (lmul m l) = smval m * lval l.
Proof.
  unfold lval. induction l as [|[q [[k c] n]] l IH]; simpl; [ring|]. rewrite IH, kQ_red, kQ_mul.
  unfold aval. simpl. rewrite mval_mul. unfold smval. ring.
Qed.
Lemma lval_conj l : lval (lconj l) = (lval l)^*.
Proof.
  unfold lval. induction l as [|[q [[k c] n]] l IH]; simpl; [now rewrite kconj_0|].
  rewrite IH, kconj_add, kconj_mul, kconj_Q. f_equal. f_equal. unfold aval. simpl.
  rewrite mval_conj, kconj_mul. f_equal. destruct c; simpl; [now rewrite kconj_conj|reflexivity].
Qed.
Definition dval (d : dict string lf) : dict string K := dmap (fun _ l => lval l) d.
Lemma dget_dval d k : dget (dval d) k = match dget d k with Some l => Some (lval l) | None => None end.
Proof. unfold dval. rewrite dget_dmap. destruct (dget d k); reflexivity. Qed.
Lemma dval_dset d k l : dval (dset d k l) = dset (dval d) k (lval l).
Proof.
  unfold dval, dmap. induction d as [|[k' l'] d IH]; [reflexivity|]. cbn [dset map fst snd].
  destruct (keqb_spec k k') as [->|]; cbn [map fst snd]; [reflexivity|]. now rewrite IH.
Qed.
Lemma dval_dupdate d e : dval (dupdate d e) = dupdate (dval d) (dval e).
Proof.
  revert d. induction e as [|[k l] e IH]; intros d; [reflexivity|]. rewrite dupdate_cons. cbn [fst snd]. rewrite IH, dval_dset. reflexivity.
Qed.
Definition rel (E : env K) (S : senv) : Prop :=
  (forall k l, dget (sflat S) k = Some l -> dget (flat E) k = Some (lval l)) /\
  (if sfull S then flat E = dval (sflat S) else forall k, dgetd (flat E) k 0 = rho k) /\
  (forall n ix l, sarr S n ix = Some l -> arr_get (arrs E) n ix = Ok (lval l)).
Lemma rel_full d : rel (mkEnv (dval d) []) (mkSenv d true no_arr).
Proof.
  split; [|split]; cbn [sflat sfull sarr flat arrs].
  - intros k l H. now rewrite dget_dval, H.
  - reflexivity.
  - intros n ix l H. discriminate.
Qed.
Lemma seval_sound E S x : rel E S -> forall l, seval S x = Some l -> eval p E x = Ok (lval l).
Proof.
  intros (R1 & R2 & R3). induction x as [|k|k|n ix|a IHa b IHb|a IHa b IHb|a IH|s a IH|a IH s|a IH|a IH|a IH]; cbn [seval eval]; intros l H.
  - injection H as <-. reflexivity.
  - now rewrite (R1 _ _ H).
  - destruct (sfull S).
    + injection H as <-. unfold dgetd. rewrite R2, dget_dval. destruct (dget (sflat S) k); reflexivity.
    + injection H as <-. now rewrite R2, lval_key.
  - now apply R3.
  - destruct (seval S a) as [u|]; [|discriminate]. destruct (seval S b) as [v|]; [|discriminate]. injection H as <-.
    rewrite (IHa _ eq_refl), (IHb _ eq_refl). cbn [bind]. now rewrite lval_add.
  - destruct (seval S a) as [u|]; [|discriminate]. destruct (seval S b) as [v|]; [|discriminate]. injection H as <-.
    rewrite (IHa _ eq_refl), (IHb _ eq_refl). cbn [bind]. rewrite lval_add, lval_scale, kQ_m1. f_equal. ring.
  - destruct (seval S a) as [u|]; [|discriminate]. injection H as <-. rewrite (IH _ eq_refl). cbn [bind].
    rewrite lval_scale, kQ_m1. f_equal. ring.
  - destruct (snorm s) as [m|] eqn:SN; [|discriminate]. destruct (seval S a) as [u|]; [|discriminate]. injection H as <-.
    rewrite (IH _ eq_refl). cbn [bind]. rewrite lval_mul. now destruct (snorm_sound s _ SN) as [-> _].
  - destruct (snorm s) as [[q m]|] eqn:SN; [|discriminate]. destruct (seval S a) as [u|]; [|discriminate]. injection H as <-.
    rewrite (IH _ eq_refl). cbn [bind]. rewrite lval_mul. now rewrite (snorm_div s q m _ SN).
  - destruct (seval S a) as [u|]; [|discriminate]. injection H as <-. rewrite (IH _ eq_refl). cbn [bind]. now rewrite lval_conj.
  - destruct (seval S a) as [u|]; [|discriminate]. injection H as <-. rewrite (IH _ eq_refl). cbn [bind].
    rewrite lval_scale, lval_add, lval_conj. f_equal. unfold kQ. cbn [Qnum Qden]. rewrite !kdiv_def. change (kZ 1) with (1 : K).
    change (kZ 2) with (kpos 2 : K). ring.
  - destruct (seval S a) as [u|]; [|discriminate]. injection H as <-. rewrite (IH _ eq_refl). cbn [bind].
    rewrite lval_mul, lval_add, lval_scale, lval_conj, kQ_m1. f_equal. unfold smval. cbn [fst snd mval zpow].
    change (vvar 31) with (ki : K). change (spow ki (Pos.to_nat 1)) with ((ki : K) * 1). unfold kQ. cbn [Qnum Qden].
    change (kZ 1) with (1 : K). change (kZ 2) with (kpos 2 : K). field. split; [apply ki_neq_0|apply kpos_neq_0].
Qed.
Lemma sdisplay_sound E S f : rel E S -> forall d, sdisplay S f = Some d -> eval_display p E f = Ok (dval d).
Proof.
  intros R. unfold sdisplay, eval_display. change (@nil (string * K)) with (dval []). generalize (@nil (string * lf)).
  induction f as [|[k x] f IH]; cbn [fold_left]; intros acc d H; [injection H as <-; reflexivity|].
  unfold sstep at 2 in H. cbn [fst snd] in *. destruct (seval S x) as [v|] eqn:EV.
  - cbn [bind]. rewrite (seval_sound E S x R v EV). cbn [bind]. rewrite <- dval_dset. now apply IH.
  - exfalso. clear -H. induction f as [|y f IH]; cbn [fold_left] in H; [discriminate|apply IH; exact H].
Qed.
Definition kop (o : sop) (v : K) : K := match o with OpId => v | OpConj => v^* | OpNeg => - v end.
Lemma lval_op o l : lval (lop o l) = kop o (lval l).
Proof. destruct o; cbn [lop kop]; [reflexivity|apply lval_conj|]. rewrite lval_scale, kQ_m1. ring. Qed.
Lemma sentry_spec all op (v : K) :
  jms_entry all op v = match sentry all op with Ok (Some (k, o)) => Ok (Some (k, kop o v)) | Ok None => Ok None | Err e => Err e end.
Proof.
  unfold jms_entry, sentry. destruct (negb (has_us op) || kmem op all); [reflexivity|].
  destruct (split_us op) as [|name [|ind [|? ?]]]; try reflexivity. unfold unpack4.
  destruct (in_class Cl5 name); [destruct (list_ascii_of_string ind) as [|? [|? [|? [|? [|? ?]]]]]; reflexivity|].
  destruct (in_class Cl41 name); [destruct (list_ascii_of_string ind) as [|? [|? [|? [|? [|? ?]]]]]; reflexivity|].
  destruct (in_class Cl4 name).
  { destruct (list_ascii_of_string ind) as [|i [|j [|k [|l [|? ?]]]]]; try reflexivity. cbv zeta.
    destruct (kmem (join_label name [l; k; j; i]) all); [reflexivity|]. destruct (kmem (join_label name [j; i; l; k]) all); reflexivity. }
  destruct (in_class Cl71 name); [destruct (list_ascii_of_string ind) as [|? [|? [|? [|? [|? ?]]]]]; reflexivity|]. reflexivity.
Qed.
Lemma fold_none {X Y} (f : option Y -> X -> option Y) l : (forall x, f None x = None) -> fold_left f l None = None.
Proof. intros H. induction l as [|x l IH]; cbn [fold_left]; [reflexivity|]. now rewrite H. Qed.
Lemma ssymm_sound all d : forall r, ssymm all d = Some r -> symmetrize_JMS_dict all (dval d) = Ok (dval r).
Proof.
  unfold ssymm, symmetrize_JMS_dict. change (@nil (string * K)) with (dval []). generalize (@nil (string * lf)).
  induction d as [|[k l] d IH]; cbn [fold_left dval dmap map]; intros acc r H; [injection H as <-; reflexivity|].
  cbn [fst snd bind]. rewrite sentry_spec. cbn [fst snd] in H. destruct (sentry all k) as [[[k' o]|]|e].
  - cbn [bind]. rewrite <- lval_op, <- dval_dset. now apply IH.
  - cbn [bind]. now apply IH.
  - exfalso. rewrite fold_none in H by reflexivity. discriminate.
Qed.

Section ProgInd.
Variable Pr : prog -> Prop.
Hypothesis HBlk : forall f, Pr (PBlk f).
Hypothesis HThen : forall a b, Pr a -> Pr b -> Pr (PThen a b).
Hypothesis HSymm : forall a, Pr a -> Pr (PSymm a).
Hypothesis HExt : forall f, Pr (PExt f).
Hypothesis HAssert : forall c, Pr (PAssert c).
Hypothesis HUpd : forall l, Forall Pr l -> Pr (PUpd l).
Hypothesis HScale : forall s a, Pr a -> Pr (PScale s a).
Hypothesis HDivS : forall a s, Pr a -> Pr (PDivS a s).
Hypothesis HEach : forall h, Pr (PEach h).
Hypothesis HCond : forall l, Pr (PCond l).
Hypothesis HFail : forall e, Pr (PFail e).
Fixpoint prog_nest (P : prog) : Pr P :=
  match P with
  | PBlk f => HBlk f
  | PThen a b => HThen a b (prog_nest a) (prog_nest b)
  | PSymm a => HSymm a (prog_nest a)
  | PExt f => HExt f
  | PAssert c => HAssert c
  | PUpd l => HUpd l ((fix go (l : list prog) : Forall Pr l :=
      match l with [] => Forall_nil Pr | q :: r => Forall_cons q (prog_nest q) (go r) end) l)
  | PScale s a => HScale s a (prog_nest a)
  | PDivS a s => HDivS a s (prog_nest a)
  | PEach h => HEach h
  | PCond l => HCond l
  | PFail e => HFail e
  end.
End ProgInd.

Lemma srun_sound all P : forall E S d, rel E S -> srun all P S = Some d -> run p all P E = Ok (dval d).
Proof.
  induction P as [f|a b IHa IHb|a IH|f|c|l IH|s a IH|a s IH|h|l|e] using prog_nest; intros E S d R H; cbn [srun run] in *.
  - destruct f as [g|]; [|discriminate]. cbn [bind]. now apply (sdisplay_sound E S).
  - destruct (srun all a S) as [d1|] eqn:E1; [|discriminate]. rewrite (IHa E S d1 R E1). cbn [bind].
    apply (IHb _ (mkSenv d1 true no_arr)); [apply rel_full|exact H].
  - destruct (srun all a S) as [d1|] eqn:E1; [|discriminate]. rewrite (IH E S d1 R E1). cbn [bind]. now apply ssymm_sound.
  - destruct R as (_ & R2 & _). destruct (sfull S); [|discriminate]. rewrite R2. clear R2.
    revert d H. generalize (sflat S). induction f as [|[k x] f IH]; intros acc d H; cbn [fold_left] in *; [injection H as <-; reflexivity|].
    cbn [fst snd bind] in *. destruct (seval (mkSenv acc true no_arr) x) as [v|] eqn:EV.
    + rewrite (seval_sound _ _ x (rel_full acc) v EV). cbn [bind]. rewrite <- dval_dset. now apply IH.
    + exfalso. rewrite fold_none in H by reflexivity. discriminate.
  - destruct R as (_ & R2 & _). destruct (sfull S); [|discriminate]. rewrite R2.
    destruct (forallb _ (sflat S)) eqn:F; [|discriminate]. injection H as <-.
    generalize (dval (sflat S)) at 2 3. clear R2. induction (sflat S) as [|[k l] d0 IH]; intros r; cbn [dval dmap map fold_left]; [reflexivity|].
    cbn [forallb] in F. apply andb_prop in F as [F1 F2]. cbn [fst snd bind] in *. destruct (c k) as [[|]|]; try discriminate. cbn [bind]. now apply IH.
  - revert d H. change (@nil (string * K)) with (dval []). generalize (@nil (string * lf)).
    induction l as [|q r IHl]; intros acc d H; [injection H as <-; reflexivity|].
    inversion_clear IH as [|? ? Hq Hr]. destruct (srun all q S) as [e|] eqn:Eq; [|discriminate].
    rewrite (Hq E S e R Eq). cbn [bind]. rewrite <- dval_dupdate. now apply (IHl Hr).
  - destruct (srun all a S) as [d1|] eqn:E1; [|discriminate]. destruct (snorm s) as [m|] eqn:SN; [|discriminate]. injection H as <-.
    rewrite (IH E S d1 R E1). cbn [bind]. f_equal. destruct (snorm_sound s _ SN) as [-> _].
    unfold dval, dmap. rewrite !map_map. apply map_ext. intros [k l]. cbn [fst snd]. now rewrite lval_mul.
  - destruct (srun all a S) as [d1|] eqn:E1; [|discriminate]. destruct (snorm s) as [[q m]|] eqn:SN; [|discriminate]. injection H as <-.
    rewrite (IH E S d1 R E1). cbn [bind]. f_equal. unfold dval, dmap. rewrite !map_map. apply map_ext. intros [k l]. cbn [fst snd].
    now rewrite lval_mul, (snorm_div s q m _ SN).
  - pose proof R as (_ & R2 & _). destruct (sfull S); [|discriminate]. rewrite R2.
    clear R2. revert d H. change (@nil (string * K)) with (dval []). generalize (@nil (string * lf)).
    generalize (sflat S). intros L. induction L as [|[k l] d0 IH]; intros acc d H; cbn [dval dmap map fold_left] in *; [injection H as <-; reflexivity|].
    cbn [fst snd bind] in *. destruct (h k) as [[[k' x]|]|e].
    + cbn [bind]. destruct (seval S x) as [v|] eqn:EV.
      * rewrite (seval_sound E S x R v EV). cbn [bind]. rewrite <- dval_dset. now apply IH.
      * exfalso. rewrite fold_none in H by reflexivity. discriminate.
    + cbn [bind]. now apply IH.
    + exfalso. rewrite fold_none in H by reflexivity. discriminate.
  - destruct (sfull S || forallb (fun jf => dmem (sflat S) (fst jf)) l) eqn:G; [|discriminate]. injection H as <-. f_equal.
    assert (X : forall jf, In jf l -> dget (flat E) (fst jf) = match dget (sflat S) (fst jf) with Some v => Some (lval v) | None => None end).
    { intros jf Hj. destruct R as (R1 & R2 & _). destruct (dget (sflat S) (fst jf)) as [v|] eqn:EV; [now apply R1|].
      destruct (sfull S).
      - rewrite R2, dget_dval, EV. reflexivity.
      - cbn [orb] in G. rewrite forallb_forall in G. specialize (G jf Hj). rewrite dmem_dget, EV in G. discriminate. }
    change (@nil (string * K)) with (dval []). generalize (@nil (string * lf)). clear G.
    induction l as [|jf l IH]; intros acc; cbn [fold_left]; [reflexivity|].
    rewrite X by (now left). destruct (dget (sflat S) (fst jf)) as [v|].
    + rewrite <- dval_dset. apply IH. intros; apply X; now right.
    + apply IH. intros; apply X; now right.
  - discriminate.
Qed.
(* ---------- arrays ---------- *)
Section Arrays.
Variable sp : list opspec.
Variable all : list string.
Variable real : string -> bool.
Hypothesis D : describes sp all real.
Hypothesis T : table_agrees sp.
Definition oval (o : option lf) : option K := match o with Some l => Some (lval l) | None => None end.
Lemma sfill_val pm f f' (a : idx -> option K) (sa : idx -> option lf) I :
  (forall l, lval (f l) = f' (lval l)) -> a I = oval (sa I) -> a (pm I) = oval (sa (pm I)) -> fill pm f' a I = oval (sfill pm f sa I).
Proof.
  intros F A B. unfold fill, sfill. rewrite A, B. destruct (sa I) as [v|]; [reflexivity|]. cbn [oval].
  destruct (sa (pm I)) as [v|]; cbn [oval]; [now rewrite F|reflexivity].
Qed.
Lemma four_perm c J pm : In c four -> In J (indices c) -> In pm [perm_herm; perm_curr; perm_12] -> In (pm J) (indices c).
Proof.
  intros C HJ HP. assert (X : forallb (fun c => forallb (fun J => forallb (fun pm => kmem (pm J) (indices c)) [perm_herm; perm_curr; perm_12]) (indices c)) four = true)
    by (vm_compute; reflexivity).
  rewrite forallb_forall in X. specialize (X c C). rewrite forallb_forall in X. specialize (X J HJ). rewrite forallb_forall in X.
  apply kmem_In. now apply X.
Qed.
Lemma sfill_of_val c (a : idx -> option K) (sa : idx -> option lf) :
  (forall I, In I (indices c) -> a I = oval (sa I)) -> forall J, In J (indices c) -> fill_of c a J = oval (sfill_of c sa J).
Proof.
  intros A J HJ. pose proof (four_perm c J) as FP.
  assert (N1 : forall l, lval (lscale (-1) l) = - lval l) by (intros l; rewrite lval_scale, kQ_m1; ring).
  destruct c; cbn [fill_of sfill_of]; try (now apply A);
    assert (FP' : forall pm, In pm [perm_herm; perm_curr; perm_12] -> forall I, In I (indices _) -> In (pm I) (indices _))
      by (intros pm HP I HI; eapply four_perm; [|exact HI|exact HP]; simpl; tauto).
  - apply sfill_val; [apply lval_conj| |].
    + apply sfill_val; auto. apply A, FP'; [simpl; tauto|exact HJ].
    + apply sfill_val; auto; [|]; apply A; repeat (apply FP'; [simpl; tauto|]); exact HJ.
  - apply sfill_val; auto. apply A, FP'; [simpl; tauto|exact HJ].
  - apply sfill_val; [apply lval_conj|auto|]. apply A, FP'; [simpl; tauto|exact HJ].
  - apply sfill_val; [exact N1|auto|]. apply A, FP'; [simpl; tauto|exact HJ].
Qed.
Lemma norm_index_shape : forall m ix J, norm_index (repeat 3%nat m) ix = Ok J -> List.length J = m -> in_shape (repeat 3%nat m) J = true.
Proof.
  induction m as [|m IH]; intros [|z ix] J H L; cbn [repeat norm_index] in H; try discriminate.
  - injection H as <-. reflexivity.
  - injection H as <-. discriminate.
  - cbv zeta in H. destruct ((0 <=? z) && (z <? Z.of_nat 3))%Z eqn:E1.
    + destruct (norm_index (repeat 3%nat m) ix) as [r|] eqn:ER; [|discriminate]. injection H as <-. cbn [List.length] in L.
      cbn [repeat in_shape]. rewrite (IH ix r ER) by lia. rewrite andb_true_r. apply Nat.ltb_lt. apply andb_prop in E1 as [A B].
      apply Z.leb_le in A. apply Z.ltb_lt in B. lia.
    + destruct ((- Z.of_nat 3 <=? z) && (z <? 0))%Z eqn:E2; [|discriminate].
      destruct (norm_index (repeat 3%nat m) ix) as [r|] eqn:ER; [|discriminate]. injection H as <-. cbn [List.length] in L.
      cbn [repeat in_shape]. rewrite (IH ix r ER) by lia. rewrite andb_true_r. apply Nat.ltb_lt. apply andb_prop in E2 as [A B].
      apply Z.leb_le in A. apply Z.ltb_lt in B. lia.
Qed.
Lemma sarrays_sound ks (C : dict string K) Ca sm g n ix l :
  (forall k, In k ks -> In k all) -> jms_to_array_keys ks C = Ok Ca ->
  (forall n c s I, In (n, (c, s)) sp -> c <> Cl0 -> in_shape s I = true -> kmem (label n I) ks = sm n c I) ->
  (forall k, lval (g k) = dgetd C k 0) ->
  sarrays sp sm g n ix = Some l -> arr_get Ca n ix = Ok (lval l).
Proof.
  intros HK HC SM G H. unfold sarrays in H. destruct (dget sp n) as [[c s]|] eqn:EN; [|discriminate]. apply dget_In in EN.
  destruct (keqb_spec c Cl0) as [|NC]; [discriminate|].
  destruct (norm_index (full_shape c) ix) as [J|] eqn:EJ; [|discriminate].
  destruct (Nat.eqb_spec (List.length J) (rank c)) as [LJ|]; cbn [negb] in H; [|discriminate].
  destruct (to_array_spec sp all real D T ks C HK) as (Ca' & E' & _ & _ & A). rewrite HC in E'. injection E' as <-.
  specialize (A n c s EN NC). pose proof (full_indices c J (norm_index_shape (rank c) ix J EJ LJ)) as HJ.
  set (sa := fun I => if in_shape s I && sm n c I then Some (g (label n I)) else None) in H.
  assert (SA : forall I, (if in_shape s I && kmem (label n I) ks then Some (dgetd C (label n I) 0) else None) = oval (sa I)).
  { intros I. unfold sa. destruct (in_shape s I) eqn:SI; cbn [andb]; [|reflexivity]. rewrite (SM n c s I EN NC SI).
    destruct (sm n c I); cbn [oval]; [now rewrite G|reflexivity]. }
  unfold arr_get. destruct (dget Ca n) as [v|].
  - destruct A as (a0 & -> & A0). unfold full_shape in EJ. rewrite EJ. cbn [bind]. rewrite LJ, Nat.eqb_refl. cbn [negb].
    rewrite (sfill_of_val c a0 sa) by (try exact HJ; intros I HI; rewrite A0 by exact HI; apply SA).
    unfold sa. fold sa. rewrite H. reflexivity.
  - exfalso. assert (Z : forall I, sa I = None).
    { intros I. unfold sa. destruct (in_shape s I) eqn:SI; cbn [andb]; [|reflexivity]. destruct (sm n c I) eqn:SS; [|reflexivity].
      exfalso. rewrite <- (SM n c s I EN NC SI) in SS. apply kmem_In in SS. exact (A I SI SS). }
    assert (Z2 : sfill_of c sa J = None) by (unfold sfill_of, sfill; destruct c; rewrite ?Z; reflexivity).
    congruence.
Qed.
End Arrays.
Lemma lval_eqb a b : leqb a b = true -> lval a = lval b. Proof. apply leqb_sound. Qed.
End Sound.

(* ---------- substitution, extensionality and linearity of linear forms ---------- *)
Definition lsubst (s : string -> lf) (l : lf) : lf :=
  lnorm (flat_map (fun x : Q * atom => lmul (fst x, snd (snd x)) (if snd (fst (snd x)) then lconj (s (fst (fst (snd x)))) else s (fst (fst (snd x))))) l).
Section Subst.
Context {K : StarField}.
Local Open Scope K_scope.
Add Field KFtn2 : (k_field K).
Variable p : tpar K.
Hypothesis PO : par_ok p.
Lemma lval_subst (rho rho' : string -> K) s l : (forall k, rho' k = lval p rho (s k)) -> lval p rho' l = lval p rho (lsubst s l).
Proof.
  intros H. unfold lsubst. unfold lval at 2. rewrite ldenote_norm.
  induction l as [|[q [[k c] m]] l IH]; [reflexivity|]. cbn [flat_map fst snd]. rewrite ldenote_app, <- IH.
  unfold lval. cbn [ldenote]. f_equal. fold (lval p rho (lmul (q, m) (if c then lconj (s k) else s k))).
  rewrite lval_mul by exact PO. unfold smval, aval. cbn [fst snd]. destruct c.
  - rewrite lval_conj, H by exact PO. ring.
  - rewrite H. ring.
Qed.
Lemma lval_ext (rho rho' : string -> K) l : (forall a, In a (map snd l) -> rho (fst (fst a)) = rho' (fst (fst a))) -> lval p rho l = lval p rho' l.
Proof. intros H. apply ldenote_ext. intros a Ha. unfold aval. now rewrite H. Qed.
Lemma lval_lin (rho1 rho2 rho3 : string -> K) a b l : kreal a -> kreal b -> (forall k, rho3 k = a * rho1 k + b * rho2 k) ->
  lval p rho3 l = a * lval p rho1 l + b * lval p rho2 l.
Proof.
  intros Ra Rb H. unfold lval. induction l as [|[q [[k c] m]] l IH]; cbn [ldenote]; [ring|]. rewrite IH. unfold aval. cbn [fst snd].
  destruct c; rewrite H; [|ring]. unfold kreal in *. rewrite kconj_add, !kconj_mul, Ra, Rb. ring.
Qed.
End Subst.
