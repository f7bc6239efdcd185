(* A faster evaluation of the symbolic runs of TrNorm.v, with tries instead of association lists
   (proof tool; nothing here models the code). *)
From Coq Require Import List Bool ZArith QArith Arith Lia String Ascii.
From Verif Require Import PyBase Num Lin SymModel SymClass SymSpec EftModel EftSpec EftProofs EftLabels EftRound EftInit
  JmsModel JmsSpec JmsProofs JmsArrays TrLang TrNorm.
Import ListNotations.
Local Open Scope list_scope.

(* ---------- tries on strings ---------- *)
Inductive trie (A : Type) := TL | TN (l : trie A) (o : option A) (r : trie A).
Arguments TL {A}. Arguments TN {A} _ _ _.
Fixpoint bits (s : string) : list bool :=
  match s with
  | EmptyString => []
  | String (Ascii a b c d e f g h) r => a :: b :: c :: d :: e :: f :: g :: h :: bits r
  end.
Lemma bits_inj s : forall t, bits s = bits t -> s = t.
Proof.
  induction s as [|[a b c d e f g h] s IH]; intros [|[a' b' c' d' e' f' g' h'] t]; cbn [bits]; intros E; try discriminate; [reflexivity|].
  injection E as -> -> -> -> -> -> -> -> E. now rewrite (IH t E).
Qed.
Section Trie.
Context {A : Type}.
Fixpoint tget (t : trie A) (k : list bool) : option A :=
  match t with
  | TL => None
  | TN l o r => match k with [] => o | b :: k' => if b then tget r k' else tget l k' end
  end.
Fixpoint tset (k : list bool) (v : A) (t : trie A) : trie A :=
  match k with
  | [] => match t with TL => TN TL (Some v) TL | TN l _ r => TN l (Some v) r end
  | b :: k' => match t with
      | TL => if b then TN TL None (tset k' v TL) else TN (tset k' v TL) None TL
      | TN l o r => if b then TN l o (tset k' v r) else TN (tset k' v l) o r
      end
  end.
Lemma tget_tset k v : forall t k', tget (tset k v t) k' = if list_eqb k' k then Some v else tget t k'.
Proof.
  induction k as [|b k IH]; intros t [|b' k']; cbn [tset list_eqb].
  - destruct t; reflexivity.
  - destruct t; cbn [tget]; [|reflexivity]. destruct b'; reflexivity.
  - destruct t; destruct b; reflexivity.
  - destruct t as [|l o r]; destruct b, b'; cbn [tget keqb EqKey_bool Bool.eqb andb]; rewrite ?IH; try reflexivity; destruct (list_eqb k' k); reflexivity.
Qed.
Fixpoint tdict (d : dict string A) : trie A :=
  match d with [] => TL | (k, v) :: r => tset (bits k) v (tdict r) end.
Definition sget (t : trie A) (k : string) : option A := tget t (bits k).
Lemma bits_eqb k k' : list_eqb (bits k) (bits k') = keqb k k'.
Proof.
  destruct (list_eqb_spec (bits k) (bits k')) as [E|N], (keqb_spec k k') as [E'|N']; try reflexivity.
  - exfalso. now apply N', bits_inj.
  - exfalso. apply N. now rewrite E'.
Qed.
Lemma sget_set t k v k' : sget (tset (bits k) v t) k' = if keqb k' k then Some v else sget t k'.
Proof. unfold sget. rewrite tget_tset, bits_eqb. reflexivity. Qed.
Lemma sget_dict d k : sget (tdict d) k = dget d k.
Proof.
  induction d as [|[k' v] d IH]; [reflexivity|]. cbn [tdict dget]. rewrite sget_set, IH. reflexivity.
Qed.
End Trie.
Definition tkeys (l : list string) : trie unit := tdict (map (fun k => (k, tt)) l).
Definition smem {A} (t : trie A) (k : string) : bool := match sget t k with Some _ => true | None => false end.
Lemma smem_keys l k : smem (tkeys l) k = kmem k l.
Proof.
  unfold smem, tkeys. rewrite sget_dict. induction l as [|x l IH]; [reflexivity|]. cbn [map dget kmem].
  destruct (keqb k x); [reflexivity|exact IH].
Qed.
Lemma smem_dict {A} (d : dict string A) k : smem (tdict d) k = dmem d k.
Proof. unfold smem. rewrite sget_dict, dmem_dget. destruct (dget d k); reflexivity. Qed.

(* ---------- dictionaries under construction: the entries in reverse order, and the set of keys ---------- *)
Definition acc : Type := list (string * lf) * trie unit.
Definition aset (a : acc) (k : string) (v : lf) : acc :=
  if smem (snd a) k then (rev (dset (rev (fst a)) k v), snd a) else ((k, v) :: fst a, tset (bits k) tt (snd a)).
Definition adict (a : acc) : dict string lf := rev (fst a).
Definition aok (a : acc) : Prop := forall k, smem (snd a) k = dmem (adict a) k.
Definition anil : acc := ([], TL).
Lemma dset_new {A} (d : dict string A) k v : dmem d k = false -> dset d k v = d ++ [(k, v)].
Proof.
  induction d as [|[k' v'] d IH]; cbn [dset app]; [reflexivity|]. unfold dmem. cbn [dkeys map fst kmem].
  destruct (keqb k k'); [discriminate|]. cbn [orb]. intros H. now rewrite IH.
Qed.
Lemma dmem_dset {A} (d : dict string A) k v k' : dmem (dset d k v) k' = keqb k' k || dmem d k'.
Proof.
  rewrite !dmem_dget, dget_dset. destruct (keqb k' k); reflexivity.
Qed.
Lemma anil_ok : aok anil. Proof. intros k. reflexivity. Qed.
Lemma aset_spec a k v : aok a -> aok (aset a k v) /\ adict (aset a k v) = dset (adict a) k v.
Proof.
  intros O. unfold aset. pose proof (O k) as M. destruct (smem (snd a) k) eqn:E.
  - split; [|unfold adict; cbn [fst]; apply rev_involutive]. intros k'. unfold adict. cbn [fst snd]. rewrite rev_involutive, dmem_dset, (O k').
    destruct (keqb_spec k' k) as [->|]; [now rewrite <- M|reflexivity].
  - assert (X : adict ((k, v) :: fst a, tset (bits k) tt (snd a)) = dset (adict a) k v).
    { unfold adict. cbn [fst rev]. symmetry. now apply dset_new. }
    split; [|exact X]. intros k'. rewrite X, dmem_dset. unfold smem. cbn [snd]. rewrite sget_set.
    destruct (keqb k' k); [reflexivity|]. apply (O k').
Qed.
Definition aupd (a : acc) (e : dict string lf) : acc := fold_left (fun a kv => aset a (fst kv) (snd kv)) e a.
Lemma aupd_spec e : forall a, aok a -> aok (aupd a e) /\ adict (aupd a e) = dupdate (adict a) e.
Proof.
  induction e as [|kv e IH]; intros a O; [auto|]. unfold aupd, dupdate. cbn [fold_left].
  destruct (aset_spec a (fst kv) (snd kv) O) as [O' E]. destruct (IH _ O') as [O2 E2]. unfold aupd in *. split; [exact O2|].
  rewrite E2, E. reflexivity.
Qed.

(* ---------- the runs ---------- *)
Record fenvt := mkFE { f_dict : dict string lf; f_trie : trie lf; f_full : bool; f_arr : string -> list Z -> option lf }.
Definition of_senv (E : senv) : fenvt := mkFE (sflat E) (tdict (sflat E)) (sfull E) (sarr E).
Definition fe_ok (F : fenvt) (E : senv) : Prop :=
  f_dict F = sflat E /\ f_trie F = tdict (sflat E) /\ f_full F = sfull E /\ forall n ix, f_arr F n ix = sarr E n ix.
Lemma of_senv_ok E : fe_ok (of_senv E) E. Proof. repeat split. Qed.
Definition full_env (d : dict string lf) : fenvt := mkFE d (tdict d) true no_arr.
Fixpoint feval (E : fenvt) (x : ex) : option lf :=
  match x with
  | E0 => Some []
  | EKey k => sget (f_trie E) k
  | EGet k => if f_full E then Some (match sget (f_trie E) k with Some v => v | None => [] end) else Some (lkey k)
  | EArr n ix => f_arr E n ix
  | EAdd a b => match feval E a, feval E b with Some u, Some v => Some (ladd u v) | _, _ => None end
  | ESub a b => match feval E a, feval E b with Some u, Some v => Some (ladd u (lscale (-1) v)) | _, _ => None end
  | ENeg a => match feval E a with Some u => Some (lscale (-1) u) | None => None end
  | EScale s a => match snorm s, feval E a with Some m, Some u => Some (lmul m u) | _, _ => None end
  | EDivS a s => match snorm s, feval E a with Some (q, m), Some u => Some (lmul (Qred (/ q), minv m) u) | _, _ => None end
  | EConj a => match feval E a with Some u => Some (lconj u) | None => None end
  | ERe a => match feval E a with Some u => Some (lscale (1 # 2) (ladd u (lconj u))) | None => None end
  | EIm a => match feval E a with Some u => Some (lmul ((1 # 2)%Q, [(31%nat, (-1)%Z)]) (ladd u (lscale (-1) (lconj u)))) | None => None end
  end.
Lemma feval_eq F E x : fe_ok F E -> feval F x = seval E x.
Proof.
  intros (O1 & O2 & O3 & O4). induction x as [|k|k|n ix|a IHa b IHb|a IHa b IHb|a IH|s a IH|a IH s|a IH|a IH|a IH]; cbn [feval seval]; rewrite ?IH, ?IHa, ?IHb; try reflexivity.
  - rewrite O2. apply sget_dict.
  - rewrite O2, O3, sget_dict. reflexivity.
  - apply O4.
Qed.
Definition fentry (all : trie unit) (op : string) : res (option (string * sop)) :=
  if negb (has_us op) then Ok (Some (op, OpId)) else if smem all op then Ok (Some (op, OpId)) else
  match split_us op with
  | [name; ind] =>
      if in_class Cl5 name then unpack4 ind (fun i j k l => Some (join_label name [j; i; l; k], OpConj))
      else if in_class Cl41 name then unpack4 ind (fun i j k l => Some (join_label name [k; l; i; j], OpId))
      else if in_class Cl4 name then unpack4 ind (fun i j k l =>
        let n1 := join_label name [l; k; j; i] in
        if smem all n1 then Some (n1, OpConj) else
        let n2 := join_label name [j; i; l; k] in
        if smem all n2 then Some (n2, OpConj) else Some (join_label name [k; l; i; j], OpId))
      else if in_class Cl71 name then unpack4 ind (fun i j k l => Some (join_label name [j; i; k; l], OpNeg))
      else Ok None
  | _ => Err ValueError
  end.
Lemma fentry_eq all op : fentry (tkeys all) op = sentry all op.
Proof.
  unfold fentry, sentry. rewrite smem_keys. destruct (negb (has_us op)); [reflexivity|]. cbn [orb]. destruct (kmem op all); [reflexivity|].
  destruct (split_us op) as [|name [|ind [|? ?]]]; try reflexivity. unfold unpack4.
  destruct (in_class Cl5 name); [reflexivity|]. destruct (in_class Cl41 name); [reflexivity|]. destruct (in_class Cl4 name); [|reflexivity].
  destruct (list_ascii_of_string ind) as [|i [|j [|k [|l [|? ?]]]]]; try reflexivity. cbv zeta. now rewrite !smem_keys.
Qed.
Definition fsymm (all : trie unit) (d : dict string lf) : option acc :=
  fold_left (fun a kv => match a, fentry all (fst kv) with
    | Some r, Ok None => Some r
    | Some r, Ok (Some (k, o)) => Some (aset r k (lop o (snd kv)))
    | _, _ => None end) d (Some anil).
Definition odict (o : option acc) : option (dict string lf) := match o with Some a => Some (adict a) | None => None end.
Fixpoint frun (all : trie unit) (P : prog) (E : fenvt) {struct P} : option (dict string lf) :=
  match P with
  | PBlk f => match f with Ok g => odict (fold_left (fun a kx => match a, feval E (snd kx) with Some d, Some v => Some (aset d (fst kx) v) | _, _ => None end) g (Some anil)) | Err _ => None end
  | PThen a b => match frun all a E with Some d => frun all b (full_env d) | None => None end
  | PSymm a => match frun all a E with Some d => odict (fsymm all d) | None => None end
  | PExt f => if f_full E then fold_left (fun acc kx => match acc with
        Some d => match seval (mkSenv d true no_arr) (snd kx) with Some v => Some (dset d (fst kx) v) | None => None end
      | None => None end) f (Some (f_dict E)) else None
  | PAssert chk => if f_full E then
      (if forallb (fun kv => match chk (fst kv) with Ok true => true | _ => false end) (f_dict E) then Some (f_dict E) else None)
      else None
  | PUpd l => odict ((fix go (l : list prog) (d : acc) : option acc :=
      match l with [] => Some d | q :: r => match frun all q E with Some e => go r (aupd d e) | None => None end end) l anil)
  | PScale s a => match frun all a E, snorm s with
      Some d, Some m => Some (dmap (fun _ l => lmul m l) d) | _, _ => None end
  | PDivS a s => match frun all a E, snorm s with
      Some d, Some (q, m) => Some (dmap (fun _ l => lmul (Qred (/ q), minv m) l) d) | _, _ => None end
  | PEach h => if f_full E then odict (fold_left (fun acc kv => match acc, h (fst kv) with
      | Some d, Ok None => Some d
      | Some d, Ok (Some (k, x)) => match feval E x with Some v => Some (aset d k v) | None => None end
      | _, _ => None end) (f_dict E) (Some anil)) else None
  | PCond l => if (if f_full E then true else forallb (fun jf => smem (f_trie E) (fst jf)) l) then
      odict (Some (fold_left (fun d jf => match sget (f_trie E) (fst jf) with Some v => aset d (snd jf) v | None => d end) l anil)) else None
  | PFail _ => None
  end.
(* the loops on accumulators follow the loops on dictionaries *)
Lemma fold_acc {X} (f : option acc -> X -> option acc) (g : option (dict string lf) -> X -> option (dict string lf)) l :
  (forall x, g None x = None) -> (forall x, f None x = None) ->
  (forall a x, aok a -> match f (Some a) x with Some a' => aok a' /\ g (Some (adict a)) x = Some (adict a') | None => g (Some (adict a)) x = None end) ->
  forall a, aok a -> odict (fold_left f l (Some a)) = fold_left g l (Some (adict a)).
Proof.
  intros G0 F0 H. induction l as [|x l IH]; intros a O; [reflexivity|]. cbn [fold_left]. specialize (H a x O).
  destruct (f (Some a) x) as [a'|].
  - destruct H as [O' ->]. now apply IH.
  - rewrite H, !fold_none by assumption. reflexivity.
Qed.
Lemma frun_ok all P : forall F E, fe_ok F E -> frun (tkeys all) P F = srun all P E.
Proof.
  induction P as [f|a b IHa IHb|a IH|f|c|l IH|s a IH|a s IH|h|l|e] using prog_nest; intros F E OK; cbn [frun srun].
  - destruct f as [g|]; [|reflexivity]. unfold sdisplay. change (@nil (string * lf)) with (adict anil). apply fold_acc; [reflexivity|reflexivity| |apply anil_ok].
    intros a x O. unfold sstep. rewrite (feval_eq F E) by exact OK. destruct (seval E (snd x)) as [v|]; [|reflexivity].
    destruct (aset_spec a (fst x) v O) as [O' ->]. auto.
  - rewrite (IHa F E OK). destruct (srun all a E) as [d|]; [|reflexivity]. apply IHb. repeat split.
  - rewrite (IH F E OK). destruct (srun all a E) as [d|]; [|reflexivity]. unfold fsymm, ssymm. change (@nil (string * lf)) with (adict anil).
    apply fold_acc; [reflexivity|reflexivity| |apply anil_ok]. intros b x O. rewrite fentry_eq. destruct (sentry all (fst x)) as [[[k o]|]|]; auto.
    destruct (aset_spec b k (lop o (snd x)) O) as [O' ->]. auto.
  - destruct OK as (-> & _ & -> & _). reflexivity.
  - destruct OK as (-> & _ & -> & _). reflexivity.
  - change (@nil (string * lf)) with (adict anil). generalize anil_ok. generalize anil. induction IH as [|q r Hq _ IHr]; intros a O; [reflexivity|].
    rewrite (Hq F E OK). destruct (srun all q E) as [e|]; [|reflexivity]. destruct (aupd_spec e a O) as [O' EQ]. rewrite <- EQ. now apply IHr.
  - rewrite (IH F E OK). reflexivity.
  - rewrite (IH F E OK). reflexivity.
  - pose proof OK as (-> & _ & -> & _). destruct (sfull E); [|reflexivity]. change (@nil (string * lf)) with (adict anil).
    apply fold_acc; [reflexivity|reflexivity| |apply anil_ok]. intros a x O. destruct (h (fst x)) as [[[k y]|]|]; auto.
    rewrite (feval_eq F E) by exact OK. destruct (seval E y) as [v|]; [|reflexivity]. destruct (aset_spec a k v O) as [O' ->]. auto.
  - pose proof OK as (_ & -> & -> & _).
    assert (X : forallb (fun jf : string * string => smem (tdict (sflat E)) (fst jf)) l = forallb (fun jf => dmem (sflat E) (fst jf)) l)
      by (induction l as [|y l IH]; [reflexivity|]; cbn [forallb]; now rewrite IH, smem_dict).
    rewrite X. change (if sfull E then true else forallb (fun jf => dmem (sflat E) (fst jf)) l) with (sfull E || forallb (fun jf => dmem (sflat E) (fst jf)) l).
    destruct (sfull E || _); [|reflexivity]. cbn [odict]. f_equal. clear X. change (@nil (string * lf)) with (adict anil). generalize anil_ok. generalize anil.
    induction l as [|jf l IH]; intros a O; [reflexivity|]. cbn [fold_left]. rewrite sget_dict. destruct (dget (sflat E) (fst jf)) as [v|]; [|now apply IH].
    destruct (aset_spec a (snd jf) v O) as [O' <-]. now apply IH.
  - reflexivity.
Qed.

Lemma frun_eq all P E : frun (tkeys all) P (of_senv E) = srun all P E.
Proof. apply frun_ok, of_senv_ok. Qed.
(* no repetitions *)
Fixpoint fnodup (t : trie unit) (l : list string) : bool :=
  match l with [] => true | x :: r => if smem t x then false else fnodup (tset (bits x) tt t) r end.
Lemma fnodup_NoDup l : forall t, fnodup t l = true -> NoDup l /\ forall x, In x l -> smem t x = false.
Proof.
  induction l as [|x l IH]; intros t H; [split; [constructor|intros _ []]|]. cbn [fnodup] in H.
  destruct (smem t x) eqn:E; [discriminate|]. destruct (IH _ H) as [N S].
  assert (G : forall y, In y l -> y <> x /\ smem t y = false).
  { intros y Hy. specialize (S y Hy). unfold smem in S. rewrite sget_set in S. destruct (keqb_spec y x) as [|NE]; [discriminate|]. auto. }
  split; [constructor; [|exact N]|].
  - intros X. now destruct (G x X) as [F _].
  - intros y [<-|Hy]; [exact E|]. now apply G.
Qed.
Lemma fnodup_knodup l : fnodup TL l = true -> knodup l = true.
Proof. intros H. apply knodup_NoDup. now apply (fnodup_NoDup l TL). Qed.
