(* Writing a DSixTools file and reading it back. *)
From Coq Require Import List Bool ZArith QArith Arith Lia String Ascii.
From Verif Require Import PyBase Num SymModel SymClass SymSpec SymProofs SymFacts EftModel EftSpec EftProofs EftLabels EftRound EftRound2 EftInit
  BasisProps UpProofs WcxfModel DsixData DsixModel DsixProofs.
Import ListNotations.
Local Open Scope string_scope.
Local Open Scope list_scope.
Opaque SymCheck.S SymCheck.SN U symmetrize symmetrize_nonred unscale exec.

Lemma flat_map_single {A B} (g : A -> list B) (l : list A) n : NoDup l -> In n l -> (forall m, In m l -> m <> n -> g m = []) -> flat_map g l = g n.
Proof.
  induction l as [|m l IH]; intros ND H Z; [destruct H|]. inversion ND as [|? ? NI ND' EQ]; subst. cbn [flat_map].
  destruct H as [->|H].
  - assert (E : flat_map g l = []).
    { clear - NI Z. induction l as [|m l IH]; [reflexivity|]. cbn [flat_map].
      rewrite (Z m) by ((right; now left) || (intros ->; apply NI; now left)).
      apply IH; [intros X; apply NI; now right|]. intros m' [X|X]; apply Z; [now left|right; now right]. }
    rewrite E. now rewrite app_nil_r.
  - rewrite (Z m) by ((now left) || (intros ->; contradiction)). apply IH; auto. intros m' Hm. apply Z. now right.
Qed.
Lemma flat_map_none {A B} (g : A -> list B) (l : list A) : (forall m, In m l -> g m = []) -> flat_map g l = [].
Proof. induction l as [|m l IH]; intros Z; [reflexivity|]. cbn [flat_map]. rewrite Z by now left. apply IH. intros; apply Z; now right. Qed.
Definition wc_block (b : string) : Prop := In b ["WC1"; "WC2"; "WC3"; "WC4"] \/ exists r n, (0 < r)%nat /\ is_op r n /\ (b = reblock n \/ b = imblock n).

Section P.
Context {K : StarField}.
Local Open Scope K_scope.
Add Field KFdsr : (k_field K).
Notation cdict := (dict string (cval K)).
Notation arr := (idx -> K).
Notation lines := (list (@line K)).
Notation blocks := (@blocks K).
Variable E : eft.
Hypothesis OK : eft_ok E warsaw_ops.
Hypothesis K2 : forall n, In n (e_keys2 E) <-> is_op 2 n.
Hypothesis K4 : forall n, In n (e_keys4 E) <-> is_op 4 n.
Hypothesis N2 : NoDup (e_keys2 E).
Hypothesis N4 : NoDup (e_keys4 E).

Lemma op_rank n c s : In (n, (c, s)) warsaw_ops -> c <> Cl0 -> is_op (rank c) n /\ (rank c = 2 \/ rank c = 4)%nat.
Proof. intros H N. split; [exists c, s; auto|]. destruct c; cbn; auto; congruence. Qed.
Lemma is_op_rank r r' n : is_op r n -> is_op r' n -> r = r'.
Proof.
  intros (c & s & H & <-) (c' & s' & H' & <-). destruct (op_unique E warsaw_ops OK n c s c' s' H H') as [-> _]. reflexivity.
Qed.

Section Written.
Variable wc : cdict.
Variables sr sz : bool.
Hypothesis HW : forall n c s, In (n, (c, s)) warsaw_ops -> exists v, dget wc n = Some v /\ has_shape (op_shape c s) v.
Definition all_lines (b : string) : lines :=
  flat_map (number_line wc b) WC_dict_0f ++ flat_map (contrib wc sr sz [3; 3]%nat b) (e_keys2 E) ++ flat_map (contrib wc sr sz [3; 3; 3; 3]%nat b) (e_keys4 E).
Lemma numbers_0f kv : In kv WC_dict_0f -> (exists s, In (fst kv, (Cl0, s)) warsaw_ops) /\ In (fst (snd kv)) ["WC1"; "WC2"; "WC3"; "WC4"].
Proof.
  intros H. pose proof numbers_checked as T. unfold numbers_check in T. apply andb_prop in T as [T T3]. apply andb_prop in T as [T1 T2].
  rewrite forallb_forall in T1, T3. split; [|apply kmem_In, (T3 kv H)].
  assert (X : In (fst kv) (dkeys WC_dict_0f)) by (unfold dkeys; now apply in_map). specialize (T1 _ X).
  apply existsb_exists in T1 as ([m [c s]] & Y & Z). apply andb_prop in Z as [Z1 Z2]. apply String.eqb_eq in Z1. cbn [fst] in Z1. rewrite Z1.
  exists s. unfold fermionic in Z2. cbn [fst snd] in Z2. destruct c; try discriminate Z2. exact Y.
Qed.
Lemma ops_0f n s : In (n, (Cl0, s)) warsaw_ops -> In n (dkeys WC_dict_0f).
Proof.
  intros H. pose proof numbers_checked as T. unfold numbers_check in T. apply andb_prop in T as [T T3]. apply andb_prop in T as [T1 T2].
  rewrite forallb_forall in T2. specialize (T2 _ H). cbn [fst] in T2. unfold fermionic in T2. cbn [fst snd orb] in T2. now apply kmem_In.
Qed.
Lemma file_spec : exists d, wc_dict2lha E wc sr sz = Ok d /\ wfdict d /\
  forall b, dget d b = match all_lines b with [] => None | l => Some l end.
Proof.
  destruct (write_numbers wc WC_dict_0f) with (d := @nil (string * lines)) as (d0 & E0 & W0 & B0); [|constructor|].
  { intros kv H. destruct (numbers_0f kv H) as [(s & X) _]. destruct (HW _ _ _ X) as (v & V & HS). destruct v as [z|]; [eauto|contradiction]. }
  destruct (write_arrays wc sr sz HW 2 (e_keys2 E)) with (d := d0) as (d2 & E2 & W2 & B2); [lia|apply K2|exact W0|].
  destruct (write_arrays wc sr sz HW 4 (e_keys4 E)) with (d := d2) as (d4 & E4 & W4 & B4); [lia|apply K4|exact W2|].
  cbn [repeat] in *. unfold wc_dict2lha.
  match goal with |- context [fold_res (write_number wc) WC_dict_0f ?X] => replace (fold_res (write_number wc) WC_dict_0f X) with (Ok d0) by (symmetry; exact E0) end.
  match goal with |- context [fold_res ?Y (e_keys2 E) ?X] => replace (fold_res Y (e_keys2 E) X) with (Ok d2) by (symmetry; exact E2) end.
  match goal with |- context [fold_res ?Y (e_keys4 E) ?X] => replace (fold_res Y (e_keys4 E) X) with (Ok d4) by (symmetry; exact E4) end.
  cbn [rmap]. eexists. split; [reflexivity|].
  split; [now apply wf_dfilter|]. intros b. rewrite dget_dfilter by exact W4.
  assert (B : bget d4 b = all_lines b) by (rewrite B4, B2, B0; unfold all_lines; rewrite <- app_assoc; reflexivity).
  unfold bget, dgetd in B. destruct (dget d4 b) as [l|]; rewrite <- B; [|reflexivity]. destruct l; reflexivity.
Qed.

Lemma contrib_other s b n : b <> reblock n -> b <> imblock n -> contrib wc sr sz s b n = [].
Proof. intros A B. unfold contrib. destruct (String.eqb_spec b (reblock n)); [congruence|]. destruct (String.eqb_spec b (imblock n)); [congruence|reflexivity]. Qed.
Lemma fermion r n : (0 < r)%nat -> is_op r n -> exists r, (0 < r)%nat /\ is_op r n.
Proof. eauto. Qed.
Lemma number_line_other b : ~ In b ["WC1"; "WC2"; "WC3"; "WC4"] -> flat_map (number_line wc b) WC_dict_0f = [].
Proof.
  intros N. apply flat_map_none. intros kv H. destruct (numbers_0f kv H) as [_ X]. unfold number_line.
  destruct (String.eqb_spec b (fst (snd kv))) as [->|]; [contradiction|reflexivity].
Qed.
Lemma others_wc b : In b ["WC1"; "WC2"; "WC3"; "WC4"] -> In b other_blocks.
Proof. unfold other_blocks. cbn. tauto. Qed.
Lemma lines_of n b r : (0 < r)%nat -> is_op r n -> (r = 2 \/ r = 4)%nat -> b = reblock n \/ b = imblock n ->
  all_lines b = contrib wc sr sz (repeat 3%nat r) b n.
Proof.
  intros R O C B. assert (FN := fermion r n R O).
  assert (NB : ~ In b ["WC1"; "WC2"; "WC3"; "WC4"]).
  { destruct (block_facts n n FN FN) as (_ & _ & _ & X & Y). intros Z. apply others_wc in Z. destruct B as [->| ->]; contradiction. }
  assert (OT : forall r' m, (0 < r')%nat -> is_op r' m -> m <> n -> forall s, contrib wc sr sz s b m = []).
  { intros r' m R' O' NE s. assert (FM := fermion r' m R' O'). destruct (block_facts n m FN FM) as (X1 & X2 & X3 & _).
    destruct (block_facts m n FM FN) as (_ & _ & Y3 & _). apply contrib_other; destruct B as [->| ->]; try congruence; intros Q; [apply NE; symmetry; now apply X1|apply NE; symmetry; now apply X2]. }
  unfold all_lines. rewrite number_line_other by exact NB. cbn [app]. destruct C as [-> | ->]; cbn [repeat].
  - rewrite (flat_map_single _ _ n N2 (proj2 (K2 n) O)).
    + rewrite (flat_map_none _ (e_keys4 E)); [now rewrite app_nil_r|]. intros m Hm. apply K4 in Hm. apply (OT 4%nat); [lia|exact Hm|].
      intros ->. pose proof (is_op_rank _ _ _ O Hm). lia.
    + intros m Hm NE. apply K2 in Hm. apply (OT 2%nat); [lia|exact Hm|exact NE].
  - rewrite (flat_map_none _ (e_keys2 E)).
    + cbn [app]. apply (flat_map_single _ _ n N4 (proj2 (K4 n) O)). intros m Hm NE. apply K4 in Hm. apply (OT 4%nat); [lia|exact Hm|exact NE].
    + intros m Hm. apply K2 in Hm. apply (OT 2%nat); [lia|exact Hm|]. intros ->. pose proof (is_op_rank _ _ _ O Hm). lia.
Qed.
Lemma lines_number b : In b ["WC1"; "WC2"; "WC3"; "WC4"] -> all_lines b = flat_map (number_line wc b) WC_dict_0f.
Proof.
  intros B. unfold all_lines. apply others_wc in B.
  assert (Z : forall r n s, (0 < r)%nat -> is_op r n -> contrib wc sr sz s b n = []).
  { intros r n s R O. destruct (block_facts n n (fermion r n R O) (fermion r n R O)) as (_ & _ & _ & X & Y).
    apply contrib_other; intros ->; contradiction. }
  rewrite (flat_map_none _ (e_keys2 E)) by (intros n Hn; apply K2 in Hn; apply (Z 2%nat); [lia|exact Hn]).
  rewrite (flat_map_none _ (e_keys4 E)) by (intros n Hn; apply K4 in Hn; apply (Z 4%nat); [lia|exact Hn]).
  now rewrite !app_nil_r.
Qed.
Lemma lines_outside b : ~ wc_block b -> all_lines b = [].
Proof.
  intros NB. unfold all_lines. rewrite number_line_other by (intros X; apply NB; now left).
  assert (Z : forall r n s, (0 < r)%nat -> is_op r n -> contrib wc sr sz s b n = []).
  { intros r n s R O. apply contrib_other; intros ->; apply NB; right; exists r, n; auto. }
  rewrite (flat_map_none _ (e_keys2 E)) by (intros n Hn; apply K2 in Hn; apply (Z 2%nat); [lia|exact Hn]).
  rewrite (flat_map_none _ (e_keys4 E)) by (intros n Hn; apply K4 in Hn; apply (Z 4%nat); [lia|exact Hn]). reflexivity.
Qed.

(* ---------- reading ---------- *)
Lemma read_array_spec (d : blocks) s n f g : bget d (reblock n) = flat_map (put f) (all_indices s) -> bget d (imblock n) = flat_map (put g) (all_indices s) ->
  exists M, read_array d s n = Ok (CArr s M) /\ forall I, in_shape s I = true ->
    M I = (match f I with Some x => x | None => 0 end) + ki * (match g I with Some x => x | None => 0 end).
Proof.
  intros F G.
  assert (SH : forall I, In I (all_indices s) -> in_shape s I = true) by (intros I; apply in_all_indices).
  assert (KM : forall I, in_shape s I = true -> kmem I (all_indices s) = true) by (intros I HI; now apply kmem_In, in_all_indices).
  destruct (lha2matrix_put s f (all_indices s) SH) as (M & EM & VM). destruct (lha2matrix_put s g (all_indices s) SH) as (N & EN & VN).
  rewrite <- F in EM. rewrite <- G in EN. unfold bget, dgetd in EM, EN. unfold read_array, block.
  assert (R1 : exists M1, except_key (bind (match dget d (reblock n) with Some v => Ok v | None => Err KeyError end) (fun v => lha2matrix v s)) (fun _ => 0) = Ok M1 /\
     forall I, in_shape s I = true -> M1 I = match f I with Some x => x | None => 0 end).
  { destruct (dget d (reblock n)) as [v|]; cbn [bind].
    - rewrite EM. exists M. split; [reflexivity|]. intros I HI. rewrite (VM I HI), (KM I HI). reflexivity.
    - exists (fun _ => 0). split; [reflexivity|]. intros I HI. injection EM as EM. rewrite <- EM in VM. specialize (VM I HI). rewrite (KM I HI) in VM. exact VM. }
  destruct R1 as (M1 & -> & V1). cbn [bind].
  assert (R2 : exists M2, except_key (bind (match dget d (imblock n) with Some v => Ok v | None => Err KeyError end) (fun v => rmap (fun N I => M1 I + ki * N I) (lha2matrix v s))) M1 = Ok M2 /\
     forall I, in_shape s I = true -> M2 I = M1 I + ki * match g I with Some x => x | None => 0 end).
  { destruct (dget d (imblock n)) as [v|]; cbn [bind].
    - rewrite EN. cbn [rmap except_key]. eexists. split; [reflexivity|]. intros I HI. cbv beta. rewrite (VN I HI), (KM I HI). reflexivity.
    - exists M1. split; [reflexivity|]. intros I HI. injection EN as EN. rewrite <- EN in VN. specialize (VN I HI). rewrite (KM I HI) in VN. rewrite <- VN. ring. }
  destruct R2 as (M2 & -> & V2). cbn [bind]. exists M2. split; [reflexivity|]. intros I HI. rewrite (V2 I HI), (V1 I HI). reflexivity.
Qed.
Lemma read_all_spec {A} (f : A -> res (cval K)) (nm : A -> string) (L : list A) : (forall x, In x L -> exists v, f x = Ok v) -> NoDup (map nm L) ->
  forall C : cdict, exists C', read_all f nm L (Ok C) = Ok C' /\ (wfdict C -> wfdict C') /\
    (forall x v, In x L -> f x = Ok v -> dget C' (nm x) = Some v) /\ (forall k, ~ In k (map nm L) -> dget C' k = dget C k).
Proof.
  induction L as [|x L IH]; intros T ND C; [exists C; repeat split; auto; intros ? ? []|].
  inversion ND as [|? ? NI ND' EQ]; subst. destruct (T x (or_introl eq_refl)) as (v & F). unfold read_all. cbn [fold_left bind]. rewrite F. cbn [bind].
  destruct (IH (fun y Hy => T y (or_intror Hy)) ND' (dset C (nm x) v)) as (C' & E' & W' & V' & O'). exists C'. split; [exact E'|].
  split; [intros W; now apply W', wf_dset|]. split.
  - intros y u [<-|Hy] Fy; [|now apply V']. rewrite O' by exact NI. rewrite dget_dset_eq. congruence.
  - intros k Hk. cbn [map] in Hk. rewrite O' by (intros X; apply Hk; now right). apply dget_dset_neq. intros ->. apply Hk. now left.
Qed.
(* reading of the numbers *)
Definition nline (x : Z * option K) : lines := match snd x with Some v => [([fst x], v)] | None => [] end.
Lemma line_dict_spec (l : list (Z * option K)) : exists D, line_dict (flat_map nline l) = Ok D /\
  forall j, dget D j = fold_left (fun r x => if Z.eqb j (fst x) then match snd x with Some v => Some v | None => r end else r) l None.
Proof.
  unfold line_dict.
  assert (G : forall d0 : dict Z K, exists D, fold_left (fun acc (v : line) => bind acc (fun d => match fst v with [i] => Ok (dset d i (snd v)) | _ => Err ValueError end))
      (flat_map nline l) (Ok d0) = Ok D /\
    forall j, dget D j = fold_left (fun r x => if Z.eqb j (fst x) then match snd x with Some v => Some v | None => r end else r) l (dget d0 j)).
  { induction l as [|[i [v|]] l IH]; intros d0.
    - exists d0. split; [reflexivity|]. reflexivity.
    - cbn [flat_map nline snd fst app fold_left bind]. destruct (IH (dset d0 i v)) as (D & ED & VD). exists D. split; [exact ED|].
      intros j. rewrite VD, dget_dset. reflexivity.
    - cbn [flat_map nline snd fst app fold_left bind]. destruct (IH d0) as (D & ED & VD). exists D. split; [exact ED|].
      intros j. rewrite VD. destruct (Z.eqb j i); reflexivity. }
  exact (G []).
Qed.
Lemma read_number_spec (d : blocks) kv : In kv WC_dict_0f ->
  bget d (fst (snd kv)) = flat_map (number_line wc (fst (snd kv))) WC_dict_0f ->
  except_key (read_number d (fst (snd kv)) (snd (snd kv))) 0 = Ok (kre (num_of wc (fst kv))).
Proof.
  intros H B. set (b := fst (snd kv)) in *.
  set (l := map (fun x : string * (string * Z) => (snd (snd x), if String.eqb b (fst (snd x)) then if kdec (num_of wc (fst x)) 0 then None else Some (kre (num_of wc (fst x))) else None)) WC_dict_0f).
  assert (X : flat_map (number_line wc b) WC_dict_0f = flat_map nline l).
  { unfold l. generalize WC_dict_0f as L. induction L as [|x L IH]; [reflexivity|]. cbn [map flat_map]. rewrite IH. f_equal.
    unfold number_line, nline. cbn [fst snd]. destruct (String.eqb b (fst (snd x))); [|reflexivity]. destruct (kdec _ 0); reflexivity. }
  destruct (line_dict_spec l) as (D & ED & VD). rewrite <- X, <- B in ED.
  assert (V : dget D (snd (snd kv)) = if kdec (num_of wc (fst kv)) 0 then None else Some (kre (num_of wc (fst kv)))).
  { rewrite VD. clear - H. unfold l, b. unfold WC_dict_0f in H. cbn [In] in H.
    repeat (destruct H as [<-|H]; [cbn; destruct (kdec _ 0); reflexivity|]). destruct H. }
  unfold read_number, block. unfold bget, dgetd in ED.
  assert (Z : forall z : K, kdec z 0 = true -> kre z = 0) by (intros z Q; apply kdec_true in Q; subst z; apply kre_of_real, kreal_0).
  destruct (dget d b) as [v|]; cbn [bind].
  - rewrite ED. cbn [bind]. rewrite V. destruct (kdec (num_of wc (fst kv)) 0) eqn:Q; cbn [except_key]; [|reflexivity]. now rewrite (Z _ Q).
  - cbn [except_key]. injection ED as ED. rewrite <- ED in V. cbn [dget] in V. destruct (kdec (num_of wc (fst kv)) 0) eqn:Q; [|discriminate]. now rewrite (Z _ Q).
Qed.

(* what is read back *)
Definition read_value (red van : list idx) (a : arr) (I : idx) : K :=
  (if kmem I red && sr then 0 else kre (a I)) + ki * (if (kmem I red && sr) || kmem I van then 0 else kim (a I)).
Lemma keep_val (z : K) : (if keep sz z then z else 0) = z.
Proof. unfold keep. destruct (kdec z 0) eqn:Q; [|reflexivity]. apply kdec_true in Q. subst z. destruct (negb _ || _); reflexivity. Qed.
Lemma read_back d d' : wc_dict2lha E wc sr sz = Ok d -> (forall b, wc_block b -> dget d' b = dget d b) ->
  exists C', wc_lha2dict E d' = Ok C' /\ wfdict C' /\ (forall n, dget C' n <> None <-> In n (map fst warsaw_ops)) /\
    (forall n s, In (n, (Cl0, s)) warsaw_ops -> dget C' n = Some (CNum (kre (num_of wc n)))) /\
    (forall n c s, In (n, (c, s)) warsaw_ops -> c <> Cl0 -> exists b, dget C' n = Some (CArr s b) /\
       forall I, in_shape s I = true -> b I = read_value (red_of n) (van_of n) (arr_of wc n) I).
Proof.
  intros ED EQ. destruct file_spec as (d0 & ED0 & WD & BD). assert (d0 = d) by congruence. subst d0.
  assert (BG : forall b, wc_block b -> bget d' b = all_lines b).
  { intros b Hb. unfold bget, dgetd. rewrite (EQ b Hb), BD. destruct (all_lines b); reflexivity. }
  assert (RA : forall n c s, In (n, (c, s)) warsaw_ops -> c <> Cl0 -> exists b, read_array d' (repeat 3%nat (rank c)) n = Ok (CArr s b) /\
       forall I, in_shape s I = true -> b I = read_value (red_of n) (van_of n) (arr_of wc n) I).
  { intros n c s H N. destruct (op_rank n c s H N) as [O C]. assert (R : (0 < rank c)%nat) by (destruct C; lia).
    destruct (op_facts n c s H N) as (-> & _). fold (full_shape c).
    assert (NE := re_neq_im n).
    destruct (read_array_spec d' (full_shape c) n (re_line sr sz (red_of n) (arr_of wc n)) (im_line sr sz (red_of n) (van_of n) (arr_of wc n))) as (M & EM & VM).
    - rewrite BG by (right; exists (rank c), n; auto). rewrite (lines_of n _ (rank c) R O C (or_introl eq_refl)). unfold contrib. now rewrite String.eqb_refl.
    - rewrite BG by (right; exists (rank c), n; auto). rewrite (lines_of n _ (rank c) R O C (or_intror eq_refl)). unfold contrib.
      destruct (String.eqb_spec (imblock n) (reblock n)) as [Q|_]; [congruence|]. now rewrite String.eqb_refl.
    - exists M. split; [exact EM|]. intros I HI. rewrite (VM I HI). unfold read_value, re_line, im_line. destruct (kmem I (red_of n) && sr); cbn [orb]; [reflexivity|].
      pose proof (keep_val (kre (arr_of wc n I))) as Q1. pose proof (keep_val (kim (arr_of wc n I))) as Q2.
      f_equal; [destruct (keep sz (kre _)); exact Q1|]. f_equal. destruct (kmem I (van_of n)); destruct (keep sz (kim _)); try reflexivity; exact Q2. }
  assert (RO : forall r n, (r = 2 \/ r = 4)%nat -> is_op r n -> exists v, read_array d' (repeat 3%nat r) n = Ok v).
  { intros r n Hr (c & s & H & Q). assert (N : c <> Cl0) by (intros ->; cbn in Q; lia). destruct (RA n c s H N) as (b & X & _). rewrite Q in X. eauto. }
  destruct (read_all_spec (fun kv => rmap CNum (except_key (read_number d' (fst (snd kv)) (snd (snd kv))) 0)) fst WC_dict_0f) with (C := @nil (string * cval K)) as (C0 & E0 & W0 & V0 & O0).
  { intros kv H. rewrite (read_number_spec d' kv H); [cbn [rmap]; eauto|]. destruct (numbers_0f kv H) as [_ X]. rewrite BG by (now left). now apply lines_number. }
  { apply knodup_NoDup. vm_cast_no_check (eq_refl true). }
  destruct (read_all_spec (read_array d' [3; 3]%nat) (fun k => k) (e_keys2 E)) with (C := C0) as (C2 & E2 & W2 & V2 & O2).
  { intros n H. apply K2 in H. apply (RO 2%nat n (or_introl eq_refl) H). }
  { now rewrite map_id. }
  destruct (read_all_spec (read_array d' [3; 3; 3; 3]%nat) (fun k => k) (e_keys4 E)) with (C := C2) as (C4 & E4 & W4 & V4 & O4).
  { intros n H. apply K4 in H. apply (RO 4%nat n (or_intror eq_refl) H). }
  { now rewrite map_id. }
  rewrite map_id in O2, O4. exists C4.
  assert (D0 : forall n s, In (n, (Cl0, s)) warsaw_ops -> dget C4 n = Some (CNum (kre (num_of wc n)))).
  { intros n s H. assert (X : forall r, (0 < r)%nat -> ~ is_op r n).
    { intros r R (c & s' & H' & Q). destruct (op_unique E warsaw_ops OK n c s' Cl0 s H' H) as [-> _]. cbn in Q. lia. }
    rewrite O4 by (rewrite K4; apply X; lia). rewrite O2 by (rewrite K2; apply X; lia).
    pose proof (ops_0f n s H) as P. unfold dkeys in P. apply in_map_iff in P as (kv & <- & P). apply V0; [exact P|].
    rewrite (read_number_spec d' kv P); [reflexivity|]. destruct (numbers_0f kv P) as [_ Y]. rewrite BG by (now left). now apply lines_number. }
  assert (D2 : forall n c s, In (n, (c, s)) warsaw_ops -> c <> Cl0 -> exists b, dget C4 n = Some (CArr s b) /\
       forall I, in_shape s I = true -> b I = read_value (red_of n) (van_of n) (arr_of wc n) I).
  { intros n c s H N. destruct (RA n c s H N) as (b & X & V). destruct (op_rank n c s H N) as [O [Q|Q]]; rewrite Q in *; exists b; (split; [|exact V]).
    - rewrite O4; [now apply V2; [apply K2|]|]. rewrite K4. intros O'. pose proof (is_op_rank _ _ _ O O'). lia.
    - apply V4; [now apply K4|exact X]. }
  split.
  { unfold wc_lha2dict. match goal with |- read_all _ _ _ (read_all _ _ _ ?X) = _ => replace X with (Ok C0) by (symmetry; exact E0) end. rewrite E2. exact E4. } split; [apply W4, W2, W0; constructor|]. split; [|split; assumption].
  intros n. split.
  - intros H. destruct (in_dec string_dec n (e_keys4 E)) as [I4|I4]; [apply K4 in I4 as (c & s & X & _); apply in_map_iff; exists (n, (c, s)); auto|].
    destruct (in_dec string_dec n (e_keys2 E)) as [I2|I2]; [apply K2 in I2 as (c & s & X & _); apply in_map_iff; exists (n, (c, s)); auto|].
    rewrite O4 in H by exact I4. rewrite O2 in H by exact I2. destruct (in_dec string_dec n (map fst WC_dict_0f)) as [I0|I0].
    + apply in_map_iff in I0 as (kv & <- & I0). destruct (numbers_0f kv I0) as [(s & X) _]. apply in_map_iff. exists (fst kv, (Cl0, s)). auto.
    + rewrite O0 in H by exact I0. now elim H.
  - intros H. apply in_map_iff in H as ([m [c s]] & X & H). cbn [fst] in X. subst m. destruct (cl0_dec c) as [->|N].
    + rewrite (D0 n s H). discriminate.
    + destruct (D2 n c s H N) as (b & -> & _). discriminate.
Qed.
End Written.
End P.
