(* The translators of translate/wet.py return the values of their linear forms, for every input. *)
From Coq Require Import List Bool ZArith QArith Arith Lia String Ascii.
From Verif Require Import PyBase Num Lin SymModel SymClass SymSpec EftModel EftSpec EftProofs EftLabels EftRound EftInit JmsModel JmsSpec JmsProofs JmsArrays JmsProps
  TrLang TrData TrBlocks TrModel TrNorm TrSpec AdmData BasisProps TrProofs.
Import ListNotations.
Local Open Scope string_scope.
Local Open Scope list_scope.

Lemma with2_some a b f : with2 a b f = true -> exists x y, a = Some x /\ b = Some y /\ f x y = true.
Proof. unfold with2. destruct a as [x|], b as [y|]; try discriminate. intros H. exists x, y. auto. Qed.
Lemma with3_some a b c f : with3 a b c f = true -> exists x y z, a = Some x /\ b = Some y /\ c = Some z /\ f x y z = true.
Proof. unfold with3. destruct a as [x|], b as [y|], c as [z|]; try discriminate. intros H. exists x, y, z. auto. Qed.
Lemma keys_ok_dget d ks k : keys_ok d ks = true -> kmem k ks = match dget d k with Some _ => true | None => false end.
Proof.
  unfold keys_ok. intros H. apply andb_prop in H as [H1 H2]. rewrite forallb_forall in H1, H2. destruct (dget d k) as [l|] eqn:E.
  - exact (H1 (k, l) (dget_In _ _ _ E)).
  - apply kmem_nIn. intros X. specialize (H2 k X). rewrite dmem_dget, E in H2. discriminate.
Qed.
(* the forms exist and have the right keys *)
Record forms (j2b b2j j2f f2j b2f f2b : dict string lf) : Prop := {
  f_j2b : J2B = Some j2b; f_b2j : B2J = Some b2j; f_j2f : J2F = Some j2f; f_f2j : F2J = Some f2j; f_b2f : B2F = Some b2f; f_f2b : F2B = Some f2b;
  k_j2b : keys_ok j2b bern_keys = true; k_b2j : keys_ok b2j (of_sectors bern_sectors) = true;
  k_j2f : keys_ok j2f flavio_main = true; k_f2j : keys_ok f2j (of_sectors flavio_sectors) = true;
  k_b2f : keys_ok b2f flavio_bern = true; k_f2b : keys_ok f2b bern_flavio = true }.
Lemma get_forms : exists j2b b2j j2f f2j b2f f2b, forms j2b b2j j2f f2j b2f f2b.
Proof.
  pose proof chk_keys_jb as H1. pose proof chk_keys_jf as H2. pose proof chk_keys_bf as H3.
  apply with2_some in H1 as (j2b & b2j & E1 & E2 & H1). apply with2_some in H2 as (j2f & f2j & E3 & E4 & H2). apply with2_some in H3 as (b2f & f2b & E5 & E6 & H3).
  apply andb_prop in H1 as [A1 A2]. apply andb_prop in H2 as [A3 A4]. apply andb_prop in H3 as [A5 A6].
  exists j2b, b2j, j2f, f2j, b2f, f2b. exact (Build_forms _ _ _ _ _ _ E1 E2 E3 E4 E5 E6 A1 A2 A3 A4 A5 A6).
Qed.
Section Values.
Context {K : StarField}.
Local Open Scope K_scope.
Add Field KFtv : (k_field K).
Variable p : tpar K.
Hypothesis PO : par_ok p.
Variable all : list string.
Variable real : string -> bool.
Hypothesis D : describes jms_ops all real.
Variable jms_sectors : dict string (list string).
Variable bern_wcs flavio_wcs : list string.

Lemma all_kmem k : kmem k all = kmem k alljms.
Proof.
  assert (X : In k all <-> In k alljms).
  { change alljms with (all_of jms_ops). rewrite (d_all _ _ _ D k), (d_all _ _ _ (proj1 ex16_wet) k). reflexivity. }
  destruct (kmem k all) eqn:E.
  - symmetry. apply kmem_In. apply X. now apply kmem_In.
  - symmetry. apply kmem_nIn. intros H. apply X in H. apply kmem_In in H. congruence.
Qed.
Definition view (C : dict string K) (k : string) : K := dgetd C k 0.
Lemma srun_all P E S rho d : rel p rho E S -> srun alljms P S = Some d -> run p all P E = Ok (dval p rho d).
Proof. intros R H. rewrite (run_ext all alljms all_kmem). now apply (srun_sound p PO rho alljms P E S). Qed.
Lemma jms_rel (C : dict string K) : exists Ca, JMS_to_array all jms_sectors C None = Ok Ca /\ rel p (view C) (mkEnv C Ca) (jenv nonred).
Proof.
  destruct (to_array_spec jms_ops all real D ex20_table all C (fun k H => H)) as (Ca & E & _). exists Ca. split; [exact E|].
  split; [|split]; cbn [sflat sfull sarr flat arrs jenv].
  - intros k l H. discriminate.
  - reflexivity.
  - intros n ix l. apply (sarrays_sound p PO (view C) jms_ops all real D ex20_table all C Ca nonred lkey); auto.
    + intros m c s I H NC HI. unfold nonred. apply (in_all_iff jms_ops all real D m c s I H NC HI). now apply (op_indices jms_ops all real D m c s).
    + intros k. now rewrite lval_key.
Qed.
Lemma from_jms_val P C d : srun alljms P (jenv nonred) = Some d -> from_jms p all jms_sectors P C None = Ok (dval p (view C) d).
Proof. intros H. destruct (jms_rel C) as (Ca & E & R). unfold from_jms. rewrite E. cbn [bind]. exact (srun_all P _ _ _ d R H). Qed.

Lemma dget_complete ks (C : dict string K) k : dget (complete ks C) k = if kmem k ks then Some (view C k) else None.
Proof.
  induction ks as [|x ks IH]; [reflexivity|]. cbn [complete map dget kmem existsb]. fold (@complete K ks C). unfold kmem in *. cbn [existsb]. rewrite IH.
  destruct (keqb_spec k x) as [->|N].
  - reflexivity.
  - reflexivity.
Qed.
Definition wview (ks : list string) (C : dict string K) (k : string) : K := if kmem k ks then view C k else 0.
Lemma flat_rel ks wcs (C : dict string K) : incl ks wcs -> rel p (wview wcs C) (mkEnv (complete wcs C) []) (fenv ks).
Proof.
  intros I. split; [|split]; cbn [sflat sfull sarr flat arrs fenv].
  - intros k l H. rewrite dget_complete. assert (X : In k ks /\ l = lkey k).
    { clear - H. induction ks as [|x ks IH]; [discriminate|]. cbn [map dget] in H. destruct (keqb_spec k x) as [->|N].
      - assert (E : Some (lkey x) = Some l) by exact H. split; [now left|congruence].
      - destruct (IH H). split; [now right|assumption]. }
    destruct X as [X ->]. apply I in X. apply kmem_In in X. rewrite X. rewrite lval_key. unfold wview. now rewrite X.
  - intros k. unfold dgetd. rewrite dget_complete. unfold wview. now destruct (kmem k wcs).
  - intros n ix l H. discriminate.
Qed.
Lemma flat_val ks wcs P C d : incl ks wcs -> srun alljms P (fenv ks) = Some d ->
  run p all P (mkEnv (complete wcs C) []) = Ok (dval p (wview wcs C) d).
Proof. intros I H. exact (srun_all P _ _ _ d (flat_rel ks wcs C I) H). Qed.

(* run of a list of parts and a final conditional copy *)
Definition cond (l : list (string * string)) (C : dict string K) : dict string K :=
  fold_left (fun d jf => match dget C (fst jf) with Some v => dset d (snd jf) v | None => d end) l [].
Lemma run_upd_app l q E d : run p all (PUpd l) E = Ok d -> run p all (PUpd (l ++ [q])) E = bind (run p all q E) (fun e => Ok (dupdate d e)).
Proof.
  cbn [run]. generalize (@nil (string * K)) as d0. induction l as [|x l IH]; intros d0 H.
  - injection H as <-. reflexivity.
  - cbn [app]. destruct (run p all x E) as [e|]; [|discriminate]. cbn [bind] in *. now apply IH.
Qed.
Lemma cond_get l (C : dict string K) k : NoDup (map snd l) ->
  dget (cond l C) k = match dget (swap_pairs l) k with Some j => dget C j | None => None end.
Proof.
  unfold cond. intros N.
  assert (G : forall d0, dget (fold_left (fun d jf => match dget C (fst jf) with Some v => dset d (snd jf) v | None => d end) l d0) k =
    match dget (swap_pairs l) k with Some j => match dget C j with Some v => Some v | None => dget d0 k end | None => dget d0 k end).
  { induction l as [|[j f] l IH]; intros d0; [reflexivity|]. cbn [fold_left map swap_pairs fst snd] in *. inversion N as [|? ? NI N']. subst.
    rewrite IH by exact N'. fold (swap_pairs l). cbn [dget]. destruct (keqb_spec k f) as [->|NE].
    - assert (dget (swap_pairs l) f = None) as ->.
      { apply dget_None. intros X. apply NI. unfold swap_pairs, dkeys in X. rewrite map_map in X. exact X. }
      destruct (dget C j); [now rewrite dget_dset, keqb_refl|reflexivity].
    - assert (dget (match dget C j with Some v => dset d0 f v | None => d0 end) k = dget d0 k) as ->; [|reflexivity].
      destruct (dget C j); [|reflexivity]. rewrite dget_dset. destruct (keqb_spec k f); [congruence|reflexivity]. }
  rewrite G. destruct (dget (swap_pairs l) k) as [j|]; [|reflexivity]. now destruct (dget C j).
Qed.
Lemma sub_ok_val s d2 ks e rho rho1 k : sub_ok s d2 ks e = true -> (forall k, rho1 k = lval p rho (s k)) -> In k ks ->
  dget (dval p rho1 d2) k = Some (lval p rho (e k)).
Proof.
  intros H V HK. unfold sub_ok in H. rewrite forallb_forall in H. specialize (H k HK). cbv beta in H. rewrite dget_dval.
  destruct (dget d2 k) as [l|]; [|discriminate]. f_equal. rewrite (lval_subst p PO rho rho1 s l V). now apply lval_eqb.
Qed.
Lemma view_dval rho d k : view (dval p rho d) k = lval p rho (look d k).
Proof. unfold view, look, dgetd. rewrite dget_dval. now destruct (dget d k). Qed.
End Values.
