(* Restricting a translation to some sectors. *)
From Coq Require Import List Bool ZArith QArith Arith Lia String Ascii.
From Verif Require Import PyBase Num Lin SymModel SymClass SymSpec EftModel EftSpec EftProofs EftLabels EftRound EftInit JmsModel JmsSpec JmsProofs JmsArrays JmsProps
  TrLang TrData TrBlocks TrModel TrNorm TrFast TrSpec AdmData BasisProps TrProofs TrValues TrRound.
Import ListNotations.
Local Open Scope string_scope.
Local Open Scope list_scope.

(* ---------- the parts of a list of sectors are those of its members ---------- *)
Definition D (b : sect -> bool) : Prop := forall ss, b (Some ss) = true <-> exists x, In x ss /\ b (Some [x]) = true.
Definition U {A} (f : sect -> list A) : Prop := forall ss P, In P (f (Some ss)) <-> exists x, In x ss /\ In P (f (Some [x])).
Lemma D_has y : D (fun s => has s y).
Proof.
  intros ss. cbn [has]. rewrite kmem_In. split.
  - intros H. exists y. split; [exact H|]. apply kmem_In. now left.
  - intros (x & H & E). apply kmem_In in E as [->|[]]. exact H.
Qed.
Lemma D_none : D is_none.
Proof. intros ss. cbn. split; [discriminate|]. intros (x & _ & H). discriminate. Qed.
Lemma D_or b c : D b -> D c -> D (fun s => b s || c s).
Proof.
  intros B C ss. rewrite orb_true_iff, (B ss), (C ss). split.
  - intros [(x & H & E)|(x & H & E)]; exists x; (split; [exact H|]); rewrite E; [reflexivity|apply orb_true_r].
  - intros (x & H & E). apply orb_prop in E as [E|E]; [left|right]; exists x; auto.
Qed.
Lemma D_and_r b (c : bool) : D b -> D (fun s => b s && c).
Proof.
  intros B ss. destruct c.
  - rewrite andb_true_r, (B ss). split; intros (x & H & E); exists x; (split; [exact H|]); [now rewrite andb_true_r|now rewrite andb_true_r in E].
  - rewrite andb_false_r. split; [discriminate|]. intros (x & _ & E). rewrite andb_false_r in E. discriminate.
Qed.
Lemma D_and_l b (c : bool) : D b -> D (fun s => c && b s).
Proof.
  intros B ss. destruct c; cbn [andb]; [apply B|]. split; [discriminate|]. intros (x & _ & E). discriminate.
Qed.
Lemma U_app {A} (f g : sect -> list A) : U f -> U g -> U (fun s => f s ++ g s).
Proof.
  intros F G ss P. rewrite in_app_iff, (F ss P), (G ss P). split.
  - intros [(x & H & E)|(x & H & E)]; exists x; rewrite in_app_iff; auto.
  - intros (x & H & E). rewrite in_app_iff in E. destruct E; [left|right]; exists x; auto.
Qed.
Lemma U_flat {A B} (f : B -> sect -> list A) l : (forall y, U (f y)) -> U (fun s => flat_map (fun y => f y s) l).
Proof.
  intros F ss P. rewrite in_flat_map. split.
  - intros (y & Hy & H). apply (F y) in H as (x & Hx & H). exists x. split; [exact Hx|]. apply in_flat_map. exists y. auto.
  - intros (x & Hx & H). apply in_flat_map in H as (y & Hy & H). exists y. split; [exact Hy|]. apply (F y). exists x. auto.
Qed.
Lemma U_for2 {A} (f : string -> string -> sect -> list A) : (forall l lp, U (f l lp)) -> U (fun s => for2 (fun l lp => f l lp s)).
Proof. intros F. unfold for2. apply (U_flat (fun l s => flat_map (fun lp => f l lp s) leps)). intros l. apply (U_flat (fun lp s => f l lp s)). intros lp. apply F. Qed.
Lemma U_when {A} b (l : list A) : D b -> U (fun s => when (b s) l).
Proof.
  intros B ss P. unfold when. specialize (B ss). destruct (b (Some ss)).
  - destruct (proj1 B eq_refl) as (x & Hx & E). split.
    + intros H. exists x. rewrite E. auto.
    + intros (y & Hy & H). destruct (b (Some [y])); [exact H|destruct H].
  - split; [intros []|]. intros (y & Hy & H). destruct (b (Some [y])) eqn:E; [|destruct H]. exfalso. assert (X : false = true) by (apply B; exists y; auto). discriminate.
Qed.
Ltac dsolve := first [apply D_none | apply D_has | apply D_or; dsolve | apply D_and_r; dsolve | apply D_and_l; dsolve].
Ltac usolve := first
  [ apply U_when; dsolve
  | apply U_app; usolve
  | apply U_for2; intros ? ?; usolve
  | match goal with |- U (fun s => flat_map (fun y => @?f y s) ?l) => apply (U_flat (fun y s => f y s) l); intros ?; usolve end ].
Lemma parts_U : U JMS_to_flavio_parts.
Proof. unfold JMS_to_flavio_parts. usolve. Qed.
Lemma parts_back_U : U flavio_to_JMS_parts.
Proof. unfold flavio_to_JMS_parts. cbv zeta. usolve. Qed.

(* ---------- the comparisons, sector by sector ---------- *)
Definition smx (ks : list string) (n : string) (c : cls) (I : idx) : bool := kmem (label n I) ks.
Definition has_form (d : dict string lf) (kl : string * lf) : bool := match dget d (fst kl) with Some m => leqb m (snd kl) | None => false end.
Definition agrees (d : dict string lf) (o : option (dict string lf)) : bool := match o with Some e => forallb (has_form d) e | None => false end.
Definition names_key (k : string) (o : option (dict string lf)) : bool := match o with Some e => dmem e k | None => false end.
Definition involves (ks : list string) (l : lf) : bool := existsb (fun t => kmem (fst (fst (snd t))) ks) l.
Definition sect_fwd_ok (j2f : dict string lf) (xk : string * list string) : bool :=
  let ds := map (fun P => srun alljms P (jenv (smx (snd xk)))) (JMS_to_flavio_parts (Some [fst xk])) in
  forallb (agrees j2f) ds &&
  forallb (fun kl => negb (involves (snd xk) (snd kl)) || existsb (names_key (fst kl)) ds) j2f &&
  forallb (fun jf => negb (kmem (fst jf) (snd xk)) || keqb (dget (swap_pairs (dlep (Some [fst xk]))) (snd jf)) (Some (fst jf))) lfv_tab.
(* the same with tries: the forms that involve a coefficient are looked up in an index *)
Definition add_atoms (f : string) (l : lf) (t : trie (list string)) : trie (list string) :=
  fold_right (fun x t => let k := fst (fst (snd x)) in tset (bits k) (f :: match sget t k with Some r => r | None => [] end) t) t l.
Definition atom_index (d : dict string lf) : trie (list string) := fold_right (fun kl t => add_atoms (fst kl) (snd kl) t) TL d.
Definition listed (t : trie (list string)) (k f : string) : Prop := exists L, sget t k = Some L /\ In f L.
Lemma add_atoms_spec f l t : (forall q k c m, In (q, (k, c, m)) l -> listed (add_atoms f l t) k f) /\ (forall k g, listed t k g -> listed (add_atoms f l t) k g).
Proof.
  induction l as [|[q [[k c] m]] l [IH1 IH2]]; cbn [add_atoms fold_right fst snd]; [split; [intros ? ? ? ? []|auto]|]. fold (add_atoms f l t). cbv zeta.
  assert (M : forall k' g, listed (add_atoms f l t) k' g -> listed (tset (bits k) (f :: match sget (add_atoms f l t) k with Some r => r | None => [] end) (add_atoms f l t)) k' g).
  { intros k' g (L & E & I). unfold listed. rewrite sget_set. destruct (keqb_spec k' k) as [->|].
    - eexists. split; [reflexivity|]. rewrite E. now right.
    - exists L. auto. }
  split.
  - intros q' k' c' m' [E|I].
    + injection E as <- <- <- <-. unfold listed. rewrite sget_set, keqb_refl. eexists. split; [reflexivity|now left].
    + apply M. eapply IH1, I.
  - intros k' g I. apply M, IH2, I.
Qed.
Lemma atom_index_spec d f l q k c m : In (f, l) d -> In (q, (k, c, m)) l -> listed (atom_index d) k f.
Proof.
  intros H I. induction d as [|[g l'] d IH]; [destruct H|]. cbn [atom_index fold_right fst snd]. destruct H as [E|H].
  - injection E as -> ->. exact (proj1 (add_atoms_spec f l (atom_index d)) q k c m I).
  - exact (proj2 (add_atoms_spec g l' (atom_index d)) k f (IH H)).
Qed.
Definition ojoin (ds : list (option (dict string lf))) : list string := flat_map (fun o => match o with Some e => dkeys e | None => [] end) ds.
Lemma ojoin_spec ds k : kmem k (ojoin ds) = existsb (names_key k) ds.
Proof.
  induction ds as [|o ds IH]; [reflexivity|]. cbn [ojoin flat_map existsb]. fold (ojoin ds). rewrite <- IH. destruct o as [e|]; cbn [names_key]; [|reflexivity].
  unfold dmem. induction (dkeys e) as [|x r IHr]; [reflexivity|]. cbn [app kmem]. now rewrite IHr, orb_assoc.
Qed.
Definition fagrees (t : trie lf) (o : option (dict string lf)) : bool :=
  match o with Some e => forallb (fun kl => match sget t (fst kl) with Some m => leqb m (snd kl) | None => false end) e | None => false end.
Lemma fagrees_eq d o : fagrees (tdict d) o = agrees d o.
Proof. unfold fagrees, agrees. destruct o as [e|]; [|reflexivity]. apply forallb_eq. intros kl. unfold has_form. now rewrite sget_dict. Qed.
Definition fenv_of (tk : trie unit) : fenvt := mkFE [] TL false (sarrays jms_ops (fun n _ I => smem tk (label n I)) lkey).
Lemma fenv_of_ok ks : fe_ok (fenv_of (tkeys ks)) (jenv (smx ks)).
Proof.
  repeat split. intros n ix. cbn [fenv_of f_arr jenv sarr]. unfold sarrays. destruct (dget jms_ops n) as [[c s]|]; [|reflexivity].
  destruct (keqb c Cl0); [reflexivity|]. destruct (norm_index (full_shape c) ix) as [J|]; [|reflexivity]. destruct (negb _); [reflexivity|].
  apply sfill_ext. intros I _. unfold smx. now rewrite smem_keys.
Qed.
Definition fsect_fwd (tj : trie lf) (ti : trie (list string)) (xk : string * list string) (tk : trie unit) (tsw : trie string) : bool :=
  (fun ds => if forallb (fagrees tj) ds then
     (fun tn => forallb (fun k => match sget ti k with Some L => forallb (smem tn) L | None => true end) (snd xk)) (tkeys (ojoin ds)) &&
     forallb (fun jf => if smem tk (fst jf) then keqb (sget tsw (snd jf)) (Some (fst jf)) else true) lfv_tab
   else false) (map (fun P => frun tall P (fenv_of tk)) (JMS_to_flavio_parts (Some [fst xk]))).
Lemma fsect_fwd_ok j2f xk : fsect_fwd (tdict j2f) (atom_index j2f) xk (tkeys (snd xk)) (tdict (swap_pairs (dlep (Some [fst xk])))) = true -> sect_fwd_ok j2f xk = true.
Proof.
  unfold fsect_fwd, sect_fwd_ok. cbv beta zeta.
  rewrite (map_ext (fun P => frun tall P (fenv_of (tkeys (snd xk)))) (fun P => srun alljms P (jenv (smx (snd xk))))) by (intros P; apply frun_ok, fenv_of_ok).
  set (ds := map _ _). clearbody ds. rewrite (forallb_eq (fagrees (tdict j2f)) (agrees j2f)) by (intros; apply fagrees_eq).
  destruct (forallb (agrees j2f) ds); [|discriminate]. cbn [andb]. intros H. apply andb_prop in H as [H1 H2]. apply andb_true_intro. split.
  - apply forallb_forall. intros [f l] HF. cbn [fst snd]. destruct (involves (snd xk) l) eqn:IV; [|reflexivity]. cbn [negb orb].
    unfold involves in IV. apply existsb_exists in IV as ([q [[k c] m]] & HA & HK). cbn [fst snd] in HK. apply kmem_In in HK.
    destruct (atom_index_spec j2f f l q k c m HF HA) as (L & EL & IL). rewrite forallb_forall in H1. specialize (H1 k HK). rewrite EL in H1.
    rewrite forallb_forall in H1. specialize (H1 f IL). now rewrite smem_keys, ojoin_spec in H1.
  - rewrite <- H2. apply forallb_eq. intros jf. rewrite smem_keys, sget_dict. destruct (kmem (fst jf) (snd xk)); reflexivity.
Qed.
Definition chk_fwd_f (o : option (dict string lf)) : bool :=
  match o with
  | Some j2f => (fun tj ti => forallb (fun xk => fsect_fwd tj ti xk (tkeys (snd xk)) (tdict (swap_pairs (dlep (Some [fst xk]))))) coeffs) (tdict j2f) (atom_index j2f)
  | None => false
  end.
Lemma chk_fwd_ff : chk_fwd_f J2Ff = true.
Proof. vm_cast_no_check (eq_refl true). Qed.
Lemma chk_fwd : with2 J2F J2F (fun j2f _ => forallb (sect_fwd_ok j2f) coeffs) = true.
Proof.
  pose proof chk_fwd_ff as H. rewrite J2F_f in H. revert H. generalize J2F. intros [j2f|]; [|discriminate]. unfold chk_fwd_f, with2. cbv beta.
  intros H. rewrite forallb_forall in H. apply forallb_forall. intros xk HX. apply fsect_fwd_ok, H, HX.
Qed.
Definition sect_back_ok (f2j : dict string lf) (xk : string * list string) : bool :=
  let ds := map (fun P => srun alljms P (fenv flavio_keys)) (flavio_to_JMS_parts (Some [fst xk]) ++ [PCond (swap_pairs (dlep (Some [fst xk])))]) in
  forallb (agrees f2j) ds &&
  forallb (fun kl => negb (kmem (fst kl) (snd xk)) || existsb (names_key (fst kl)) ds) f2j.
Definition fsect_back (tf : trie lf) (F : fenvt) (xk : string * list string) : bool :=
  (fun ds => if forallb (fagrees tf) ds then
     (fun tn => forallb (fun k => if smem tf k then smem tn k else true) (snd xk)) (tkeys (ojoin ds)) else false)
  (map (fun P => frun tall P F) (flavio_to_JMS_parts (Some [fst xk]) ++ [PCond (swap_pairs (dlep (Some [fst xk])))])).
Lemma fsect_back_ok f2j xk : fsect_back (tdict f2j) (of_senv (fenv flavio_keys)) xk = true -> sect_back_ok f2j xk = true.
Proof.
  unfold fsect_back, sect_back_ok. cbv beta zeta.
  rewrite (map_ext (fun P => frun tall P (of_senv (fenv flavio_keys))) (fun P => srun alljms P (fenv flavio_keys))) by (intros P; apply frun_eq).
  set (ds := map _ _). clearbody ds. rewrite (forallb_eq (fagrees (tdict f2j)) (agrees f2j)) by (intros; apply fagrees_eq).
  destruct (forallb (agrees f2j) ds); [|discriminate]. cbn [andb]. intros H. apply forallb_forall. intros [k l] HF. cbn [fst snd].
  destruct (kmem k (snd xk)) eqn:HK; [|reflexivity]. cbn [negb orb]. apply kmem_In in HK. rewrite forallb_forall in H. specialize (H k HK).
  rewrite smem_dict, smem_keys, ojoin_spec in H. destruct (dmem f2j k) eqn:DM; [exact H|]. exfalso. unfold dmem in DM. apply kmem_nIn in DM. apply DM.
  unfold dkeys. apply in_map_iff. exists (k, l). auto.
Qed.
Definition chk_back_f (o : option (dict string lf)) (F : fenvt) : bool :=
  match o with Some f2j => (fun tf => forallb (fsect_back tf F) coeffs) (tdict f2j) | None => false end.
Lemma chk_back_ff : chk_back_f F2Jf (of_senv (fenv flavio_keys)) = true.
Proof. vm_cast_no_check (eq_refl true). Qed.
Lemma chk_back : with2 F2J F2J (fun f2j _ => forallb (sect_back_ok f2j) coeffs) = true.
Proof.
  pose proof chk_back_ff as H. rewrite F2J_f in H. revert H. generalize F2J. intros [f2j|]; [|discriminate]. unfold chk_back_f, with2. cbv beta.
  intros H. rewrite forallb_forall in H. apply forallb_forall. intros xk HX. apply fsect_back_ok, H, HX.
Qed.
(* the four tables *)
Definition dl (b1 b2 : bool) : dict string string :=
  let d := if b1 then dupdate [] flavio_jms_nunull else [] in if b2 then dupdate d flavio_jms_lfv else d.
Definition sub_tab (a b : dict string string) : bool := forallb (fun x => keqb (dget b (fst x)) (Some (snd x))) a.
Lemma chk_dl : forallb (fun b1 => forallb (fun b2 => knodup (map snd (dl b1 b2)) && knodup (map fst (dl b1 b2)) &&
  sub_tab (swap_pairs (dl b1 b2)) (swap_pairs lfv_tab) && sub_tab (swap_pairs (dl false b2)) (swap_pairs (dl b1 b2)) && sub_tab (swap_pairs (dl b1 false)) (swap_pairs (dl b1 b2))) [true; false]) [true; false] = true.
Proof. vm_cast_no_check (eq_refl true). Qed.
Lemma coeffs_all_f (c : list (string * list string)) (a : list string) :
  (fun ta => forallb (fun xk => forallb (smem ta) (snd xk)) c && fnodup TL (dkeys c)) (tkeys a) = true ->
  forallb (fun xk => forallb (fun k => kmem k a) (snd xk)) c && knodup (dkeys c) = true.
Proof.
  cbv beta. intros H. apply andb_prop in H as [H1 H2]. rewrite (fnodup_knodup _ H2), andb_true_r. rewrite <- H1. apply forallb_eq. intros xk.
  apply forallb_eq. intros k. symmetry. apply smem_keys.
Qed.
Lemma chk_coeffs_all : forallb (fun xk => forallb (fun k => kmem k alljms) (snd xk)) coeffs && knodup (dkeys coeffs) = true.
Proof. refine (coeffs_all_f coeffs alljms _). vm_cast_no_check (eq_refl true). Qed.
