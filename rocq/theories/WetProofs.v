(* Proofs about the running in WET *)
From Coq Require Import List Bool ZArith Reals Arith Lia Lra String Ascii.
From Verif Require Import PyBase Num SymModel EftModel NpModel NpProofs RealC WcxfModel WcxfProofs AdmData WetModel WetSpec WetMat WetPow.
Import ListNotations.
Local Open Scope string_scope.
Local Open Scope list_scope.
Local Open Scope K_scope.
Add Field KFV : (k_field CR).

(* ---------- facts about the tables ---------- *)
Definition all_keys : list string := flat_map snd coeffs.
Lemma all_keys_nodup : NoDup all_keys.
Proof. apply knodup_NoDup. vm_cast_no_check (eq_refl true). Qed.
Lemma coeffs_wf : wfdict coeffs.
Proof. apply knodup_NoDup. vm_cast_no_check (eq_refl true). Qed.
Lemma NoDup_app_l {A} (l m : list A) : NoDup (l ++ m) -> NoDup l.
Proof. induction l as [|x l IH]; cbn; intros H; inversion H; subst; constructor; auto. intros I. apply H2. apply in_or_app. now left. Qed.
Lemma NoDup_app_r {A} (l m : list A) : NoDup (l ++ m) -> NoDup m.
Proof. induction l as [|x l IH]; cbn; auto. intros H; inversion H; auto. Qed.
Lemma NoDup_app_disj {A} (l m : list A) x : NoDup (l ++ m) -> In x l -> In x m -> False.
Proof.
  induction l as [|y l IH]; cbn; [intros _ []|]. intros H [->|I] J; inversion H; subst; eauto. apply H2. apply in_or_app. now right.
Qed.
Lemma flat_nodup {A} (d : list (string * list A)) s l : NoDup (flat_map snd d) -> In (s, l) d -> NoDup l.
Proof.
  induction d as [|[t m] d IH]; cbn; [tauto|]. intros H [E|I].
  - injection E as -> ->. eapply NoDup_app_l; eauto.
  - apply IH; auto. eapply NoDup_app_r; eauto.
Qed.
Lemma flat_disj {A} (d : list (string * list A)) s l t m x :
  NoDup (flat_map snd d) -> In (s, l) d -> In (t, m) d -> In x l -> In x m -> s = t.
Proof.
  induction d as [|[r k] d IH]; cbn; [tauto|]. intros H [E|I] [F|J] X Y.
  - congruence.
  - injection E as -> ->. exfalso. eapply NoDup_app_disj; [exact H|exact X|]. apply in_flat_map. exists (t, m). auto.
  - injection F as -> ->. exfalso. eapply NoDup_app_disj; [exact H|exact Y|]. apply in_flat_map. exists (s, l). auto.
  - eapply IH; eauto. eapply NoDup_app_r; eauto.
Qed.
Lemma coeffs_nodup s l : dget coeffs s = Some l -> NoDup l.
Proof. intros E. apply dget_In in E. eapply flat_nodup; [exact all_keys_nodup|exact E]. Qed.
Lemma coeffs_disj s l t m x : dget coeffs s = Some l -> dget coeffs t = Some m -> In x l -> In x m -> s = t.
Proof. intros E F. apply dget_In in E, F. eapply flat_disj; eauto. exact all_keys_nodup. Qed.

Section Run.
Variable la : linalg.
Variable bases : @basis_reg CR.

Lemma perm_form cls f l : get_permissible_wcs bases cls f = Ok (Some l) ->
  exists P n, l = filter P (seq 0 n) /\ forall m, dget coeffs (if String.eqb cls "dF0" then "dF=0" else cls) = Some m -> n = List.length m.
Proof.
  unfold get_permissible_wcs. destruct (negb (kmem cls special_classes) || (f =? 5)%Z); [discriminate|].
  destruct (negb _); [discriminate|].
  destruct (reg_get bases _) as [b|]; [|discriminate]. cbn [bind].
  destruct (b_sectors b); [|discriminate]. destruct (dget s _); [|discriminate]. destruct (dget coeffs _) as [all|]; [|discriminate].
  intros E. injection E as <-. eexists _, (List.length all). split; [reflexivity|]. intros m Em. congruence.
Qed.
Lemma nth_map_nodup (l : list nat) (keys : list string) :
  NoDup l -> NoDup keys -> (forall i, In i l -> (i < List.length keys)%nat) -> NoDup (map (fun i => nth i keys "") l).
Proof.
  induction l as [|i l IH]; intros H K B; cbn; [constructor|]. inversion H; subst. constructor; [|apply IH; auto; intros; apply B; now right].
  intros I. apply in_map_iff in I as (j & E & J). apply (proj1 (NoDup_nth keys "")) in E; auto; [congruence| |]; apply B; [now right|now left].
Qed.
Lemma sector_keys_spec s f keys : sector_keys bases s f = Ok keys ->
  NoDup keys /\ exists all, dget coeffs s = Some all /\ incl keys all.
Proof.
  unfold sector_keys. destruct (dget coeffs s) as [all|] eqn:E; [|discriminate]. pose proof (coeffs_nodup _ _ E) as W.
  set (g := if String.eqb s "dF=0" then _ else _). destruct g as [[l|]|] eqn:G; cbn; try discriminate; intros K; injection K as <-.
  - assert (F : exists P n, l = filter P (seq 0 n) /\ n = List.length all).
    { subst g. destruct (String.eqb_spec s "dF=0") as [->|N].
      - destruct (perm_form _ _ _ G) as (P & n & -> & Q). exists P, n. split; auto.
      - destruct (perm_form _ _ _ G) as (P & n & -> & Q). exists P, n. split; auto. apply Q.
        destruct (String.eqb_spec s "dF0") as [->|]; [discriminate E|exact E]. }
    destruct F as (P & n & -> & ->). split.
    + apply nth_map_nodup; auto; [apply NoDup_filter, seq_NoDup|]. intros i I. apply filter_In in I as [I _]. apply in_seq in I. lia.
    + exists all. split; auto. intros k I. apply in_map_iff in I as (i & <- & I). apply filter_In in I as [I _]. apply in_seq in I.
      apply nth_In. lia.
  - split; auto. exists all. split; auto. apply incl_refl.
Qed.

(* ---------- run_sector as a matrix ---------- *)
Definition out_scale (p : rpar) (k : string) : res R :=
  bind (scale_C k p) (fun t => if Req_EM_T t 0 then Err ZeroDivisionError else Ok t).
Definition sector_matrix (cls : string) (keys : list string) (eta : R) (f : Z) (p_in p_out : rpar) (qed qcd : Z) : res mat :=
  bind (res_map (fun k => scale_C k p_in) keys) (fun s =>
  bind (us_of la bases cls eta f p_in qcd (List.length keys)) (fun Us =>
  bind (ue_of la bases cls eta f p_in qed qcd (List.length keys)) (fun Ue =>
  if (fst Us =? List.length keys)%nat && (fst Ue =? List.length keys)%nat
  then rmap (fun t => (fun i j => (snd Us i j + snd Ue i j) * rc (nth j s 0%R) / rc (nth i t 0%R)) : mat)
            (res_map (out_scale p_out) keys)
  else Err ValueError))).
Lemma res_map_length {A B} (f : A -> res B) l m : res_map f l = Ok m -> List.length m = List.length l.
Proof.
  revert m. induction l as [|x l IH]; intros m; cbn; [intros E; now injection E as <-|].
  destruct (f x); cbn; [|discriminate]. destruct (res_map f l); cbn; [|discriminate]. intros E. injection E as <-. cbn. now rewrite (IH _ eq_refl).
Qed.
Lemma res_map_nth {A B} (f : A -> res B) l m i x d : res_map f l = Ok m -> nth_error l i = Some x -> f x = Ok (nth i m d).
Proof.
  revert m i. induction l as [|y l IH]; intros m i; [destruct i; discriminate|]. cbn.
  destruct (f y) eqn:E; cbn; [|discriminate]. destruct (res_map f l) eqn:F; cbn; [|discriminate]. intros G. injection G as <-.
  destruct i; cbn; [intros H; injection H as ->; exact E|]. intros H. now apply IH.
Qed.
Lemma scaled_eq p keys (C : list CR) : List.length C = List.length keys ->
  res_map (fun kc => rmap (fun s => snd kc * rc s) (scale_C (fst kc) p)) (combine keys C) =
  rmap (fun s => map (fun cs => fst cs * rc (snd cs)) (combine C s)) (res_map (fun k => scale_C k p) keys).
Proof.
  revert C. induction keys as [|k keys IH]; intros [|c C] L; try discriminate L; [reflexivity|]. cbn.
  destruct (scale_C k p); cbn; [|reflexivity]. rewrite IH by (now injection L). destruct (res_map _ keys); reflexivity.
Qed.
Lemma unscaled_eq p keys (C : list CR) : List.length C = List.length keys ->
  res_map (unscale p) (combine keys C) =
  rmap (fun s => map (fun cs => fst cs / rc (snd cs)) (combine C s)) (res_map (out_scale p) keys).
Proof.
  revert C. induction keys as [|k keys IH]; intros [|c C] L; try discriminate L; [reflexivity|]. cbn [combine res_map].
  unfold unscale at 1, out_scale at 1. cbn [fst snd]. destruct (scale_C k p) as [t|]; cbn [bind]; [|reflexivity].
  destruct (Req_EM_T t 0); cbn [bind]; [reflexivity|]. rewrite IH by (now injection L). destruct (res_map _ keys); reflexivity.
Qed.
Lemma fold_dset_combine (keys : list string) (C : list CR) : NoDup keys -> List.length C = List.length keys ->
  fold_left (fun d kv => dset d (fst kv) (snd kv)) (combine keys C) [] = combine keys C.
Proof.
  intros W L. change (fold_left (fun d kv => dset d (fst kv) (snd kv)) (combine keys C) []) with (dupdate [] (combine keys C)).
  assert (K : dkeys (combine keys C) = keys).
  { revert C L W. induction keys as [|k keys IH]; intros [|c C] L W; try discriminate L; [reflexivity|]. cbn. f_equal. inversion W. apply IH; auto. }
  apply dict_ext.
  - apply wf_dupdate, wf_nil.
  - rewrite dkeys_dupdate; [|unfold wfdict; now rewrite K]. rewrite K. clear. change (filter (fun _ => true) keys = keys).
    induction keys as [|k keys IH]; [reflexivity|]. cbn. now rewrite IH.
  - intros k. rewrite dget_dupdate; [|unfold wfdict; now rewrite K]. destruct (dget (combine keys C) k); reflexivity.
Qed.
Lemma map_combine_nth (C : list CR) (s : list R) (g : CR -> R -> CR) : List.length s = List.length C ->
  map (fun cs => g (fst cs) (snd cs)) (combine C s) = map (fun i => g (nth i C 0) (nth i s 0%R)) (seq 0 (List.length C)).
Proof.
  revert s. induction C as [|c C IH]; intros [|r s] L; try discriminate L; [reflexivity|]. cbn [combine map List.length seq nth fst snd].
  f_equal. rewrite <- seq_shift, map_map. apply IH. now injection L.
Qed.
Lemma nth_map_seq (g : nat -> CR) n i d : (i < n)%nat -> nth i (map g (seq 0 n)) d = g i.
Proof. intros L. rewrite nth_indep with (d' := g 0%nat) by (now rewrite map_length, seq_length). rewrite map_nth, seq_nth by exact L. reflexivity. Qed.

Definition cin (C : dict string CR) (keys : list string) (j : nat) : CR := dgetd C (nth j keys "") 0.
Lemma run_sector_eq s C eta f pi po qed qcd :
  run_sector la bases s C eta f pi po qed qcd =
  match dget sectors s with
  | None => Err KeyError
  | Some cls =>
      bind (sector_keys bases s f) (fun keys =>
      if forallb (fun z => ceqb z 0) (map (fun key => dgetd C key 0) keys) || String.eqb cls "inv"
      then Ok (combine keys (map (fun key => dgetd C key 0) keys))
      else bind (sector_matrix cls keys eta f pi po qed qcd) (fun M =>
           Ok (combine keys (map (mvec (List.length keys) M (cin C keys)) (seq 0 (List.length keys))))))
  end.
Proof.
  unfold run_sector. destruct (dget sectors s) as [cls|]; [|reflexivity].
  destruct (sector_keys bases s f) as [keys|] eqn:SK; [|reflexivity]. cbn [bind].
  apply sector_keys_spec in SK as [W _].
  set (Ci := map (fun key => dgetd C key 0) keys). assert (Li : List.length Ci = List.length keys) by apply map_length.
  destruct (forallb _ Ci || String.eqb cls "inv").
  { now rewrite fold_dset_combine. }
  rewrite scaled_eq by exact Li. unfold sector_matrix.
  destruct (res_map (fun k => scale_C k pi) keys) as [sc|] eqn:ES; [|reflexivity]. cbn [rmap bind].
  pose proof (res_map_length _ _ _ ES) as Ls.
  set (X := map (fun cs => fst cs * rc (snd cs)) (combine Ci sc)).
  assert (EX : X = map (fun i => nth i Ci 0 * rc (nth i sc 0%R)) (seq 0 (List.length keys))).
  { unfold X. rewrite (map_combine_nth Ci sc (fun c r => c * rc r)) by congruence. now rewrite Li. }
  assert (LX : List.length X = List.length keys) by (rewrite EX; etransitivity; [apply map_length|apply seq_length]).
  rewrite LX.
  destruct (us_of la bases cls eta f pi qcd (List.length keys)) as [Us|]; [|reflexivity]. cbn [bind].
  destruct (ue_of la bases cls eta f pi qed qcd (List.length keys)) as [Ue|]; [|reflexivity]. cbn [bind].
  unfold evolve. rewrite LX. destruct (_ && _); [|reflexivity]. cbn [bind].
  rewrite unscaled_eq by (etransitivity; [apply map_length|apply seq_length]).
  destruct (res_map (out_scale po) keys) as [t|] eqn:ET; [|reflexivity]. cbn [rmap bind].
  pose proof (res_map_length _ _ _ ET) as Lt.
  rewrite (map_combine_nth _ t (fun c r => c / rc r)) by (rewrite map_length, seq_length; exact Lt).
  rewrite fold_dset_combine; [|exact W|rewrite !map_length, !seq_length; reflexivity].
  f_equal. f_equal. rewrite map_length, seq_length. apply map_ext_in. intros i I. apply in_seq in I.
  rewrite nth_map_seq by lia. unfold mvec.
  rewrite kdiv_def, <- ksum_scale_r. apply ksum_ext. intros k J. apply in_seq in J.
  rewrite EX, nth_map_seq by lia. unfold cin.
  replace (nth k Ci 0) with (dgetd C (nth k keys "") 0).
  - rewrite !kdiv_def. ring.
  - unfold Ci. rewrite (nth_indep _ 0 (dgetd C "" 0)) by (rewrite map_length; lia).
    symmetry. exact (map_nth (fun key => dgetd C key 0) keys "" k).
Qed.

(* ---------- linearity of a sector ---------- *)
Definition lincomb (a b : CR) (C C1 C2 : dict string CR) : Prop :=
  forall k, dgetd C k 0 = a * dgetd C1 k 0 + b * dgetd C2 k 0.
Lemma dget_combine_map (keys : list string) (g : nat -> CR) j :
  NoDup keys -> (j < List.length keys)%nat -> dget (combine keys (map g (seq 0 (List.length keys)))) (nth j keys "") = Some (g j).
Proof.
  revert g j. induction keys as [|k keys IH]; intros g j W L; [cbn in L; lia|]. inversion W; subst.
  cbn [List.length seq map combine dget]. destruct j; cbn [nth].
  - now rewrite keqb_refl.
  - cbn in L. destruct (keqb_spec (nth j keys "") k) as [E|N].
    + exfalso. apply H1. rewrite <- E. apply nth_In. lia.
    + rewrite <- seq_shift, map_map. apply (IH (fun i => g (S i))); auto. lia.
Qed.
Lemma dget_combine_none (keys : list string) (l : list CR) k : ~ In k keys -> dget (combine keys l) k = None.
Proof.
  revert l. induction keys as [|j keys IH]; intros [|c l] N; try reflexivity. cbn [combine dget].
  destruct (keqb_spec k j) as [->|]; [exfalso; apply N; now left|]. apply IH. intros I. apply N. now right.
Qed.
Lemma dgetd_combine_map (keys : list string) (g : nat -> CR) j :
  NoDup keys -> (j < List.length keys)%nat -> dgetd (combine keys (map g (seq 0 (List.length keys)))) (nth j keys "") 0 = g j.
Proof. intros W L. unfold dgetd. now rewrite dget_combine_map. Qed.
Lemma map_key_seq (keys : list string) (h : string -> CR) :
  map h keys = map (fun j => h (nth j keys "")) (seq 0 (List.length keys)).
Proof.
  induction keys as [|k keys IH]; [reflexivity|]. cbn [map List.length seq nth]. f_equal. rewrite <- seq_shift, map_map. exact IH.
Qed.
Lemma zero_cin C keys : forallb (fun z => ceqb z 0) (map (fun key => dgetd C key 0) keys) = true ->
  forall j, (j < List.length keys)%nat -> cin C keys j = 0.
Proof.
  intros E j L. rewrite forallb_forall in E. unfold cin. destruct (ceqb_spec (dgetd C (nth j keys "") 0) 0) as [Z|N]; auto.
  exfalso. specialize (E (dgetd C (nth j keys "") 0)).
  destruct (ceqb_spec (dgetd C (nth j keys "") 0) 0) as [|_]; [contradiction|]. enough (false = true) by discriminate. apply E.
  apply in_map_iff. exists (nth j keys ""). split; auto. now apply nth_In.
Qed.
(* the output of a sector, coefficient by coefficient *)
Definition is_inv (cls : string) : bool := String.eqb cls "inv".
Lemma run_sector_get s C eta f pi po qed qcd d cls keys :
  dget sectors s = Some cls -> sector_keys bases s f = Ok keys ->
  run_sector la bases s C eta f pi po qed qcd = Ok d ->
  dkeys d = keys /\
  (is_inv cls = true /\ (forall j, (j < List.length keys)%nat -> dget d (nth j keys "") = Some (cin C keys j)) \/
   is_inv cls = false /\ (forall j, (j < List.length keys)%nat -> cin C keys j = 0 /\ dget d (nth j keys "") = Some 0) \/
   is_inv cls = false /\ exists M, sector_matrix cls keys eta f pi po qed qcd = Ok M /\
      forall j, (j < List.length keys)%nat -> dget d (nth j keys "") = Some (mvec (List.length keys) M (cin C keys) j)).
Proof.
  intros ES EK. rewrite run_sector_eq, ES, EK. cbn [bind]. destruct (sector_keys_spec _ _ _ EK) as [W _].
  assert (DK : forall l : list CR, List.length l = List.length keys -> dkeys (combine keys l) = keys).
  { clear. induction keys as [|k keys IH]; intros [|c l] L; try discriminate L; [reflexivity|]. cbn. f_equal. apply IH. now injection L. }
  unfold is_inv. destruct (forallb _ _) eqn:Z; cbn [orb].
  - intros E. injection E as <-. split; [apply DK; apply map_length|]. rewrite map_key_seq.
    destruct (String.eqb cls "inv"); [left; split; auto; intros j L; now apply (dget_combine_map keys (cin C keys))|].
    right. left. split; auto. intros j L. rewrite (dget_combine_map keys (cin C keys)) by assumption.
    rewrite (zero_cin _ _ Z) by exact L. auto.
  - destruct (String.eqb cls "inv") eqn:I; cbn [orb].
    + intros E. injection E as <-. split; [apply DK; apply map_length|]. left. split; auto. intros j L. rewrite map_key_seq.
      now apply (dget_combine_map keys (cin C keys)).
    + destruct (sector_matrix _ _ _ _ _ _ _ _) as [M|]; [|discriminate]. cbn [bind]. intros E. injection E as <-.
      split; [apply DK; etransitivity; [apply map_length|apply seq_length]|]. right. right. split; auto. exists M. split; auto.
      intros j L. now apply dget_combine_map.
Qed.
Lemma mvec_lin n M (x y z : nat -> CR) a b i : (forall j, (j < n)%nat -> z j = a * x j + b * y j) ->
  mvec n M z i = a * mvec n M x i + b * mvec n M y i.
Proof.
  intros E. unfold mvec. rewrite <- !ksum_scale, <- ksum_add. apply ksum_ext. intros k I. apply in_seq in I. rewrite E by lia. ring.
Qed.
Lemma mvec_zero n M (x : nat -> CR) i : (forall j, (j < n)%nat -> x j = 0) -> mvec n M x i = 0.
Proof.
  intros E. unfold mvec. apply ksum_zero. intros k I. apply in_seq in I. rewrite E by lia. ring.
Qed.
Lemma dgetd_Some {V} (d : dict string V) k v z : dget d k = Some v -> dgetd d k z = v.
Proof. intros E. unfold dgetd. now rewrite E. Qed.
Lemma run_sector_keys s C eta f pi po qed qcd d : run_sector la bases s C eta f pi po qed qcd = Ok d ->
  sector_keys bases s f = Ok (dkeys d) /\ exists cls, dget sectors s = Some cls.
Proof.
  intros E. pose proof E as E0. rewrite run_sector_eq in E. destruct (dget sectors s) as [cls|] eqn:ES; [|discriminate].
  destruct (sector_keys bases s f) as [keys|] eqn:EK; [|discriminate].
  destruct (run_sector_get _ _ _ _ _ _ _ _ _ _ _ ES EK E0) as [-> _]. eauto.
Qed.
Theorem run_sector_linear s C C1 C2 a b eta f pi po qed qcd d1 d2 :
  lincomb a b C C1 C2 ->
  run_sector la bases s C1 eta f pi po qed qcd = Ok d1 ->
  run_sector la bases s C2 eta f pi po qed qcd = Ok d2 ->
  exists d, run_sector la bases s C eta f pi po qed qcd = Ok d /\ lincomb a b d d1 d2 /\ dkeys d = dkeys d1.
Proof.
  intros LC E1 E2. destruct (run_sector_keys _ _ _ _ _ _ _ _ _ E1) as [EK (cls & ES)].
  set (keys := dkeys d1) in *. destruct (sector_keys_spec _ _ _ EK) as [W _].
  assert (LC' : forall j, cin C keys j = a * cin C1 keys j + b * cin C2 keys j) by (intros j; apply LC).
  assert (KK : forall d : dict string CR, dkeys d = keys -> forall k, ~ In k keys -> dgetd d k 0 = 0).
  { intros d <- k N. unfold dgetd. rewrite (proj2 (dget_None d k) N). reflexivity. }
  destruct (run_sector_get _ _ _ _ _ _ _ _ _ _ _ ES EK E1) as [D1 R1].
  destruct (run_sector_get _ _ _ _ _ _ _ _ _ _ _ ES EK E2) as [D2 R2].
  assert (X : exists d, run_sector la bases s C eta f pi po qed qcd = Ok d).
  { rewrite run_sector_eq, ES, EK. cbn [bind]. unfold is_inv in *. destruct (forallb _ _) eqn:Z; cbn [orb]; [eauto|].
    destruct (String.eqb cls "inv") eqn:I; cbn [orb]; [eauto|].
    destruct R1 as [[X _]|[[_ R1]|(_ & M & EM & _)]]; [discriminate| |rewrite EM; cbn [bind]; eauto].
    destruct R2 as [[X _]|[[_ R2]|(_ & M & EM & _)]]; [discriminate| |rewrite EM; cbn [bind]; eauto].
    exfalso. enough (true = false) by discriminate. rewrite <- Z. symmetry. rewrite map_key_seq. apply forallb_forall. intros z I'.
    apply in_map_iff in I' as (j & <- & J). apply in_seq in J. fold (cin C keys j). rewrite LC', (proj1 (R1 j ltac:(lia))), (proj1 (R2 j ltac:(lia))).
    destruct (ceqb_spec (a * 0 + b * 0) 0) as [|N]; auto. exfalso. apply N. ring. }
  destruct X as [d E]. exists d. split; auto.
  destruct (run_sector_get _ _ _ _ _ _ _ _ _ _ _ ES EK E) as [D R]. split; [|exact D].
  intros k. destruct (in_dec string_dec k keys) as [I|N].
  2: { rewrite !KK by assumption. ring. }
  destruct (In_nth _ _ "" I) as (j & L & <-).
  destruct R1 as [[I1 R1]|[[I1 R1]|(I1 & M1 & EM1 & R1)]]; destruct R2 as [[I2 R2]|[[I2 R2]|(I2 & M2 & EM2 & R2)]];
    destruct R as [[I0 R]|[[I0 R]|(I0 & M & EM & R)]]; try congruence.
  all: try (rewrite EM1 in EM2; injection EM2 as <-); try (rewrite EM1 in EM; injection EM as <-); try (rewrite EM2 in EM; injection EM as <-).
  - rewrite (dgetd_Some _ _ _ _ (R j L)), (dgetd_Some _ _ _ _ (R1 j L)), (dgetd_Some _ _ _ _ (R2 j L)). apply LC'.
  - rewrite (dgetd_Some _ _ _ _ (proj2 (R j L))), (dgetd_Some _ _ _ _ (proj2 (R1 j L))), (dgetd_Some _ _ _ _ (proj2 (R2 j L))). ring.
  - rewrite (dgetd_Some _ _ _ _ (R j L)), (dgetd_Some _ _ _ _ (proj2 (R1 j L))), (dgetd_Some _ _ _ _ (proj2 (R2 j L))).
    rewrite mvec_zero; [ring|]. intros i Li. rewrite LC', (proj1 (R1 i Li)), (proj1 (R2 i Li)). ring.
  - rewrite (dgetd_Some _ _ _ _ (proj2 (R j L))), (dgetd_Some _ _ _ _ (proj2 (R1 j L))), (dgetd_Some _ _ _ _ (R2 j L)).
    transitivity (mvec (List.length keys) M2 (cin C keys) j); [symmetry; apply mvec_zero; intros; apply R; assumption|].
    rewrite (mvec_lin _ _ (cin C1 keys) (cin C2 keys) _ a b) by (intros; apply LC').
    rewrite (mvec_zero _ _ (cin C1 keys)); [ring|]. intros; apply R1; assumption.
  - rewrite (dgetd_Some _ _ _ _ (R j L)), (dgetd_Some _ _ _ _ (proj2 (R1 j L))), (dgetd_Some _ _ _ _ (R2 j L)).
    rewrite (mvec_lin _ _ (cin C1 keys) (cin C2 keys) _ a b) by (intros; apply LC').
    rewrite (mvec_zero _ _ (cin C1 keys)); [ring|]. intros; apply R1; assumption.
  - rewrite (dgetd_Some _ _ _ _ (proj2 (R j L))), (dgetd_Some _ _ _ _ (R1 j L)), (dgetd_Some _ _ _ _ (proj2 (R2 j L))).
    transitivity (mvec (List.length keys) M1 (cin C keys) j); [symmetry; apply mvec_zero; intros; apply R; assumption|].
    rewrite (mvec_lin _ _ (cin C1 keys) (cin C2 keys) _ a b) by (intros; apply LC').
    rewrite (mvec_zero _ _ (cin C2 keys)); [ring|]. intros; apply R2; assumption.
  - rewrite (dgetd_Some _ _ _ _ (R j L)), (dgetd_Some _ _ _ _ (R1 j L)), (dgetd_Some _ _ _ _ (proj2 (R2 j L))).
    rewrite (mvec_lin _ _ (cin C1 keys) (cin C2 keys) _ a b) by (intros; apply LC').
    rewrite (mvec_zero _ _ (cin C2 keys)); [ring|]. intros; apply R2; assumption.
  - rewrite (dgetd_Some _ _ _ _ (proj2 (R j L))), (dgetd_Some _ _ _ _ (R1 j L)), (dgetd_Some _ _ _ _ (R2 j L)).
    rewrite <- (mvec_lin _ _ (cin C1 keys) (cin C2 keys) (cin C keys) a b) by (intros; apply LC').
    symmetry. apply mvec_zero. intros. apply R. assumption.
  - rewrite (dgetd_Some _ _ _ _ (R j L)), (dgetd_Some _ _ _ _ (R1 j L)), (dgetd_Some _ _ _ _ (R2 j L)).
    apply mvec_lin. intros; apply LC'.
Qed.
End Run.
