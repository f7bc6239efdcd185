(* Without new physics the matching gives zero: SMEFT coefficients that are all zero are
   matched to WET coefficients that are all zero, whatever the one-loop formulas are. *)
From Coq Require Import List Bool ZArith QArith Reals Arith Lia String Ascii FunctionalExtensionality Lra.
From Verif Require Import PyBase Num Lin SymModel SymTables SymClass SymProofs EftModel EftProofs NpModel NpProofs RealC BetaSpec RotModel JmsModel BetaModel TreeProg TreeModel TreeSpec.
Import ListNotations.
Local Open Scope string_scope.
Local Open Scope list_scope.

Section Zero.
Context {K : StarField}.
Local Open Scope K_scope.
Add Field KFtz : (k_field K).
Notation cdict := (dict string (cval K)).
Definition zval (v : cval K) : Prop := match v with CNum z => z = 0 | CArr _ a => forall I, a I = 0 end.
Definition zdict (C : cdict) : Prop := forall k v, In (k, v) C -> zval v.

Lemma zdict_set C k v : zdict C -> zval v -> zdict (dset C k v).
Proof.
  intros Z V. induction C as [|[j w] C IH]; cbn [dset].
  - intros a b [E|[]]. now injection E as <- <-.
  - destruct (keqb k j).
    + intros a b [E|H]; [now injection E as <- <-|]. apply (Z a b). now right.
    + intros a b [E|H]; [injection E as <- <-; apply (Z j w); now left|]. revert a b H. apply IH. intros a b H. apply (Z a b). now right.
Qed.
Lemma zdict_get C k v : zdict C -> dget C k = Some v -> zval v.
Proof. intros Z D. apply (Z k v). now apply dget_In. Qed.
Lemma lin_zero (l : list (Q * K)) : (forall x, In x l -> snd x = 0) -> SymModel.ksum l = 0.
Proof.
  induction l as [|[q x] l IH]; intros H; [reflexivity|]. change (kQ q * x + SymModel.ksum l = 0).
  rewrite IH by (intros; apply H; now right).
  specialize (H (q, x) (or_introl eq_refl)). cbn [snd] in H. rewrite H. ring.
Qed.
Lemma kre_0 : kre (0 : K) = 0. Proof. apply kre_of_real, kreal_0. Qed.
Lemma kim_0 : kim (0 : K) = 0. Proof. apply kim_zero_iff, kreal_0. Qed.
Lemma exec1_zero s (src a : idx -> K) : (forall I, src I = 0) -> (forall I, a I = 0) -> forall I, exec1 k_alg src a s I = 0.
Proof.
  intros S A I.
  assert (R0 : forall rhs x, In x (reads src rhs) -> snd x = 0).
  { intros rhs x Hx. unfold reads in Hx. apply in_map_iff in Hx as (y & <- & _). apply S. }
  destruct s as [i rhs|i rhs|i rhs|i j]; cbn [exec1]; unfold upd; destruct (keqb I i); auto; cbn [v_setre v_setim v_lin v_conj k_alg].
  - rewrite A, kim_0, lin_zero; [ring|]. intros x Hx. apply in_map_iff in Hx as (y & <- & Hy). cbn [snd]. rewrite (R0 rhs y Hy). apply kre_0.
  - rewrite A, kre_0, lin_zero; [ring|]. intros x Hx. apply in_map_iff in Hx as (y & <- & Hy). cbn [snd]. rewrite (R0 rhs y Hy). apply kim_0.
  - apply lin_zero. apply R0.
  - rewrite S. apply kconj_0.
Qed.
Lemma exec_zero p : forall a : idx -> K, (forall I, a I = 0) -> forall I, exec k_alg p a I = 0.
Proof. unfold exec. induction p as [|s p IH]; cbn [fold_left]; intros a A; [exact A|]. apply IH. now apply exec1_zero. Qed.
Lemma exec_from_zero p (b : idx -> K) : (forall I, b I = 0) -> forall I, exec_from k_alg p b I = 0.
Proof.
  intros B. unfold exec_from. assert (H : forall a : idx -> K, (forall I, a I = 0) -> forall I, fold_left (fun a s => exec1 k_alg b a s) p a I = 0).
  { induction p as [|s p IH]; cbn [fold_left]; intros a A; [exact A|]. apply IH. now apply exec1_zero. }
  now apply H.
Qed.
Lemma divided_zero (a : idx -> K) d : (forall I, a I = 0) -> forall I, divided k_alg a d I = 0.
Proof. intros A I. unfold divided, mulq. apply lin_zero. intros x [<-|[]]. apply A. Qed.
Lemma nonred_zero c (a : idx -> K) : (forall I, a I = 0) -> forall I, symmetrize_nonred k_alg c a I = 0.
Proof.
  Transparent symmetrize_nonred exec.
  intros A. destruct c; cbn [symmetrize_nonred]; auto using exec_zero, divided_zero, exec_from_zero.
  intros I. unfold real_part, upd. destruct (keqb I []); [|apply A]. cbn [v_setim k_alg map]. rewrite A, kre_0. cbn. ring.
Qed.
Opaque symmetrize_nonred exec.
Lemma dtrav_zero (f : string -> cval K -> res (option (cval K))) : (forall k v w, f k v = Ok (Some w) -> zval v -> zval w) ->
  forall C C', zdict C -> dtrav f C = Ok C' -> zdict C'.
Proof.
  intros F. induction C as [|[k v] C IH]; intros C' Z H; cbn [dtrav] in H.
  - injection H as <-. exact Z.
  - destruct (f k v) as [o|] eqn:E; [|discriminate H]. cbn [bind] in H. destruct (dtrav f C) as [C1|] eqn:T; [|discriminate H]. cbn [bind] in H.
    injection H as <-. assert (Z1 : zdict C1) by (apply IH; [|reflexivity]; intros a b X; apply (Z a b); now right).
    destruct o as [w|]; [|exact Z1]. intros a b [X|X]; [|exact (Z1 a b X)]. injection X as <- <-. apply (F k v w E). apply (Z k v). now left.
Qed.
Variable E : eft.
Lemma pad_zero C C' : zdict C -> pad_C E C = Ok C' -> zdict C'.
Proof.
  unfold pad_C. destruct (e_pad E); [|now intros ? [= <-]]. apply dtrav_zero. intros _ v w. destruct v as [z|s a]; cbn [pad_val]; [now intros [= <-]|].
  destruct s as [|n r]; [discriminate|]. destruct (Nat.eqb _ 3); [now intros [= <-]|]. destruct (negb _); [discriminate|].
  destruct (_ || _); [|discriminate]. intros [= <-] A I. match goal with |- (if ?b then _ else _) = _ => destruct b end; [apply A|reflexivity].
Qed.
Lemma unpad_zero C C' : zdict C -> unpad_C E C = Ok C' -> zdict C'.
Proof.
  unfold unpad_C. destruct (e_pad E); [|now intros ? [= <-]]. apply dtrav_zero. intros k v w. unfold unpad_val. destruct (dget (e_shape E) k) as [sh|]; [|discriminate].
  destruct v as [z|s a]; [now intros [= <-]|]. destruct sh as [t|]; [|discriminate]. destruct (keqb s t); [now intros [= <-]|].
  destruct (negb _); [discriminate|]. destruct (_ <? _)%nat; [discriminate|]. now intros [= <-].
Qed.
Lemma symm_zero C C' : zdict C -> eft_symmetrize_nonred E C = Ok C' -> zdict C'.
Proof.
  unfold eft_symmetrize_nonred, symmetrize_C. intros Z H. destruct (pad_C E C) as [C1|] eqn:P; [|discriminate H]. cbn [bind] in H.
  destruct (dtrav (symm_val E (symmetrize_nonred k_alg)) C1) as [C2|] eqn:T; [|discriminate H]. cbn [bind] in H.
  apply (unpad_zero C2); [|exact H]. revert T. apply dtrav_zero; [|now apply (pad_zero C)].
  intros k v w. unfold symm_val. destruct (class_of E k) as [c|]; [|discriminate].
  assert (N0 : forall z : K, z = 0 -> symmetrize_nonred k_alg Cl0 (fun _ => z) [] = 0) by (intros z ->; now apply nonred_zero).
  destruct c, v as [z|s a]; cbn [zval]; try discriminate; try (intros [= <-] ZV; cbn [zval]; auto; fail);
    try (destruct (keqb s _); [|discriminate]; intros [= <-] ZV; cbn [zval]; now apply nonred_zero).
Qed.
Lemma w2a_zero (d : dict string K) C : (forall k v, In (k, v) d -> v = 0) -> wcxf2arrays E d = Ok C -> zdict C.
Proof.
  unfold wcxf2arrays. set (f := fun (acc : res cdict) kv => _).
  assert (H : forall d acc, (forall C, acc = Ok C -> zdict C) -> (forall k v, In (k, v) d -> v = 0) -> forall C, fold_left f d acc = Ok C -> zdict C).
  { clear d C. induction d as [|[k v] d IH]; intros acc A Z C H; cbn [fold_left] in H; [now apply A|].
    apply (IH _) in H; [exact H| |intros a b X; apply (Z a b); now right]. intros C1 H1. unfold f in H1. destruct acc as [C0|]; [|discriminate H1].
    specialize (A C0 eq_refl). cbn [bind fst snd] in H1. assert (V0 : v = 0) by (apply (Z k v); now left).
    destruct (dget (e_shape E) (name_of k)) as [[s|]|]; [| |discriminate H1].
    - assert (ZO : zval (match dget C0 (name_of k) with Some x => x | None => CArr s (fun _ => 0) end)).
      { destruct (dget C0 (name_of k)) eqn:G; [now apply (zdict_get C0 (name_of k))|]. now intros I. }
      destruct (match dget C0 (name_of k) with Some x => x | None => CArr s (fun _ => 0) end) as [z|s' a]; [discriminate H1|].
      destruct (int_chars (index_of k)) as [zs|]; [|discriminate H1]. cbn [bind] in H1. destruct (norm_index s' _) as [p|]; [|discriminate H1].
      cbn [bind] in H1. injection H1 as <-. apply zdict_set; [exact A|]. intros I. destruct (prefixb p I); [exact V0|apply ZO].
    - injection H1 as <-. now apply zdict_set. }
  intros Z. apply H; [|exact Z]. intros C0 [= <-] a b [].
Qed.
Lemma missing_zero C C' : zdict C -> add_missing E C = Ok C' -> zdict C'.
Proof.
  unfold add_missing. intros Z. set (f := fun (acc : res cdict) k => _).
  assert (H : forall l acc, (forall C, acc = Ok C -> zdict C) -> forall C, fold_left f l acc = Ok C -> zdict C).
  { induction l as [|k l IH]; intros acc A C1 H; cbn [fold_left] in H; [now apply A|]. apply IH in H; [exact H|]. intros C2 H2. unfold f in H2.
    destruct acc as [C0|]; [|discriminate H2]. specialize (A C0 eq_refl). cbn [bind] in H2. destruct (dmem C k); [now injection H2 as <-|].
    destruct (dget (e_shape E) k) as [[s|]|]; [| |discriminate H2]; injection H2 as <-; apply zdict_set; try exact A; cbn [zval]; reflexivity. }
  apply H. now intros C0 [= <-].
Qed.
Lemma load_zero (d : dict string K) C : (forall k v, In (k, v) d -> v = 0) -> wcxf2arrays_symmetrized E d = Ok C -> zdict C.
Proof.
  intros Z. unfold wcxf2arrays_symmetrized. destruct (wcxf2arrays E d) as [C1|] eqn:A; [|discriminate]. cbn [bind].
  destruct (eft_symmetrize_nonred E C1) as [C2|] eqn:B; [|discriminate]. cbn [bind]. apply missing_zero. apply (symm_zero C1); [|exact B]. exact (w2a_zero d C1 Z A).
Qed.
(* 0 * C = C *)
Lemma zero_same C : zdict C -> map (fun kv => (fst kv, np_zero (snd kv))) C = C.
Proof.
  induction C as [|[k v] C IH]; intros Z; [reflexivity|]. cbn [map fst snd]. rewrite IH by (intros a b H; apply (Z a b); now right). f_equal. f_equal.
  specialize (Z k v (or_introl eq_refl)). destruct v as [z|s a]; cbn [np_zero zval] in *.
  - subst z. f_equal. ring.
  - f_equal. apply functional_extensionality. intros I. rewrite Z. ring.
Qed.
(* maps of dictionaries that keep zero *)
Lemma map_vals_zero (f : string -> cval K -> res (cval K)) (P : string -> cval K -> Prop) : (forall k v w, P k v -> f k v = Ok w -> zval w) ->
  forall C C', (forall k v, In (k, v) C -> P k v) -> map_vals f C = Ok C' -> zdict C'.
Proof.
  intros F. induction C as [|[k v] C IH]; intros C' Z H; cbn [map_vals] in H.
  - injection H as <-. intros a b [].
  - destruct (f k v) as [w|] eqn:EF; [|discriminate H]. cbn [bind] in H. destruct (map_vals f C) as [C1|] eqn:T; [|discriminate H]. cbn [bind] in H.
    injection H as <-. assert (Z1 : zdict C1) by (apply IH; [|reflexivity]; intros a b X; apply (Z a b); now right).
    intros a b [X|X]; [|exact (Z1 a b X)]. injection X as <- <-. apply (F k v w); auto. apply Z. now left.
Qed.
Lemma map2_zero h (v w u : cval K) : zval v -> zval w -> h 0 0 = 0 -> np_map2 h v w = Ok u -> zval u.
Proof.
  intros V W H0 H. destruct v as [x|s a], w as [y|t b]; cbn [np_map2 zval] in *.
  - injection H as <-. now rewrite V, W.
  - injection H as <-. intros I. now rewrite V, W.
  - injection H as <-. intros I. now rewrite V, W.
  - destruct (keqb s t); [|discriminate H]. injection H as <-. intros I. now rewrite V, W.
Qed.
Lemma sub_same (v u : cval K) : np_sub v v = Ok u -> zval u.
Proof.
  destruct v as [x|s a]; cbn [np_sub np_map2].
  - intros [= <-]. cbn [zval]. ring.
  - destruct (keqb s s); [|discriminate]. intros [= <-] I. ring.
Qed.
Lemma zval_entry (v : cval K) I : zval v -> entry v I = 0.
Proof. destruct v; cbn; auto. Qed.
Lemma all_dims_len ins : forall (ops : list (cval K)) d d', all_dims ins ops d = Ok d' -> List.length ins = List.length ops.
Proof.
  induction ins as [|l ins IH]; intros [|v ops] d d' H; cbn [all_dims] in H; try discriminate H; [reflexivity|].
  destruct (add_dims l (vshape v) d) as [d1|]; [|discriminate H]. cbn [bind] in H. cbn [List.length]. f_equal. exact (IH ops d1 d' H).
Qed.
Lemma ein_prod_zero env vals v : zval v -> forall ins ops, List.length ins = List.length (ops ++ [v]) -> ein_prod env vals ins (ops ++ [v]) = 0.
Proof.
  intros Z. induction ins as [|l ins IH]; intros ops L.
  - rewrite app_length in L. cbn in L. lia.
  - destruct ops as [|w ops]; cbn [app ein_prod] in *.
    + rewrite (zval_entry v _ Z). ring.
    + cbn [List.length] in L. rewrite IH by lia. ring.
Qed.
Lemma einsum_zero spec ops v u : zval v -> np_einsum spec (ops ++ [v]) = Ok u -> zval u.
Proof.
  intros Z. unfold np_einsum. destruct (parse_spec spec) as [ins out]. destruct (_ && _); [|discriminate].
  destruct (all_dims ins (ops ++ [v]) []) as [d|] eqn:A; [|discriminate]. apply all_dims_len in A. cbn [bind].
  assert (S : forall O, ksum (map (fun s => ein_prod (out ++ summed_letters ins out) (O ++ s) ins (ops ++ [v])) (all_indices (map (fun c => dgetd d c 0%nat) (summed_letters ins out)))) = 0).
  { intros O. apply ksum_zero. intros x _. now apply ein_prod_zero. }
  destruct out; intros [= <-]; [exact (S [])|]. exact S.
Qed.
Lemma rotate_zero (V : cval K) C C' : zdict C -> rotate_down V C = Ok C' -> zdict C'.
Proof.
  intros Z. unfold rotate_down. set (Cin := C) at 1. assert (ZI : zdict Cin) by exact Z. clearbody Cin. revert C Z.
  induction down_rules as [|[ks r] rs IH]; intros C Z; cbn [down_all]; [now intros [= <-]|].
  intros H. destruct (down_keys V Cin r ks C) as [C1|] eqn:D; [|discriminate H]. cbn [bind] in H. apply (IH C1); [|exact H]. clear H. revert C Z D.
  induction ks as [|k ks IHk]; intros C Z; cbn [down_keys]; [now intros [= <-]|]. unfold getk, lookup.
  destruct (dget Cin k) as [v|] eqn:G; [|discriminate]. cbn [bind]. destruct (np_einsum _ _) as [w|] eqn:EI; [|discriminate]. cbn [bind].
  apply IHk. apply zdict_set; [exact Z|]. apply (einsum_zero _ _ _ _ (zdict_get Cin k v ZI G) EI).
Qed.
Lemma unscale_zero C C' : zdict C -> unscale_dict_wet C = Ok C' -> zdict C'.
Proof.
  intros Z. unfold unscale_dict_wet. apply (map_vals_zero _ (fun _ v => zval v)); [|exact Z]. clear. intros k v w Z. unfold apply_factor.
  destruct (scale_factor k) as [[[s d]|]|]; [| |discriminate]; destruct v as [z|t a]; cbn [zval] in Z.
  - intros [= <-] I. rewrite Z. ring.
  - destruct (keqb t s); [|discriminate]. intros [= <-] I. rewrite Z. ring.
  - intros [= <-]. cbn [zval]. rewrite Z. ring.
  - intros [= <-] I. rewrite Z. ring.
Qed.
Definition zlist (d : dict string K) : Prop := forall k v, In (k, v) d -> v = 0.
Lemma zlist_set d k v : zlist d -> v = 0 -> zlist (dset d k v).
Proof.
  intros Z V. induction d as [|[j w] d IH]; cbn [dset].
  - intros a b [X|[]]. now injection X as <- <-.
  - destruct (keqb k j).
    + intros a b [X|H]; [now injection X as <- <-|]. apply (Z a b). now right.
    + intros a b [X|H]; [injection X as <- <-; apply (Z j w); now left|]. revert a b H. apply IH. intros a b H. apply (Z a b). now right.
Qed.
Lemma arrays_zero C : zdict C -> zlist (arrays2wcxf C).
Proof.
  unfold arrays2wcxf. assert (Z0 : zlist []) by (intros a b []). revert Z0. generalize (@nil (string * K)) as d. induction C as [|[k v] C IH]; intros d Zd Z; cbn [fold_left]; [exact Zd|].
  apply IH; [|intros a b H; apply (Z a b); now right]. specialize (Z k v (or_introl eq_refl)). cbn [fst snd].
  assert (F : forall (a : idx -> K) l, (forall I, a I = 0) -> forall d, zlist d -> zlist (fold_left (fun d I => dset d (label k I) (a I)) l d)).
  { intros a l A. induction l as [|I l IHl]; intros d0 Z0; cbn [fold_left]; [exact Z0|]. apply IHl. now apply zlist_set. }
  destruct v as [z|[|[|[|n]] [|m s]] a]; cbn [zval] in Z; try (now apply zlist_set); now apply F.
Qed.
End Zero.

Section ZeroMatch.
Notation cdictR := (dict string (cval CR)).
Lemma exec_tree_wf {K : StarField} (C L : dict string (cval K)) p : forall c c', wfdict c -> exec_tree C L p c = Ok c' -> wfdict c'.
Proof.
  induction p as [|[k e] p IH]; intros c c' W H; cbn [exec_tree] in H; [now injection H as <-|].
  destruct (eval C L e) as [v|]; [|discriminate H]. cbn [bind] in H. apply (IH _ _ (wf_dset _ _ _ W) H).
Qed.
Lemma tree_raw_wf C p c : tree_raw C p = Ok c -> wfdict c.
Proof.
  unfold tree_raw. destruct (ew_inputs C p); [|discriminate]. cbn [bind]. unfold tree_at. destruct (tree_env _ _ _ _ _); [|discriminate]. cbn [bind].
  destruct (daggers C); [|discriminate]. cbn [bind]. apply exec_tree_wf. apply wf_nil.
Qed.
Lemma subtract_zero (f : cdictR -> res cdictR) C c : (forall c, f C = Ok c -> wfdict c) -> zdict C -> subtract_sm f C = Ok c -> zdict c.
Proof.
  intros W Z. unfold subtract_sm. rewrite (zero_same C Z). destruct (f C) as [c0|] eqn:F; [|discriminate]. cbn [bind].
  unfold dict_map2. refine (map_vals_zero _ (fun k v => dget c0 k = Some v) _ c0 c _).
  - intros k v w D. unfold getk, lookup. rewrite D. cbn [bind]. apply sub_same.
  - intros k v. apply In_dget. now apply W.
Qed.
Lemma add_zero (a b c : cdictR) : zdict a -> zdict b -> dict_map2 np_add a b = Ok c -> zdict c.
Proof.
  intros Za Zb. unfold dict_map2. refine (map_vals_zero _ (fun _ v => zval v) _ a c Za).
  intros k v w ZV. unfold getk, lookup. destruct (dget b k) as [u|] eqn:D; [|discriminate]. cbn [bind]. intros H.
  refine (map2_zero _ v u w ZV (zdict_get b k u Zb D) _ H). unfold kadd, k0; cbn. unfold cx_add. cbn. f_equal; lra.
Qed.
Theorem match_zero E jms defaults ckm loop (d : dict string CR) scale ps out :
  (forall C p s c, loop C p s = Ok c -> wfdict c) ->
  (forall k v, In (k, v) d -> v = (0%K : CR)) ->
  match_all E jms defaults ckm loop d scale ps = Ok out -> forall k v, In (k, v) out -> v = (0%K : CR).
Proof.
  intros W Z. unfold match_all. set (p := match ps with Some q => _ | None => _ end). clearbody p.
  destruct (wcxf2arrays_symmetrized E d) as [C|] eqn:L; [|discriminate]. apply load_zero in L; [|exact Z]. cbn [bind].
  destruct (match_arrays loop C scale p) as [c|] eqn:M; [|discriminate]. cbn [bind].
  assert (Zc : zdict c).
  { unfold match_arrays in M. destruct (tree_match C p) as [t|] eqn:T; [|discriminate M]. cbn [bind] in M.
    assert (Zt : zdict t). { unfold tree_match in T. refine (subtract_zero _ C t _ L T). intros c0. apply tree_raw_wf. }
    destruct (dget p "loop_order") as [x|]; [|now injection M as <-]. destruct (Req_EM_T x 1); [|now injection M as <-].
    destruct (subtract_sm _ C) as [l|] eqn:S; [|discriminate M]. cbn [bind] in M. refine (add_zero t l c Zt _ M).
    refine (subtract_zero _ C l _ L S). intros c0. apply W. }
  destruct (ckm_of ckm p) as [V|]; [|discriminate]. cbn [bind]. destruct (rotate_down V c) as [c1|] eqn:RD; [|discriminate]. cbn [bind].
  destruct (unscale_dict_wet c1) as [c2|] eqn:U; [|discriminate]. cbn [bind]. intros [= <-] k v H. unfold dfilter in H. apply filter_In in H as [H _].
  apply (arrays_zero c2) in H; [exact H|]. apply (unscale_zero c1); [|exact U]. now apply (rotate_zero V c).
Qed.
End ZeroMatch.
