(* The flat representation used by the numerical solver, and points where beta vanishes. *)
From Coq Require Import List Bool ZArith QArith Reals Arith Lia Lra String Ascii.
From Verif Require Import PyBase Num SymModel EftModel EftSpec EftProofs EftProps NpModel NpProofs BetaModel BetaProg BetaNorm BetaSpec BetaSound BetaCov BetaFacts BetaProofs BetaDeg BetaSM RealC RgeModel RgeProofs.
Import ListNotations.
Local Open Scope string_scope.
Local Open Scope list_scope.

Section Flat.
Context {K : StarField}.
Local Open Scope K_scope.
Add Field KFrs : (k_field K).
Notation cdict := (dict string (cval K)).

Lemma position_pre (pre : shapes) k s post I : ~ In k (dkeys pre) ->
  position (pre ++ (k, s) :: post) k I = (shape_size pre + match s with None => 0 | Some t => offset t I end)%nat.
Proof.
  induction pre as [|[j t] pre IH]; intros NI; cbn [app position].
  - destruct (keqb_spec k k); [reflexivity|congruence].
  - destruct (keqb_spec k j) as [->|N]; [elim NI; now left|]. rewrite IH by (intros X; apply NI; now right).
    cbn [shape_size fold_right snd]. change (fold_right _ 0%nat pre) with (shape_size pre). lia.
Qed.
Lemma coef_position E (l : list K) C k ts I : smeft_layout E -> (shape_size (e_shape E) <= List.length l)%nat -> C_array2dict E l = Ok C ->
  dget op_fields k = Some ts -> In I (indices_of k) ->
  (position (e_shape E) k I < List.length l)%nat /\ coef C k I = nth (position (e_shape E) k I) l 0.
Proof.
  intros LY L EC T HI. pose proof LY as (W & KS & SH). destruct (C18_array_roundtrip K E l W L) as (C0 & EC0 & _ & VC & _).
  rewrite EC in EC0. injection EC0 as <-. pose proof (SH k ts T) as E1. apply dget_In, in_split in E1 as (pre & post & E1).
  destruct (VC pre k _ post E1) as (v & V & HS & ST).
  assert (NI : ~ In k (dkeys pre)).
  { unfold wfdict in W. rewrite E1 in W. unfold dkeys in W. rewrite map_app in W. cbn [map fst] in W. apply NoDup_remove_2 in W. intros X. apply W, in_or_app. now left. }
  unfold coef. rewrite V, E1, (position_pre pre k _ post I NI).
  assert (G : nth_error l (shape_size pre + match match ts with [] => None | _ => Some (map (fun _ => 3%nat) ts) end with None => 0 | Some t => offset t I end) = Some (entry v I)).
  { destruct ts as [|t ts], v as [z|s a]; cbn [has_shape] in HS; try contradiction; cbn [stored entry] in *.
    - now rewrite Nat.add_0_r.
    - subst s. apply ST. unfold indices_of in HI. rewrite T in HI. now apply in_all_indices in HI. }
  split; [apply nth_error_Some; congruence|]. symmetry. now apply nth_error_nth.
Qed.

(* ---------- points at which every monomial has a vanishing factor ---------- *)
Definition all_but (j k : string) (n : nform) : bool :=
  forallb (fun m => existsb (fun f => match fst (fst f) with FC i => negb (String.eqb i j) | _ => false end) (m_f m)) (snd n).
Lemma kprod_has0 {A} (f : A -> K) l x : In x l -> f x = 0 -> kprod (map f l) = 0.
Proof. induction l as [|y l IH]; [easy|]. intros [->|X] Z; cbn [map]; rewrite kprod_cons; [rewrite Z; ring|rewrite IH by assumption; ring]. Qed.
Lemma beta_vanish E (C : cdict) H j : all_entries (beta_nf true) (all_but j) = true -> smeft_point C -> H <> 0 ->
  (forall k ts I, dget op_fields k = Some ts -> k <> j -> In I (indices_of k) -> coef C k I = 0) ->
  exists D, beta_of E beta_prog C H true = Ok D /\ forall k I, In k (dkeys op_fields) -> In I (indices_of k) -> coef D k I = 0.
Proof.
  intros CK P N Z. destruct (beta_entries E C H P N) as (R & D & NB & ED & A & _). exists D. split; [exact ED|].
  intros k I Hk HI. destruct (entry_ok_coef C D H R k (A k Hk)) as (ts & n & T & En & Ln & Wn & V). rewrite (V I HI).
  pose proof (all_entries_at _ R _ k n CK NB En) as CM. pose proof (all_entries_at _ R _ k n beta_arity NB En) as CA.
  unfold all_but in CM. unfold arity_chk in CA. rewrite forallb_forall in CM, CA.
  assert (L3 : forall x, In x I -> (x < 3)%nat).
  { rewrite (indices_of_idxs k ts T) in HI. apply in_idxs in HI. apply HI. }
  unfold nval. apply ksum_zero. intros m Hm. unfold mval. rewrite ksum_zero; [ring|].
  intros x Hx. specialize (CM m Hm). specialize (CA m Hm). apply existsb_exists in CM as (f & Hf & F).
  rewrite forallb_forall in CA. specialize (CA f Hf). apply (kprod_has0 _ _ f Hf).
  destruct f as [[n0 c] L]. cbn [fst snd] in F. destruct n0 as [i| | |]; try discriminate F. apply negb_true_iff, String.eqb_neq in F.
  unfold fval. cbn [fst snd venv]. unfold arity_ok in CA. cbn [fst snd] in CA.
  destruct (dget op_fields i) as [us|] eqn:U; [|discriminate CA]. apply Nat.eqb_eq in CA.
  assert (Z0 : coef C i (map (fun l => nth l (I ++ x) 0%nat) L) = 0).
  { apply (Z i us); [exact U|exact F|]. rewrite (indices_of_idxs i us U). apply in_idxs. rewrite map_length. split; [exact CA|].
    intros y Y. apply in_map_iff in Y as (l & <- & _). apply nth_lt3. intros w Hw. apply in_app_iff in Hw as [Hw|Hw]; [now apply L3|].
    apply in_idxs in Hx. now apply Hx. }
  unfold coef in Z0. rewrite Z0. destruct c; [apply kconj_0|reflexivity].
Qed.
Lemma zero_array E (D : cdict) b : smeft_layout E -> smeft_point D ->
  (forall k I, In k (dkeys op_fields) -> In I (indices_of k) -> coef D k I = 0) -> C_dict2array E D = Ok b -> forall x, In x b -> x = 0.
Proof.
  intros LY PD ZD DA. unfold C_dict2array in DA. rewrite dict2array_spec in DA.
  - cbn [rmap] in DA. injection DA as <-. intros x X. apply in_concat in X as (sg & S & X). apply in_map_iff in S as (k & <- & Hk).
    assert (IK : In k (dkeys op_fields)) by (apply LY; exact Hk).
    destruct (dget op_fields k) as [ts|] eqn:T; [|apply dget_None in T; contradiction].
    destruct (PD k ts T) as (v & V & S & Z). unfold seg in X. rewrite V in X.
    specialize (ZD k). unfold coef in ZD. rewrite V in ZD. destruct v as [y|s a]; cbn [vshape] in *.
    + destruct X as [<-|[]]. destruct ts; [|discriminate S]. apply (ZD [] IK). unfold indices_of. rewrite T. now left.
    + unfold ravel in X. apply in_map_iff in X as (I & <- & HI). apply (ZD I IK). unfold indices_of. rewrite T, <- S. exact HI.
  - intros k Hk. assert (IK : In k (dkeys op_fields)) by (apply LY; exact Hk).
    destruct (dget op_fields k) as [ts|] eqn:T; [|apply dget_None in T; contradiction]. destruct (PD k ts T) as (v & V & _). congruence.
Qed.
End Flat.

Lemma view_float_length z : List.length (view_float z) = (2 * List.length z)%nat.
Proof. induction z as [|w z IH]; [reflexivity|]. cbn [view_float flat_map app List.length]. change (flat_map (fun w : CR => [fst w; snd w]) z) with (view_float z). rewrite IH. lia. Qed.
Lemma view_float_nth z : forall p, nth (2 * p) (view_float z) 0%R = fst (nth p z (k0 : CR)) /\ nth (2 * p + 1) (view_float z) 0%R = snd (nth p z (k0 : CR)).
Proof.
  induction z as [|w z IH]; intros p.
  - cbn [view_float flat_map]. destruct p; cbn [nth]; [split; reflexivity|]. replace (2 * S p)%nat with (S (S (2 * p))) by lia. cbn. split; reflexivity.
  - cbn [view_float flat_map app]. change (flat_map (fun w : CR => [fst w; snd w]) z) with (view_float z). destruct p as [|p]; [split; reflexivity|].
    replace (2 * S p)%nat with (S (S (2 * p))) by lia. cbn [Nat.add nth]. replace (S (2 * p + 1)) with (S (2 * p) + 1)%nat by lia. apply IH.
Qed.
Lemma view_float_scale (r : R) z : map (fun x => x / r)%R (view_float z) = view_float (map (fun w => kmul w (rc (/ r)) : CR) z).
Proof.
  induction z as [|[a b] z IH]; [reflexivity|]. cbn [view_float flat_map app map].
  change (flat_map (fun w : CR => [fst w; snd w]) z) with (view_float z).
  change (flat_map (fun w : CR => [fst w; snd w]) (map (fun w : CR => kmul w (rc (/ r))) z)) with (view_float (map (fun w : CR => kmul w (rc (/ r))) z)).
  rewrite IH. f_equal; [|f_equal]; cbn; unfold Rdiv; ring.
Qed.

Lemma view_even n : forall y, List.length y = (2 * n)%nat -> exists z, view_complex y = Ok z /\ List.length z = n.
Proof.
  induction n as [|n IH]; intros y L.
  - destruct y; [|cbn in L; lia]. exists []. split; reflexivity.
  - destruct y as [|a [|b y]]; cbn [List.length] in L; try lia. destruct (IH y) as (z & Ez & Lz); [lia|].
    exists (((a, b) : CR) :: z). cbn [view_complex]. rewrite Ez. cbn [rmap bind List.length]. split; [reflexivity|lia].
Qed.
Lemma derivable_ext (f g : R -> R) t l : (forall s, f s = g s) -> derivable_pt_lim f t l -> derivable_pt_lim g t l.
Proof. intros E D eps He. destruct (D eps He) as [d Hd]. exists d. intros h N A. rewrite <- !E. now apply Hd. Qed.
