(* The lines of a card for SMEFTsim: which parameter has which value *)
From Coq Require Import List Bool ZArith QArith Reals Lia Lra String Field.
From Verif Require Import PyBase Num RealC SymModel SymClass SymSpec SymProofs SymFacts EftModel EftSpec EftProofs EftLabels EftRound EftRound2 EftInit
  BasisProps TrFast WcxfModel DsixSym SimData SimModel SimPolar SimSpec SimProofs.
Import ListNotations.
Local Open Scope string_scope.
Local Open Scope list_scope.
Opaque symmetrize_nonred unscale.

Section P.
Add Field KFsimr : (k_field CR).
Local Open Scope K_scope.
Variables (all : list string) (real : string -> bool) (E : eft).
Hypothesis SU : smeftutil all real E.
Local Lemma OK : eft_ok E warsaw_ops. Proof. exact (proj1 (util_facts all real E SU)). Qed.

Definition sim_classes : list cls := [Cl0; Cl1; Cl2; Cl3; Cl4; Cl5; Cl6].
Definition fac_nat (c : cls) (J : idx) : nat :=
  match c with Cl4 | Cl41 => d_4 J | Cl6 => d_6 J | Cl7 | Cl71 => d_7 J | _ => 1%nat end.
Lemma mult_check : forallb (fun c => forallb (fun J => Nat.eqb (fac_nat c J) (multiplicity c J)) (indices c)) sim_classes = true.
Proof. vm_cast_no_check (eq_refl true). Qed.
Lemma class_check : forallb (fun o => existsb (cls_eqb (fst (snd o))) sim_classes) sim_ops = true.
Proof. vm_cast_no_check (eq_refl true). Qed.
Lemma sim_class n c s : In (n, (c, s)) sim_ops -> In c sim_classes.
Proof.
  intros H. pose proof (proj1 (forallb_forall _ _) class_check _ H) as T. cbn [fst snd] in T. apply existsb_exists in T as (c' & T1 & T2).
  destruct (cls_eqb_spec c c') as [->|]; [exact T1|discriminate].
Qed.
Lemma mult_value k n c J : In (k, (n, c, J)) info_tab -> (symm_factor (Some c) J : CR) = kZ (Z.of_nat (multiplicity c J)).
Proof.
  intros H. apply info_In in H as (s & H & _ & II & _). apply sim_class in H. pose proof (proj1 (forallb_forall _ _) mult_check _ H) as T. cbv beta in T.
  pose proof (proj1 (forallb_forall _ _) T _ II) as U. cbv beta in U. apply Nat.eqb_eq in U. rewrite <- U. unfold symm_factor, fac_nat. destruct c; reflexivity.
Qed.
Lemma unscale_fac c (a : idx -> CR) J : In c sim_classes -> unscale (@k_alg CR) c a J = symm_factor (Some c) J * a J.
Proof.
  Transparent unscale. intros H. unfold symm_factor. cbn in H. assert (X : 1 * a J = a J) by ring.
  assert (T : forall d, times (@k_alg CR) d a J = kZ (Z.of_nat (d J)) * a J).
  { intros d. unfold times, mulq. cbn [v_lin k_alg]. unfold ksum. cbn [fold_right fst snd]. unfold kQ. cbn [Qnum Qden].
    change (kpos 1 : CR) with (1 : CR). field. exact k_1_neq_0. }
  repeat (destruct H as [<-|H]; [unfold unscale; first [apply T|symmetry; exact X]|]). destruct H.
  Opaque unscale.
Qed.
Lemma entry_value (wc : WC CR) : wfdict (wc_dict wc) -> (forall k, In k (dkeys (wc_dict wc)) -> In k all) -> 
  exists C, wcxf2arrays_symmetrized E (wc_dict wc) = Ok C /\
  forall k n c J, In (k, (n, c, J)) info_tab -> (real_entry c J = true -> kreal (wc_getitem wc k)) ->
    exists v, dget C n = Some v /\ wc_getitem wc k / symm_factor (Some c) J = entry v J.
Proof.
  intros W A. destruct (util_facts all real E SU) as (O & EA & _).
  destruct (w2a_sym_spec E warsaw_ops O (wc_dict wc) W) as (C & E1 & _ & _ & V); [intros k Hk; rewrite EA; now apply A|].
  exists C. split; [exact E1|]. intros k n c J H RE. destruct (scaled_value all real E SU wc k n c J H) as [_ FN]. pose proof H as G.
  apply info_In in H as (s & H & -> & II & HI & HN). pose proof (sim_class n c s H) as CL. apply sim_op_warsaw in H.
  destruct (V n c s H) as (v & D & SY). exists v. split; [exact D|].
  assert (GD : forall k, wc_getitem wc k = dgetd (wc_dict wc) k 0) by reflexivity.
  destruct (cl0_dec c) as [->|NC].
  - cbn [symmetrized] in SY. subst v. cbn [op_label entry] in *. rewrite <- GD. rewrite kre_of_real; [|apply RE; destruct J; [reflexivity|destruct II as [<-|[]]; reflexivity]].
    assert (F1 : symm_factor (Some Cl0) J = (1 : CR)) by reflexivity. rewrite F1. field. exact k_1_neq_0.
  - assert (X : exists b, v = CArr s b /\ forall I, in_shape s I = true -> b I = symmetrize_nonred (@k_alg CR) c (entries (wc_dict wc) n s) I)
      by (destruct c; try congruence; exact SY).
    destruct X as (b & -> & B). cbn [entry]. rewrite (B J HI). pose proof (S16 c (entries (wc_dict wc) n s) J II HN) as Q.
    rewrite (unscale_fac c _ J CL) in Q. unfold entries in Q at 2 3. rewrite HI in Q.
    replace (op_label n c J) with (label n J) in * by (destruct c; try reflexivity; congruence).
    assert (Z : wc_getitem wc (label n J) = symm_factor (Some c) J * symmetrize_nonred (@k_alg CR) c (entries (wc_dict wc) n s) J).
    { rewrite Q, GD. destruct (real_entry c J); [|reflexivity]. symmetry. rewrite <- GD. apply kre_of_real. now apply RE. }
    rewrite Z. field. exact FN.
Qed.

(* ---------- reading a card ---------- *)
Lemma on_card_line wc ms r scheme c ix e com v : is_set ms -> param_card E wc ms (rc r) scheme = Ok c -> In (ix, e, com) (lines_of ms) ->
  line_value E wc (rc r) e = Ok v -> on_card c com v.
Proof.
  intros S PC HL V. destruct (param_card_spec all real E SU wc ms (rc r) scheme S) as (c' & C1 & _ & C3). assert (c' = c) by congruence. subst c'.
  destruct (lines_block ms _ HL) as (b & ls & Hb & Hl). destruct (C3 b ls Hb) as (rr & R1 & R2). destruct (rmapM_In _ _ _ _ R1 Hl) as (y & Y1 & Y2).
  unfold fill_line in Y1. rewrite V in Y1. cbn [rmap] in Y1. injection Y1 as <-. exists b, (if mw_block ms scheme b then py_insert 1474 mw_line rr else rr), ix. split; [exact R2|].
  destruct (mw_block ms scheme b); [apply py_insert_In; now right|exact Y2].
Qed.
Lemma on_card_key wc ms r scheme c k n cl J p : is_set ms -> param_card E wc ms (rc r) scheme = Ok c -> In (k, (n, cl, J)) info_tab ->
  In k (keys_with p (lines_of ms)) -> exists e J' com, p e = true /\ In J' (plain_orbit cl J) /\
    names_parameter n (if is_ang e then "Ph" else abs_part cl) J' com /\ on_card c com (key_value e (wc_getitem wc k / symm_factor (Some cl) J) r).
Proof.
  intros S PC G Hp. apply keys_lines in Hp as (ix & e & com & L & P & EK). exists e.
  pose proof (line_value_key all real E SU wc r e k n cl J EK G) as V.
  destruct (line_meaning ms ix e com S L) as [[-> _]|(k' & n' & c' & J0 & G' & EK' & (_ & J' & O & NP) & _)]; [discriminate|].
  assert (k' = k) by congruence. subst k'.
  assert (EQ : n' = n /\ J0 = J /\ c' = cl).
  { pose proof G as G1. pose proof G' as G2. apply info_In in G1 as (s & H & E1 & _ & HI & _). apply info_In in G2 as (s' & H' & E2 & _ & HI' & _).
    apply sim_op_warsaw in H, H'. destruct (op_label_inj E warsaw_ops OK n cl s J n' c' s' J0 H H' HI HI') as [<- <-]; [congruence|].
    destruct (op_unique E warsaw_ops OK n c' s' cl s H' H) as [-> _]. auto. }
  destruct EQ as (-> & -> & ->). exists J', com. split; [exact P|]. split; [exact O|]. split; [exact NP|]. exact (on_card_line wc ms r scheme c ix e com _ S PC L V).
Qed.
Lemma card_line_back wc ms r scheme c b lines ix v com : is_set ms -> param_card E wc ms (rc r) scheme = Ok c ->
  dget c b = Some lines -> In (ix, v, com) lines ->
  (ms = "A" /\ scheme = "mw" /\ b = "FRBlock" /\ (ix, v, com) = mw_line) \/
  exists e, In (ix, e, com) (lines_of ms) /\ line_value E wc (rc r) e = Ok v.
Proof.
  intros S PC D HL. destruct (param_card_spec all real E SU wc ms (rc r) scheme S) as (c' & C1 & C2 & C3). assert (c' = c) by congruence. subst c'.
  assert (HB : In b (map fst (card_of ms))). { destruct (card_shape ms S) as (_ & -> & _). rewrite <- C2. now apply dget_Some_key in D. }
  apply in_map_iff in HB as ([b' ls] & X & Hb). cbn [fst] in X. subst b'. destruct (C3 b ls Hb) as (rr & R1 & R2). rewrite R2 in D. injection D as <-.
  assert (Y : In (ix, v, com) rr -> exists e, In (ix, e, com) (lines_of ms) /\ line_value E wc (rc r) e = Ok v).
  { intros H. destruct (rmapM_back _ _ _ _ R1 H) as ([[ix' e] com'] & L & F). unfold fill_line in F. destruct (line_value E wc (rc r) e) as [w|] eqn:V; [|discriminate].
    cbn [rmap] in F. injection F as -> -> ->. exists e. split; [now apply (lines_In ms b ls)|exact V]. }
  destruct (mw_block ms scheme b) eqn:M; [|right; now apply Y]. apply py_insert_In in HL as [H|H]; [left|right; now apply Y].
  unfold mw_block in M. apply andb_prop in M as [M M3]. apply andb_prop in M as [M1 M2]. apply String.eqb_eq in M1, M2, M3. auto.
Qed.
Lemma fr_check : sorted (map (fun l : cardline => fst (fst l)) A_FRBlock ++ [[1475%Z]]) = true.
Proof. vm_cast_no_check (eq_refl true). Qed.
Lemma card_positions wc ms lam scheme c b lines : is_set ms -> param_card E wc ms lam scheme = Ok c -> dget c b = Some lines ->
  NoDup (map (fun l : simline => fst (fst l)) lines).
Proof.
  intros S PC D. destruct (param_card_spec all real E SU wc ms lam scheme S) as (c' & C1 & C2 & C3). assert (c' = c) by congruence. subst c'.
  destruct (card_shape ms S) as (ND & KI & ST & _).
  assert (HB : In b (map fst (card_of ms))). { rewrite KI, <- C2. now apply dget_Some_key in D. }
  apply in_map_iff in HB as ([b' ls] & X & Hb). cbn [fst] in X. subst b'. destruct (C3 b ls Hb) as (rr & R1 & R2). rewrite R2 in D. injection D as <-.
  assert (P : map (fun l : simline => fst (fst l)) rr = map (fun l : cardline => fst (fst l)) ls).
  { apply rmapM_Forall2 in R1. clear - R1. induction R1 as [|[[ix e] com] y l r' F H IH]; [reflexivity|]. cbn [map]. f_equal; [|exact IH].
    unfold fill_line in F. destruct (line_value E wc lam e); [|discriminate]. cbn [rmap] in F. injection F as <-. reflexivity. }
  destruct (mw_block ms scheme b) eqn:M; [|rewrite P; apply sorted_nodup, (ST b ls Hb)].
  unfold mw_block in M. apply andb_prop in M as [M M3]. apply andb_prop in M as [M1 _]. apply String.eqb_eq in M1, M3. subst ms b.
  assert (ls = A_FRBlock).
  { change (card_of "A") with card_A in *. assert (F : In ("FRBlock", A_FRBlock) card_A) by (left; reflexivity).
    apply (In_dget card_A "FRBlock" ls ND) in Hb. apply (In_dget card_A "FRBlock" A_FRBlock ND) in F. congruence. }
  subst ls. apply (Permutation.Permutation_NoDup (l := map (fun l : simline => fst (fst l)) rr ++ [[1475%Z]])).
  - unfold py_insert. rewrite map_app. cbn [map]. change (fst (fst mw_line)) with [1475%Z]. rewrite <- (firstn_skipn 1474 rr) at 1. rewrite map_app, <- app_assoc.
    apply Permutation.Permutation_app_head. apply Permutation.Permutation_sym, Permutation.Permutation_cons_append.
  - rewrite P. apply sorted_nodup, fr_check.
Qed.
End P.
