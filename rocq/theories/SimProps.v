(* C41: parameter cards for SMEFTsim and the coefficients they were made from.
   Coefficients are complex numbers over the reals.  E is smeftutil for a basis file listing
   the non-redundant coefficients of the Warsaw basis, see DsixSym.v; `supported` are the
   coefficients of all operators conserving baryon and lepton number, `sign_lost` lists the
   22 (set A) and 21 (set B) of them of which the card contains only the absolute value. *)
From Coq Require Import List Bool ZArith Reals Lia Lra String Field.
From Verif Require Import PyBase Num RealC SymModel SymClass SymSpec SymFacts EftModel EftSpec BasisProps TrFast WcxfModel WcxfProofs DsixSym
  SimData SimModel SimPolar SimSpec SimProofs SimRead.
Import ListNotations.
Local Open Scope string_scope.
Local Open Scope list_scope.
Add Field KFsimp : (k_field CR).

(* The converter does not fail, whatever the coefficients, and the card has the announced blocks *)
Theorem C41_card_made all real E wc ms lam scheme : smeftutil all real E -> is_set ms ->
  exists c, param_card E wc ms lam scheme = Ok c /\ dkeys c = (if String.eqb ms "A" then init_A else init_B).
Proof. intros SU S. destruct (param_card_spec all real E SU wc ms lam scheme S) as (c & A & B & _). exists c. split; [exact A|exact B]. Qed.
Theorem C41_other_sets_refused E wc ms lam scheme : ~ is_set ms -> param_card E wc ms lam scheme = Err UnboundLocalError.
Proof.
  intros N. unfold param_card, init_card. destruct (String.eqb_spec ms "A"); [exfalso; apply N; now left|].
  destruct (String.eqb_spec ms "B"); [exfalso; apply N; now right|]. reflexivity.
Qed.
(* No position of a block is given twice *)
Theorem C41_positions_distinct all real E wc ms lam scheme c b lines : smeftutil all real E -> is_set ms ->
  param_card E wc ms lam scheme = Ok c -> dget c b = Some lines -> NoDup (map (fun l : simline => fst (fst l)) lines).
Proof. intros SU S. exact (card_positions all real E SU wc ms lam scheme c b lines S). Qed.

(* Two cards are equal if and only if the scale Lambda and all supported coefficients are
   equal, except for the phases of the coefficients in sign_lost *)
Theorem C41_card_determines all real E wc wc' ms r r' scheme : smeftutil all real E -> is_set ms -> r <> 0%R ->
  param_card E wc ms (rc r) scheme = param_card E wc' ms (rc r') scheme <->
  r = r' /\
  (forall k, In k supported -> ~ In k (sign_lost ms) -> wc_getitem wc k = wc_getitem wc' k) /\
  (forall k, In k (sign_lost ms) -> c_abs (wc_getitem wc k) = c_abs (wc_getitem wc' k)).
Proof.
  intros SU S NZ. rewrite (card_iff all real E SU wc wc' ms r r' scheme S NZ). split; intros [A B]; (split; [exact A|]).
  - split; intros k Hk.
    + intros N. specialize (B k Hk). apply kmem_nIn in N. now rewrite N in B.
    + assert (SK : In k supported).
      { assert (T : forallb (fun ms => forallb (smem (tkeys supported)) (sign_lost ms)) ["A"; "B"] = true) by (vm_cast_no_check (eq_refl true)).
        pose proof (proj1 (forallb_forall _ _) (proj1 (forallb_forall _ _) T ms (set_In ms S)) k Hk) as Q. rewrite smem_keys in Q. now apply kmem_In. }
      specialize (B k SK). apply kmem_In in Hk. now rewrite Hk in B.
  - destruct B as [B1 B2]. intros k Hk. destruct (kmem k (sign_lost ms)) eqn:L; [apply B2; now apply kmem_In|apply B1; [exact Hk|now apply kmem_nIn]].
Qed.

(* The phases of the coefficients in sign_lost are lost: for each of them there are two
   coefficient sets differing in it, with the same card for every Lambda and scheme *)
Definition one_coeff (k : string) (z : CR) : WC CR := mkWC "SMEFT" "Warsaw" (rc 1000) (dict2values [(k, z)]) [] 0.
Lemma one_coeff_get k z j : wc_getitem (one_coeff k z) j = if String.eqb j k then z else 0%K.
Proof. unfold wc_getitem, one_coeff. rewrite wc_dict_mk. cbn [dget]. change (keqb j k) with (String.eqb j k). destruct (String.eqb j k); reflexivity. Qed.
Theorem C41_sign_refuted all real E ms k z r scheme : smeftutil all real E -> is_set ms -> In k (sign_lost ms) -> z <> (0%K : CR) -> r <> 0%R ->
  let wc := one_coeff k z in let wc' := one_coeff k (- z)%K in
  wc_getitem wc k <> wc_getitem wc' k /\ param_card E wc ms (rc r) scheme = param_card E wc' ms (rc r) scheme.
Proof.
  intros SU S Hk NZ NR. cbv zeta. split.
  - rewrite !one_coeff_get, String.eqb_refl. intros X. apply NZ. apply khalf. rewrite X at 1. ring.
  - apply (C41_card_determines all real E _ _ ms r r scheme SU S NR). split; [reflexivity|]. split.
    + intros j _ N. rewrite !one_coeff_get. destruct (String.eqb_spec j k) as [->|]; [contradiction|reflexivity].
    + intros j _. rewrite !one_coeff_get. destruct (String.eqb j k); [symmetry; apply c_abs_opp|reflexivity].
Qed.

(* What the card says: for every supported coefficient the card has a line with the absolute
   value of the entry of the symmetrized array (wcxf2arrays_symmetrized), times Lambda**2, and
   for a complex coefficient a line with its argument; the line names the parameter of the
   operator and an entry equal to this one by the symmetry.  For real coefficients the value
   has its sign, except for those in sign_lost. *)
Theorem C41_card_contents all real E wc ms r scheme : smeftutil all real E -> is_set ms ->
  wfdict (wc_dict wc) -> (forall k, In k (dkeys (wc_dict wc)) -> In k all) ->
  exists card C, param_card E wc ms (rc r) scheme = Ok card /\ wcxf2arrays_symmetrized E (wc_dict wc) = Ok C /\
  forall n c s J, In (n, (c, s)) sim_ops -> In J (indices c) -> in_shape s J = true -> nonredundant c J = true ->
    (real_entry c J = true -> kreal (wc_getitem wc (op_label n c J))) ->
    exists v, dget C n = Some v /\
    let z := entry v J in
    let L2 := (rc r * rc r)%K in
    let says part x := exists J' com, In J' (plain_orbit c J) /\ names_parameter n part J' com /\ on_card card com x in
    wc_getitem wc (op_label n c J) = (kZ (Z.of_nat (multiplicity c J)) * z)%K /\
    (In (op_label n c J) (sign_lost ms) -> says (abs_part c) (c_abs z * L2)%K) /\
    (~ In (op_label n c J) (sign_lost ms) ->
       if real_entry c J then says (abs_part c) (z * L2)%K else says (abs_part c) (c_abs z * L2)%K /\ says "Ph" (c_angle z)).
Proof.
  intros SU S W A. destruct (param_card_spec all real E SU wc ms (rc r) scheme S) as (card & PC & _). destruct (entry_value all real E SU wc W A) as (C & WC & V).
  exists card, C. split; [exact PC|]. split; [exact WC|]. intros n c s J H II HI HN RE.
  assert (G : In (op_label n c J, (n, c, J)) info_tab) by (apply info_In; exists s; auto).
  destruct (V _ n c J G RE) as (v & D & EV). exists v. split; [exact D|]. cbv zeta.
  destruct (scaled_value all real E SU wc _ n c J G) as [_ FN]. rewrite <- (mult_value _ n c J G), <- EV. split; [field; exact FN|].
  destruct (cover ms _ n c J S G) as [C1 C2].
  assert (X : forall p, In (op_label n c J) (keys_with p (lines_of ms)) -> exists e J' com, p e = true /\ In J' (plain_orbit c J) /\
    names_parameter n (if is_ang e then "Ph" else abs_part c) J' com /\ on_card card com (key_value e (wc_getitem wc (op_label n c J) / symm_factor (Some c) J)%K r)).
  { intros p Hp. exact (on_card_key all real E SU wc ms r scheme card _ n c J p S PC G Hp). }
  assert (XA : In (op_label n c J) (keys_with is_abs (lines_of ms)) -> exists J' com, In J' (plain_orbit c J) /\ names_parameter n (abs_part c) J' com /\
    on_card card com (c_abs (wc_getitem wc (op_label n c J) / symm_factor (Some c) J) * (rc r * rc r))%K).
  { intros Hp. destruct (X _ Hp) as (e & J' & com & P & O & NP & OC). exists J', com. destruct e; try discriminate; auto. }
  split.
  - intros L. destruct (C1 L) as (Q & _). now apply XA.
  - intros L. specialize (C2 L). destruct (real_entry c J).
    + destruct (X _ C2) as (e & J' & com & P & O & NP & OC). exists J', com. destruct e; try discriminate; auto.
    + destruct C2 as [Q1 Q2]. split; [now apply XA|]. destruct (X _ Q2) as (e & J' & com & P & O & NP & OC). exists J', com. destruct e; try discriminate; auto.
Qed.
(* ... and nothing else: every line is Lambda, the mass of the W boson or one of these *)
Theorem C41_card_complete all real E wc ms r scheme card b lines ix x com : smeftutil all real E -> is_set ms ->
  param_card E wc ms (rc r) scheme = Ok card -> dget card b = Some lines -> In (ix, x, com) lines ->
  (x = rc r /\ In com ["# LambdaSMEFT"; "# Lambda"]) \/
  (ms = "A" /\ scheme = "mw" /\ x = rc (80387 / 1000) /\ com = "# MW0") \/
  exists n c s J J', In (n, (c, s)) sim_ops /\ In J (indices c) /\ nonredundant c J = true /\ In J' (plain_orbit c J) /\
    let z := (wc_getitem wc (op_label n c J) / kZ (Z.of_nat (multiplicity c J)))%K in
    (names_parameter n (abs_part c) J' com /\ (x = z * (rc r * rc r) \/ x = c_abs z * (rc r * rc r))%K) \/
    (names_parameter n "Ph" J' com /\ real_entry c J = false /\ x = c_angle z).
Proof.
  intros SU S PC D HL. destruct (card_line_back all real E SU wc ms r scheme card b lines ix x com S PC D HL) as [(A1 & A2 & _ & A3)|(e & L & V)].
  - right. left. unfold mw_line, m_w in A3. injection A3 as _ -> ->. auto.
  - destruct (line_meaning ms ix e com S L) as [[-> Q]|(k & n & c & J & G & EK & (_ & J' & O & NP) & RA)].
    + left. cbn [line_value] in V. injection V as <-. auto.
    + right. right. pose proof G as G0. apply info_In in G as (s & H & -> & II & HI & HN). exists n, c, s, J, J'.
      split; [exact H|]. split; [exact II|]. split; [exact HN|]. split; [exact O|]. cbv zeta. rewrite (line_value_key all real E SU wc r e _ n c J EK G0) in V.
      rewrite <- (mult_value _ n c J G0). injection V as <-. unfold key_value. destruct (is_ang e) eqn:AN; [right; auto|left]. split; [exact NP|].
      destruct (is_abs e); auto.
Qed.

(* a coefficient with a phase and one with a sign *)
Lemma ex41_util : exists E, smeftutil (all_of warsaw_ops) (real_of warsaw_ops) E.
Proof.
  destruct ex16_smeft as (D & D4 & A & _). destruct (C15_basis_detected warsaw_ops _ _ _ _ D D4 A) as (E & EI & _). exists E. split; assumption.
Qed.
Example C41_case_supported : In "lq1_1123" supported /\ ~ In "lq1_1123" (sign_lost "A") /\ In "phil1_22" supported /\ In "phil1_22" (sign_lost "B") /\
  List.length supported = 1356%nat.
Proof.
  assert (T : forallb (smem (tkeys supported)) ["lq1_1123"; "phil1_22"] && negb (kmem "lq1_1123" (sign_lost "A")) && kmem "phil1_22" (sign_lost "B") && Nat.eqb (List.length supported) 1356 = true)
    by (vm_cast_no_check (eq_refl true)).
  apply andb_prop in T as [T T4]. apply andb_prop in T as [T T3]. apply andb_prop in T as [T1 T2]. rewrite forallb_forall in T1.
  split; [apply kmem_In; rewrite <- smem_keys; apply T1; now left|]. split; [apply kmem_nIn; now apply negb_true_iff|].
  split; [apply kmem_In; rewrite <- smem_keys; apply T1; right; now left|]. split; [now apply kmem_In|now apply Nat.eqb_eq].
Qed.
Example C41_case : exists E card, smeftutil (all_of warsaw_ops) (real_of warsaw_ops) E /\
  param_card E (one_coeff "lq1_1123" (3, 4)%R) "A" (rc 2) "alpha" = Ok card /\
  (* the card differs from the one without the phase *)
  param_card E (one_coeff "lq1_1123" (5, 0)%R) "A" (rc 2) "alpha" <> Ok card.
Proof.
  destruct ex41_util as (E & SU). destruct (C41_card_made _ _ E (one_coeff "lq1_1123" (3, 4)%R) "A" (rc 2) "alpha" SU (or_introl eq_refl)) as (card & PC & _).
  exists E, card. split; [exact SU|]. split; [exact PC|]. rewrite <- PC. intros X.
  apply (C41_card_determines _ _ E _ _ "A" 2 2 "alpha" SU (or_introl eq_refl)) in X; [|lra]. destruct X as (_ & X & _).
  specialize (X "lq1_1123" (proj1 C41_case_supported) (proj1 (proj2 C41_case_supported))). rewrite !one_coeff_get in X. cbn in X. injection X as X1 X2. lra.
Qed.
Print Assumptions C41_card_made.
Print Assumptions C41_other_sets_refused.
Print Assumptions C41_positions_distinct.
Print Assumptions C41_card_determines.
Print Assumptions C41_sign_refuted.
Print Assumptions C41_card_contents.
Print Assumptions C41_card_complete.
