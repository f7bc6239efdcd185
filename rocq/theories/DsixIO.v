(* wcxf2dsixtools followed by dsixtools2wcxf *)
From Coq Require Import List Bool ZArith QArith Arith Lia String Ascii Field.
From Verif Require Import PyBase Num SymModel SymClass SymSpec SymCheck SymProofs SymFacts EftModel EftSpec EftProofs EftLabels EftRound EftRound2 EftInit
  BasisProps UpProofs UpProps WcxfModel WcxfProofs DsixData DsixModel DsixProofs DsixRound DsixSym DsixLoad.
Import ListNotations.
Local Open Scope string_scope.
Local Open Scope list_scope.
Opaque SymCheck.S SymCheck.SN U symmetrize symmetrize_nonred unscale exec.

(* the blocks that sm_lha2dict reads *)
Definition sm_blocks : list string := ["GAUGE"; "SCALAR"; "GU"; "IMGU"; "GD"; "IMGD"; "GE"; "IMGE"; "THETA"].
Lemma other_not_wc b : In b ("SCALES" :: sm_blocks) -> ~ wc_block b.
Proof.
  intros H [X|(r & n & R & O & X)].
  - cbn in H, X. repeat (destruct H as [<-|H]; [repeat (destruct X as [X|X]; [discriminate|]); exact X|]). exact H.
  - pose proof names_checked as T. unfold names_check in T. rewrite forallb_forall in T. destruct O as (c & s & IN & RK).
    specialize (T _ (is_op_fermionic r n c s IN RK R)). cbn [fst] in T. apply andb_prop in T as [T T2]. apply andb_prop in T as [_ T1].
    apply negb_true_iff in T1, T2. apply kmem_nIn in T1, T2.
    assert (Y : In b other_blocks) by (clear -H; unfold other_blocks; cbn in H |- *; tauto). destruct X as [->| ->]; contradiction.
Qed.

Section P.
Context {K : StarField}.
Local Open Scope K_scope.
Add Field KFdsio : (k_field K).
Notation cdict := (dict string (cval K)).
Notation sym_ := (symmetrize (@k_alg K)).
Lemma sm_lha2dict_ext (d d' : @blocks K) : (forall b, In b sm_blocks -> dget d' b = dget d b) -> sm_lha2dict d' = sm_lha2dict d.
Proof.
  intros H. unfold sm_lha2dict, read_number, sm_matrix, sm_theta, block. rewrite !H by (cbn; tauto). reflexivity.
Qed.
Lemma merge2 (a b : @blocks K) : merge [Some a; Some b] = Ok (dupdate (dupdate [] a) b).
Proof. reflexivity. Qed.
Lemma get_merge2 (a b : @blocks K) k : wfdict a -> wfdict b -> dget (dupdate (dupdate [] a) b) k = match dget b k with Some v => Some v | None => dget a k end.
Proof. intros A B. rewrite !dget_dupdate by assumption. destruct (dget b k); [reflexivity|]. destruct (dget a k); reflexivity. Qed.

Variables (all : list string) (real : string -> bool) (E : eft).
Hypothesis SU : smeftutil all real E.
Local Lemma OK : eft_ok E warsaw_ops. Proof. exact (proj1 (util_facts all real E SU)). Qed.

(* dump *)
Lemma dump_spec (io : @smeftio K) (C : cdict) so h sr : scale_high io = Some h -> full C ->
  exists L d, io_dump E io C so sr = Ok L /\ wc_dict2lha E C sr true = Ok d /\ wfdict L /\
    (forall b, wc_block b -> dget L b = dget d b) /\
    (forall b, ~ wc_block b -> dget L b = if String.eqb b "SCALES" then
       Some match so with Some s => [([1]%Z, h); ([2]%Z, s)] | None => [([1]%Z, h)] end else None).
Proof.
  intros EH F. destruct (util_facts all real E SU) as (_ & _ & K2 & K4 & N2 & N4 & _).
  destruct (file_spec E K2 K4 C sr true) as (d & ED & WD & BD).
  { intros n c s H. destruct (F n c s H) as (v & A & B & _). eauto. }
  unfold io_dump. rewrite EH, ED. cbn [bind]. eexists. exists d. split; [reflexivity|]. split; [reflexivity|].
  assert (OUT : forall b, ~ wc_block b -> dget d b = None).
  { intros b H. rewrite BD, (lines_outside E K2 K4 C sr true b H). reflexivity. }
  split; [apply wf_dupdate; repeat constructor; intros []|]. split.
  - intros b H. rewrite dget_dupdate by exact WD. destruct (dget d b); [reflexivity|]. cbn [dget]. destruct (keqb_spec b "SCALES") as [->|]; [|reflexivity].
    exfalso. exact (other_not_wc "SCALES" (or_introl eq_refl) H).
  - intros b H. rewrite dget_dupdate by exact WD. rewrite (OUT b H). cbn [dget]. destruct (keqb_spec b "SCALES") as [->|N]; [reflexivity|].
    destruct (String.eqb_spec b "SCALES"); [contradiction|reflexivity].
Qed.
Lemma kre_scale (z h : K) : kreal h -> kre (z * h) = kre z * h.
Proof. intros H. unfold kreal in H. unfold kre. rewrite kconj_mul, H. field. apply k2_neq_0. Qed.
(* a file of coefficients and a file of parameters, in either order *)
Lemma io_round (wc : WC K) high (S : @blocks K) sm hash : wc_eft wc = "SMEFT" -> wc_basis wc = "Warsaw" ->
  wfdict (wc_dict wc) -> (forall k, In k (dkeys (wc_dict wc)) -> In k all) ->
  let h := match high with Some h => h | None => wc_scale wc end in
  kreal h -> h <> 0 ->
  wfdict S -> (forall b, dget S b <> None -> ~ wc_block b /\ b <> "SCALES") -> sm_lha2dict S = Ok sm ->
  exists io C L, set_initial_wcxf E (map fst smeft_d4) new_io wc high = Ok io /\ C_in io = Some C /\ scale_in io = Some (wc_scale wc) /\ scale_high io = Some h /\
    io_dump E io C None true = Ok L /\
    load_initial E [Some L] = Err KeyError /\
    forall streams, streams = [Some L; Some S] \/ streams = [Some S; Some L] ->
    exists wc', dsixtools2wcxf E streams hash = Ok wc' /\ wc_eft wc' = "SMEFT" /\ wc_basis wc' = "Warsaw" /\ wc_scale wc' = h /\
      forall k, dget (wc_dict wc') k = clean real (wc_dict wc) k.
Proof.
  intros EE EB WF HD h RH NH WS DS ES.
  destruct (set_initial_spec all real E SU new_io wc high EE EB WF HD) as (C & EI & WC & KC & VC).
  cbn [new_io C_in] in EI. assert (EH : high_of new_io wc high = h) by (unfold high_of, h; destruct high; reflexivity). rewrite EH in *.
  pose proof (init_full all real E SU _ _ _ VC) as FC.
  destruct (dump_spec (mkIO (Some C) (Some (wc_scale wc)) (Some h)) C None h true eq_refl FC) as (L & d & EL & ED & WL & B1 & B2).
  exists (mkIO (Some C) (Some (wc_scale wc)) (Some h)), C, L. split; [exact EI|]. split; [reflexivity|]. split; [reflexivity|]. split; [reflexivity|].
  split; [exact EL|].
  assert (LSM : forall b, In b sm_blocks -> dget L b = None).
  { intros b Hb. rewrite B2 by (apply other_not_wc; now right). cbn in Hb. repeat (destruct Hb as [<-|Hb]; [reflexivity|]). destruct Hb. }
  assert (LSC : dget L "SCALES" = Some [([1]%Z, h)]) by (rewrite B2 by (apply other_not_wc; now left); reflexivity).
  split.
  - destruct (util_facts all real E SU) as (_ & _ & K2 & K4 & N2 & N4 & _).
    assert (M1 : merge [Some L] = Ok (dupdate [] L)) by reflexivity.
    assert (G1 : forall b, dget (dupdate [] L) b = dget L b) by (intros b; rewrite dget_dupdate by exact WL; destruct (dget L b); reflexivity).
    destruct (read_back E OK K2 K4 N2 N4 C true true) with (d := d) (d' := dupdate [] L) as (C' & EC & _).
    { intros n c s H. destruct (FC n c s H) as (v & A & B & _). eauto. }
    { exact ED. } { intros b Hb. rewrite G1. now apply B1. }
    unfold load_initial. rewrite M1. cbn [bind]. rewrite EC. cbn [bind]. unfold sm_lha2dict at 1, read_number at 1, block at 1.
    rewrite G1, LSM by (cbn; tauto). reflexivity.
  - intros streams HS.
    assert (MG : exists d', merge streams = Ok d' /\ (forall b, wc_block b -> dget d' b = dget d b) /\ sm_lha2dict d' = Ok sm /\ dget d' "SCALES" = Some [([1]%Z, h)]).
    { destruct HS as [->| ->]; rewrite merge2; eexists; (split; [reflexivity|]).
      - split; [|split].
        + intros b Hb. rewrite get_merge2 by assumption. destruct (dget S b) eqn:Q; [|now apply B1]. exfalso. destruct (DS b) as [X _]; [congruence|contradiction].
        + rewrite <- ES. apply sm_lha2dict_ext. intros b Hb. rewrite get_merge2 by assumption. destruct (dget S b) eqn:Q; [reflexivity|]. now apply LSM.
        + rewrite get_merge2 by assumption. destruct (dget S "SCALES") eqn:Q; [|exact LSC]. exfalso. destruct (DS "SCALES") as [_ X]; congruence.
      - split; [|split].
        + intros b Hb. rewrite get_merge2 by assumption. rewrite (B1 b Hb). destruct (dget d b) eqn:Q; [reflexivity|].
          destruct (dget S b) eqn:Q'; [|reflexivity]. exfalso. destruct (DS b) as [X _]; [congruence|contradiction].
        + rewrite <- ES. apply sm_lha2dict_ext. intros b Hb. rewrite get_merge2 by assumption. now rewrite (LSM b Hb).
        + rewrite get_merge2 by assumption. now rewrite LSC. }
    destruct MG as (d' & EM & M1 & M2 & M3).
    destruct (recover all real E SU C true true d d' sm FC ED M1 M2) as (C' & C'' & EC & EY & W2 & SO).
    assert (LS : lha2scale d' = Ok h) by (unfold lha2scale, read_number, block; rewrite M3; reflexivity).
    destruct (get_spec all real E SU (mkIO (Some C'') (Some h) (Some h)) C'' h h hash eq_refl W2) as (wc' & EG & X1 & X2 & X3 & X4 & X5).
    exists wc'. split.
    { unfold dsixtools2wcxf, load_initial. rewrite EM. cbn [bind]. rewrite EC. cbn [bind]. rewrite M2. cbn [bind]. rewrite LS. cbn [bind]. rewrite EY. exact EG. }
    split; [exact X1|]. split; [exact X2|]. split; [exact X3|]. intros k.
    destruct (in_dec string_dec k all) as [HK|NK].
    + destruct (all_cases warsaw_ops all real (su_describes _ _ _ SU) k HK) as (n & c & s & I & H & HI & -> & R & _).
      apply nonred_in_spec in HI as (II & HI & HN).
      assert (IN : In n (map fst warsaw_ops)) by (apply in_map_iff; exists (n, (c, s)); auto).
      destruct (SO n IN) as (v & w & Hv & Hw & CE). rewrite (X5 n c s I w H HI HN Hw).
      destruct (VC n c s H) as (v' & Hv' & IV). assert (v' = v) by congruence. subst v'.
      assert (VAL : val_at w I = (if real_entry c I then kre (dgetd (wc_dict wc) (op_label n c I) 0) else dgetd (wc_dict wc) (op_label n c I) 0) * fac h n).
      { assert (RF : kreal (fac h n)) by (unfold fac; destruct (kmem n keys_dim5); [exact RH|unfold kreal in *; now rewrite kconj_mul, RH]).
        destruct (cl0_dec c) as [->|NC].
        - cbn [init_val] in IV. subst v. destruct w as [z|]; [|contradiction]. cbn in CE. subst z. cbn [val_at op_label].
          assert (Z : I = []) by (destruct II as [<-|[]]; reflexivity). subst I. rewrite kre_scale by exact RF. reflexivity.
        - assert (X : exists b, v = CArr s b /\ forall I, in_shape s I = true -> b I = sym_ c (fun J => entries (wc_dict wc) n s J * fac h n) I) by (destruct c; try exact IV; congruence).
          destruct X as (b & -> & B). destruct w as [|s' b']; [contradiction|]. destruct CE as [-> CE]. cbn [val_at]. rewrite (CE I HI), (B I HI), (S15 c _ I II HN).
          unfold entries. rewrite HI. replace (op_label n c I) with (label n I) by (destruct c; try reflexivity; congruence).
          destruct (real_entry c I); [now apply kre_scale|reflexivity]. }
      assert (NF : fac h n <> 0).
      { unfold fac. destruct (kmem n keys_dim5); [exact NH|]. intros Z. apply NH. destruct (kmul_integral _ _ Z); assumption. }
      unfold clean. rewrite R, VAL. unfold EftRound2.nonzero, dgetd.
      set (g := if real_entry c I then kre else fun z : K => z).
      assert (GE : forall z, (if real_entry c I then kre z else z) = g z) by (intros z; unfold g; destruct (real_entry c I); reflexivity).
      destruct (dget (wc_dict wc) (op_label n c I)) as [z|]; cbv zeta; rewrite !GE.
      * destruct (kdec_spec K (g z * fac h n) 0) as [Z|Z], (kdec_spec K (g z) 0) as [Y|Y].
        -- reflexivity.
        -- exfalso. destruct (kmul_integral _ _ Z); contradiction.
        -- exfalso. apply Z. rewrite Y. ring.
        -- f_equal. field. exact NF.
      * assert (G0 : g 0 = 0) by (unfold g; destruct (real_entry c I); [apply kre_of_real, kreal_0|reflexivity]).
        rewrite G0. destruct (kdec_spec K (0 * fac h n) 0) as [_|N]; [reflexivity|]. exfalso. apply N. ring.
    + destruct (dget (wc_dict wc') k) eqn:Q; [exfalso; apply NK, X4; congruence|]. unfold clean.
      destruct (dget (wc_dict wc) k) eqn:Q2; [|reflexivity]. exfalso. apply NK, HD. now apply dget_Some_key in Q2.
Qed.
End P.
