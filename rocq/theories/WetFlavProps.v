(* C60: running with three or four flavours uses the coefficients that exist in the lower theory, and the part of the
   anomalous dimension matrices that belongs to them; dipole coefficients are normalised with the mass of the heavier
   fermion. *)
From Coq Require Import List Bool ZArith Reals Arith Lia Lra String Ascii.
From Verif Require Import PyBase Num SymModel EftModel NpModel NpProofs RealC WcxfModel WcxfProofs AdmData WetModel WetSpec WetMat WetPow WetProofs WetSector WetEvol WetUnmix WetDemo WetProps.
Import ListNotations.
Local Open Scope string_scope.
Local Open Scope list_scope.

(* the theory with f flavours, and the sectors with coefficients for flavours that it may lack *)
Definition lower_theory (f : Z) (eft : string) : Prop := (f = 3%Z /\ eft = "WET-3") \/ (f = 4%Z /\ eft = "WET-4").
Definition mixed_sectors : list string := ["cu"; "db"; "sb"; "sd"; "mue"; "mutau"; "taue"; "dF=0"].
(* The coefficients that are run are those of the sector that the JMS basis of the lower theory contains. *)
Theorem C60_coefficients_kept : forall (bases : @basis_reg CR) s f eft b secs perm all,
  lower_theory f eft -> In s mixed_sectors -> reg_get bases (eft, "JMS") = Ok b -> b_sectors b = Some secs -> dget secs s = Some perm -> dget coeffs s = Some all ->
  exists keys, sector_keys bases s f = Ok keys /\ (forall k, In k keys <-> In k all /\ In k (dkeys perm)) /\ NoDup keys.
Proof.
  intros bases s f eft b secs perm all LT IS EB ES EP EA.
  assert (X : sector_keys bases s f = Ok (map (fun i => nth i all "") (filter (fun i => dmem perm (nth i all "")) (seq 0 (List.length all))))).
  { unfold sector_keys. rewrite EA. unfold get_permissible_wcs.
    destruct LT as [[-> ->]|[-> ->]]; cbn [mixed_sectors In] in IS; repeat (destruct IS as [<-|IS]; [cbn -[dget coeffs]; rewrite EB; cbn [bind]; rewrite ES, EP, EA; reflexivity|]); destruct IS. }
  destruct (sector_keys_spec _ _ _ _ X) as [ND _].
  eexists. split; [exact X|]. split; [|exact ND]. intros k. rewrite in_map_iff. split.
  - intros (i & <- & I). apply filter_In in I as [I D]. apply in_seq in I. split; [apply nth_In; lia|]. rewrite dmem_dget in D. destruct (dget perm _) eqn:G; [|discriminate D]. now apply dget_Some_key in G.
  - intros [I D]. apply In_nth with (d := "") in I as (i & L & <-). exists i. split; [reflexivity|]. apply filter_In. split; [apply in_seq; lia|].
    unfold dmem. now apply kmem_In.
Qed.
Theorem C60_all_coefficients : forall (bases : @basis_reg CR) s f all,
  dget coeffs s = Some all -> f = 5%Z \/ ~ In s mixed_sectors -> sector_keys bases s f = Ok all.
Proof.
  intros bases s f all EA H. unfold sector_keys. rewrite EA.
  assert (X : forall c, (c = s \/ c = "dF0" /\ s = "dF=0") -> get_permissible_wcs bases c f = Ok None).
  { intros c HC. unfold get_permissible_wcs. destruct H as [->|N]; [now rewrite Z.eqb_refl, orb_true_r|].
    destruct (kmem c special_classes) eqn:K; [|reflexivity]. exfalso. apply N. apply kmem_In in K. destruct HC as [->|[-> ->]]; [|cbn; tauto].
    cbn [special_classes In] in K. repeat (destruct K as [<-|K]; [first [now (cbn; tauto)|discriminate EA]|]). destruct K. }
  destruct (String.eqb_spec s "dF=0") as [->|]; rewrite X by auto; reflexivity.
Qed.
Lemma sector_perm_bound bases s cls f l all : dget coeffs s = Some all -> dget sectors s = Some cls ->
  (forall bases f, get_permissible_wcs bases cls f = (if String.eqb s "dF=0" then get_permissible_wcs bases "dF0" f else get_permissible_wcs bases s f)) ->
  get_permissible_wcs bases cls f = Ok (Some l) -> NoDup l /\ forall i, In i l -> (i < List.length all)%nat.
Proof.
  intros EA ES F2 EP. rewrite F2 in EP.
  assert (F : exists P n, l = filter P (seq 0 n) /\ n = List.length all).
  { destruct (String.eqb_spec s "dF=0") as [->|NE].
    - destruct (perm_form _ _ _ _ EP) as (P & n & -> & Q). exists P, n. split; auto.
    - destruct (perm_form _ _ _ _ EP) as (P & n & -> & Q). exists P, n. split; auto. apply Q.
      destruct (String.eqb_spec s "dF0") as [->|]; [discriminate EA|exact EA]. }
  destruct F as (P & n & -> & ->). split; [apply NoDup_filter, seq_NoDup|]. intros i I. apply filter_In in I as [I _]. apply in_seq in I. lia.
Qed.
(* The matrices are those of the five-flavour sector, without the rows and columns of the other coefficients. *)
Theorem C60_restricted_matrices : forall (bases : @basis_reg CR) pre s cls f p keys all n A,
  In pre ["adm_s_"; "adm_e_"] -> dget sectors s = Some cls -> cls <> "inv" -> dget coeffs s = Some all -> sector_keys bases s f = Ok keys ->
  adm_reduced bases pre cls f p = Ok (n, A) ->
  n = List.length keys /\ exists m M, dget adm_table (pre ++ cls)%string = Some m /\ amat_eval p f m = Ok (List.length all, M) /\
  forall i j I J k l, nth_error keys i = Some k -> nth_error all I = Some k -> nth_error keys j = Some l -> nth_error all J = Some l -> A i j = M I J.
Proof.
  intros bases pre s cls f p keys all n A PR ES NI EA EK ER. destruct (sector_facts s all EA) as (cls' & ES' & F1 & F2). assert (cls' = cls) by congruence. subst cls'.
  assert (Q : mat_ok (pre ++ cls) (List.length all) = true) by (destruct PR as [<-|[<-|[]]]; [exact (proj1 (F1 NI))|exact (proj2 (F1 NI))]). clear F1.
  pose proof (coeffs_nodup _ _ EA) as ND.
  unfold sector_keys in EK. rewrite EA, <- F2 in EK. unfold adm_reduced in ER. unfold mat_ok in Q. destruct (dget adm_table (pre ++ cls)%string) as [m|] eqn:Em; [|discriminate].
  destruct (amat_eval p f m) as [[n0 M]|] eqn:EM; [|discriminate]. cbn [bind] in ER.
  assert (N0 : n0 = List.length m).
  { unfold amat_eval in EM. destruct (res_map (arow_eval p f) m) as [rows|] eqn:RM; [|discriminate]. cbn [rmap] in EM. injection EM as <- _. now apply res_map_length in RM. }
  assert (LM : List.length m = List.length all) by (apply andb_true_iff in Q as [Q _]; now apply Nat.eqb_eq in Q).
  rewrite LM in N0. subst n0.
  destruct (get_permissible_wcs bases cls f) as [perm|] eqn:EP; [|discriminate]. cbn [rmap bind] in *. injection EK as EK. injection ER as ER.
  assert (U : forall I J k, nth_error all I = Some k -> nth_error all J = Some k -> I = J).
  { intros I J k H1 H2. apply (proj1 (NoDup_nth_error all) ND); [|congruence]. apply nth_error_Some. congruence. }
  destruct perm as [l|]; cbn [reduce] in ER; injection ER as <- <-; subst keys.
  - rewrite map_length. split; [reflexivity|]. exists m, M. split; [reflexivity|]. split; [exact EM|].
    assert (G : forall i k I, nth_error (map (fun i => nth i all "") l) i = Some k -> nth_error all I = Some k -> nth i l 0%nat = I).
    { intros i k I H1 H2. destruct (nth_error l i) as [x|] eqn:E; [|rewrite nth_error_map, E in H1; discriminate H1]. rewrite nth_error_map, E in H1. cbn [option_map] in H1. injection H1 as <-.
      rewrite (nth_error_nth _ _ 0%nat E).
      assert (L : (x < List.length all)%nat).
      { destruct (sector_perm_bound bases s cls f l all EA ES F2 EP) as [_ B]. apply B. eapply nth_error_In. exact E. }
      apply (U x I (nth x all "")); [|exact H2]. now apply nth_error_nth'. }
    intros i j I J k k' H1 H2 H3 H4. cbn [snd]. now rewrite (G _ _ _ H1 H2), (G _ _ _ H3 H4).
  - split; [reflexivity|]. exists m, M. split; [reflexivity|]. split; [exact EM|]. intros i j I J k k' H1 H2 H3 H4. now rewrite (U _ _ _ H1 H2), (U _ _ _ H3 H4).
Qed.

(* g / m and g^2 / (e m), with m the mass of the heavier of the two fermions *)
Definition masses (p : rpar) (t : string) : list R :=
  if String.eqb t "u" then [m_u p; m_c p] else if String.eqb t "d" then [m_d p; m_s p; m_b p] else if String.eqb t "e" then [m_e p; m_mu p; m_tau p] else [].
Theorem C60_dipole_normalisation : forall p t i j m, p_ok p -> In t ["u"; "d"; "e"] -> nth_error (masses p t) (Nat.max i j) = Some m ->
  let g := sqrt (4 * PI * alpha_s p) in let e := sqrt (4 * PI * alpha_e p) in
  (t <> "e" -> scale_C (label (t ++ "G") [i; j]) p = Ok (g / m)%R) /\
  scale_C (label (t ++ "gamma") [i; j]) p = Ok (g ^ 2 / e / m)%R.
Proof.
  intros p t i j m (A1 & A2 & MP) IT HM g e. pose proof PI_RGT_0 as PP.
  assert (P1 : (0 < 4 * PI * alpha_s p)%R) by (apply Rmult_lt_0_compat; lra). assert (P2 : (0 < 4 * PI * alpha_e p)%R) by (apply Rmult_lt_0_compat; lra).
  assert (S1 : fsqrt (4 * PI * alpha_s p) = Ok g) by (unfold fsqrt; destruct (Rlt_dec _ _); [lra|reflexivity]).
  assert (S2 : fsqrt (4 * PI * alpha_e p) = Ok e) by (unfold fsqrt; destruct (Rlt_dec _ _); [lra|reflexivity]).
  assert (E0 : (0 < e)%R) by now apply sqrt_lt_R0.
  assert (D : forall a b, (0 < b)%R -> fdiv a b = Ok (a / b)%R) by (intros a b H; unfold fdiv; destruct (Req_EM_T b 0); [lra|reflexivity]).
  pose proof (MP Mu); pose proof (MP Md); pose proof (MP Ms); pose proof (MP Mc); pose proof (MP Mb); pose proof (MP Me); pose proof (MP Mmu); pose proof (MP Mtau). cbn [mval] in *.
  assert (L : (i < 3 /\ j < 3)%nat).
  { assert (Nat.max i j < 3)%nat; [|lia]. assert (List.length (masses p t) <= 3)%nat. { destruct IT as [<-|[<-|[<-|[]]]]; cbn; lia. }
    assert (nth_error (masses p t) (Nat.max i j) <> None) by congruence. apply nth_error_Some in H8. lia. }
  destruct L as [Li Lj]. unfold scale_C. rewrite S1, S2. cbn [bind].
  destruct IT as [<-|[<-|[<-|[]]]]; (destruct i as [|[|[|]]]; [..|lia]); (destruct j as [|[|[|]]]; [..|lia]); cbn in HM; try discriminate HM; injection HM as <-;
    (split; [intros NE; first [now elim NE|idtac]|]); repeat match goal with |- context [kmem ?a ?b] => let v := eval vm_compute in (kmem a b) in replace (kmem a b) with v by (vm_compute; reflexivity) end; cbv iota;
    match goal with |- context [get_m ?k] => let v := eval vm_compute in (get_m k) in replace (get_m k) with v by (vm_compute; reflexivity) end;
    cbn -[fdiv pow Rdiv]; repeat (rewrite D by assumption; cbn [bind]); reflexivity.
Qed.
(* The runner takes coefficients in the JMS basis only, with five flavours in WET, four in WET-4 and three in
   WET-3; in other effective theories run fails. *)
Theorem C60_number_of_flavours : forall la bases efts running (w : @WC CR) scale qed qcd,
  (wc_basis w <> "JMS" -> wet_init w scale qed qcd = Err AssertionError) /\
  (wc_basis w = "JMS" -> exists r, wet_init w scale qed qcd = Ok r /\ r_eft r = wc_eft w /\ r_scale r = scale /\ r_C r = wc_dict w /\ r_qed r = qed /\ r_qcd r = qcd /\
     (forall f, r_f r = Some f <-> wc_eft w = "WET" /\ f = 5%Z \/ wc_eft w = "WET-4" /\ f = 4%Z \/ wc_eft w = "WET-3" /\ f = 3%Z) /\
     (~ In (wc_eft w) ["WET"; "WET-4"; "WET-3"] -> forall so sl h, wet_run la bases efts running r so sl h = Err AttributeError)).
Proof.
  intros la bases efts running w scale qed qcd. unfold wet_init. split.
  - intros N. destruct (String.eqb_spec (wc_basis w) "JMS"); [contradiction|reflexivity].
  - intros ->. rewrite String.eqb_refl. eexists. split; [reflexivity|]. cbn [r_eft r_scale r_C r_qed r_qcd r_f]. repeat (split; [reflexivity|]). split.
    + intros f. destruct (String.eqb_spec (wc_eft w) "WET") as [->|N1]; [|destruct (String.eqb_spec (wc_eft w) "WET-4") as [->|N2]; [|destruct (String.eqb_spec (wc_eft w) "WET-3") as [->|N3]]];
        (split; [intros H; try discriminate H; injection H as <-; tauto|intros [[Q ->]|[[Q ->]|[Q ->]]]; try discriminate Q; try reflexivity; congruence]).
    + intros N so sl h. unfold wet_run, run_dict. cbn [r_f]. cbn [In] in N.
      destruct (String.eqb_spec (wc_eft w) "WET") as [Q|_]; [exfalso; apply N; auto|]. destruct (String.eqb_spec (wc_eft w) "WET-4") as [Q|_]; [exfalso; apply N; auto|].
      destruct (String.eqb_spec (wc_eft w) "WET-3") as [Q|_]; [exfalso; apply N; auto|]. reflexivity.
Qed.
(* a theory with three flavours that lacks a coefficient of the sector mue *)
Definition low_bases : @basis_reg CR := Some [(("WET-3", "JMS"), mkBasis "WET-3" "JMS" (Some [("mue", [("egamma_12", JNull); ("SedRL_1211", JNull)])]) None [])].
Example C60_case : exists b secs perm all keys, reg_get low_bases ("WET-3", "JMS") = Ok b /\ b_sectors b = Some secs /\ dget secs "mue" = Some perm /\
  dget coeffs "mue" = Some all /\ sector_keys low_bases "mue" 3 = Ok keys /\ In "egamma_12" keys /\ ~ In "SedRL_1222" keys /\ In "SedRL_1222" all /\
  exists A, adm_reduced low_bases "adm_e_" "mue" 3 (demo_p 2) = Ok (2%nat, A).
Proof.
  do 3 eexists. exists (dgetd coeffs "mue" []). eexists. split; [reflexivity|]. split; [reflexivity|]. split; [reflexivity|]. split; [vm_compute; reflexivity|].
  split; [vm_compute; reflexivity|]. split; [cbn; tauto|]. split; [cbn; intuition discriminate|]. split; [apply kmem_In; vm_compute; reflexivity|].
  eapply (adm_reduced_ok low_bases "adm_e_" "mue" 3 (demo_p 2) ["SedRL_1211"; "egamma_12"]); [apply demo_p_ok; lra|vm_compute; reflexivity|vm_compute; reflexivity|discriminate|now right].
Qed.
Print Assumptions C60_coefficients_kept.
Print Assumptions C60_all_coefficients.
Print Assumptions C60_restricted_matrices.
Print Assumptions C60_dipole_normalisation.
Print Assumptions C60_number_of_flavours.
