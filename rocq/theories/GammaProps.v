(* The one-loop anomalous dimensions of the four-fermion operators in WET (C66). *)
From Coq Require Import List Bool ZArith QArith Reals Arith Lia String.
From Verif Require Import PyBase Num EftModel WcxfModel RealC AdmData WetModel WetProofs WetSector WetUnmix FermiSpec NpModel NpProofs FermiNorm FermiTab FermiProofs ParProofs GammaSpec GammaTab GammaProofs GammaOps GammaCanon GammaSect GammaRef GammaRun GammaBnvSpec GammaBnv GammaBnvSect.
Import ListNotations.
Local Open Scope string_scope.
Local Open Scope list_scope.
Local Open Scope K_scope.
Add Field KFgp : (k_field CR).

(* ================= C66 ================= *)
(* Let C be coefficients of a sector.  Dress every operator of the Lagrangian by one gluon (g = QCD) or one photon (g = QED),
   in all ways: the result is the Lagrangian with the coefficients A^T C, where A is the matrix of anomalous dimensions that the
   runner uses for this sector and this number of flavours.  Compared are the coefficients of all monomials (b, l) of distinct
   field components, built from the fields that are active: an operator that is left out because there are only f flavours must
   contain a field that is not in l. *)
Theorem C66_one_loop : forall bases s cls g f p all keys n A C b l,
  cls <> "inv" -> cls <> "sb" -> dget sectors s = Some cls -> dget coeffs s = Some all -> sector_keys bases s f = Ok keys ->
  adm_reduced bases (adm_prefix g) cls f p = Ok (n, A) ->
  (forall k o, In k all -> ~ In k keys -> four_op k = Some o -> exists fm, In fm (fields o) /\ forall c, In c l -> comp_ferm c <> fm) ->
  hermitian_real keys C -> NoDup l ->
  four_lagrangian (dressed g) keys C (b, l) = four_lagrangian (fun q => q) keys (mixed keys A C) (b, l).
Proof. intros bases s cls g f p all keys n A C b l NI NS. exact (runner_matrix bases s cls g f p all keys n A C b l NI (fun E => False_ind _ (NS E))). Qed.
(* With five flavours all operators are there, and all monomials may be compared. *)
Theorem C66_five_flavours : forall bases s cls g p keys n A C b l,
  cls <> "inv" -> cls <> "sb" -> dget sectors s = Some cls -> dget coeffs s = Some keys ->
  adm_reduced bases (adm_prefix g) cls 5 p = Ok (n, A) -> hermitian_real keys C -> NoDup l ->
  four_lagrangian (dressed g) keys C (b, l) = four_lagrangian (fun q => q) keys (mixed keys A C) (b, l).
Proof.
  intros bases s cls g p keys n A C b l NI NS ES EA ER HR ND.
  assert (EK : sector_keys bases s 5 = Ok keys).
  { unfold sector_keys. rewrite EA. unfold get_permissible_wcs. rewrite !orb_true_r. now destruct (String.eqb s "dF=0"). }
  refine (C66_one_loop bases s cls g 5 p keys keys n A C b l NI NS ES EA EK ER _ HR ND). intros k o I N. contradiction.
Qed.
(* In the sector sb this holds for real coefficients. *)
Theorem C66_sb_real_partial : forall bases g f p all keys n A C b l,
  dget coeffs "sb" = Some all -> sector_keys bases "sb" f = Ok keys -> adm_reduced bases (adm_prefix g) "sb" f p = Ok (n, A) ->
  (forall k o, In k all -> ~ In k keys -> four_op k = Some o -> exists fm, In fm (fields o) /\ forall c, In c l -> comp_ferm c <> fm) ->
  (forall i, (C i)^* = C i) -> NoDup l ->
  four_lagrangian (dressed g) keys C (b, l) = four_lagrangian (fun q => q) keys (mixed keys A C) (b, l).
Proof.
  intros bases g f p all keys n A C b l EA EK ER AB RC ND.
  assert (ES : dget sectors "sb" = Some "sb") by (vm_compute; reflexivity).
  refine (runner_matrix bases "sb" "sb" g f p all keys n A C b l _ (fun _ => RC) ES EA EK ER AB _ ND); [discriminate|]. intros i o _ _ _. apply RC.
Qed.
(* For complex coefficients it fails: with VddLL_1123 = i the QCD matrix generates VddLL_1231 with the wrong sign.  (VddLL_1231
   belongs to the transition b -> s, the other coefficients of the sector to s -> b; what is generated is the complex conjugate.) *)
Theorem C66_sb_refuted : exists k j l, dget coeffs "sb" = Some k /\ nth j k "" = "VddLL_1123" /\ NoDup l /\ hermitian_real k (only j ki) /\
  forall bases p n A, adm_reduced bases "adm_s_" "sb" 5 p = Ok (n, A) ->
  four_lagrangian (dressed QCD) k (only j ki) (NoB, l) <> four_lagrangian (fun q => q) k (mixed k A (only j ki)) (NoB, l).
Proof.
  assert (E1 : exists k, dget coeffs "sb" = Some k /\ nth 90 k "" = "VddLL_1123") by (eexists; split; vm_compute; reflexivity).
  assert (E2 : exists am, dget adm_table "adm_s_sb" = Some am) by (eexists; vm_compute; reflexivity).
  destruct E1 as (k & EK & NK), E2 as [am EM]. exists k, 90%nat, (snd m_sb).
  split; [exact EK|]. split; [exact NK|]. split; [exact m_sb_nodup|]. split.
  - exact (sb_hermitian k am EK EM).
  - intros bases p n A ER. apply (adm_five bases "adm_s_" "sb" p n A am EM) in ER. exact (proj2 (sb_differs k am p 5 n A EK EM ER)).
Qed.
(* The coefficients of the class inv are not evolved: their operators are not renormalised. *)
Theorem C66_inv : forall s g ks C b l, dget sectors s = Some "inv" -> dget coeffs s = Some ks -> hermitian_real ks C -> NoDup l ->
  four_lagrangian (dressed g) ks C (b, l) = (0 : CR).
Proof.
  intros s g ks C b l ES EC HR ND. pose proof (sect_fact s "inv" ks g ES EC) as H. exact (zero_chk_ok g false ks (b, l) ND C H HR eq_refl).
Qed.
(* The same for the sectors that violate baryon number, whose coefficients may all be complex. *)
Theorem C66_baryon_number : forall bases s cls g f p all keys n A C b l,
  In cls bnv_classes -> dget sectors s = Some cls -> dget coeffs s = Some all -> sector_keys bases s f = Ok keys ->
  adm_reduced bases (adm_prefix g) cls f p = Ok (n, A) ->
  (forall k o, In k all -> ~ In k keys -> bnv_op k = Some o -> exists fm, In fm (bnv_fields o) /\ forall c, In c l -> comp_ferm c <> fm) ->
  NoDup l ->
  bnv_lagrangian (dressed g) keys C (b, l) = bnv_lagrangian (fun q => q) keys (transposed (List.length keys) A C) (b, l).
Proof. exact runnerB. Qed.
Theorem C66_baryon_number_five_flavours : forall bases s cls g p keys n A C b l,
  In cls bnv_classes -> dget sectors s = Some cls -> dget coeffs s = Some keys -> adm_reduced bases (adm_prefix g) cls 5 p = Ok (n, A) -> NoDup l ->
  bnv_lagrangian (dressed g) keys C (b, l) = bnv_lagrangian (fun q => q) keys (transposed (List.length keys) A C) (b, l).
Proof.
  intros bases s cls g p keys n A C b l IC ES EA ER ND.
  assert (EK : sector_keys bases s 5 = Ok keys).
  { unfold sector_keys. rewrite EA. unfold get_permissible_wcs. rewrite !orb_true_r. now destruct (String.eqb s "dF=0"). }
  refine (C66_baryon_number bases s cls g 5 p keys keys n A C b l IC ES EA EK ER _ ND). intros k o I N. contradiction.
Qed.
(* No coefficient of any sector is left out of the comparison, but those of the dipoles and of the three-gluon operators. *)
Definition is_four (o : opr) : bool := match o with Four _ _ _ _ _ _ _ _ => true | _ => false end.
Theorem C66_covered : forall s cls ks k, dget sectors s = Some cls -> dget coeffs s = Some ks -> In k ks ->
  (~ In cls bnv_classes /\ exists o, four_op k = Some o) \/ (~ In cls bnv_classes /\ exists o, jms_op k = Some o /\ is_four o = false) \/ (In cls bnv_classes /\ exists o, bnv_op k = Some o).
Proof.
  intros s cls ks k ES EC I.
  assert (T : forallb (fun sa => match dget sectors (fst sa) with Some c => forallb (fun k =>
    if kmem c bnv_classes then match bnv_op k with Some _ => true | None => false end else match jms_op k with Some _ => true | None => false end) (snd sa) | None => false end) coeffs = true) by (vm_cast_no_check (eq_refl true)).
  rewrite forallb_forall in T. specialize (T _ (dget_In _ _ _ EC)). cbn [fst snd] in T. rewrite ES in T. rewrite forallb_forall in T. specialize (T _ I).
  destruct (kmem cls bnv_classes) eqn:M.
  - right. right. split; [apply kmem_In; exact M|]. destruct (bnv_op k); [eauto|discriminate].
  - assert (NB : ~ In cls bnv_classes) by (intros J; apply kmem_In in J; congruence).
    unfold four_op. destruct (jms_op k) as [[d c x y f1 f2 f3 f4| |]|]; [left; eauto|right; left; eauto|right; left; eauto|discriminate].
Qed.
(* the hypotheses are met: the matrix of class I, its entries, and an operator whose dressed form is not zero *)
Example C66_example : forall bases p, exists A, adm_reduced bases "adm_s_" "I" 5 p = Ok (8%nat, A) /\ A 6%nat 6%nat = kZ 4 /\ A 5%nat 4%nat = kQ (-(8 # 3)) /\
  exists ks, dget coeffs "sbsb" = Some ks /\ nth 6 ks "" = "VddLL_2323" /\ hermitian_real ks (only 6 ki) /\
  NoDup (snd m_ex) /\ four_lagrangian (dressed QCD) ks (only 6 ki) m_ex <> 0.
Proof.
  intros bases p. destruct (rational_eval p 5 adm_s_I eq_refl) as [A EA]. exists A.
  split; [|split; [|split]].
  - unfold adm_reduced. assert (E : dget adm_table ("adm_s_" ++ "I")%string = Some adm_s_I) by (vm_compute; reflexivity). rewrite E, EA. reflexivity.
  - pose proof (amat_get p 5 adm_s_I _ A 6 6 EA) as G. cbn [dget nth adm_s_I keqb] in G. destruct G as (z & Ez & ->). rewrite <- kQ_Z. exact (aq_ok p 5 _ z _ Ez eq_refl).
  - pose proof (amat_get p 5 adm_s_I _ A 5 4 EA) as G. cbn [dget nth adm_s_I keqb] in G. destruct G as (z & Ez & ->). rewrite (aq_ok p 5 _ z _ Ez eq_refl). now apply kQ_Qeq.
  - assert (E1 : exists ks, dget coeffs "sbsb" = Some ks /\ nth 6 ks "" = "VddLL_2323") by (eexists; split; vm_compute; reflexivity).
    destruct E1 as (ks & EK & NK). exists ks. split; [exact EK|]. split; [exact NK|].
    destruct (ex_nonzero ks p A EK EA) as [X Y]. split; [exact X|]. split; [exact m_ex_nodup|exact Y].
Qed.
(* the same for an operator that violates baryon number: (d_R C u_R)(d_L C nu_L), renormalised by -4 *)
Example C66_bnv_example : forall bases p, exists A ks, adm_reduced bases "adm_s_" "uddnu" 5 p = Ok (6%nat, A) /\ A 0%nat 0%nat = kQ (-(4)) /\
  dget coeffs "uddnu" = Some ks /\ nth 0 ks "" = "SdudRL_1111" /\ bnv_op "SdudRL_1111" = Some (Bop PR PL (Dn, G1) (Up, G1) (Dn, G1) (Nu, G1)) /\
  NoDup (snd m_bnv) /\ coefficient (bnv_poly (Bop PR PL (Dn, G1) (Up, G1) (Dn, G1) (Nu, G1))) m_bnv <> (0 : CR).
Proof.
  intros bases p. destruct (rational_eval p 5 adm_s_uddnu eq_refl) as [A EA].
  assert (E1 : exists ks, dget coeffs "uddnu" = Some ks /\ nth 0 ks "" = "SdudRL_1111") by (eexists; split; vm_compute; reflexivity).
  destruct E1 as (ks & EK & NK). exists A, ks. split; [|split; [|split; [exact EK|split; [exact NK|split; [vm_compute; reflexivity|split; [exact m_bnv_nodup|exact m_bnv_nonzero]]]]]].
  - unfold adm_reduced. assert (E : dget adm_table ("adm_s_" ++ "uddnu")%string = Some adm_s_uddnu) by (vm_compute; reflexivity). rewrite E, EA. reflexivity.
  - pose proof (amat_get p 5 adm_s_uddnu _ A 0 0 EA) as G. cbn [dget nth adm_s_uddnu keqb] in G. destruct G as (z & Ez & ->). exact (aq_ok p 5 _ z _ Ez eq_refl).
Qed.
Print Assumptions C66_one_loop.
Print Assumptions C66_five_flavours.
Print Assumptions C66_sb_real_partial.
Print Assumptions C66_sb_refuted.
Print Assumptions C66_inv.
Print Assumptions C66_covered.
Print Assumptions C66_baryon_number.
Print Assumptions C66_baryon_number_five_flavours.
