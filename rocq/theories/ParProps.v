(* Parity and CP in the running in WET (C53). *)
From Coq Require Import List Bool ZArith Reals Arith Lia Lra String Ascii.
From Verif Require Import PyBase Num SymModel EftModel NpModel NpProofs RealC WcxfModel WcxfProofs AdmData WetModel WetSpec WetProofs WetSector WetRun WetThms WetDemo ParSpec ParRun.
Import ListNotations.
Local Open Scope string_scope.
Local Open Scope list_scope.
Local Open Scope K_scope.
Add Field KFPQ : (k_field CR).

(* ================= C53 ================= *)
(* CP: the running of the complex conjugate coefficients (with the sign of Gtilde changed) gives the complex conjugate of
   the result.  All sectors, any number of flavours, any orders in QCD and QED. *)
Theorem C53_cp : forall la bases efts running r C C' so sl h h' w w' s k f p cls keys,
  dget sectors s = Some cls -> r_f r = Some f -> running f (r_scale r) = Ok p -> adm_ok la bases cls f p -> sector_keys bases s f = Ok keys ->
  (forall k, In k keys -> dgetd C' k 0 = cp_sign k * (dgetd C k 0)^*) ->
  wet_run la bases efts running (with_C r C) so sl h = Ok w -> wet_run la bases efts running (with_C r C') so sl h' = Ok w' ->
  covers bases efts r sl s k -> wc_getitem w' k = cp_sign k * (wc_getitem w k)^*.
Proof. exact run_cp. Qed.
(* In particular real coefficients stay real, as long as there is no CP odd three-gluon coefficient. *)
Theorem C53_real_stays_real : forall la bases efts running r C so sl h w s k f p cls keys,
  dget sectors s = Some cls -> r_f r = Some f -> running f (r_scale r) = Ok p -> adm_ok la bases cls f p -> sector_keys bases s f = Ok keys ->
  (forall k, In k keys -> (dgetd C k 0)^* = dgetd C k 0) -> dgetd C "Gtilde" 0 = 0 ->
  wet_run la bases efts running (with_C r C) so sl h = Ok w -> covers bases efts r sl s k ->
  k <> "Gtilde" -> (wc_getitem w k)^* = wc_getitem w k.
Proof.
  intros la bases efts running r C so sl h w s k f p cls keys ES EF EP O EK RC GT E CV H.
  assert (Q : wc_getitem w k = cp_sign k * (wc_getitem w k)^*).
  { refine (run_cp la bases efts running r C C so sl h h w w s k f p cls keys ES EF EP O EK _ E E CV).
    intros k0 I. rewrite (RC k0 I). unfold cp_sign. destruct (String.eqb_spec k0 "Gtilde") as [->|_]; [rewrite GT|]; ring. }
  unfold cp_sign in Q. destruct (String.eqb_spec k "Gtilde"); [contradiction|]. rewrite Q at 2. ring.
Qed.
(* Parity: the running of the mirror image gives the mirror image of the result, in all sectors whose operators have mirror
   images (all but the charged currents and the three-quark operators with a neutrino). *)
Theorem C53_parity : forall la bases efts running r C C' so sl h h' w w' s k k' c f p cls all keys,
  dget sectors s = Some cls -> ~ In cls chiral_classes -> dget coeffs s = Some all ->
  r_f r = Some f -> running f (r_scale r) = Ok p -> adm_ok la bases cls f p -> sector_keys bases s f = Ok keys ->
  (* the coefficients that exist for f flavours are closed under parity *)
  (forall k k' c, In k keys -> In k' all -> mirror k k' = Some c -> In k' keys) ->
  (* C' is the mirror image of C *)
  (forall k k' c, In k keys -> In k' keys -> mirror k k' = Some c -> dgetd C' k' 0 = mirror_value k c (dgetd C k 0)) ->
  wet_run la bases efts running (with_C r C) so sl h = Ok w -> wet_run la bases efts running (with_C r C') so sl h' = Ok w' ->
  covers bases efts r sl s k -> covers bases efts r sl s k' -> mirror k k' = Some c ->
  wc_getitem w' k' = mirror_value k c (wc_getitem w k).
Proof. exact run_parity. Qed.
(* Every coefficient of such a sector has exactly one mirror image in the same sector, whose mirror image it is. *)
Theorem C53_mirror_image_exists : forall s all cls k,
  dget sectors s = Some cls -> ~ In cls chiral_classes -> dget coeffs s = Some all -> In k all ->
  exists k' c, In k' all /\ mirror k k' = Some c /\ mirror k' k = Some c /\ forall k2 c2, In k2 all -> mirror k k2 = Some c2 -> k2 = k'.
Proof. exact mirror_exists. Qed.
(* some mirror images *)
Example C53_mirror_examples :
  mirror "VddLL_1323" "VddRR_1323" = Some false /\ mirror "V1udLR_1123" "V1duLR_2311" = Some false /\
  mirror "SedRL_1223" "SedRL_2132" = Some true /\ mirror "S1udduRR_1231" "S1udduRR_1321" = Some true /\
  mirror "dgamma_23" "dgamma_32" = Some true /\ mirror "V1ddLR_1221" "V1ddLR_1221" = Some true /\
  mirror "VddLL_1323" "VddLL_1323" = None.
Proof. vm_compute. repeat split. Qed.
(* the hypotheses are met, and the result is not zero: a scalar, a tensor and a vector operator, and their mirror images *)
Definition parC : dict string CR := [("SedRL_1223", 1); ("TedRR_1223", ki); ("VedLL_1223", 1)].
Definition parC' : dict string CR := [("SedRL_2132", 1); ("TedRR_2132", - ki); ("VedRR_1223", 1)].
Lemma par_keys : sector_keys demo_bases "sbemu" 5 = Ok ["SedRL_1223"; "SedRL_2132"; "SedRR_1223"; "SedRR_2132"; "TedRR_1223"; "TedRR_2132"; "VdeLR_2312"; "VedLL_1223"; "VedLR_1223"; "VedRR_1223"].
Proof. vm_compute. reflexivity. Qed.

Lemma par_image : forall k k' c, In k ["SedRL_1223"; "SedRL_2132"; "SedRR_1223"; "SedRR_2132"; "TedRR_1223"; "TedRR_2132"; "VdeLR_2312"; "VedLL_1223"; "VedLR_1223"; "VedRR_1223"] ->
  In k' ["SedRL_1223"; "SedRL_2132"; "SedRR_1223"; "SedRR_2132"; "TedRR_1223"; "TedRR_2132"; "VdeLR_2312"; "VedLL_1223"; "VedLR_1223"; "VedRR_1223"] ->
  mirror k k' = Some c -> dgetd parC' k' 0 = mirror_value k c (dgetd parC k 0).
Proof.
  intros k k' c I I' M.
  destruct I as [<-|[<-|[<-|[<-|[<-|[<-|[<-|[<-|[<-|[<-|[]]]]]]]]]]]; destruct I' as [<-|[<-|[<-|[<-|[<-|[<-|[<-|[<-|[<-|[<-|[]]]]]]]]]]];
    vm_compute in M; try discriminate M; apply f_equal with (f := fun o => match o with Some b => b | None => false end) in M; subst c;
    unfold mirror_value, cp_sign; simpl; unfold cx_mul, cx_conj, cx_opp; apply injective_projections; cbn; ring.
Qed.
Example C53_example : exists w w',
  wet_run la_tri demo_bases demo_efts demo_running (with_C (demo_runner [] 4 1 1) parC) 2 (SelStr "all") 0 = Ok w /\
  wet_run la_tri demo_bases demo_efts demo_running (with_C (demo_runner [] 4 1 1) parC') 2 (SelStr "all") 0 = Ok w' /\
  wc_getitem w' "SedRL_2132" = (wc_getitem w "SedRL_1223")^* /\ wc_getitem w' "TedRR_2132" = (wc_getitem w "TedRR_1223")^* /\
  wc_getitem w' "VedRR_1223" = wc_getitem w "VedLL_1223".
Proof.
  assert (O1 : ord_ok 1) by now right.
  destruct (demo_total la_tri parC 4 2 1 1 (SelStr "all") 0 ltac:(lra) ltac:(lra) O1 O1) as [w E].
  destruct (demo_total la_tri parC' 4 2 1 1 (SelStr "all") 0 ltac:(lra) ltac:(lra) O1 O1) as [w' E'].
  exists w, w'. split; [exact E|]. split; [exact E'|].
  assert (G : forall k k' c, demo_covers_b "sbemu" k = true -> demo_covers_b "sbemu" k' = true -> mirror k k' = Some c -> wc_getitem w' k' = mirror_value k c (wc_getitem w k)).
  { intros k k' c CV CV' M. pose proof (demo_run_ok 5 4 ltac:(lra)) as EP.
    assert (ES : dget sectors "sbemu" = Some "Vb") by (vm_compute; reflexivity).
    assert (NC : ~ In "Vb" chiral_classes) by (intros [X|[X|[X|[]]]]; discriminate X).
    assert (EA : dget coeffs "sbemu" = Some ["SedRL_1223"; "SedRL_2132"; "SedRR_1223"; "SedRR_2132"; "TedRR_1223"; "TedRR_2132"; "VdeLR_2312"; "VedLL_1223"; "VedLR_1223"; "VedRR_1223"]) by (vm_compute; reflexivity).
    exact (C53_parity la_tri demo_bases demo_efts demo_running (demo_runner [] 4 1 1) parC parC' 2 (SelStr "all") 0 0 w w' "sbemu" k k' c 5 (demo_p 4) "Vb" _ _ ES NC EA eq_refl EP
      (tri_class_ok demo_bases _ (demo_p 4) [] demo_Vb) par_keys (fun _ _ _ _ I _ => I) par_image E E' (demo_covers [] 4 1 1 (SelStr "all") "sbemu" k CV eq_refl) (demo_covers [] 4 1 1 (SelStr "all") "sbemu" k' CV' eq_refl) M). }
  assert (S1 : forall k z, String.eqb k "Gtilde" = false -> mirror_value k true z = z^*) by (intros k z N; unfold mirror_value, cp_sign; rewrite N; ring).
  assert (S0 : forall k z, String.eqb k "Gtilde" = false -> mirror_value k false z = z) by (intros k z N; unfold mirror_value, cp_sign; rewrite N; ring).
  split; [|split].
  - rewrite (G "SedRL_1223" "SedRL_2132" true); [apply S1|..]; vm_compute; reflexivity.
  - rewrite (G "TedRR_1223" "TedRR_2132" true); [apply S1|..]; vm_compute; reflexivity.
  - rewrite (G "VedLL_1223" "VedRR_1223" false); [apply S0|..]; vm_compute; reflexivity.
Qed.
Print Assumptions C53_cp.
Print Assumptions C53_real_stays_real.
Print Assumptions C53_parity.
Print Assumptions C53_mirror_image_exists.
