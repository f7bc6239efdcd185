(* Linearity of the WET translators, and the FormFlavor basis. *)
From Coq Require Import List Bool ZArith QArith Arith Lia String Ascii.
From Verif Require Import PyBase Num Lin SymModel SymClass SymSpec EftModel EftSpec EftProofs EftLabels EftRound EftInit JmsModel JmsSpec JmsProofs JmsArrays JmsProps
  TrLang TrData TrBlocks TrModel TrNorm TrSpec AdmData BasisProps TrProofs TrValues TrRound.
Import ListNotations.
Local Open Scope string_scope.
Local Open Scope list_scope.

Lemma get_ef : exists j2e j2ff, J2E = Some j2e /\ J2FF = Some j2ff.
Proof. pose proof chk_keys_ef as H. apply with2_some in H as (a & b & E1 & E2 & _). exists a, b. exact (conj E1 E2). Qed.

(* expected forms *)
Definition term_lf (l : list term) : lf := map (fun t => (fst (fst t), (snd (fst t), snd t, []))) l.
Definition dip_lf (x : string * bool * bool) : lf := [(1%Q, (fst (fst x), snd (fst x), [((if snd x then 4 else 3)%nat, (-1)%Z)]))].
Definition has_form (d : dict string lf) (k : string) (l : lf) : bool := match dget d k with Some m => leqb m l | None => false end.
Lemma chk_ff : with2 J2FF J2FF (fun d _ => forallb (fun x => has_form d (fst x) (term_lf (snd x))) ff_expected &&
  has_form d "CVLL_sdnn" (term_lf (nunu_average "VnudLL" "13" true)) && has_form d "CVRL_sdnn" (term_lf (nunu_average "VnudLR" "13" true)) &&
  forallb (fun x => has_form d (fst x) (dip_lf (snd x))) ff_dipoles &&
  forallb (fun x => has_form d (fst x) (dip_lf (snd x))) [("CAL_mt", ("egamma_32", true, true)); ("CAL_em", ("egamma_21", true, true)); ("CAL_et", ("egamma_31", true, true))] &&
  forallb (fun x => has_form d (fst x) (term_lf (snd x)))
    [("CSLL_cucu", [(Qmake 1 1, "S1uuRR_1212", true); (Qmake (-1) 6, "S8uuRR_1212", true); (Qmake 1 4, "S8uuRR_1212", false)]);
     ("CTLL_cucu", [(Qmake (-1) 16, "S8uuRR_1212", false)]);
     ("CSRR_cucu", [(Qmake 1 1, "S1uuRR_2121", true); (Qmake 1 12, "S8uuRR_2121", true)]);
     ("CTRR_cucu", [(Qmake (-1) 16, "S8uuRR_2121", false)])]) = true.
Proof. vm_cast_no_check (eq_refl true). Qed.

Section More.
Context {K : StarField}.
Local Open Scope K_scope.
Add Field KFtm : (k_field K).
Variable p : tpar K.
Hypothesis PO : par_ok p.
Variable all : list string.
Variable real : string -> bool.
Hypothesis D : describes jms_ops all real.
Variable js : dict string (list string).
Variable bern_wcs flavio_wcs : list string.
Hypothesis HB : incl bern_keys bern_wcs.
Hypothesis HF : incl flavio_keys flavio_wcs.

Lemma dval_combines (rho1 rho2 rho3 : string -> K) a b d : kreal a -> kreal b -> (forall k, rho3 k = a * rho1 k + b * rho2 k) ->
  combines a b (dval p rho1 d) (dval p rho2 d) (dval p rho3 d).
Proof.
  intros A B H k. change (view (dval p rho3 d) k = a * view (dval p rho1 d) k + b * view (dval p rho2 d) k).
  rewrite !view_dval. now apply lval_lin.
Qed.
Lemma linear_by (T : dict string K -> res (dict string K)) (vw : dict string K -> string -> K) d :
  (forall a b C1 C2 C, combines a b C1 C2 C -> forall k, vw C k = a * vw C1 k + b * vw C2 k) ->
  (forall C, T C = Ok (dval p (vw C) d)) -> real_linear (fun _ => True) T.
Proof.
  intros V H a b C1 C2 C A B _ _ _ HC. eexists. eexists. eexists. split; [apply H|]. split; [apply H|]. split; [apply H|].
  apply dval_combines; [exact A|exact B|exact (V a b C1 C2 C HC)].
Qed.
Lemma view_comb (a b : K) C1 C2 C : combines a b C1 C2 C -> forall k, view C k = a * view C1 k + b * view C2 k.
Proof. intros H. exact H. Qed.
Lemma wview_comb ks (a b : K) C1 C2 C : combines a b C1 C2 C -> forall k, wview ks C k = a * wview ks C1 k + b * wview ks C2 k.
Proof. intros H k. unfold wview. destruct (kmem k ks); [apply H|ring]. Qed.
Lemma lin_from_jms P d : srun alljms P (jenv nonred) = Some d -> real_linear (fun _ => True) (fun C => from_jms p all js P C None).
Proof. intros H. apply (linear_by _ view d view_comb). intros C. exact (from_jms_val p PO all real D js P C d H). Qed.
Lemma lin_j2b : real_linear (fun _ => True) (fun C => JMS_to_Bern p all js C None).
Proof. destruct get_forms as (j2b & ? & ? & ? & ? & ? & F). exact (lin_from_jms _ _ (f_j2b _ _ _ _ _ _ F)). Qed.
Lemma lin_j2e : real_linear (fun _ => True) (fun C => JMS_to_EOS p all js C None).
Proof. destruct get_ef as (j2e & ? & E & _). exact (lin_from_jms _ _ E). Qed.
Lemma lin_j2ff : real_linear (fun _ => True) (fun C => JMS_to_FormFlavor p all js C None).
Proof. destruct get_ef as (? & j2ff & _ & E). exact (lin_from_jms _ _ E). Qed.
Lemma lin_b2j : real_linear (fun _ => True) (Bern_to_JMS p all bern_wcs).
Proof. destruct get_forms as (? & ? & ? & ? & ? & ? & F). exact (linear_by _ _ _ (wview_comb bern_wcs) (fun C => val_b2j p PO all real D bern_wcs HB C _ (f_b2j _ _ _ _ _ _ F))). Qed.
Lemma lin_b2f : real_linear (fun _ => True) (Bern_to_flavio p all bern_wcs).
Proof. destruct get_forms as (? & ? & ? & ? & ? & ? & F). exact (linear_by _ _ _ (wview_comb bern_wcs) (fun C => val_b2f p PO all real D bern_wcs HB C _ (f_b2f _ _ _ _ _ _ F))). Qed.
Lemma lin_f2b : real_linear (fun _ => True) (flavio_to_Bern p all flavio_wcs).
Proof. destruct get_forms as (? & ? & ? & ? & ? & ? & F). exact (linear_by _ _ _ (wview_comb flavio_wcs) (fun C => val_f2b p PO all real D flavio_wcs HF C _ (f_f2b _ _ _ _ _ _ F))). Qed.
Lemma lin_f2j : real_linear (fun _ => True) (fun C => flavio_to_JMS p all flavio_wcs C None).
Proof. destruct get_forms as (? & ? & ? & ? & ? & ? & F). exact (linear_by _ _ _ (wview_comb flavio_wcs) (fun C => val_f2j p PO all real D flavio_wcs HF C _ (f_f2j _ _ _ _ _ _ F))). Qed.
Lemma lin_j2f : real_linear (fun _ => True) (fun C => JMS_to_flavio p all js C None).
Proof.
  destruct get_forms as (? & ? & j2f & ? & ? & ? & F). pose proof (f_j2f _ _ _ _ _ _ F) as E. pose proof (k_j2f _ _ _ _ _ _ F) as KO.
  intros a b C1 C2 C A B _ _ _ HC. eexists. eexists. eexists.
  split; [exact (val_j2f p PO all real D js C1 _ E)|]. split; [exact (val_j2f p PO all real D js C2 _ E)|]. split; [exact (val_j2f p PO all real D js C _ E)|].
  intros k. pose proof (jf_dgetd p C j2f k E KO) as V. pose proof (jf_dgetd p C1 j2f k E KO) as V1. pose proof (jf_dgetd p C2 j2f k E KO) as V2.
  rewrite V, V1, V2. apply lval_lin; [exact A|exact B|exact HC].
Qed.

(* ---------- FormFlavor ---------- *)
Lemma ff_val (C : dict string K) : exists F, JMS_to_FormFlavor p all js C None = Ok F /\
  (forall k l, In (k, l) ff_expected -> dget F k = Some (sum_terms C l)) /\
  dget F "CVLL_sdnn" = Some (sum_terms C (nunu_average "VnudLL" "13" true)) /\
  dget F "CVRL_sdnn" = Some (sum_terms C (nunu_average "VnudLR" "13" true)) /\
  (forall k n c g, In (k, (n, c, g)) ff_dipoles -> dget F k = Some ((if c then (dgetd C n 0)^* else dgetd C n 0) / ysym p (if g then Ygs else Ye))) /\
  (forall k n, In (k, n) [("CAL_mt", "egamma_32"); ("CAL_em", "egamma_21"); ("CAL_et", "egamma_31")] -> dget F k = Some ((dgetd C n 0)^* / ysym p Ygs)) /\
  dget F "CSLL_cucu" = Some (sum_terms C [(Qmake 1 1, "S1uuRR_1212", true); (Qmake (-1) 6, "S8uuRR_1212", true); (Qmake 1 4, "S8uuRR_1212", false)]) /\
  dget F "CTLL_cucu" = Some (sum_terms C [(Qmake (-1) 16, "S8uuRR_1212", false)]) /\
  dget F "CSRR_cucu" = Some (sum_terms C [(Qmake 1 1, "S1uuRR_2121", true); (Qmake 1 12, "S8uuRR_2121", true)]) /\
  dget F "CTRR_cucu" = Some (sum_terms C [(Qmake (-1) 16, "S8uuRR_2121", false)]).
Proof.
  pose proof chk_ff as H. apply with2_some in H as (d & d' & E & _ & H).
  exists (dval p (view C) d). split; [exact (from_jms_val p PO all real D js _ C d E)|].
  assert (HV : forall k l, has_form d k l = true -> dget (dval p (view C) d) k = Some (lval p (view C) l)).
  { intros k l X. unfold has_form in X. rewrite dget_dval. destruct (dget d k); [|discriminate]. now rewrite (lval_eqb p _ _ _ X). }
  assert (TV : forall l, lval p (view C) (term_lf l) = sum_terms C l).
  { induction l as [|[[q n] c] l IH]; [reflexivity|]. unfold lval in *. cbn [term_lf map ldenote sum_terms fold_right fst snd]. unfold term_lf in IH. rewrite IH. unfold aval.
    cbn [fst snd mval]. unfold sum_terms, view. ring. }
  assert (DV : forall n c g, lval p (view C) (dip_lf (n, c, g)) = (if c then (dgetd C n 0)^* else dgetd C n 0) / ysym p (if g then Ygs else Ye)).
  { intros n c g. assert (Z : forall y, ysym p y <> 0) by apply (par_nz _ PO).
    assert (M : mval p [((if g then 4 else 3)%nat, (-1)%Z)] = kinv (ysym p (if g then Ygs else Ye))).
    { destruct g; cbn [mval zpow]; change (Pos.to_nat 1) with 1%nat; cbn [spow];
        [change (vvar p 4) with (ysym p Ygs)|change (vvar p 3) with (ysym p Ye)]; field; repeat split; auto; apply k_1_neq_0. }
    unfold lval, dip_lf. cbn [ldenote fst snd]. unfold aval. cbn [fst snd]. rewrite M, kQ_1. unfold view. destruct c; field; auto. }
  apply andb_prop in H as [H H6]. apply andb_prop in H as [H H5]. apply andb_prop in H as [H H4]. apply andb_prop in H as [H H3]. apply andb_prop in H as [H1 H2].
  rewrite forallb_forall in H1, H4, H5, H6.
  split; [intros k l I; rewrite <- TV; apply HV; exact (H1 _ I)|].
  split; [rewrite <- TV; now apply HV|]. split; [rewrite <- TV; now apply HV|].
  split; [intros k n c g I; rewrite <- DV; apply HV; exact (H4 _ I)|].
  split. { intros k n I. assert (I2 : In (k, (n, true, true)) [("CAL_mt", ("egamma_32", true, true)); ("CAL_em", ("egamma_21", true, true)); ("CAL_et", ("egamma_31", true, true))]).
    { destruct I as [I|[I|[I|[]]]]; injection I as <- <-; simpl; tauto. }
    pose proof (HV k (dip_lf (n, true, true)) (H5 _ I2)) as X. rewrite X, DV. reflexivity. }
  split; [rewrite <- TV; apply HV; refine (H6 (_, _) _); simpl; tauto|].
  split; [rewrite <- TV; apply HV; refine (H6 (_, _) _); simpl; tauto|].
  split; rewrite <- TV; apply HV; refine (H6 (_, _) _); simpl; tauto.
Qed.
End More.
