(* The one-loop matching for real parameters. *)
From Coq Require Import List Bool ZArith Reals Arith Lia Lra Psatz String Ascii Field.
From Verif Require Import PyBase Num Lin SymModel EftModel NpModel NpProofs RealC BetaSpec BetaProofs RotModel JmsModel BetaModel SmparModel WetModel TreeProg TreeModel TreeElem TreeSpec TreeProofs
  TreeRot TreeEw TreeZero TreeMatch LoopSyntax LoopData LoopModel LoopSpec LoopProofs LoopPhase LoopDim LoopSym.
Import ListNotations.
Local Open Scope string_scope.
Local Open Scope list_scope.

Section Sums.
Context {K : StarField}.
Local Open Scope K_scope.
Add Field KFreal : (k_field K) (morphism (kZ_morph (K := K)), constants [kz_const]).
Variable val : base -> K.
Hypotheses (NZ : val BZ <> 0) (NH : val BH <> 0) (NV : val Bv <> 0) (NC : val BNc <> 0).
Hypothesis D : forall a b, In (a, b) [(Bt, BW); (BW, Bt); (BH, BZ); (BZ, BH); (BH, BW); (BH, Bt); (Bt, BZ); (BW, BZ); (BZ, BW)] ->
  val a - val b <> 0 /\ val a + val b <> 0.
Ltac fac f := let E := fresh "E" in
  match goal with |- ?l <> _ => assert (E : l = f) by (cbv -[kZ kadd kmul ksub kopp kdiv kinv k0 k1 val car]; ring) end; rewrite E;
  repeat (apply kmul_neq_0; try assumption); try (apply kZ_neq0; lia); 
  match goal with |- val ?a - val ?b <> _ => refine (proj1 (D a b _)); cbn; tauto | |- val ?a + val ?b <> _ => refine (proj2 (D a b _)); cbn; tauto end.
Lemma sums_neq0 s : In s loop_sums -> vpsum val s <> 0.
Proof.
  intros M. unfold loop_sums in M.
  destruct M as [<-|M]; [fac (kZ (1) * (val Bt - val BW))|].
  destruct M as [<-|M]; [fac (kZ (1) * (val Bt + val BW))|].
  destruct M as [<-|M]; [fac (kZ (4) * (val Bt - val BW) * (val Bt + val BW))|].
  destruct M as [<-|M]; [fac (kZ (2) * (val Bt - val BW) * (val Bt + val BW))|].
  destruct M as [<-|M]; [fac (kZ (1) * (val Bt - val BW) * (val Bt + val BW))|].
  destruct M as [<-|M]; [fac (kZ (1) * (val BH - val BZ))|].
  destruct M as [<-|M]; [fac (kZ (1) * (val BH + val BZ))|].
  destruct M as [<-|M]; [fac (kZ (-1) * (val Bt - val BW))|].
  destruct M as [<-|M]; [fac (kZ (32) * (val Bt - val BW) * (val Bt + val BW))|].
  destruct M as [<-|M]; [fac (kZ (96) * val BNc * (val Bt - val BW) * (val Bt + val BW))|].
  destruct M as [<-|M]; [fac (kZ (8) * val BNc * (val BH - val BW) * (val BH + val BW))|].
  destruct M as [<-|M]; [fac (kZ (4) * val BNc * (val BH - val BW) * (val BH + val BW))|].
  destruct M as [<-|M]; [fac (kZ (16) * val BNc * (val BH - val BW) * (val BH + val BW))|].
  destruct M as [<-|M]; [fac (kZ (1) * (val BH - val Bt))|].
  destruct M as [<-|M]; [fac (kZ (1) * (val BH + val Bt))|].
  destruct M as [<-|M]; [fac (kZ (1) * (val BH - val BW))|].
  destruct M as [<-|M]; [fac (kZ (1) * (val BH + val BW))|].
  destruct M as [<-|M]; [fac (kZ (8) * val BNc * (val Bt - val BW) * (val Bt + val BW))|].
  destruct M as [<-|M]; [fac (kZ (1) * (val Bt - val BZ))|].
  destruct M as [<-|M]; [fac (kZ (1) * (val Bt + val BZ))|].
  destruct M as [<-|M]; [fac (kZ (1) * (val BW - val BZ))|].
  destruct M as [<-|M]; [fac (kZ (1) * (val BW + val BZ))|].
  destruct M as [<-|M]; [fac (kZ (4) * val BH * val BH * val BNc * (val BH - val BW) * (val BH + val BW))|].
  destruct M as [<-|M]; [fac (kZ (48) * val BZ * val BZ * val BNc * (val BW - val BZ) * (val BW + val BZ))|].
  destruct M as [<-|M]; [fac (kZ (-1) * (val BW - val BZ))|].
  destruct M as [<-|M]; [fac (kZ (1) * (val BH - val BW) * (val BH + val BW))|].
  destruct M as [<-|M]; [fac (kZ (2) * (val BH - val BW) * (val BH + val BW))|].
  destruct M as [<-|M]; [fac (kZ (2) * val BH * val BH * (val BH - val BW) * (val BH + val BW))|].
  destruct M as [<-|M]; [fac (kZ (4) * val BNc * (val Bt - val BW) * (val Bt + val BW))|].
  destruct M as [<-|M]; [fac (kZ (-1) * (val BW - val BZ) * (val BW + val BZ))|].
  destruct M as [<-|M]; [fac (kZ (64) * (val Bt - val BW) * (val Bt + val BW))|].
  destruct M as [<-|M]; [fac (kZ (128) * val BNc * (val Bt - val BW) * (val Bt + val BW))|].
  destruct M as [<-|M]; [fac (kZ (16) * val BNc * (val Bt - val BW) * (val Bt + val BW))|].
  destruct M as [<-|M]; [fac (kZ (8) * (val Bt - val BW) * (val Bt + val BW))|].
  destruct M as [<-|M]; [fac (kZ (4) * (val BH - val BW) * (val BH + val BW))|].
  destruct M as [<-|M]; [fac (kZ (4) * val BH * val BH * (val BH - val BW) * (val BH + val BW))|].
  destruct M as [<-|M]; [fac (kZ (1) * (val BH - val BZ) * (val BH + val BZ))|].
  destruct M as [<-|M]; [fac (kZ (32) * (val BH - val BZ) * (val BH + val BZ))|].
  destruct M as [<-|M]; [fac (kZ (64) * val BH * val BH * (val BH - val BZ) * (val BH + val BZ))|].
  destruct M as [<-|M]; [fac (kZ (32) * val BH * val BH * (val BH - val BZ) * (val BH + val BZ))|].
  destruct M as [<-|M]; [fac (kZ (1) * (val BW - val BZ) * (val BW + val BZ))|].
  destruct M as [<-|M]; [fac (kZ (8) * val BZ * val BZ * (val BW - val BZ) * (val BW + val BZ))|].
  destruct M as [<-|M]; [fac (kZ (-1) * (val BH - val BZ))|].
  destruct M as [<-|M]; [fac (kZ (-1) * val BZ * (val BH - val BZ) * (val BH + val BZ))|].
  destruct M as [<-|M]; [fac (kZ (32) * val BZ * (val BH - val BZ) * (val BH + val BZ))|].
  destruct M as [<-|M]; [fac (kZ (32) * val BZ * val Bv * (val BH - val BZ) * (val BH + val BZ))|].
  destruct M as [<-|M]; [fac (kZ (96) * val BZ * (val BH - val BZ) * (val BH + val BZ))|].
  destruct M as [<-|M]; [fac (kZ (96) * val BZ * val Bv * (val BH - val BZ) * (val BH + val BZ))|].
  destruct M.
Qed.
End Sums.

Local Open Scope R_scope.
Lemma rc_neq0 x : x <> 0 -> rc x <> 0%K.
Proof. intros N E. apply N. now apply rc_inj in E. Qed.
Section Reg.
Variable s : lpar.
Hypothesis RG : regular s.
Lemma lval_base b : dbase b = true -> lval s b <> 0%K.
Proof.
  destruct RG. destruct b; intros H; try discriminate H; cbn [lval]; apply rc_neq0; try lra; [apply PI_neq0|pose proof sqrt2_pos; lra].
Qed.
Lemma lval_sums t : In t loop_sums -> vpsum (lval s) t <> 0%K.
Proof.
  apply sums_neq0; try (now apply lval_base). destruct RG. intros a b H. cbn in H.
  repeat (destruct H as [[= <- <-]|H]; [cbn [lval]; rewrite <- rc_sub, <- rc_add; split; apply rc_neq0; lra|]). destruct H.
Qed.
Lemma flog_pos m : 0 < m -> flog_ok (l_scale s) m = Ok tt.
Proof.
  intros H. unfold flog_ok, fdiv. pose proof (pow_lt m 2 H) as P. destruct (Req_EM_T (m ^ 2) 0) as [E|_]; [lra|]. cbn [bind].
  assert (0 < l_scale s ^ 2) by (destruct RG; nra). assert (0 < l_scale s ^ 2 / m ^ 2) by (apply Rdiv_lt_0_compat; lra). destruct (Rle_dec _ _); [lra|reflexivity].
Qed.
Lemma loop_pt_at V mass C : loop_pt s V mass C = loop_at (lval s) V (fun f i => rc (mass f i)) C.
Proof. unfold loop_pt. destruct RG. now rewrite !flog_pos by assumption. Qed.
End Reg.
Lemma matrix3_rep {K : StarField} (V : cval K) v : matrix3 V v -> rep V 2 (fun I => v (nth 0 I 0%nat) (nth 1 I 0%nat)).
Proof.
  intros [S E]. split; [exact S|]. split; [discriminate|]. intros I HI. apply in_idxs in HI as [L B]. destruct I as [|i [|j [|]]]; try discriminate L.
  cbn [nth]. apply E; apply B; cbn; auto.
Qed.
Definition all_jms : bool := forallb (fun k => dmem jms_fields k) (loop_zero ++ map fst loop_prog).
Lemma all_jms_true : all_jms = true. Proof. vm_cast_no_check (eq_refl true). Qed.
Section Dict.
Context {K : StarField}.
Notation cdict := (dict string (cval K)).
Definition good (c : cdict) : Prop := wfdict c /\ forall k v, dget c k = Some v -> dget jms_fields k <> None.
Lemma good_dset c k v : good c -> dget jms_fields k <> None -> good (dset c k v).
Proof.
  intros [W A] J. split; [now apply wf_dset|]. intros j w. rewrite dget_dset. destruct (keqb_spec j k) as [->|_]; [intros _; exact J|apply A].
Qed.
Lemma jms_key k : In k (loop_zero ++ map fst loop_prog) -> dget jms_fields k <> None.
Proof.
  intros H. pose proof (proj1 (forallb_forall _ _) all_jms_true k H) as M. rewrite dmem_dget in M. destruct (dget jms_fields k); [discriminate|discriminate M].
Qed.
Lemma exec_good val V mass (C : cdict) p : forall c c', (forall k, In k (map fst p) -> dget jms_fields k <> None) -> good c -> exec_loop val V mass C p c = Ok c' -> good c'.
Proof.
  induction p as [|[k gs] p IH]; intros c c' H G; cbn [exec_loop]; [now intros [= <-]|].
  destruct (eassign _ _ _ _ _) as [v|]; [|discriminate]. cbn [bind]. apply IH; [intros j J; apply H; now right|]. apply good_dset; [exact G|apply H; now left].
Qed.
Lemma zero_good ks : forall c : cdict, (forall k, In k ks -> dget jms_fields k <> None) -> good c -> good (set_zero ks c).
Proof.
  induction ks as [|k ks IH]; intros c H G; [exact G|]. cbn [set_zero fold_left]. apply IH; [intros j J; apply H; now right|]. apply good_dset; [exact G|apply H; now left].
Qed.
Lemma rot_good (V : cval K) k c c' : dget jms_fields k <> None -> good c -> rot_key V k c = Ok c' -> good c'.
Proof.
  intros J G. unfold rot_key. destruct (getk c k) as [v|]; [|discriminate]. cbn [bind]. destruct (np_matmul V v) as [w|]; [|discriminate]. cbn [bind]. intros [= <-].
  now apply good_dset.
Qed.
Lemma loop_at_good val V mass (C : cdict) c : loop_at val V mass C = Ok c -> good c.
Proof.
  unfold loop_at. destruct (daggers C) as [C'|]; [|discriminate]. cbn [bind]. destruct (exec_loop _ _ _ _ _ _) as [c1|] eqn:E1; [|discriminate]. cbn [bind].
  destruct (rot_key V "dgamma" _) as [c2|] eqn:E2; [|discriminate]. cbn [bind]. apply rot_good; [discriminate|]. apply (rot_good V "dgamma" _ _ ltac:(discriminate)) in E2; [exact E2|].
  apply zero_good; [intros k H; apply jms_key; apply in_or_app; now left|].
  refine (exec_good _ _ _ _ loop_prog [] c1 _ _ E1); [|split; [apply wf_nil|discriminate]]. intros k H. apply jms_key. apply in_or_app. right. exact H.
Qed.
End Dict.

(* the value of the one-loop formulas at a regular point *)
Lemma loop_pt_ok s V v mass C : regular s -> matrix3 V v -> wc_point C -> exists c, loop_pt s V mass C = Ok c /\ jms_dict c /\
  forall k ts, dget jms_fields k = Some ts -> forall I, In I (idxs (List.length ts)) -> coef c k I = floop (lval s) v (fun f i => rc (mass f i)) (coef C) k I.
Proof.
  intros RG HV W. rewrite (loop_pt_at s RG).
  destruct (loop_at_ok (lval s) V v (fun f i => rc (mass f i)) C W (lval_base s RG) (lval_sums s RG) (matrix3_rep V v HV)) as (c & E & A). exists c. split; [exact E|].
  destruct (loop_at_good _ _ _ _ _ E) as [G1 G2]. split.
  - split; [exact G1|]. split; [exact G2|]. intros k ts F. destruct (A k ts F) as (w & D & S & Z & _). exists w. split; [exact D|]. split; [exact S|]. intros ->. now apply Z.
  - intros k ts F I HI. destruct (A k ts F) as (w & D & _ & _ & X). unfold coef at 1. rewrite D. now apply X.
Qed.

(* ---------- units ---------- *)
Lemma rc_pow x n : rc (x ^ n) = kpow (rc x) n.
Proof. induction n as [|n IH]; [reflexivity|]. cbn [pow kpow]. now rewrite rc_mul, IH. Qed.
Lemma units_regular x s : 0 < x -> regular s -> regular (in_units x s).
Proof.
  intros X []. assert (D : forall a b, a <> b -> x * a <> x * b) by (intros a b N E; apply N; now apply (Rmult_eq_reg_l x); [|lra]).
  assert (Z : forall a, a <> 0 -> x * a <> 0) by (intros a N; apply Rmult_integral_contrapositive; lra).
  split; cbn [in_units l_mW l_mZ l_mH l_mt l_vT l_scale]; auto; now apply Rmult_lt_0_compat.
Qed.
Lemma ratio_units x m n : 0 < x -> n <> 0 -> (x * m) ^ 2 / (x * n) ^ 2 = m ^ 2 / n ^ 2.
Proof. intros X N. field. split; [exact N|lra]. Qed.
Lemma lval_units x s b : 0 < x -> regular s -> lval (in_units x s) b = (zpw (rc x) (bdim b) * lval s b)%K.
Proof.
  intros X RG. assert (O : zpw (rc x) 1 = rc x) by (cbn [zpw]; change (Pos.to_nat 1) with 1%nat; rewrite <- rc_pow; f_equal; ring).
  destruct RG. destruct b; cbn [bdim]; try rewrite O; cbn [lval in_units l_mW l_mZ l_mH l_mt l_vT l_g1 l_g2 l_g3 l_scale]; try apply rc_mul;
    rewrite ?ratio_units by (assumption || lra); symmetry; apply kmul_1_l.
Qed.
Lemma kdim_power x ts : 0 < x -> zpw (rc x) (kdim ts) = rc (jms_power x ts).
Proof.
  intros X. assert (A : zpw (rc x) (-1) = rc (/ x)).
  { cbn [zpw]. change (Pos.to_nat 1) with 1%nat. rewrite <- rc_pow, <- rc_1, <- rc_div by (cbn; lra). f_equal. cbn. field. lra. }
  assert (B : zpw (rc x) (-2) = rc (/ x ^ 2)).
  { cbn [zpw]. change (Pos.to_nat 2) with 2%nat. pose proof (pow_lt x 2 X) as P. rewrite <- rc_pow, <- rc_1, <- rc_div by lra. f_equal. field. lra. }
  unfold kdim, jms_power. destruct ts as [|a [|b [|c r]]]; assumption.
Qed.

(* ---------- conserved charges ---------- *)
Definition uphase (th : R) (n : Z) : CR := (cos (IZR n * th), sin (IZR n * th)).
Lemma uphase_add th a b : uphase th (a + b) = (uphase th a * uphase th b)%K.
Proof. unfold uphase. rewrite plus_IZR, Rmult_plus_distr_r, cos_plus, sin_plus. cbn. unfold cx_mul. cbn [fst snd]. f_equal; ring. Qed.
Lemma uphase_opp th a : uphase th (- a) = ((uphase th a)^*)%K.
Proof. unfold uphase. rewrite opp_IZR. replace (- IZR a * th) with (- (IZR a * th)) by ring. rewrite cos_neg, sin_neg. reflexivity. Qed.
Lemma uphase_0 th : uphase th 0 = 1%K.
Proof. unfold uphase. rewrite Rmult_0_l, cos_0, sin_0. reflexivity. Qed.
Lemma uphase_unit th a : ((uphase th a)^* * uphase th a)%K = 1%K.
Proof. rewrite <- uphase_opp, <- uphase_add, Z.add_opp_diag_l. apply uphase_0. Qed.
Lemma phase_charge th Q ts : forall I, phase (fun f i => uphase th (Q f i)) ts I = uphase th (charge_of Q ts I).
Proof.
  induction ts as [|t ts IH]; intros [|i I]; cbn [phase charge_of]; try (symmetry; apply uphase_0). fold (charge_of Q). rewrite IH, uphase_add. f_equal.
  destruct (snd t); cbn [cj]; [now rewrite uphase_opp|reflexivity].
Qed.
Lemma half_turn n : (n <> 0)%Z -> uphase (PI / IZR n) n = rc (- (1)).
Proof.
  intros N. unfold uphase. assert (IZR n <> 0) by now apply not_0_IZR. replace (IZR n * (PI / IZR n)) with PI by (field; assumption). rewrite cos_PI, sin_PI. reflexivity.
Qed.
Lemma floop_charge val v mass C Q k ts I : baryon_lepton Q -> conserves Q C ->
  dget jms_fields k = Some ts -> In I (idxs (List.length ts)) -> jcharge Q ts I <> 0%Z -> floop val v mass (coef C) k I = 0%K.
Proof.
  intros [QL (b & QB)] CC G HI N. set (th := PI / IZR (jcharge Q ts I)).
  assert (E : floop val v mass (coef C) k I = (jphase (fun f i => uphase th (Q f i)) ts I * floop val v mass (coef C) k I)%K).
  { apply (floop_phase val (fun f i => uphase th (Q f i)) (fun _ => uphase th b) v v mass (coef C) (coef C) k ts I); auto.
    - intros f i. apply uphase_unit.
    - intros i. apply uphase_unit.
    - destruct (QB 2%nat) as (-> & -> & _). reflexivity.
    - intros i a _ _. destruct (QB i) as (-> & _). rewrite uphase_unit. symmetry. apply kmul_1_l.
    - intros i _. destruct (QB i) as (-> & -> & ->). rewrite QL, !uphase_unit. split; [|split]; apply kmul_1_l.
    - intros j us F J HJ. rewrite phase_charge. destruct (Z.eq_dec (charge_of Q us J) 0) as [E|NE]; [rewrite E, uphase_0; symmetry; apply kmul_1_l|].
      rewrite (CC j us J F HJ NE). symmetry. apply kmul_0_r. }
  revert E. unfold jphase. rewrite phase_charge. fold (jcharge Q ts I). unfold th. rewrite half_turn by exact N. destruct (floop val v mass (coef C) k I) as [a c].
  cbn. unfold cx_mul. cbn [fst snd rc]. intros [= E1 E2]. f_equal; lra.
Qed.

(* ---------- symmetries ---------- *)
Lemma lval_conj s b : kreal (l_g1 s) -> ((lval s b)^*)%K = (if base_eqb b Bi then - lval s b else lval s b)%K.
Proof.
  intros G. destruct b; cbn [lval base_eqb]; try apply rc_real; [exact G|]. cbn. unfold cx_conj, cx_opp. cbn [fst snd]. f_equal. ring.
Qed.

(* ---------- the matching with the inputs of the code ---------- *)
Section Raw.
Variable ckm : R -> R -> R -> R -> cval CR.
Variables (C : cdictR) (p : params) (mW GF alpha scale : R).
Hypotheses (W : wc_point C) (S : wc_symmetric C) (P : inputs p mW GF alpha) (PH : physical C mW GF alpha) (L : loop_inputs ckm p) (N : scale <> 0)
  (NP : forall e, ew_inputs C p = Ok e -> no_poles (e_mW e) (e_mZ e)).
Lemma loop_raw_ok : exists s V mass c, regular s /\ kreal (l_g1 s) /\ matrix3 V (fun i j => entry V [i; j]) /\ loop_raw ckm C p scale = Ok c /\ jms_dict c /\
  forall k ts, dget jms_fields k = Some ts -> forall I, In I (idxs (List.length ts)) -> coef c k I = floop (lval s) (fun i j => entry V [i; j]) (fun f i => rc (mass f i)) (coef C) k I.
Proof.
  destruct (ew_ok C p mW GF alpha W S P PH) as (E & Z & VP). destruct L as (LM & (al & LA & AP) & (a & b & c & g & L1 & L2 & L3 & L4 & SV)).
  pose proof (NP _ E) as (N1 & N2 & N3 & N4 & N5). cbn [e_mW e_mZ] in *.
  assert (MA : forall f, exists m, masses p f = Ok m).
  { intros f. unfold masses. assert (X : exists l, mapr (getp p) (mass_names f) = Ok l); [|destruct X as (l & ->); cbn [bind]; eauto].
    assert (Y : forall l, incl l ["m_u"; "m_c"; "m_t"; "m_d"; "m_s"; "m_b"; "m_e"; "m_mu"; "m_tau"] -> exists r, mapr (getp p) l = Ok r).
    { induction l as [|k l IH]; intros H; [now exists []|]. cbn [mapr]. destruct (LM k (H k (or_introl eq_refl))) as (m & D). unfold getp at 1. rewrite D. cbn [bind].
      destruct IH as (r & ->); [intros j J; apply H; now right|]. cbn [bind]. eauto. }
    apply Y. destruct f; cbn [mass_names]; intros k H; cbn in H |- *; tauto. }
  destruct (MA Fu) as (mu & EU). destruct (MA Fd) as (md & ED). destruct (MA Fe) as (me & EE).
  assert (V3 : matrix3 (ckm a b c g) (fun i j => entry (ckm a b c g) [i; j])) by (split; [exact SV|reflexivity]).
  set (s := {| l_mW := mW; l_mZ := the_mZ C mW GF alpha; l_mH := 125; l_mt := 173; l_vT := vev GF C; l_g1 := rc (the_g1 C mW GF alpha);
    l_g2 := 2 * mW / vev GF C; l_g3 := sqrt (4 * PI * al); l_scale := scale |}).
  assert (RG : regular s).
  { destruct PH as [H1 H2 H3 H4 H5]. fold (the_g1 C mW GF alpha) in *. fold (the_mZ C mW GF alpha) in *. split; cbn [s l_mW l_mZ l_mH l_mt l_vT l_scale]; auto; try lra. }
  set (mass := fun f => match f with Fu => mu | Fd => md | Fe => me | _ => fun _ => 0 end).
  destruct (loop_pt_ok s (ckm a b c g) _ mass C RG V3 W) as (out & EO & J & A).
  exists s, (ckm a b c g), mass, out. split; [exact RG|]. split; [apply rc_real|]. split; [exact V3|]. split; [|split; [exact J|exact A]].
  unfold loop_raw. rewrite E. cbn [bind e_mW e_mZ e_vT e_g1]. unfold fdiv at 1. fold (vev GF C) in *. destruct (Req_EM_T (vev GF C) 0) as [X|_]; [lra|]. cbn [bind].
  rewrite EU, ED, EE. cbn [bind]. unfold getp. rewrite LA. cbn [bind]. unfold fsqrt. destruct (Rlt_dec _ 0) as [X|_]; [pose proof PI_RGT_0; nra|]. cbn [bind].
  unfold ckm_of, getp. rewrite L1, L2, L3, L4. cbn [bind]. exact EO.
Qed.
End Raw.
