(* Symmetries of the matched coefficients. *)
From Coq Require Import List Bool ZArith Arith Lia String Ascii Field.
From Verif Require Import PyBase Num SymModel EftModel EftProofs NpModel NpProofs BetaSpec BetaModel TreeProg TreeModel TreeElem TreeSpec TreeProofs.
Import ListNotations.
Local Open Scope string_scope.
Local Open Scope list_scope.

Section Herm.
Context {K : StarField}.
Local Open Scope K_scope.
Add Field KFth : (k_field K) (morphism (kZ_morph (K := K)), constants [kz_const]).
Notation cdict := (dict string (cval K)).

Section Conj.
Variables (ck lk : string -> option nat) (cf lf : string -> idx -> K) (nz : string -> bool).
Hypothesis HN : forall x, nz x = true -> lf x [] <> 0.
Notation el := (elem ck lk cf lf nz).
Notation el' := (elem ck lk (fun k I => (cf k I)^*) (fun k I => (lf k I)^*) nz).
Lemma kconj_pow (a : K) n : (kpow a n)^* = kpow (a^*) n.
Proof. induction n as [|n IH]; cbn [kpow]; [apply kconj_1|]. now rewrite kconj_mul, IH. Qed.
Lemma elem_conj e : rank_ex ck lk nz e <> None -> forall I, (el e I)^* = el' e I.
Proof.
  induction e; cbn [rank_ex elem]; intros R I; try congruence.
  - apply kconj_Z.
  - rewrite kconj_add. destruct (rank_ex ck lk nz e1), (rank_ex ck lk nz e2); try congruence. now rewrite IHe1, IHe2.
  - rewrite kconj_sub. destruct (rank_ex ck lk nz e1), (rank_ex ck lk nz e2); try congruence. now rewrite IHe1, IHe2.
  - rewrite kconj_opp. now rewrite IHe.
  - rewrite kconj_mul. destruct (rank_ex ck lk nz e1) as [[|]|], (rank_ex ck lk nz e2) as [[|]|]; try congruence; now rewrite IHe1, IHe2.
  - destruct (rank_ex ck lk nz e1) eqn:R1, (rank_ex ck lk nz e2) as [[|]|] eqn:R2; try congruence.
    destruct (nzx nz e2) eqn:N; [|congruence]. rewrite kconj_div by (apply (nzx_ok ck lk cf lf nz HN); auto).
    now rewrite IHe1, IHe2.
  - rewrite kconj_pow. destruct (rank_ex ck lk nz e) as [[|]|]; try congruence. now rewrite IHe.
  - destruct (parse_spec s). destruct (rank_ex ck lk nz e); try congruence. now rewrite IHe.
  - destruct (parse_spec s). destruct (rank_ex ck lk nz e1), (rank_ex ck lk nz e2); try congruence. now rewrite kconj_mul, IHe1, IHe2.
Qed.
(* only the coefficients in the formula matter *)
Fixpoint keys_of (e : ex) : list string :=
  match e with
  | EC k => [k]
  | EAdd a b | ESub a b | EMul a b | EDiv a b | EEin2 _ a b => keys_of a ++ keys_of b
  | ENeg a | EPow a _ | EEin1 _ a => keys_of a
  | _ => []
  end.
Definition below (I : idx) : Prop := forall x, In x I -> (x < 3)%nat.
Lemma below_nil : below []. Proof. intros x []. Qed.
Lemma below_pick out ls I : below I -> below (pick out ls I).
Proof. intros B x H. unfold pick in H. apply in_map_iff in H as (a & <- & _). now apply nth_lt3. Qed.
Lemma in_l {A} (x : A) l m : In x l -> In x (l ++ m). Proof. intros. apply in_or_app. auto. Qed.
Lemma in_r {A} (x : A) l m : In x m -> In x (l ++ m). Proof. intros. apply in_or_app. auto. Qed.
Lemma length_pick out ls I : List.length (pick out ls I) = List.length ls. Proof. apply map_length. Qed.
Lemma ein_ok_len s rs r : ein_ok s rs = Some r -> map (@List.length ascii) (fst (parse_spec s)) = rs.
Proof.
  unfold ein_ok. destruct (parse_spec s) as [ins out]. destruct (_ && _) eqn:CK; [|discriminate].
  apply andb_true_iff in CK as [_ M]. destruct (keqb_spec (map (@List.length ascii) ins) rs) as [E|]; [|discriminate]. intros _. exact E.
Qed.
Lemma elem_ext cf' lf' e : (forall k r I, In k (keys_of e) -> ck k = Some r -> List.length I = r -> below I -> cf k I = cf' k I) -> (forall x I, lf x I = lf' x I) ->
  forall r, rank_ex ck lk nz e = Some r -> forall I, List.length I = r -> below I -> el e I = elem ck lk cf' lf' nz e I.
Proof.
  intros HC HL. induction e; cbn [rank_ex elem]; intros r0 R I LI B; cbn [keys_of] in HC; try discriminate R.
  - reflexivity.
  - apply (HC k r0); auto. now left.
  - apply HL.
  - destruct (rank_ex ck lk nz e1) as [x|] eqn:R1, (rank_ex ck lk nz e2) as [y|] eqn:R2; try discriminate R.
    destruct (Nat.eqb_spec x y) as [->|]; [|discriminate R]. injection R as ->.
    rewrite (IHe1 (fun k r J H => HC k r J (in_l _ _ _ H)) r0), (IHe2 (fun k r J H => HC k r J (in_r _ _ _ H)) r0); auto.
  - destruct (rank_ex ck lk nz e1) as [x|] eqn:R1, (rank_ex ck lk nz e2) as [y|] eqn:R2; try discriminate R.
    destruct (Nat.eqb_spec x y) as [->|]; [|discriminate R]. injection R as ->.
    rewrite (IHe1 (fun k r J H => HC k r J (in_l _ _ _ H)) r0), (IHe2 (fun k r J H => HC k r J (in_r _ _ _ H)) r0); auto.
  - now rewrite (IHe HC r0).
  - destruct (rank_ex ck lk nz e1) as [x|] eqn:R1; [|discriminate R]. destruct (rank_ex ck lk nz e2) as [y|] eqn:R2; [|destruct x; discriminate R].
    assert (A1 : forall J, List.length J = x -> below J -> el e1 J = elem ck lk cf' lf' nz e1 J) by (apply (IHe1 (fun k r J H => HC k r J (in_l _ _ _ H))); reflexivity).
    assert (A2 : forall J, List.length J = y -> below J -> el e2 J = elem ck lk cf' lf' nz e2 J) by (apply (IHe2 (fun k r J H => HC k r J (in_r _ _ _ H))); reflexivity).
    destruct x as [|x], y as [|y]; try discriminate R; rewrite ?(A1 [] eq_refl below_nil), ?(A2 [] eq_refl below_nil); try reflexivity.
    + injection R as <-. now rewrite A2.
    + injection R as <-. now rewrite A1.
  - destruct (rank_ex ck lk nz e1) as [x|] eqn:R1; [|discriminate R]. destruct (rank_ex ck lk nz e2) as [[|y]|] eqn:R2; try discriminate R.
    destruct (nzx nz e2); [|discriminate R]. injection R as ->.
    rewrite (IHe1 (fun k r J H => HC k r J (in_l _ _ _ H)) r0), (IHe2 (fun k r J H => HC k r J (in_r _ _ _ H)) 0%nat); auto using below_nil.
  - destruct (rank_ex ck lk nz e) as [[|x]|] eqn:R1; try discriminate R. rewrite (IHe HC 0%nat); auto using below_nil.
  - destruct (rank_ex ck lk nz e) as [x|] eqn:R1; [|discriminate R]. apply ein_ok_len in R. destruct (parse_spec s) as [ins out]. cbn [fst] in R.
    destruct ins as [|a [|]]; try discriminate R. injection R as R. apply (IHe HC x); auto using below_pick. now rewrite length_pick.
  - destruct (rank_ex ck lk nz e1) as [x|] eqn:R1; [|discriminate R]. destruct (rank_ex ck lk nz e2) as [y|] eqn:R2; [|discriminate R].
    apply ein_ok_len in R. destruct (parse_spec s) as [ins out]. cbn [fst] in R.
    destruct ins as [|a [|b [|]]]; try discriminate R. injection R as RA RB. cbn [nth].
    rewrite (IHe1 (fun k r J H => HC k r J (in_l _ _ _ H)) x), (IHe2 (fun k r J H => HC k r J (in_r _ _ _ H)) y); auto using below_pick; now rewrite length_pick.
Qed.
End Conj.

Section Env.
Variables sqrt2 mW mZ vT g1 : K.
Hypotheses (NS : sqrt2 <> 0) (NZ : mZ <> 0) (NV : vT <> 0).
Hypotheses (RS : kreal sqrt2) (RW : kreal mW) (RZ : kreal mZ) (RV : kreal vT) (RG : kreal g1).
Variable C : cdict.
Hypothesis WS : wc_symmetric C.
Notation c0 := (coef C).
Notation val := (value sqrt2 mW mZ vT g1 C).

Lemma by_sym k gs g I : dget symmetries k = Some gs -> kmem k (map fst wc_fields) = true -> kmem I (indices_of k) = true -> In g gs ->
  c0 k I = cj (snd g) (c0 k (permute (fst g) I)).
Proof. intros A B H G. apply (WS k gs g A B G). now apply kmem_In. Qed.
Lemma by_sym4 k gs g p r s t : dget symmetries k = Some gs -> kmem k (map fst wc_fields) = true -> indices_of k = idxs 4 ->
  (p < 3)%nat -> (r < 3)%nat -> (s < 3)%nat -> (t < 3)%nat -> In g gs -> c0 k [p; r; s; t] = cj (snd g) (c0 k (permute (fst g) [p; r; s; t])).
Proof.
  intros A B E P R S T G. apply (WS k gs g A B G). rewrite E. apply in_idxs. split; [reflexivity|]. cbn. intros x Hx. intuition (subst; auto).
Qed.
Definition ks2 := ["phil1"; "phil3"; "phie"; "phiq1"; "phiq3"; "phiu"; "phid"].
Definition ks4 := ["lq1"; "lq3"; "eu"; "ed"; "ud1"; "ud8"; "le"; "lu"; "ld"; "qe"; "qu1"; "qu8"; "qd1"; "qd8"].
Definition ksx := ["ll"; "qq1"; "qq3"; "uu"; "dd"; "ee"].
Lemma sc_real k : kmem k ["G"; "Gtilde"; "phiD"; "phiWB"] = true -> (c0 k [])^* = c0 k [].
Proof.
  intros M. symmetry. apply kmem_In in M. cbn in M.
  destruct M as [<-|[<-|[<-|[<-|[]]]]]; eapply (by_sym _ real0 ([], true)); try reflexivity; now left.
Qed.
Lemma c2 k p r : kmem k ks2 = true -> (p < 3)%nat -> (r < 3)%nat -> (c0 k [p; r])^* = c0 k [r; p].
Proof.
  intros M P R. symmetry.
  assert (IN : kmem [r; p] (idxs 2) = true) by (apply kmem_In; now apply idxs_2_in).
  apply kmem_In in M. cbn in M.
  destruct M as [<-|[<-|[<-|[<-|[<-|[<-|[<-|[]]]]]]]]; eapply (by_sym _ herm2 ([1; 0]%nat, true)); try reflexivity; try exact IN; now left.
Qed.
Lemma c4 k p r s t : kmem k (ks4 ++ ksx) = true -> (p < 3)%nat -> (r < 3)%nat -> (s < 3)%nat -> (t < 3)%nat -> (c0 k [p; r; s; t])^* = c0 k [r; p; t; s].
Proof.
  intros M P R S T. symmetry. apply kmem_In in M.
  assert (X : exists gs, dget symmetries k = Some gs /\ kmem k (map fst wc_fields) = true /\ indices_of k = idxs 4 /\ In ([1; 0; 3; 2]%nat, true) gs).
  { unfold ks4, ksx in M. cbn [app In] in M. repeat (destruct M as [<-|M]; [eexists; repeat split; cbn; auto|]). destruct M. }
  destruct X as (gs & A & B & E & G). exact (by_sym4 k gs _ r p t s A B E R P T S G).
Qed.
Lemma cx k p r s t : kmem k ksx = true -> (p < 3)%nat -> (r < 3)%nat -> (s < 3)%nat -> (t < 3)%nat -> c0 k [p; r; s; t] = c0 k [s; t; p; r].
Proof.
  intros M P R S T. apply kmem_In in M.
  assert (X : exists gs, dget symmetries k = Some gs /\ kmem k (map fst wc_fields) = true /\ indices_of k = idxs 4 /\ In ([2; 3; 0; 1]%nat, false) gs).
  { unfold ksx in M. cbn [In] in M. repeat (destruct M as [<-|M]; [eexists; repeat split; cbn; auto|]). destruct M. }
  destruct X as (gs & A & B & E & G). exact (by_sym4 k gs _ p r s t A B E P R S T G).
Qed.
Lemma dsym i j : delta i j = delta j i :> K. Proof. unfold delta. now rewrite Nat.eqb_sym. Qed.
Lemma dconj i j : (delta i j)^* = delta i j :> K.
Proof. unfold delta. destruct (Nat.eqb i j); [apply kconj_1|apply kconj_0]. Qed.
Lemma val_conj e I : rank_ex ck lk nzv e <> None ->
  (val e I)^* = elem ck lk (fun k I => (cfun (coef C) k I)^*) (fun k I => (lfun sqrt2 mW mZ vT g1 k I)^*) nzv e I.
Proof. intros R. apply elem_conj; [|exact R]. now apply nzv_ok. Qed.
Ltac values := lazy -[kZ coef delta kadd kmul ksub kopp kdiv kinv kconj k0 k1 car].
Lemma lf_real x I : (lfun sqrt2 mW mZ vT g1 x I)^* = lfun sqrt2 mW mZ vT g1 x I.
Proof.
  unfold lfun. repeat (destruct (String.eqb x _); [rewrite ?kconj_mul, ?dconj; first [reflexivity|apply kconj_Z|assumption]|]). apply kconj_0.
Qed.
Definition swapc (k : string) (I : idx) : K :=
  match I with [p; r] => c0 k [r; p] | [p; r; s; t] => c0 k [r; p; t; s] | _ => c0 k I end.
Definition hkeys : list string := ["G"; "Gtilde"; "phiD"; "phiWB"] ++ ks2 ++ ks4 ++ ksx.
Ltac fin p r s t :=
  rewrite ?(dsym r p), ?(dsym s p), ?(dsym t p), ?(dsym s r), ?(dsym t r), ?(dsym t s);
  rewrite ?kdiv_def; ring.
Definition is_herm (e : ex) : Prop := forall p r s t, (p < 3)%nat -> (r < 3)%nat -> (s < 3)%nat -> (t < 3)%nat ->
  val e [p; r; s; t] = (val e [r; p; t; s])^*.
Definition is_exch (e : ex) : Prop := forall p r s t, (p < 3)%nat -> (r < 3)%nat -> (s < 3)%nat -> (t < 3)%nat ->
  val e [p; r; s; t] = val e [s; t; p; r].
Definition is_fierz (e : ex) : Prop := forall p r s t, (p < 3)%nat -> (r < 3)%nat -> (s < 3)%nat -> (t < 3)%nat ->
  val e [p; r; s; t] = val e [p; t; s; r].
Lemma kmem_app (k : string) l m : kmem k (l ++ m) = kmem k l || kmem k m.
Proof. induction l as [|x l IH]; [reflexivity|]. change (keqb k x || kmem k (l ++ m) = (keqb k x || kmem k l) || kmem k m). rewrite IH. apply orb_assoc. Qed.
Lemma hkeys_ok k r I : kmem k hkeys = true -> ck k = Some r -> List.length I = r -> below I -> (cfun c0 k I)^* = swapc k I.
Proof.
  intros M R LI B. assert (X : cfun c0 k I = c0 k I).
  { unfold cfun. destruct (String.eqb_spec k "phiudDag") as [->|]; [discriminate M|reflexivity]. }
  rewrite X. unfold hkeys in M. rewrite !kmem_app in M. apply orb_true_iff in M as [M|M].
  { assert (r = 0%nat) as ->.
    { apply kmem_In in M. cbn in M. destruct M as [<-|[<-|[<-|[<-|[]]]]]; vm_compute in R; congruence. }
    destruct I; [|discriminate LI]. now apply sc_real. }
  apply orb_true_iff in M as [M|M].
  { assert (r = 2%nat) as ->.
    { apply kmem_In in M. cbn in M. repeat (destruct M as [<-|M]; [vm_compute in R; congruence|]). destruct M. }
    destruct I as [|p [|q [|]]]; try discriminate LI. apply c2; [exact M| |]; apply B; cbn; auto. }
  rewrite <- kmem_app in M. assert (r = 4%nat) as ->.
  { apply kmem_In in M. cbn in M. repeat (destruct M as [<-|M]; [vm_compute in R; congruence|]). destruct M. }
  destruct I as [|p [|q [|s [|t [|]]]]]; try discriminate LI. apply c4; [exact M| | | |]; apply B; cbn; auto 6.
Qed.
Lemma val_swap e r : rank_ex ck lk nzv e = Some r -> forallb (fun k => kmem k hkeys) (keys_of e) = true ->
  forall I, List.length I = r -> below I -> (val e I)^* = elem ck lk swapc (lfun sqrt2 mW mZ vT g1) nzv e I.
Proof.
  intros R F I LI B. rewrite val_conj by congruence. apply (elem_ext ck lk _ _ nzv swapc (lfun sqrt2 mW mZ vT g1)) with (r := r); auto.
  - intros k n J Hk. rewrite forallb_forall in F. apply hkeys_ok. now apply F.
  - apply lf_real.
Qed.
Lemma below4 p r s t : (p < 3)%nat -> (r < 3)%nat -> (s < 3)%nat -> (t < 3)%nat -> below [p; r; s; t].
Proof. intros A B D E x Hx. cbn in Hx. intuition (subst; auto). Qed.
Ltac herm e := intros p r s t Lp Lr Ls Lt;
  rewrite (val_swap e 4 ltac:(vm_cast_no_check (eq_refl (Some 4%nat))) ltac:(vm_cast_no_check (eq_refl true)) [r; p; t; s] eq_refl (below4 _ _ _ _ Lr Lp Lt Ls));
  unfold e; values; fin p r s t.
Ltac exch e := intros p r s t Lp Lr Ls Lt; unfold e; values; fin p r s t.
Lemma hm_VnueLL : is_herm t_VnueLL.
Proof. herm t_VnueLL. Qed.
Lemma hm_VnuuLL : is_herm t_VnuuLL.
Proof. herm t_VnuuLL. Qed.
Lemma hm_VnudLL : is_herm t_VnudLL.
Proof. herm t_VnudLL. Qed.
Lemma hm_VeuLL : is_herm t_VeuLL.
Proof. herm t_VeuLL. Qed.
Lemma hm_VedLL : is_herm t_VedLL.
Proof. herm t_VedLL. Qed.
Lemma hm_V1udLL : is_herm t_V1udLL.
Proof. herm t_V1udLL. Qed.
Lemma hm_V8udLL : is_herm t_V8udLL.
Proof. herm t_V8udLL. Qed.
Lemma hm_VnueLR : is_herm t_VnueLR.
Proof. herm t_VnueLR. Qed.
Lemma hm_VnuuLR : is_herm t_VnuuLR.
Proof. herm t_VnuuLR. Qed.
Lemma hm_VnudLR : is_herm t_VnudLR.
Proof. herm t_VnudLR. Qed.
Lemma hm_VeeLR : is_herm t_VeeLR.
Proof. herm t_VeeLR. Qed.
Lemma hm_VeuLR : is_herm t_VeuLR.
Proof. herm t_VeuLR. Qed.
Lemma hm_VedLR : is_herm t_VedLR.
Proof. herm t_VedLR. Qed.
Lemma hm_VueLR : is_herm t_VueLR.
Proof. herm t_VueLR. Qed.
Lemma hm_VdeLR : is_herm t_VdeLR.
Proof. herm t_VdeLR. Qed.
Lemma hm_V1uuLR : is_herm t_V1uuLR.
Proof. herm t_V1uuLR. Qed.
Lemma hm_V8uuLR : is_herm t_V8uuLR.
Proof. herm t_V8uuLR. Qed.
Lemma hm_V1udLR : is_herm t_V1udLR.
Proof. herm t_V1udLR. Qed.
Lemma hm_V8udLR : is_herm t_V8udLR.
Proof. herm t_V8udLR. Qed.
Lemma hm_V1duLR : is_herm t_V1duLR.
Proof. herm t_V1duLR. Qed.
Lemma hm_V8duLR : is_herm t_V8duLR.
Proof. herm t_V8duLR. Qed.
Lemma hm_V1ddLR : is_herm t_V1ddLR.
Proof. herm t_V1ddLR. Qed.
Lemma hm_V8ddLR : is_herm t_V8ddLR.
Proof. herm t_V8ddLR. Qed.
Lemma hm_VeuRR : is_herm t_VeuRR.
Proof. herm t_VeuRR. Qed.
Lemma hm_VedRR : is_herm t_VedRR.
Proof. herm t_VedRR. Qed.
Lemma hm_V1udRR : is_herm t_V1udRR.
Proof. herm t_V1udRR. Qed.
Lemma hm_V8udRR : is_herm t_V8udRR.
Proof. herm t_V8udRR. Qed.
Lemma hm_VuuLL : is_herm t_VuuLL.
Proof. herm t_VuuLL. Qed.
Lemma hm_VddLL : is_herm t_VddLL.
Proof. herm t_VddLL. Qed.
Lemma hm_VuuRR : is_herm t_VuuRR.
Proof. herm t_VuuRR. Qed.
Lemma hm_VddRR : is_herm t_VddRR.
Proof. herm t_VddRR. Qed.
Lemma hm_VnunuLL : is_herm t_VnunuLL.
Proof. herm t_VnunuLL. Qed.
Lemma hm_VeeLL : is_herm t_VeeLL.
Proof. herm t_VeeLL. Qed.
Lemma hm_VeeRR : is_herm t_VeeRR.
Proof. herm t_VeeRR. Qed.
Lemma xc_VuuLL : is_exch t_VuuLL.
Proof. exch t_VuuLL. Qed.
Lemma xc_VddLL : is_exch t_VddLL.
Proof. exch t_VddLL. Qed.
Lemma xc_VuuRR : is_exch t_VuuRR.
Proof. exch t_VuuRR. Qed.
Lemma xc_VddRR : is_exch t_VddRR.
Proof. exch t_VddRR. Qed.
Lemma xc_VnunuLL : is_exch t_VnunuLL.
Proof. exch t_VnunuLL. Qed.
Lemma xc_VeeLL : is_exch t_VeeLL.
Proof. exch t_VeeLL. Qed.
Lemma xc_VeeRR : is_exch t_VeeRR.
Proof. exch t_VeeRR. Qed.
Lemma fz_VnunuLL : is_fierz t_VnunuLL.
Proof. exch t_VnunuLL. Qed.
Lemma fz_VeeLL : is_fierz t_VeeLL.
Proof. exch t_VeeLL. Qed.
Lemma fz_VeeRR : is_fierz t_VeeRR.
Proof. exch t_VeeRR. Qed.
Lemma re_G : val t_G [] = (val t_G [])^*.
Proof. rewrite val_conj by (vm_compute; discriminate). unfold t_G. values. now rewrite (sc_real "G" eq_refl). Qed.
Lemma re_Gtilde : val t_Gtilde [] = (val t_Gtilde [])^*.
Proof. rewrite val_conj by (vm_compute; discriminate). unfold t_Gtilde. values. now rewrite (sc_real "Gtilde" eq_refl). Qed.
(* the generators of jms_symmetries *)
Definition sym_ok (kg : string * (list nat * bool)) : Prop :=
  exists e n, dget tree_prog (fst kg) = Some e /\ rank_ex ck lk nzv e = Some n /\
    forall I, In I (idxs n) -> val e I = cj (snd (snd kg)) (val e (permute (fst (snd kg)) I)).
Lemma lift_sym k e g : dget tree_prog k = Some e -> rank_ex ck lk nzv e = Some 4%nat ->
  (forall p r s t, (p < 3)%nat -> (r < 3)%nat -> (s < 3)%nat -> (t < 3)%nat -> val e [p; r; s; t] = cj (snd g) (val e (permute (fst g) [p; r; s; t]))) ->
  sym_ok (k, g).
Proof.
  intros A B H. exists e, 4%nat. split; [exact A|]. split; [exact B|]. intros I HI. apply in_idxs in HI as [HLn HB].
  destruct I as [|p [|r [|s [|t [|]]]]]; try discriminate HLn. apply H; apply HB; cbn; auto 6.
Qed.
Lemma syms_ok : Forall sym_ok (flat_map (fun kg => map (pair (fst kg)) (snd kg)) jms_symmetries).
Proof.
  cbn [jms_symmetries map app flat_map fst snd real0 herm4 exch4]. repeat apply Forall_cons; [..|constructor].
  - exists t_G, 0%nat. split; [reflexivity|]. split; [vm_compute; reflexivity|]. intros I [<-|[]]. exact re_G.
  - exists t_Gtilde, 0%nat. split; [reflexivity|]. split; [vm_compute; reflexivity|]. intros I [<-|[]]. exact re_Gtilde.
  - apply (lift_sym _ t_VnueLL); [reflexivity|vm_compute; reflexivity|]. exact hm_VnueLL.
  - apply (lift_sym _ t_VnuuLL); [reflexivity|vm_compute; reflexivity|]. exact hm_VnuuLL.
  - apply (lift_sym _ t_VnudLL); [reflexivity|vm_compute; reflexivity|]. exact hm_VnudLL.
  - apply (lift_sym _ t_VeuLL); [reflexivity|vm_compute; reflexivity|]. exact hm_VeuLL.
  - apply (lift_sym _ t_VedLL); [reflexivity|vm_compute; reflexivity|]. exact hm_VedLL.
  - apply (lift_sym _ t_V1udLL); [reflexivity|vm_compute; reflexivity|]. exact hm_V1udLL.
  - apply (lift_sym _ t_V8udLL); [reflexivity|vm_compute; reflexivity|]. exact hm_V8udLL.
  - apply (lift_sym _ t_VnueLR); [reflexivity|vm_compute; reflexivity|]. exact hm_VnueLR.
  - apply (lift_sym _ t_VnuuLR); [reflexivity|vm_compute; reflexivity|]. exact hm_VnuuLR.
  - apply (lift_sym _ t_VnudLR); [reflexivity|vm_compute; reflexivity|]. exact hm_VnudLR.
  - apply (lift_sym _ t_VeeLR); [reflexivity|vm_compute; reflexivity|]. exact hm_VeeLR.
  - apply (lift_sym _ t_VeuLR); [reflexivity|vm_compute; reflexivity|]. exact hm_VeuLR.
  - apply (lift_sym _ t_VedLR); [reflexivity|vm_compute; reflexivity|]. exact hm_VedLR.
  - apply (lift_sym _ t_VueLR); [reflexivity|vm_compute; reflexivity|]. exact hm_VueLR.
  - apply (lift_sym _ t_VdeLR); [reflexivity|vm_compute; reflexivity|]. exact hm_VdeLR.
  - apply (lift_sym _ t_V1uuLR); [reflexivity|vm_compute; reflexivity|]. exact hm_V1uuLR.
  - apply (lift_sym _ t_V8uuLR); [reflexivity|vm_compute; reflexivity|]. exact hm_V8uuLR.
  - apply (lift_sym _ t_V1udLR); [reflexivity|vm_compute; reflexivity|]. exact hm_V1udLR.
  - apply (lift_sym _ t_V8udLR); [reflexivity|vm_compute; reflexivity|]. exact hm_V8udLR.
  - apply (lift_sym _ t_V1duLR); [reflexivity|vm_compute; reflexivity|]. exact hm_V1duLR.
  - apply (lift_sym _ t_V8duLR); [reflexivity|vm_compute; reflexivity|]. exact hm_V8duLR.
  - apply (lift_sym _ t_V1ddLR); [reflexivity|vm_compute; reflexivity|]. exact hm_V1ddLR.
  - apply (lift_sym _ t_V8ddLR); [reflexivity|vm_compute; reflexivity|]. exact hm_V8ddLR.
  - apply (lift_sym _ t_VeuRR); [reflexivity|vm_compute; reflexivity|]. exact hm_VeuRR.
  - apply (lift_sym _ t_VedRR); [reflexivity|vm_compute; reflexivity|]. exact hm_VedRR.
  - apply (lift_sym _ t_V1udRR); [reflexivity|vm_compute; reflexivity|]. exact hm_V1udRR.
  - apply (lift_sym _ t_V8udRR); [reflexivity|vm_compute; reflexivity|]. exact hm_V8udRR.
  - apply (lift_sym _ t_VuuLL); [reflexivity|vm_compute; reflexivity|]. exact xc_VuuLL.
  - apply (lift_sym _ t_VuuLL); [reflexivity|vm_compute; reflexivity|]. exact hm_VuuLL.
  - apply (lift_sym _ t_VddLL); [reflexivity|vm_compute; reflexivity|]. exact xc_VddLL.
  - apply (lift_sym _ t_VddLL); [reflexivity|vm_compute; reflexivity|]. exact hm_VddLL.
  - apply (lift_sym _ t_VuuRR); [reflexivity|vm_compute; reflexivity|]. exact xc_VuuRR.
  - apply (lift_sym _ t_VuuRR); [reflexivity|vm_compute; reflexivity|]. exact hm_VuuRR.
  - apply (lift_sym _ t_VddRR); [reflexivity|vm_compute; reflexivity|]. exact xc_VddRR.
  - apply (lift_sym _ t_VddRR); [reflexivity|vm_compute; reflexivity|]. exact hm_VddRR.
  - apply (lift_sym _ t_VnunuLL); [reflexivity|vm_compute; reflexivity|]. exact xc_VnunuLL.
  - apply (lift_sym _ t_VnunuLL); [reflexivity|vm_compute; reflexivity|]. exact hm_VnunuLL.
  - apply (lift_sym _ t_VnunuLL); [reflexivity|vm_compute; reflexivity|]. exact fz_VnunuLL.
  - apply (lift_sym _ t_VeeLL); [reflexivity|vm_compute; reflexivity|]. exact xc_VeeLL.
  - apply (lift_sym _ t_VeeLL); [reflexivity|vm_compute; reflexivity|]. exact hm_VeeLL.
  - apply (lift_sym _ t_VeeLL); [reflexivity|vm_compute; reflexivity|]. exact fz_VeeLL.
  - apply (lift_sym _ t_VeeRR); [reflexivity|vm_compute; reflexivity|]. exact xc_VeeRR.
  - apply (lift_sym _ t_VeeRR); [reflexivity|vm_compute; reflexivity|]. exact hm_VeeRR.
  - apply (lift_sym _ t_VeeRR); [reflexivity|vm_compute; reflexivity|]. exact fz_VeeRR.
Qed.
Definition perms_ok : bool := forallb (fun kg => match dget tree_prog (fst kg) with
  | Some e => match rank_ex ck lk nzv e with Some n => Nat.eqb (List.length (fst (snd kg))) n | None => false end | None => false end)
  (flat_map (fun kg => map (pair (fst kg)) (snd kg)) jms_symmetries).
Lemma perms_checked : perms_ok = true. Proof. vm_cast_no_check (eq_refl true). Qed.
Lemma perm_len k g : In (k, g) (flat_map (fun kg => map (pair (fst kg)) (snd kg)) jms_symmetries) ->
  exists e n, dget tree_prog k = Some e /\ rank_ex ck lk nzv e = Some n /\ List.length (fst g) = n.
Proof.
  intros H. pose proof perms_checked as P. unfold perms_ok in P. rewrite forallb_forall in P. specialize (P _ H). cbn [fst snd] in P.
  destruct (dget tree_prog k) as [e|]; [|discriminate]. destruct (rank_ex ck lk nzv e) as [n|] eqn:R; [|discriminate].
  exists e, n. repeat split; auto. now apply Nat.eqb_eq.
Qed.
Lemma symmetric_out c : wc_point C -> tree_at sqrt2 mW mZ vT g1 C = Ok c ->
  forall k gs g, dget jms_symmetries k = Some gs -> In g gs ->
  exists n v, dget c k = Some v /\ vshape v = repeat 3%nat n /\ jms_obeys k n g c.
Proof.
  intros W T k gs g D G. destruct (tree_at_ok sqrt2 mW mZ vT g1 NS NZ NV C W) as (c' & T' & V).
  rewrite T in T'. injection T' as <-.
  pose proof syms_ok as H. rewrite Forall_forall in H. destruct (H (k, g)) as (e & n & E & R & S).
  { apply in_flat_map. exists (k, gs). split; [now apply dget_In|]. cbn [fst snd]. now apply in_map. }
  cbn [fst snd] in *. destruct (V k e n (dget_In _ _ _ E) R) as (v & DV & RP). exists n, v. split; [exact DV|].
  split; [exact (proj1 RP)|].
  assert (PI : forall I, In I (idxs n) -> In (permute (fst g) I) (idxs n)).
  { intros I HI. apply in_idxs in HI as [LI B]. apply in_idxs. split.
    - unfold permute. rewrite map_length. destruct (perm_len k g) as (e' & n' & E' & R' & LP).
      { apply in_flat_map. exists (k, gs). split; [now apply dget_In|]. cbn [fst snd]. now apply in_map. }
      rewrite E in E'. injection E' as <-. rewrite R in R'. injection R' as <-. exact LP.
    - intros x Hx. unfold permute in Hx. apply in_map_iff in Hx as (i & <- & _). now apply nth_lt3. }
  intros I HI. unfold coef. rewrite DV. destruct RP as (_ & _ & RP). rewrite (RP I HI), (RP _ (PI I HI)). now apply S.
Qed.
End Env.
End Herm.
