(* What loop_at computes: the value of every coefficient. *)
From Coq Require Import List Bool ZArith Arith Lia String Ascii Field.
From Verif Require Import PyBase Num SymModel EftModel EftProofs NpModel NpProofs BetaSpec BetaModel TreeModel TreeSpec TreeProofs LoopSyntax LoopData LoopModel.
Import ListNotations.
Local Open Scope string_scope.
Local Open Scope list_scope.

Definition base_eqb (a b : base) : bool :=
  match a, b with
  | BW, BW | BZ, BZ | BH, BH | Bt, Bt | Bv, Bv | Bg1, Bg1 | Bg2, Bg2 | Bg3, Bg3 | Bpi, Bpi | Br2, Br2 | BNc, BNc | Bcf, Bcf | BEv, BEv | Bi, Bi
  | BlW, BlW | BlZ, BlZ | BlH, BlH | Blt, Blt => true
  | _, _ => false
  end.
Lemma base_eqb_eq a b : base_eqb a b = true -> a = b.
Proof. destruct a, b; (reflexivity || discriminate). Qed.
Fixpoint list_eqb {A} (f : A -> A -> bool) (l m : list A) : bool :=
  match l, m with [], [] => true | x :: l', y :: m' => f x y && list_eqb f l' m' | _, _ => false end.
Lemma list_eqb_eq {A} (f : A -> A -> bool) l m : (forall x y, f x y = true -> x = y) -> list_eqb f l m = true -> l = m.
Proof.
  intros H. revert m; induction l as [|x l IH]; intros [|y m]; cbn [list_eqb]; try discriminate; [reflexivity|].
  rewrite andb_true_iff. intros [E F]. now rewrite (H _ _ E), (IH _ F).
Qed.
Definition powers_eqb : powers -> powers -> bool := list_eqb (fun a b => base_eqb (fst a) (fst b) && Z.eqb (snd a) (snd b)).
Lemma powers_eqb_eq l m : powers_eqb l m = true -> l = m.
Proof.
  apply list_eqb_eq. intros [a x] [b y]. cbn [fst snd]. rewrite andb_true_iff. intros [E F].
  apply base_eqb_eq in E. apply Z.eqb_eq in F. now subst.
Qed.
Definition psum_eqb : psum -> psum -> bool := list_eqb (fun a b => Z.eqb (fst a) (fst b) && powers_eqb (snd a) (snd b)).
Lemma psum_eqb_eq l m : psum_eqb l m = true -> l = m.
Proof.
  apply list_eqb_eq. intros [a x] [b y]. cbn [fst snd]. rewrite andb_true_iff. intros [E F].
  apply powers_eqb_eq in F. apply Z.eqb_eq in E. now subst.
Qed.
(* the variables that occur in denominators *)
Definition dbase (b : base) : bool := match b with BH | BNc | BZ | Bpi | Br2 | Bt | Bv => true | _ => false end.
Definition powers_ok (l : powers) : bool := forallb (fun bn => Z.leb 0 (snd bn) || dbase (fst bn)) l.
Definition psum_ok (s : psum) : bool := forallb (fun t => powers_ok (snd t)) s.
Definition mono_ok (m : mono) : bool :=
  powers_ok (fst m) && forallb (fun sn => psum_ok (fst sn) && existsb (psum_eqb (fst sn)) loop_sums) (snd m).
Definition pref_ok (p : pref) : bool := forallb (fun t => let 'T _ _ m := t in mono_ok m) p.
Definition dagbase : dict string string :=
  [("phiudDag", "phiud"); ("uBDag", "uB"); ("uGDag", "uG"); ("uWDag", "uW"); ("uphiDag", "uphi")].
Definition lck (k : string) : option nat :=
  match dget dagbase k with Some _ => Some 2%nat | None => match dget wc_fields k with Some ts => Some (List.length ts) | None => None end end.
Definition opnd_rank (o : opnd) : option nat :=
  match o with OC k => lck k | OM _ => Some 1%nat | _ => Some 2%nat end.
Fixpoint opnds_ok (ins : list (list ascii)) (os : list opnd) : bool :=
  match ins, os with
  | [], [] => true
  | ls :: ins', o :: os' => match opnd_rank o with Some r => Nat.eqb r (List.length ls) | None => false end && opnds_ok ins' os'
  | _, _ => false
  end.
Definition tensor_ok (n : nat) (t : tensor) : bool :=
  let (ins, out) := parse_spec (fst t) in
  forallb (fun c => kmem c (List.concat ins)) out && knodup out && opnds_ok ins (snd t) && Nat.eqb (List.length out) n.
Definition group_ok (n : nat) (g : group) : bool :=
  let '(t, w, p) := g in
  pref_ok p && match w with Some k => match lck k with Some r => Nat.eqb r 0 | None => false end | None => true end &&
  match t with Some t => tensor_ok n t | None => Nat.eqb n 0 end.
Definition assign_ok (n : nat) (gs : list group) : bool := match gs with [] => false | _ => forallb (group_ok n) gs end.
Definition jrank (k : string) : option nat := match dget jms_fields k with Some ts => Some (List.length ts) | None => None end.
Definition kg_ok (kg : string * list group) : bool := match jrank (fst kg) with Some n => assign_ok n (snd kg) | None => false end.
Lemma prog_nodup_true : knodup (map fst loop_prog) = true.
Proof. vm_cast_no_check (eq_refl true). Qed.
Lemma prog_ok_true : forallb kg_ok loop_prog = true.
Proof. vm_cast_no_check (eq_refl true). Qed.

Section Gen.
Context {K : StarField}.
Local Open Scope K_scope.
Add Field KFlp : (k_field K) (morphism (kZ_morph (K := K)), constants [kz_const]).
Notation cdict := (dict string (cval K)).

(* ---------- the scalar factors ---------- *)
Section Scalars.
Variable val : base -> K.
Definition zpw (x : K) (n : Z) : K :=
  match n with Z0 => 1 | Zpos p => kpow x (Pos.to_nat p) | Zneg p => 1 / kpow x (Pos.to_nat p) end.
Definition vpowers (l : powers) : K := kprod (map (fun bn => zpw (val (fst bn)) (snd bn)) l).
Definition vpsum (l : psum) : K := ksum (map (fun t => kZ (fst t) * vpowers (snd t)) l).
Definition vmono (m : mono) : K := vpowers (fst m) * kprod (map (fun sn => zpw (vpsum (fst sn)) (snd sn)) (snd m)).
Definition vterm (t : term) : K := let 'T n d m := t in kZ n / kZ (Zpos d) * vmono m.
Definition vpref (p : pref) : K := ksum (map vterm p).

Hypothesis HD : forall b, dbase b = true -> val b <> 0.
Hypothesis HS : forall s, In s loop_sums -> vpsum s <> 0.
Lemma epow_ok (x : K) n : ((n < 0)%Z -> x <> 0) -> epow x n = Ok (zpw x n).
Proof.
  destruct n as [|p|p]; cbn [epow zpw]; intros H; [reflexivity|reflexivity|].
  destruct (kdec_spec K x 0) as [E|]; [|reflexivity]. elim H; [lia|exact E].
Qed.
Lemma mapr_ok {A B} (f : A -> res B) (g : A -> B) l : (forall x, In x l -> f x = Ok (g x)) -> mapr f l = Ok (map g l).
Proof.
  induction l as [|x l IH]; intros H; [reflexivity|]. cbn [mapr map]. rewrite (H x (or_introl eq_refl)). cbn [bind].
  rewrite IH by (intros y Y; apply H; now right). reflexivity.
Qed.
Lemma epowers_ok l : powers_ok l = true -> epowers val l = Ok (vpowers l).
Proof.
  intros H. unfold epowers. rewrite (mapr_ok _ (fun bn => zpw (val (fst bn)) (snd bn))); [reflexivity|].
  intros [b n] I. cbn [fst snd]. apply epow_ok. intros N. apply HD. unfold powers_ok in H. rewrite forallb_forall in H.
  specialize (H _ I). cbn [fst snd] in H. apply orb_true_iff in H as [H|H]; [lia|exact H].
Qed.
Lemma epsum_ok s : psum_ok s = true -> epsum val s = Ok (vpsum s).
Proof.
  intros H. unfold epsum. rewrite (mapr_ok _ (fun t => kZ (fst t) * vpowers (snd t))); [reflexivity|].
  intros t I. unfold psum_ok in H. rewrite forallb_forall in H. now rewrite (epowers_ok _ (H t I)).
Qed.
Lemma emono_ok m : mono_ok m = true -> emono val m = Ok (vmono m).
Proof.
  unfold mono_ok. rewrite andb_true_iff, forallb_forall. intros [A B]. unfold emono. rewrite (epowers_ok _ A). cbn [bind].
  rewrite (mapr_ok _ (fun sn => zpw (vpsum (fst sn)) (snd sn))); [reflexivity|].
  intros sn I. apply B in I. apply andb_true_iff in I as [S E]. rewrite (epsum_ok _ S). cbn [bind]. apply epow_ok. intros _.
  apply existsb_exists in E as (s & IN & E). apply psum_eqb_eq in E as ->. now apply HS.
Qed.
Lemma epref_ok p : pref_ok p = true -> epref val p = Ok (vpref p).
Proof.
  intros H. unfold epref. rewrite (mapr_ok _ vterm); [reflexivity|].
  intros [n d m] I. unfold pref_ok in H. rewrite forallb_forall in H. specialize (H _ I). cbn beta iota in H. cbn [vterm].
  now rewrite (emono_ok _ H).
Qed.
End Scalars.

(* ---------- the daggered coefficients ---------- *)
Definition lcf (c : string -> idx -> K) (k : string) (I : idx) : K :=
  match dget dagbase k with Some b => (c b [nth 1 I 0%nat; nth 0 I 0%nat])^* | None => c k I end.
Lemma length_append a b : String.length (a ++ b)%string = (String.length a + String.length b)%nat.
Proof. induction a as [|x a IH]; cbn; [reflexivity|]. now rewrite IH. Qed.
Lemma append_inj a b c : (a ++ c)%string = (b ++ c)%string -> a = b.
Proof.
  revert b; induction a as [|x a IH]; intros [|y b] H; cbn in H.
  - reflexivity.
  - exfalso. apply (f_equal String.length) in H. cbn in H. rewrite length_append in H. lia.
  - exfalso. apply (f_equal String.length) in H. cbn in H. rewrite length_append in H. lia.
  - injection H as -> H. f_equal. now apply IH.
Qed.
Definition dagn (k : string) : string := (k ++ "Dag")%string.
Lemma ldag_dipoles_ok ks : NoDup ks -> (forall k j, In k ks -> In j ks -> dagn k <> j) -> forall D : cdict,
  exists D', dag_dipoles ks D = Ok D' /\
    (forall x, (forall k, In k ks -> dagn k <> x) -> dget D' x = dget D x) /\
    (forall k v, In k ks -> dget D k = Some v -> dget D' (dagn k) = Some (np_T (np_conj v))).
Proof.
  induction ks as [|k ks IH]; intros ND NI D; cbn [dag_dipoles].
  { exists D. repeat split; auto. intros ? ? []. }
  inversion_clear ND as [|? ? NK ND'].
  assert (NI' : forall a b, In a ks -> In b ks -> dagn a <> b) by (intros; apply NI; now right).
  destruct (dmem D k) eqn:M.
  - unfold dag2, getk, lookup. rewrite dmem_dget in M. destruct (dget D k) as [v|] eqn:G; [|discriminate M]. cbn [bind].
    change (k ++ "Dag")%string with (dagn k).
    destruct (IH ND' NI' (dset D (dagn k) (np_T (np_conj v)))) as (D' & E & O & Q). exists D'. split; [exact E|]. split.
    + intros x X. rewrite O by (intros; apply X; now right). apply dget_dset_neq. intros ->. apply (X k); [now left|reflexivity].
    + intros j w [<-|J] GJ.
      * rewrite O; [rewrite dget_dset_eq; congruence|]. intros a A E2. apply append_inj in E2. subst. contradiction.
      * apply (Q j w J). rewrite dget_dset_neq; [exact GJ|]. intros ->. apply (NI k (dagn k)); [now left|now right|reflexivity].
  - destruct (IH ND' NI' D) as (D' & E & O & Q). exists D'. split; [exact E|]. split.
    + intros x X. apply O. intros; apply X; now right.
    + intros j w [<-|J] GJ; [|now apply Q]. rewrite dmem_dget, GJ in M. discriminate M.
Qed.
Lemma ldag_four_ok C ks : wc_point C -> (forall k, In k ks -> exists t1 t2 t3 t4, dget wc_fields k = Some [t1; t2; t3; t4]) ->
  (forall k, In k ks -> dget wc_fields (dagn k) = None) ->
  forall D : cdict, agree C D -> exists D', dag_four ks D = Ok D' /\ (forall x, (forall k, In k ks -> dagn k <> x) -> dget D' x = dget D x).
Proof.
  intros W. induction ks as [|k ks IH]; intros N1 N2 D A; cbn [dag_four]; [eauto|].
  destruct (N1 k (or_introl eq_refl)) as (t1 & t2 & t3 & t4 & G).
  destruct (wc_rep D k _ (wc_agree C D W A) G) as (v & GV & RV). unfold getk, lookup. rewrite GV. cbn [bind].
  destruct (rep_einsum "rpts" (fst (parse_spec "rpts")) (snd (parse_spec "rpts")) [v] [coef D k]) as (u & U & _);
    [reflexivity|reflexivity|cbn; auto|].
  rewrite U. cbn [bind]. destruct (IH (fun x H => N1 x (or_intror H)) (fun x H => N2 x (or_intror H)) (dset D (k ++ "Dag")%string (np_conj u))) as (D' & E & O).
  { apply agree_set; [exact A|]. apply N2. now left. }
  exists D'. split; [exact E|]. intros x X. rewrite O by (intros; apply X; now right). apply dget_dset_neq. intros ->. apply (X k); [now left|reflexivity].
Qed.
Lemma nin_check (x : string) (l : list string) : forallb (fun k => negb (String.eqb k x)) l = true -> forall k, In k l -> k <> x.
Proof. rewrite forallb_forall. intros H k I E. apply H in I. subst. now rewrite String.eqb_refl in I. Qed.
Lemma nin_dag (x : string) (l : list string) : forallb (fun k => negb (String.eqb (dagn k) x)) l = true -> forall k, In k l -> dagn k <> x.
Proof. rewrite forallb_forall. intros H k I E. apply H in I. rewrite E in I. now rewrite String.eqb_refl in I. Qed.
Definition four_keys : list string := ["ledq"; "lequ1"; "lequ3"; "quqd1"; "quqd8"].
Lemma ldaggers_ok C : wc_point C -> exists C', daggers C = Ok C' /\
  forall k r, lck k = Some r -> exists v, dget C' k = Some v /\ rep v r (lcf (coef C) k).
Proof.
  intros W. unfold daggers.
  destruct (ldag_dipoles_ok dag_keys) with (D := C) as (D & E & O & Q).
  { apply knodup_NoDup. reflexivity. }
  { intros k j Hk Hj. cbn in Hk, Hj. repeat (destruct Hk as [<-|Hk]; [repeat (destruct Hj as [<-|Hj]; [discriminate|]); destruct Hj|]). destruct Hk. }
  rewrite E. cbn [bind].
  assert (A : agree C D).
  { intros k ts G. apply O. intros j J <-. cbn in J. repeat (destruct J as [<-|J]; [discriminate G|]). destruct J. }
  unfold dag2. destruct (wc_rep D "phiud" _ (wc_agree C D W A) eq_refl) as (v & GV & RV).
  unfold getk, lookup. rewrite GV. cbn [bind].
  set (D1 := dset D "phiudDag" (np_T (np_conj v))).
  destruct (ldag_four_ok C four_keys W) with (D := D1) as (D' & E' & O').
  { intros k Hk. cbn in Hk. repeat (destruct Hk as [<-|Hk]; [do 4 eexists; reflexivity|]). destruct Hk. }
  { intros k Hk. cbn in Hk. repeat (destruct Hk as [<-|Hk]; [reflexivity|]). destruct Hk. }
  { apply agree_set; [exact A|reflexivity]. }
  exists D'. split; [exact E'|]. intros k r. unfold lck, lcf. destruct (dget dagbase k) as [b|] eqn:GB.
  - intros R. injection R as <-. cbn in GB.
    assert (two_dag : forall x ts1 ts2, In x dag_keys -> dget wc_fields x = Some [ts1; ts2] ->
      forallb (fun k => negb (String.eqb (dagn k) (dagn x))) four_keys = true -> dagn x <> "phiudDag" ->
      exists v0, dget D' (dagn x) = Some v0 /\ rep v0 2 (fun I => (coef C x [nth 1 I 0%nat; nth 0 I 0%nat])^*)).
    { intros x ts1 ts2 Hx Gx Fx Nx. destruct (wc_rep C x _ W Gx) as (w & GW & RW). exists (np_T (np_conj w)). split.
      - rewrite (O' _ (nin_dag _ _ Fx)). unfold D1. rewrite dget_dset_neq by exact Nx. now apply Q.
      - exact (rep_T _ _ (rep_conj _ _ _ RW)). }
    destruct (String.eqb_spec k "phiudDag") as [->|].
    { injection GB as <-. exists (np_T (np_conj v)). split.
      - rewrite (O' _ (nin_dag "phiudDag" four_keys eq_refl)). apply dget_dset_eq.
      - eapply rep_ext; [exact (rep_T _ _ (rep_conj _ _ _ RV))|]. intros I HI. cbn beta. now rewrite (coef_agree C D "phiud" _ A eq_refl). }
    repeat (match type of GB with context [String.eqb k ?x] => destruct (String.eqb_spec k x) as [->|];
      [injection GB as <-; match x with
        | "uBDag" => apply (two_dag "uB" (bar Fq) (pln Fu)) | "uGDag" => apply (two_dag "uG" (bar Fq) (pln Fu))
        | "uWDag" => apply (two_dag "uW" (bar Fq) (pln Fu)) | "uphiDag" => apply (two_dag "uphi" (bar Fq) (pln Fu)) end;
       [cbn; tauto|reflexivity|reflexivity|discriminate]|] end).
    discriminate GB.
  - destruct (dget wc_fields k) as [ts|] eqn:G; [|discriminate]. intros R. injection R as <-.
    destruct (wc_rep C k ts W G) as (w & GW & RW). exists w. split; [|exact RW].
    rewrite O'; [unfold D1; rewrite dget_dset_neq; [rewrite (A k ts G); exact GW|intros ->; discriminate G]|].
    intros j J <-. cbn in J. repeat (destruct J as [<-|J]; [discriminate G|]). destruct J.
Qed.

(* ---------- tensors, groups and assignments ---------- *)
Section Values.
Variables (val : base -> K) (Vf : nat -> nat -> K) (mass : field -> nat -> K) (cf : string -> idx -> K).
Definition kt (i j : nat) : K := if Nat.eqb i 2 && Nat.eqb j 2 then 1 else 0.
Definition fopnd (o : opnd) (I : idx) : K :=
  let i := nth 0 I 0%nat in let j := nth 1 I 0%nat in
  match o with
  | OC k => cf k I
  | Okd => delta i j
  | Okt => kt i j
  | OV => Vf i j
  | OVd => (Vf j i)^*
  | OM f => mass f i
  | OD f => if Nat.eqb i j then mass f i else 0
  end.
Definition ftensor (t : tensor) (O : idx) : K :=
  let (ins, out) := parse_spec (fst t) in
  ksum (map (fun s => ein_fun (out ++ summed_letters ins out) (O ++ s) ins (map fopnd (snd t))) (idxs (List.length (summed_letters ins out)))).
Definition fgroup (g : group) (I : idx) : K :=
  let '(t, w, p) := g in
  (vpref val p * match w with Some k => cf k [] | None => 1 end) * match t with Some t => ftensor t I | None => 1 end.
Definition fassign (gs : list group) (I : idx) : K := ksum (map (fun g => fgroup g I) gs).

Variables (V : cval K) (C : cdict).
Hypothesis HD : forall b, dbase b = true -> val b <> 0.
Hypothesis HS : forall s, In s loop_sums -> vpsum val s <> 0.
Hypothesis HV : rep V 2 (fun I => Vf (nth 0 I 0%nat) (nth 1 I 0%nat)).
Hypothesis HC : forall k r, lck k = Some r -> exists v, dget C k = Some v /\ rep v r (cf k).
Lemma eopnd_ok o r : opnd_rank o = Some r -> exists v, eopnd V mass C o = Ok v /\ rep v r (fopnd o).
Proof.
  destruct o as [k| | | | |f|f]; cbn [opnd_rank eopnd]; intros R.
  - destruct (HC k r R) as (v & G & RV). exists v. unfold getk, lookup. now rewrite G.
  - injection R as <-. eexists. split; [reflexivity|]. eapply rep_ext; [exact rep_eye|]. reflexivity.
  - injection R as <-. eexists. split; [reflexivity|]. apply (rep_arr 1). reflexivity.
  - injection R as <-. eexists. split; [reflexivity|]. exact HV.
  - injection R as <-. eexists. split; [reflexivity|]. eapply rep_ext; [exact (rep_T _ _ (rep_conj _ _ _ HV))|]. reflexivity.
  - injection R as <-. eexists. split; [reflexivity|]. apply (rep_arr 0). reflexivity.
  - injection R as <-. eexists. split; [reflexivity|]. apply (rep_arr 1). reflexivity.
Qed.
Lemma eopnds_ok os : forall ins, opnds_ok ins os = true -> exists vs, mapr (eopnd V mass C) os = Ok vs /\ ops_ok ins vs (map fopnd os).
Proof.
  induction os as [|o os IH]; intros [|ls ins]; cbn [opnds_ok mapr]; try discriminate.
  - intros _. exists []. split; [reflexivity|exact Logic.I].
  - rewrite andb_true_iff. intros [R H]. destruct (opnd_rank o) as [r|] eqn:RO; [|discriminate]. apply Nat.eqb_eq in R as ->.
    destruct (eopnd_ok o _ RO) as (v & E & RV). rewrite E. cbn [bind]. destruct (IH ins H) as (vs & E2 & OK). rewrite E2. cbn [bind].
    exists (v :: vs). split; [reflexivity|]. split; [exact RV|exact OK].
Qed.
Lemma etensor_ok n t : tensor_ok n t = true -> exists v, etensor V mass C t = Ok v /\ rep v n (ftensor t).
Proof.
  unfold tensor_ok, etensor, ftensor. destruct (parse_spec (fst t)) as [ins out] eqn:PS. rewrite !andb_true_iff.
  intros [[[A B] O] L]. apply Nat.eqb_eq in L as <-. destruct (eopnds_ok _ _ O) as (vs & E & OK). rewrite E. cbn [bind].
  apply (rep_einsum _ ins out vs _ PS); [|exact OK]. now rewrite A, B.
Qed.
Lemma egroup_ok n g : group_ok n g = true -> exists v, egroup val V mass C g = Ok v /\ rep v n (fgroup g).
Proof.
  destruct g as [[t w] p]. cbn [group_ok egroup fgroup]. rewrite !andb_true_iff. intros [[P W] T].
  rewrite (epref_ok val HD HS _ P). cbn [bind].
  assert (Y : exists y, match w with Some k => bind (getk C k) (np_mul (CNum (vpref val p))) | None => Ok (CNum (vpref val p)) end = Ok (CNum y) /\
    y = vpref val p * match w with Some k => cf k [] | None => 1 end).
  { destruct w as [k|].
    - destruct (lck k) as [r|] eqn:LK; [|discriminate]. apply Nat.eqb_eq in W as ->. destruct (HC k _ LK) as (v & G & RV).
      apply rep_0 in RV as ->. unfold getk, lookup. rewrite G. cbn [bind]. eexists. split; [reflexivity|]. reflexivity.
    - eexists. split; [reflexivity|]. ring. }
  destruct Y as (y & -> & ->). cbn [bind]. destruct t as [t|].
  - destruct (etensor_ok n t T) as (v & -> & RV). cbn [bind].
    destruct (rep_scale_l kmul (CNum (vpref val p * match w with Some k => cf k [] | None => 1 end)) v n
      (fun _ => vpref val p * match w with Some k => cf k [] | None => 1 end) (ftensor t)) as (u & U & RU); [now apply rep_num|exact RV|].
    exists u. split; [exact U|]. exact RU.
  - apply Nat.eqb_eq in T as ->. eexists. split; [reflexivity|]. apply rep_num. unfold fgroup. ring.
Qed.
Lemma egroups_ok n gs : forallb (group_ok n) gs = true -> forall acc f, rep acc n f ->
  exists v, egroups val V mass C acc gs = Ok v /\ rep v n (fun I => f I + fassign gs I).
Proof.
  induction gs as [|g gs IH]; intros H acc f R; cbn [egroups].
  - exists acc. split; [reflexivity|]. eapply rep_ext; [exact R|]. intros I _. unfold fassign, ksum. cbn. ring.
  - cbn [forallb] in H. apply andb_true_iff in H as [G H]. destruct (egroup_ok n g G) as (v & -> & RV). cbn [bind].
    destruct (rep_map2 kadd acc v n _ _ R RV) as (u & U & RU). unfold np_add. rewrite U. cbn [bind].
    destruct (IH H u _ RU) as (w & -> & RW). exists w. split; [reflexivity|]. eapply rep_ext; [exact RW|]. intros I _.
    unfold fassign. cbn [map]. rewrite ksum_cons. cbn beta. ring.
Qed.
Lemma eassign_ok n gs : assign_ok n gs = true -> exists v, eassign val V mass C gs = Ok v /\ rep v n (fassign gs).
Proof.
  destruct gs as [|g gs]; [discriminate|]. unfold assign_ok, eassign. cbn [forallb]. rewrite andb_true_iff. intros [G H].
  destruct (egroup_ok n g G) as (v & -> & RV). cbn [bind]. destruct (egroups_ok n gs H v _ RV) as (u & -> & RU).
  exists u. split; [reflexivity|]. eapply rep_ext; [exact RU|]. intros I _. unfold fassign. cbn [map]. now rewrite ksum_cons.
Qed.
Lemma exec_loop_ok p : NoDup (map fst p) -> (forall k gs, In (k, gs) p -> exists n, jrank k = Some n /\ assign_ok n gs = true) ->
  forall c0, exists c, exec_loop val V mass C p c0 = Ok c /\
    (forall k gs n, In (k, gs) p -> jrank k = Some n -> exists v, dget c k = Some v /\ rep v n (fassign gs)) /\
    (forall k, ~ In k (map fst p) -> dget c k = dget c0 k).
Proof.
  induction p as [|[k gs] p IH]; intros ND H c0; cbn [exec_loop].
  { exists c0. repeat split; auto. intros ? ? ? []. }
  cbn [map fst] in ND. inversion_clear ND as [|? ? NI ND'].
  destruct (H k gs (or_introl eq_refl)) as (n & JR & OK). destruct (eassign_ok n gs OK) as (v & -> & RV). cbn [bind].
  destruct (IH ND' (fun a b I => H a b (or_intror I)) (dset c0 k v)) as (c & E & A & B). exists c. split; [exact E|]. split.
  - intros a b m [X|X] R; [|now apply A]. injection X as <- <-. rewrite JR in R. injection R as <-. exists v. split; [|exact RV].
    rewrite B by exact NI. apply dget_dset_eq.
  - intros a NA. cbn [map fst In] in NA. rewrite B by tauto. apply dget_dset_neq. intros ->. tauto.
Qed.
End Values.

(* the value of the coefficient k *)
Section Final.
Variables (val : base -> K) (Vf : nat -> nat -> K) (mass : field -> nat -> K) (c : string -> idx -> K).
Definition floop0 (k : string) (I : idx) : K :=
  match dget loop_prog k with Some gs => fassign val Vf mass (lcf c) gs I | None => 0 end.
Definition rotated (k : string) : bool := String.eqb k "dgamma" || String.eqb k "dG".
Definition floop (k : string) (I : idx) : K :=
  if rotated k then ksum (map (fun a => Vf (nth 0 I 0%nat) (nth 0 a 0%nat) * floop0 k [nth 0 a 0%nat; nth 1 I 0%nat]) (idxs 1))
  else floop0 k I.
End Final.
Definition keys_ok : bool :=
  forallb (fun kt => match dget loop_prog (fst kt) with Some _ => negb (kmem (fst kt) loop_zero) | None => kmem (fst kt) loop_zero && Nat.eqb (List.length (snd kt)) 4 end) jms_fields.
Lemma keys_ok_true : keys_ok = true.
Proof. vm_cast_no_check (eq_refl true). Qed.
Lemma set_zero_get ks : forall (c : cdict) k, dget (set_zero ks c) k = if kmem k ks then Some zeros4 else dget c k.
Proof.
  induction ks as [|a ks IH]; intros c k; [reflexivity|]. cbn [set_zero fold_left]. fold (set_zero ks (dset c a zeros4)). rewrite IH.
  change (kmem k (a :: ks)) with (keqb k a || kmem k ks). destruct (kmem k ks); [now rewrite orb_true_r|]. rewrite orb_false_r.
  destruct (keqb_spec k a) as [->|N]; [apply dget_dset_eq|now apply dget_dset_neq].
Qed.
Lemma rot_key_ok V Vf k (c2 : cdict) f : rep V 2 (fun I => Vf (nth 0 I 0%nat) (nth 1 I 0%nat)) ->
  (exists v, dget c2 k = Some v /\ rep v 2 f) -> exists c3 v, rot_key V k c2 = Ok c3 /\ dget c3 k = Some v /\
    rep v 2 (fun I => ksum (map (fun a => Vf (nth 0 I 0%nat) (nth 0 a 0%nat) * f [nth 0 a 0%nat; nth 1 I 0%nat]) (idxs 1))) /\
    (forall j, j <> k -> dget c3 j = dget c2 j).
Proof.
  intros HV (v & G & RV). unfold rot_key, getk, lookup. rewrite G. cbn [bind]. destruct (rep_matmul V v _ _ HV RV) as (u & -> & RU). cbn [bind].
  exists (dset c2 k u), u. split; [reflexivity|]. split; [apply dget_dset_eq|]. split; [exact RU|]. intros j NJ. now apply dget_dset_neq.
Qed.
Lemma prog_In k gs : In (k, gs) loop_prog -> exists n, jrank k = Some n /\ assign_ok n gs = true.
Proof.
  intros I. pose proof (proj1 (forallb_forall kg_ok loop_prog) prog_ok_true _ I) as E. unfold kg_ok in E. cbn [fst snd] in E.
  destruct (jrank k) as [n|]; [|discriminate]. eauto.
Qed.
Lemma prog_NoDup : NoDup (map fst loop_prog).
Proof. exact (proj1 (knodup_NoDup (map fst loop_prog)) prog_nodup_true). Qed.
Lemma loop_key k ts : dget jms_fields k = Some ts -> (exists gs, dget loop_prog k = Some gs /\ kmem k loop_zero = false) \/
  (dget loop_prog k = None /\ kmem k loop_zero = true /\ List.length ts = 4%nat).
Proof.
  intros G. pose proof keys_ok_true as KO. unfold keys_ok in KO. rewrite forallb_forall in KO. specialize (KO _ (dget_In _ _ _ G)).
  cbn [fst snd] in KO. destruct (dget loop_prog k) as [gs|].
  - left. exists gs. split; [reflexivity|]. now apply negb_true_iff.
  - right. apply andb_true_iff in KO as [Z L]. apply Nat.eqb_eq in L. auto.
Qed.
Lemma loop_vals val V Vf mass C C' c : (forall k r, lck k = Some r -> exists v, dget C' k = Some v /\ rep v r (lcf (coef C) k)) ->
  (forall b, dbase b = true -> val b <> 0) -> (forall s, In s loop_sums -> vpsum val s <> 0) ->
  rep V 2 (fun I => Vf (nth 0 I 0%nat) (nth 1 I 0%nat)) ->
  exec_loop val V mass C' loop_prog [] = Ok c ->
  forall k ts, dget jms_fields k = Some ts -> exists v, dget (set_zero loop_zero c) k = Some v /\ rep v (List.length ts) (floop0 val Vf mass (coef C) k).
Proof.
  intros HC HD HS HV EX k ts G.
  destruct (exec_loop_ok val Vf mass (lcf (coef C)) V C' HD HS HV HC loop_prog prog_NoDup prog_In []) as (c' & E & A & B).
  rewrite EX in E. injection E as <-. unfold floop0. rewrite set_zero_get.
  destruct (loop_key k ts G) as [(gs & GP & Z)|(GP & Z & L)]; rewrite GP, Z.
  - apply (A k gs); [now apply dget_In|]. unfold jrank. now rewrite G.
  - rewrite L. exists zeros4. split; [reflexivity|]. apply (rep_arr 3 (fun _ => 0)). reflexivity.
Qed.
Lemma loop_at_ok val V Vf mass C : wc_point C -> (forall b, dbase b = true -> val b <> 0) -> (forall s, In s loop_sums -> vpsum val s <> 0) ->
  rep V 2 (fun I => Vf (nth 0 I 0%nat) (nth 1 I 0%nat)) ->
  exists c, loop_at val V mass C = Ok c /\
    forall k ts, dget jms_fields k = Some ts -> exists v, dget c k = Some v /\ rep v (List.length ts) (floop val Vf mass (coef C) k).
Proof.
  intros W HD HS HV. unfold loop_at. destruct (ldaggers_ok C W) as (C' & -> & HC). cbn [bind].
  destruct (exec_loop_ok val Vf mass (lcf (coef C)) V C' HD HS HV HC loop_prog prog_NoDup prog_In []) as (c & EX & _).
  pose proof (loop_vals val V Vf mass C C' c HC HD HS HV EX) as V1.
  unfold floop. revert V1. generalize (floop0 val Vf mass (coef C)). intros f V1. rewrite EX. cbn [bind].
  destruct (rot_key_ok V Vf "dgamma" (set_zero loop_zero c) (f "dgamma") HV) as (c2 & v2 & -> & G2 & R2 & O2).
  { exact (V1 "dgamma" [bar_ DL; fld_ DR] eq_refl). }
  cbn [bind]. destruct (rot_key_ok V Vf "dG" c2 (f "dG") HV) as (c3 & v3 & -> & G3 & R3 & O3).
  { rewrite O2 by discriminate. exact (V1 "dG" [bar_ DL; fld_ DR] eq_refl). }
  exists c3. split; [reflexivity|]. intros k ts G. unfold rotated.
  destruct (String.eqb_spec k "dgamma") as [->|N1].
  - cbn [orb]. injection G as <-. exists v2. rewrite O3 by discriminate. split; [exact G2|exact R2].
  - destruct (String.eqb_spec k "dG") as [->|N2].
    + cbn [orb]. injection G as <-. exists v3. split; [exact G3|exact R3].
    + cbn [orb]. rewrite O3, O2 by assumption. now apply V1.
Qed.
End Gen.
