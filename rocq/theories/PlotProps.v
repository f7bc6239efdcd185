(* C43: plotdata samples the requested interval; run_continuous builds it properly. *)
From Coq Require Import List Bool ZArith Arith Lia String Ascii Reals Lra.
From Verif Require Import PyBase Num SymModel EftModel NpModel BetaModel RealC RgeModel PlotModel.
Import ListNotations.
Local Open Scope string_scope.
Local Open Scope list_scope.
Local Open Scope R_scope.

(* ---------- specification ---------- *)
(* x runs from lo to hi in n - 1 >= 1 equal steps of the quantity g *)
Definition samples (g : R -> R) (lo hi : R) (n : nat) (x : list R) : Prop :=
  List.length x = n /\ nth 0 x 0 = lo /\ nth (n - 1) x 0 = hi /\
  (forall i, (i < n)%nat -> g (nth i x 0) = g lo + INR i / INR (n - 1) * (g hi - g lo)) /\
  (forall i, (i < n)%nat -> lo <= nth i x 0 <= hi) /\
  (forall i j, (i < j < n)%nat -> nth i x 0 < nth j x 0).
(* the solution has the coefficient at every scale of the interval *)
Definition has (f : solution) (key : string) (lo hi : R) : Prop :=
  forall s, lo <= s <= hi -> exists d v, f s = Ok d /\ dget d key = Some v.
(* the value of the coefficient at a scale *)
Definition at_scale (f : solution) (key : string) (s : R) (v : CR) : Prop := exists d, f s = Ok d /\ dget d key = Some v.

(* ---------- lemmas ---------- *)
Lemma nth_map_seq (g : nat -> R) n i : (i < n)%nat -> nth i (map g (seq 0 n)) 0 = g i.
Proof.
  intros H. rewrite (nth_indep _ 0 (g 0%nat)) by (rewrite map_length, seq_length; exact H). rewrite map_nth, seq_nth by exact H. reflexivity.
Qed.
Lemma linspace_ok lo hi num : (2 <= num)%Z -> exists x, linspace lo hi num = Ok x /\ List.length x = Z.to_nat num /\
  forall i, (i < Z.to_nat num)%nat -> nth i x 0 = lo + INR i / INR (Z.to_nat num - 1) * (hi - lo).
Proof.
  intros Hn. unfold linspace. destruct (Z.ltb_spec num 0); [lia|]. set (n := Z.to_nat num). assert (N : (2 <= n)%nat) by lia.
  eexists. split; [reflexivity|]. split; [now rewrite map_length, seq_length|]. intros i Hi. rewrite nth_map_seq by exact Hi.
  assert (E : INR (n - 1) = INR n - 1) by (rewrite minus_INR by lia; reflexivity).
  assert (P : 0 < INR n - 1). { rewrite <- E. change 0 with (INR 0). apply lt_INR. lia. }
  destruct (Nat.eqb_spec n 1); [lia|]. rewrite E. destruct (Nat.eqb_spec (S i) n) as [F|F].
  - assert (EI : INR i = INR n - 1) by (rewrite <- F, S_INR; lra). rewrite EI. field. lra.
  - field. lra.
Qed.
Lemma frac n i : (2 <= n)%nat -> (i < n)%nat -> 0 <= INR i / INR (n - 1) <= 1.
Proof.
  intros N I. assert (0 < INR (n - 1)) by (change 0 with (INR 0); apply lt_INR; lia).
  assert (0 <= INR i) by apply pos_INR. assert (INR i <= INR (n - 1)) by (apply le_INR; lia).
  split; [apply Rmult_le_pos; [assumption|left; now apply Rinv_0_lt_compat]|]. apply Rmult_le_reg_r with (INR (n - 1)); [assumption|].
  unfold Rdiv. rewrite Rmult_assoc, Rinv_l by lra. lra.
Qed.
Lemma frac_lt n i j : (2 <= n)%nat -> (i < j)%nat -> INR i / INR (n - 1) < INR j / INR (n - 1).
Proof.
  intros N I. assert (0 < INR (n - 1)) by (change 0 with (INR 0); apply lt_INR; lia).
  apply Rmult_lt_compat_r; [now apply Rinv_0_lt_compat|]. now apply lt_INR.
Qed.
Lemma frac_0 n : INR 0 / INR (n - 1) = 0.
Proof. cbn [INR]. unfold Rdiv. apply Rmult_0_l. Qed.
Lemma frac_1 n : (2 <= n)%nat -> INR (n - 1) / INR (n - 1) = 1.
Proof. intros N. assert (0 < INR (n - 1)) by (change 0 with (INR 0); apply lt_INR; lia). field. lra. Qed.
Lemma linspace_samples lo hi num : lo < hi -> (2 <= num)%Z -> exists x, linspace lo hi num = Ok x /\ samples (fun s => s) lo hi (Z.to_nat num) x.
Proof.
  intros L Hn. destruct (linspace_ok lo hi num Hn) as (x & E & Len & N). exists x. split; [exact E|]. set (n := Z.to_nat num) in *.
  assert (N2 : (2 <= n)%nat) by lia.
  split; [exact Len|]. split; [rewrite N, frac_0 by lia; lra|]. split; [rewrite N, frac_1 by lia; lra|]. split; [exact N|]. split.
  - intros i Hi. rewrite N by exact Hi. pose proof (frac n i N2 Hi). split; nra.
  - intros i j [H1 H2]. rewrite !N by lia. pose proof (frac_lt n i j N2 H1). nra.
Qed.
Lemma logspace_samples lo hi num : 0 < lo -> lo < hi -> (2 <= num)%Z -> exists x, logspace (ln lo) (ln hi) num = Ok x /\ samples ln lo hi (Z.to_nat num) x.
Proof.
  intros P L Hn. assert (LL : ln lo < ln hi) by now apply ln_increasing.
  destruct (linspace_samples (ln lo) (ln hi) num LL Hn) as (x & E & Len & F & G & N & B & I). exists (map exp x).
  unfold logspace. rewrite E. split; [reflexivity|]. set (n := Z.to_nat num) in *. assert (N2 : (2 <= n)%nat) by lia.
  assert (M : forall i, (i < n)%nat -> nth i (map exp x) 0 = exp (nth i x 0)).
  { intros i Hi. rewrite (nth_indep _ 0 (exp 0)) by (rewrite map_length, Len; exact Hi). apply map_nth. }
  split; [now rewrite map_length|]. split; [rewrite M, F by lia; now apply exp_ln|]. split; [rewrite M, G by lia; apply exp_ln; lra|]. split; [|split].
  - intros i Hi. rewrite M by exact Hi. rewrite ln_exp. now apply N.
  - intros i Hi. rewrite M by exact Hi. destruct (B i Hi) as [B1 B2].
    assert (mono : forall a b, a <= b -> exp a <= exp b) by (intros a b [H|E2]; [left; now apply exp_increasing|rewrite E2; right; reflexivity]).
    apply mono in B1, B2. rewrite exp_ln in B1, B2 by lra. lra.
  - intros i j Hij. rewrite !M by lia. apply exp_increasing. now apply I.
Qed.
Lemma mapM_ok {A B} (f : A -> res B) (g : A -> B) l : (forall x, In x l -> f x = Ok (g x)) -> mapM f l = Ok (map g l).
Proof. induction l as [|a l IH]; [reflexivity|]. intros H. cbn. rewrite H by now left. cbn. rewrite IH by (intros; apply H; now right). reflexivity. Qed.
Lemma mapM_ex {A B} (f : A -> res B) (Q : A -> B -> Prop) l : (forall x, In x l -> exists y, f x = Ok y /\ Q x y) ->
  exists r, mapM f l = Ok r /\ Forall2 Q l r.
Proof.
  induction l as [|a l IH]; intros H; [exists []; split; constructor|]. destruct (H a (or_introl eq_refl)) as (y & E & Qy).
  destruct IH as (r & Er & F); [intros x I; apply H; now right|]. exists (y :: r). cbn. rewrite E. cbn. rewrite Er. split; [reflexivity|now constructor].
Qed.
Lemma Forall2_nth {A B} (Q : A -> B -> Prop) l r da db : Forall2 Q l r -> forall i, (i < List.length l)%nat -> Q (nth i l da) (nth i r db).
Proof. induction 1 as [|a b l r Hq F IH]; intros i Hi; cbn in Hi; [lia|]. destruct i; [exact Hq|]. cbn. apply IH. lia. Qed.
Lemma Forall2_len {A B} (Q : A -> B -> Prop) l r : Forall2 Q l r -> List.length l = List.length r.
Proof. induction 1; cbn; congruence. Qed.
Lemma Forall2_comp {A B C} (Q : A -> B -> Prop) (S : B -> C -> Prop) l r t : Forall2 Q l r -> Forall2 S r t -> Forall2 (fun a c => exists b, Q a b /\ S b c) l t.
Proof. intros H. revert t. induction H; intros t G; inversion G; subst; constructor; eauto. Qed.

Definition part_of (part : string) (v : CR) : R := if String.eqb part "re" then fst v else snd v.
Definition axis (scale : string) (s : R) : R := if String.eqb scale "log" then ln s else s.

(* ---------- C43 ---------- *)
(* two or more steps: x is sampled from scale_min to scale_max, evenly in the scale or its
   logarithm, and y is the requested part of the coefficient at these scales *)
Theorem C43_plotdata s key part scale steps :
  part = "re" \/ part = "im" -> scale = "log" /\ 0 < rg_min s \/ scale = "linear" ->
  (2 <= steps)%Z -> rg_min s < rg_max s -> has (rg_fun s) key (rg_min s) (rg_max s) ->
  exists x y, plotdata s key part scale steps = Ok (Some (x, y)) /\
    samples (axis scale) (rg_min s) (rg_max s) (Z.to_nat steps) x /\ List.length y = Z.to_nat steps /\
    forall i, (i < Z.to_nat steps)%nat -> exists v, at_scale (rg_fun s) key (nth i x 0) v /\ nth i y 0 = part_of part v.
Proof.
  intros Hp Hs Hn L H. unfold plotdata.
  assert (X : exists x, (if String.eqb scale "log" then bind (py_log (rg_min s)) (fun a => bind (py_log (rg_max s)) (fun b => logspace a b steps))
        else if String.eqb scale "linear" then linspace (rg_min s) (rg_max s) steps else Err UnboundLocalError) = Ok x /\
        samples (axis scale) (rg_min s) (rg_max s) (Z.to_nat steps) x).
  { destruct Hs as [[-> P]| ->]; cbn [String.eqb Ascii.eqb Bool.eqb].
    - unfold py_log. destruct (Rlt_dec 0 (rg_min s)); [|lra]. destruct (Rlt_dec 0 (rg_max s)); [|lra]. cbn [bind]. now apply logspace_samples.
    - now apply linspace_samples. }
  destruct X as (x & E & Sx). rewrite E. cbn [bind]. destruct Sx as (Len & S1 & S2 & S3 & S4 & S5).
  set (n := Z.to_nat steps) in *. assert (N2 : (2 <= n)%nat) by lia.
  assert (IN : forall t, In t x -> rg_min s <= t <= rg_max s).
  { intros t I. apply (In_nth _ _ 0) in I as (i & Hi & <-). apply S4. lia. }
  destruct (mapM_ex (rg_fun s) (fun t d => rg_fun s t = Ok d /\ exists v, dget d key = Some v) x) as (ds & Ed & Fd).
  { intros t I. destruct (H t (IN t I)) as (d & v & E1 & E2). exists d. eauto. }
  destruct (mapM_ex (fun d => match dget d key with Some v => Ok v | None => Err KeyError end) (fun d v => dget d key = Some v) ds) as (vs & Ev & Fv).
  { intros d I. clear - Fd I. induction Fd as [|a b l r [_ [v Q]] F IH]; [destruct I|]. destruct I as [<-|I]; [exists v; now rewrite Q|auto]. }
  assert (V : vectorize (rg_fun s) x = Ok ds). { unfold vectorize. destruct x; [cbn in Len; lia|exact Ed]. }
  rewrite V. cbn [bind]. rewrite Ev. cbn [bind].
  pose proof (Forall2_comp _ _ _ _ _ Fd Fv) as FF. pose proof (Forall2_len _ _ _ FF) as LV.
  assert (PT : forall pr : CR -> R, (forall v, pr v = part_of part v) -> forall i, (i < n)%nat -> exists v, at_scale (rg_fun s) key (nth i x 0) v /\ nth i (map pr vs) 0 = part_of part v).
  { intros pr Pr i Hi. pose proof (Forall2_nth _ _ _ 0 (rc 0) FF i) as Q. destruct Q as (d & [Q1 _] & Q2); [lia|].
    exists (nth i vs (rc 0)). split; [exists d; split; assumption|]. rewrite (nth_indep _ 0 (pr (rc 0))) by (rewrite map_length; lia). rewrite map_nth. apply Pr. }
  destruct Hp as [-> | ->]; cbn [String.eqb Ascii.eqb Bool.eqb]; eexists _, _; (split; [reflexivity|]); (split; [repeat split; assumption||apply S4; assumption|]);
    (split; [etransitivity; [apply map_length|]; etransitivity; [symmetry; exact LV|exact Len]|apply PT; reflexivity]).
Qed.
(* one step samples only the lower end; no steps, a nonpositive scale with logarithmic steps, a
   missing coefficient or an unknown spacing raise; an unknown part gives None *)
Theorem C43_single_step s key v : 0 < rg_min s -> 0 < rg_max s -> at_scale (rg_fun s) key (rg_min s) v ->
  plotdata s key "re" "log" 1 = Ok (Some ([rg_min s], [fst v])).
Proof.
  intros P P2 (d & E1 & E2). unfold plotdata. cbn [String.eqb Ascii.eqb Bool.eqb]. unfold py_log.
  destruct (Rlt_dec 0 (rg_min s)); [|lra]. destruct (Rlt_dec 0 (rg_max s)); [|lra]. cbn [bind].
  change (logspace (ln (rg_min s)) (ln (rg_max s)) 1) with (Ok [exp (ln (rg_min s))]). rewrite exp_ln by exact P.
  cbn [bind vectorize mapM]. rewrite E1. cbn [bind mapM]. rewrite E2. reflexivity.
Qed.
Theorem C43_errors s key part scale steps :
  ((steps < 0)%Z -> scale = "linear" -> plotdata s key part scale steps = Err ValueError) /\
  (steps = 0%Z -> scale = "linear" -> plotdata s key part scale steps = Err ValueError) /\
  (scale = "log" -> rg_min s <= 0 -> plotdata s key part scale steps = Err ValueError) /\
  (scale <> "log" -> scale <> "linear" -> plotdata s key part scale steps = Err UnboundLocalError) /\
  (part <> "re" -> part <> "im" -> forall r, plotdata s key part scale steps = Ok r -> r = None).
Proof.
  unfold plotdata. split; [|split; [|split; [|split]]].
  - intros N ->. cbn [String.eqb Ascii.eqb Bool.eqb]. unfold linspace. destruct (Z.ltb_spec steps 0); [reflexivity|lia].
  - intros -> ->. reflexivity.
  - intros -> N. cbn [String.eqb Ascii.eqb Bool.eqb]. unfold py_log. destruct (Rlt_dec 0 (rg_min s)); [lra|reflexivity].
  - intros N1 N2. destruct (String.eqb_spec scale "log"); [contradiction|]. destruct (String.eqb_spec scale "linear"); [contradiction|reflexivity].
  - intros N1 N2 r. destruct (String.eqb_spec part "re"); [contradiction|]. destruct (String.eqb_spec part "im"); [contradiction|].
    destruct (if String.eqb scale "log" then _ else _) as [x|]; [|discriminate]. cbn [bind]. destruct (vectorize _ x) as [y|]; [|discriminate]. cbn [bind].
    destruct (mapM _ y); [|discriminate]. cbn. congruence.
Qed.
(* run_continuous: equal scales are rejected, otherwise the interval is ordered and spans both scales *)
Theorem C43_run_continuous scale_in solve scale :
  (scale = scale_in -> run_continuous scale_in solve scale = Err ValueError) /\
  (forall r, run_continuous scale_in solve scale = Ok r ->
     rg_min r < rg_max r /\ rg_min r = Rmin scale scale_in /\ rg_max r = Rmax scale scale_in /\ solve scale = Ok (rg_fun r)) /\
  (forall f, scale <> scale_in -> solve scale = Ok f -> exists r, run_continuous scale_in solve scale = Ok r /\ rg_fun r = f).
Proof.
  unfold run_continuous. split; [|split].
  - intros ->. destruct (Req_EM_T scale_in scale_in); congruence.
  - intros r. destruct (Req_EM_T scale scale_in) as [|N]; [discriminate|]. unfold Rmin, Rmax.
    destruct (Rlt_dec scale scale_in); (destruct (solve scale) as [f|]; [|discriminate]); cbn [bind]; intros [= <-]; cbn [rg_min rg_max rg_fun];
      destruct (Rle_dec scale scale_in); repeat split; lra.
  - intros f N E. destruct (Req_EM_T scale scale_in); [contradiction|]. destruct (Rlt_dec scale scale_in); rewrite E; eexists; split; reflexivity.
Qed.
(* both kinds of solutions can be plotted, and the plot contains the input scale and the
   requested scale *)
Theorem C43_wet_plot run_dict scale_in scale key part spacing steps :
  0 < scale_in -> 0 < scale -> scale <> scale_in -> (2 <= steps)%Z -> part = "re" \/ part = "im" -> spacing = "log" \/ spacing = "linear" ->
  has run_dict key (Rmin scale scale_in) (Rmax scale scale_in) ->
  exists r x y, wet_run_continuous run_dict scale_in scale = Ok r /\ plotdata r key part spacing steps = Ok (Some (x, y)) /\
    samples (axis spacing) (Rmin scale scale_in) (Rmax scale scale_in) (Z.to_nat steps) x /\
    forall i, (i < Z.to_nat steps)%nat -> exists v, at_scale run_dict key (nth i x 0) v /\ nth i y 0 = part_of part v.
Proof.
  intros P1 P2 N Hn Hp Hs H. unfold wet_run_continuous.
  destruct (C43_run_continuous scale_in (fun _ => Ok run_dict) scale) as (_ & C2 & C3). destruct (C3 run_dict N eq_refl) as (r & E & F).
  destruct (C2 r E) as (L & E1 & E2 & _). rewrite <- E1, <- E2 in H |- *. rewrite <- F in H.
  assert (Pm : 0 < rg_min r) by (rewrite E1; now apply Rmin_pos).
  destruct (C43_plotdata r key part spacing steps Hp) as (x & y & Ep & S & _ & V); auto; [destruct Hs; auto|].
  exists r, x, y. rewrite F in V. repeat (split; [assumption|]). exact V.
Qed.
Theorem C43_smeft_plot E prog ode C_in scale_in scale key part spacing steps f :
  0 < scale_in -> 0 < scale -> scale <> scale_in -> (2 <= steps)%Z -> part = "re" \/ part = "im" -> spacing = "log" \/ spacing = "linear" ->
  smeft_evolve_continuous E prog ode C_in scale_in scale true = Ok f ->
  has f key (Rmin scale scale_in) (Rmax scale scale_in) ->
  exists r x y, smeft_run_continuous E prog ode C_in scale_in scale = Ok r /\ plotdata r key part spacing steps = Ok (Some (x, y)) /\
    samples (axis spacing) (Rmin scale scale_in) (Rmax scale scale_in) (Z.to_nat steps) x /\
    forall i, (i < Z.to_nat steps)%nat -> exists v, at_scale f key (nth i x 0) v /\ nth i y 0 = part_of part v.
Proof.
  intros P1 P2 N Hn Hp Hs Ef H. unfold smeft_run_continuous.
  destruct (C43_run_continuous scale_in (fun sc => smeft_evolve_continuous E prog ode C_in scale_in sc true) scale) as (_ & C2 & C3).
  destruct (C3 f N Ef) as (r & E0 & F).
  destruct (C2 r E0) as (L & E1 & E2 & _). rewrite <- E1, <- E2 in H |- *. rewrite <- F in H.
  assert (Pm : 0 < rg_min r) by (rewrite E1; now apply Rmin_pos).
  destruct (C43_plotdata r key part spacing steps Hp) as (x & y & Ep & S & _ & V); auto; [destruct Hs; auto|].
  exists r, x, y. rewrite F in V. repeat (split; [assumption|]). exact V.
Qed.
Print Assumptions C43_plotdata.
Print Assumptions C43_single_step.
Print Assumptions C43_errors.
Print Assumptions C43_run_continuous.
Print Assumptions C43_wet_plot.
Print Assumptions C43_smeft_plot.
(* a solution with a coefficient that depends on the scale *)
Definition ex43 : solution := fun s => Ok [("CVLL_sd", (ln s, s))].
Example C43_case : has ex43 "CVLL_sd" 5 91 /\ rg_min {| rg_fun := ex43; rg_min := 5; rg_max := 91 |} < 91 /\ (2 <= 50)%Z /\ Rmin 5 91 = 5.
Proof. split; [intros s _; eexists _, _; split; reflexivity|]. split; [cbn; lra|]. split; [lia|]. unfold Rmin. destruct (Rle_dec 5 91); lra. Qed.
