(* Translations of WC objects: zero values are dropped. *)
From Coq Require Import List Bool ZArith QArith Arith Lia String Ascii.
From Verif Require Import PyBase Num JmsModel TrLang TrModel TrNorm TrSpec.
Import ListNotations.
Local Open Scope string_scope.
Local Open Scope list_scope.

Section WC.
Context {K : StarField}.
Local Open Scope K_scope.
Add Field KFtw : (k_field K).
Variable p : tpar K.
Variable all : list string.

Lemma fold_wf {A} (f : A -> dict string K -> res (dict string K)) (l : list A) :
  (forall a d e, wfdict d -> f a d = Ok e -> wfdict e) ->
  forall d e, wfdict d -> fold_left (fun acc a => bind acc (f a)) l (Ok d) = Ok e -> wfdict e.
Proof.
  intros H. induction l as [|a l IH]; intros d e W X; cbn [fold_left] in X; [now injection X as <-|].
  cbn [bind] in X. destruct (f a d) as [d'|x] eqn:F.
  - exact (IH d' e (H a d d' W F) X).
  - exfalso. assert (G : forall l', fold_left (fun acc a => bind acc (f a)) l' (Err x) = Err x) by (induction l'; [reflexivity|assumption]).
    rewrite G in X. discriminate.
Qed.
Lemma wf_map (g : K -> K) (d : dict string K) : wfdict d -> wfdict (map (fun kv => (fst kv, g (snd kv))) d).
Proof. unfold wfdict, dkeys. now rewrite map_map. Qed.
Lemma wf_nil : wfdict (@nil (string * K)). Proof. constructor. Qed.
Lemma run_wf P : forall E d, wfdict (flat E) -> run p all P E = Ok d -> wfdict d.
Proof.
  induction P as [f|a b IHa IHb|a IH|f|c|l IH|s a IH|a s IH|h|l|e] using prog_nest; intros E d W H; cbn [run] in *.
  - destruct f as [g|]; [|discriminate]. cbn [bind] in H. unfold eval_display in H.
    refine (fold_wf (fun kx d => bind (eval p E (snd kx)) (fun v => Ok (dset d (fst kx) v))) g _ [] d wf_nil H).
    intros [k x] d0 e0 W0 X. cbn [fst snd] in X. destruct (eval p E x); [|discriminate]. injection X as <-. now apply wf_dset.
  - destruct (run p all a E) as [d1|] eqn:E1; [|discriminate]. cbn [bind] in H. apply (IHb (mkEnv d1 []) d); [exact (IHa E d1 W E1)|exact H].
  - destruct (run p all a E) as [d1|] eqn:E1; [|discriminate]. cbn [bind] in H. unfold symmetrize_JMS_dict in H.
    refine (fold_wf (fun kv Cs => bind (jms_entry all (fst kv) (snd kv)) (fun o => Ok (match o with None => Cs | Some (k, w) => dset Cs k w end))) d1 _ [] d wf_nil H).
    intros [k x] d0 e0 W0 X. cbn [fst snd] in X. destruct (jms_entry all k x) as [[[k' w]|]|]; try discriminate; injection X as <-; [now apply wf_dset|exact W0].
  - refine (fold_wf (fun kx d => bind (eval p (mkEnv d []) (snd kx)) (fun v => Ok (dset d (fst kx) v))) f _ (flat E) d W H).
    intros [k x] d0 e0 W0 X. cbn [fst snd] in X. destruct (eval p _ x); [|discriminate]. injection X as <-. now apply wf_dset.
  - refine (fold_wf (fun kv d => bind (c (fst kv)) (fun b => if b : bool then Ok d else Err AssertionError)) (flat E) _ (flat E) d W H).
    intros [k x] d0 e0 W0 X. cbn [fst snd] in X. destruct (c k) as [[|]|]; try discriminate. now injection X as <-.
  - revert d H. assert (W0 := wf_nil). revert W0. generalize (@nil (string * K)).
    induction l as [|q r IHl]; intros acc WA d H; [now injection H as <-|].
    inversion_clear IH as [|? ? Hq Hr]. destruct (run p all q E) as [e|] eqn:Eq; [|discriminate]. cbn [bind] in H.
    refine (IHl Hr (dupdate acc e) _ d H). now apply wf_dupdate.
  - destruct (run p all a E) as [d1|] eqn:E1; [|discriminate]. cbn [bind] in H. injection H as <-. apply (wf_map (fun v => sval p s * v)). exact (IH E d1 W E1).
  - destruct (run p all a E) as [d1|] eqn:E1; [|discriminate]. cbn [bind] in H. injection H as <-. apply (wf_map (fun v => v / sval p s)). exact (IH E d1 W E1).
  - refine (fold_wf (fun kv d => bind (h (fst kv)) (fun o => match o with None => Ok d | Some (k, x) => bind (eval p E x) (fun v => Ok (dset d k v)) end)) (flat E) _ [] d wf_nil H).
    intros [k x] d0 e0 W0 X. cbn [fst snd] in X. destruct (h k) as [[[k' y]|]|]; try discriminate; cbn [bind] in X.
    + destruct (eval p E y); [|discriminate]. injection X as <-. now apply wf_dset.
    + now injection X as <-.
  - injection H as <-. assert (G : forall d0 : dict string K, wfdict d0 -> wfdict (fold_left (fun d jf => match dget (flat E) (fst jf) with Some v => dset d (snd jf) v | None => d end) l d0)).
    { induction l as [|x l IHl]; intros d0 W0; cbn [fold_left]; [exact W0|]. apply IHl. destruct (dget (flat E) (fst x)); [now apply wf_dset|exact W0]. }
    apply G, wf_nil.
  - discriminate.
Qed.
Lemma complete_wf ks (C : dict string K) : NoDup ks -> wfdict (complete ks C).
Proof. intros N. unfold wfdict, complete, dkeys. rewrite map_map. cbn [fst]. now rewrite map_id. Qed.

Lemma drop_get (d : dict string K) k : wfdict d ->
  dget (dfilter (fun _ v => negb (kdec v 0)) d) k = match dget d k with Some v => if kdec v 0 then None else Some v | None => None end.
Proof.
  unfold dfilter. induction d as [|[j v] d IH]; intros W; [reflexivity|]. inversion_clear W as [|? ? NI W'].
  specialize (IH W'). cbn [filter fst snd dget]. destruct (keqb_spec k j) as [->|NE].
  - destruct (kdec v 0); cbn [negb].
    + rewrite IH. assert (X : dget d j = None) by (apply dget_None; exact NI). now rewrite X.
    + cbn [dget]. destruct (keqb_spec j j); [reflexivity|congruence].
  - destruct (kdec v 0); cbn [negb]; [exact IH|]. cbn [dget]. destruct (keqb_spec k j); [congruence|exact IH].
Qed.
Lemma drop_dgetd (d : dict string K) k : wfdict d -> dgetd (dfilter (fun _ v => negb (kdec v 0)) d) k 0 = dgetd d k 0.
Proof.
  intros W. unfold dgetd. rewrite (drop_get d k W). destruct (dget d k) as [v|]; [|reflexivity]. destruct (kdec_spec K v 0) as [->|]; reflexivity.
Qed.
(* two translations one after the other *)
Lemma translate_two (T1 T2 : dict string K -> res (dict string K)) C D E (f : string -> K) :
  T1 C = Ok D -> T2 D = Ok E -> wfdict D -> (forall C' d, wfdict C' -> T2 C' = Ok d -> wfdict d) ->
  real_linear (fun _ => True) T2 -> (forall k, dgetd E k 0 = f k) ->
  exists D' E', translate T1 C = Ok D' /\ translate T2 D' = Ok E' /\ forall k, dget E' k = if kdec (f k) 0 then None else Some (f k).
Proof.
  intros H1 H2 WD WE L HF. set (D' := dfilter (fun _ v => negb (kdec v 0)) D). exists D'.
  assert (CB : combines 1 0 D D D') by (intros k; unfold D'; rewrite (drop_dgetd D k WD); ring).
  assert (R1 : kreal (1 : K)) by apply kconj_1. assert (R0 : kreal (0 : K)) by apply kconj_0.
  destruct (L 1 0 D D D' R1 R0 I I I CB) as (E1 & E2 & E3 & X1 & X2 & X3 & CB2).
  rewrite H2 in X1. injection X1 as <-. rewrite H2 in X2. injection X2 as <-.
  assert (WD' : wfdict D').
  { unfold D', dfilter, wfdict, dkeys. clear - WD. induction D as [|[j v] d IH]; [constructor|]. inversion_clear WD as [|? ? NI W'].
    specialize (IH W'). cbn [filter fst snd]. destruct (kdec v 0); cbn [negb]; [exact IH|]. cbn [map fst]. constructor; [|exact IH].
    intros X. apply NI. apply in_map_iff in X as ([a b] & <- & X). apply filter_In in X as [X _]. apply in_map_iff. exists (a, b). auto. }
  eexists. split; [unfold translate; rewrite H1; reflexivity|]. split; [unfold translate; fold D'; rewrite X3; reflexivity|].
  intros k. rewrite (drop_get E3 k (WE D' E3 WD' X3)). specialize (CB2 k). rewrite (HF k) in CB2.
  assert (Y : dgetd E3 k 0 = f k) by (rewrite CB2; ring). rewrite <- Y. unfold dgetd. destruct (dget E3 k) as [v|]; [reflexivity|].
  destruct (kdec_spec K (0 : K) 0); [reflexivity|congruence].
Qed.
End WC.
