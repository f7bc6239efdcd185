(* The monomial of beta.py that is not covariant. *)
From Coq Require Import List Bool ZArith QArith Arith Lia String Ascii.
From Verif Require Import PyBase Num SymModel EftModel NpModel NpProofs BetaModel BetaProg BetaNorm BetaSpec BetaSound BetaCov BetaFacts BetaProofs BetaDeg.
Import ListNotations.
Local Open Scope string_scope.
Local Open Scope list_scope.
Local Open Scope K_scope.

(* -12 sum_{tpab} quqd1[tprs] Gu[pb] Gu^*[ab] Gu[at]    beta.py, Beta["dphi"] *)
Definition dphi_defect {K : StarField} (C : dict string (cval K)) (I : idx) : K :=
  kQ (-12) * ksum (map (fun x => match x, I with
    | [t; p; a; b], [r; s] => coef C "quqd1" [t; p; r; s] * (coef C "Gu" [p; b] * (coef C "Gu" [a; b])^* * coef C "Gu" [a; t])
    | _, _ => 0 end) (all_indices [3;3;3;3]%nat)).
Definition bad_mono : mono :=
  mkM (-12) 0 4 [(FC "quqd1", false, [2; 3; 0; 1]%nat); (FC "Gu", false, [3; 5]%nat); (FC "Gu", true, [4; 5]%nat); (FC "Gu", false, [4; 2]%nat)].
Definition dphi_chk (o : option (dict string nform)) : bool :=
  match o with
  | Some R => match dget R "dphi" with
    | Some n => keqb (filter (fun m => negb (mono_typed [bar Fq; pln Fd] m)) (snd n))
        [bad_mono]
    | None => false end
  | None => false end.
Lemma dphi_chk_ok : dphi_chk (beta_nf true) = true. Proof. vm_compute. reflexivity. Qed.

Section D.
Context {K : StarField}.
Add Field KFdf : (k_field K).
Lemma ksum_filter {A} (P : A -> bool) (f : A -> K) l :
  ksum (map f l) = ksum (map f (filter P l)) + ksum (map f (filter (fun x => negb (P x)) l)).
Proof.
  induction l as [|x l IH]; [unfold ksum; cbn; ring|].
  cbn [map filter]. rewrite ksum_cons, IH. destruct (P x); cbn [negb map]; rewrite ksum_cons; ring.
Qed.
Lemma dphi_defect_val (C : dict string (cval K)) H I : In I (idxs 2) -> ksum [mval (venv C H) bad_mono I] = dphi_defect C I.
Proof.
  intros HI. apply in_idxs_2 in HI as (r & s & -> & _ & _). rewrite ksum_cons. change (ksum (@nil K)) with (0 : K).
  unfold mval, dphi_defect, bad_mono. cbn [m_re m_im m_b m_f]. change (all_indices [3;3;3;3]%nat) with (idxs 4).
  assert (KC : kc (K:=K) (-12) 0 = kQ (-12)) by (unfold kc; rewrite kQ_0; ring).
  rewrite KC. match goal with |- _ * ?x + 0 = _ * ?y => assert (XY : x = y); [|rewrite XY; ring] end.
  apply ksum_ext. intros x Hx. apply idxs_length in Hx. destruct x as [|t [|p [|a [|b [|]]]]]; try discriminate.
  cbn [map app]. unfold fval. cbn [fst snd map nth]. rewrite !kprod_cons. change (kprod (@nil K)) with (1 : K).
  unfold coef. cbn [venv]. ring.
Qed.
End D.
