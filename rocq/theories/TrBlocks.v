(* GENERATED by tools/gen_trwet.py from wilson/translate/wet.py 11-1697: do not edit.
   One definition for each function, statement by statement.  A bind stands for a look-up that may
   fail; an if chain that only assigns variables becomes one bind.  A missing "raise" in front of
   KeyError(...) in the code leaves mq unbound, so the else branch is UnboundLocalError. *)
From Coq Require Import List Bool ZArith Arith String Ascii DecimalString.
From Verif Require Import PyBase EftModel TrLang TrData.
Import ListNotations.
Local Open Scope Z_scope.
Local Open Scope list_scope.
Local Open Scope string_scope.

Definition pbind {A} (r : res A) (f : A -> prog) : prog := match r with Ok a => f a | Err e => PFail e end.
Definition smem (x : string) (l : list string) : bool := existsb (String.eqb x) l.
(* wilson/translate/wet.py 20-23 *)
Definition dflav : dict string Z := [("d", 0); ("s", 1); ("b", 2)].
Definition uflav : dict string Z := [("u", 0); ("c", 1)].
Definition lflav : dict string Z := [("e", 0); ("mu", 1); ("tau", 2)].
Definition llflav : dict string Z := [("e", 0); ("m", 1); ("t", 2)].
(* tuple(dflav[q] for q in qq) *)
Fixpoint flavs (t : dict string Z) (s : string) : res (list Z) :=
  match s with "" => Ok [] | String c r => bind (flav t (String c "")) (fun i => bind (flavs t r) (fun l => Ok (i :: l))) end.
(* int(s) for a string of digits *)
Definition nat_of_digits (s : string) : option nat :=
  match s with "" => None | _ => option_map Nat.of_uint (NilEmpty.uint_of_string s) end.
(* 365-368 int(key[5:].replace('p', '')) % 2 == 1 *)
Definition odd_key (key : string) : res bool :=
  match nat_of_digits (str_remove "p" (str_from key 5)) with Some n => Ok (Nat.odd n) | None => Err ValueError end.
(* 79-82 for VXY in [...]: d[VXY + '_1212'] = d.pop(VXY + '_2121').conjugate(); written as a loop over
   the keys of d (the order of the keys of the result differs; a missing key would be a KeyError,
   but d always has these keys) *)
Definition pop_conj (k : string) : res (option (string * ex)) :=
  Ok (Some (match find (fun VXY => String.eqb k (VXY ++ "_2121")) ["VuuRR"; "V1uuLR"; "V8uuLR"; "VuuLL"]%list with
            | Some VXY => (VXY ++ "_1212", EConj (EKey k))
            | None => (k, EKey k)
            end)).

(* wilson/translate/wet.py 29-55 _JMS_to_Bern_I *)
Definition _JMS_to_Bern_I (qq : string) : prog :=
  pbind (if smem qq ["sb"; "db"; "ds"] then bind (flavs dflav qq) (fun i0 => Ok ("dd", i0))
    else if String.eqb qq "cu" then bind (flavs uflav qq) (fun i1 => Ok ("uu", i1))
    else Err ValueError) (fun '(dd, ij) =>
  let ji : list Z := [(nth 1 ij 0); (nth 0 ij 0)] in
  PBlk (Ok [(("1" ++ (str_twice qq)), (EArr ("V" ++ dd ++ "LL") (ij ++ ij)%list));
      (("2" ++ (str_twice qq)), ((EConj (EArr ("S1" ++ dd ++ "RR") (ji ++ ji)%list)) - ((EConj (EArr ("S8" ++ dd ++ "RR") (ji ++ ji)%list)) / ((SZ 2) * (SZ 3))%sc)%ex)%ex);
      (("3" ++ (str_twice qq)), ((EConj (EArr ("S8" ++ dd ++ "RR") (ji ++ ji)%list)) / (SZ 2))%ex);
      (("4" ++ (str_twice qq)), (ENeg (EArr ("V8" ++ dd ++ "LR") (ij ++ ij)%list)));
      (("5" ++ (str_twice qq)), (((SNeg (SZ 2)) * (EArr ("V1" ++ dd ++ "LR") (ij ++ ij)%list))%ex + ((EArr ("V8" ++ dd ++ "LR") (ij ++ ij)%list) / (SZ 3))%ex)%ex);
      (("1p" ++ (str_twice qq)), (EArr ("V" ++ dd ++ "RR") (ij ++ ij)%list));
      (("2p" ++ (str_twice qq)), ((EArr ("S1" ++ dd ++ "RR") (ij ++ ij)%list) - ((EArr ("S8" ++ dd ++ "RR") (ij ++ ij)%list) / ((SZ 2) * (SZ 3))%sc)%ex)%ex);
      (("3p" ++ (str_twice qq)), ((EArr ("S8" ++ dd ++ "RR") (ij ++ ij)%list) / (SZ 2))%ex)])).

(* wilson/translate/wet.py 58-83 _Bern_to_JMS_I *)
Definition _Bern_to_JMS_I (qq : string) : prog :=
  pbind (if smem qq ["sb"; "db"; "ds"] then bind (flav dflav (str_at qq 0)) (fun i0 => bind (flav dflav (str_at qq 1)) (fun i1 => Ok ("dd", (str_Z (i0 + 1)%Z ++ str_Z (i1 + 1)%Z))))
    else if String.eqb qq "cu" then bind (flav uflav (str_at qq 0)) (fun i2 => bind (flav uflav (str_at qq 1)) (fun i3 => Ok ("uu", (str_Z (i2 + 1)%Z ++ str_Z (i3 + 1)%Z))))
    else Err ValueError) (fun '(dd, ij) =>
  let ji : string := ((str_at ij 1) ++ (str_at ij 0)) in
  if String.eqb qq "cu" then PThen (PBlk (Ok [(("V" ++ dd ++ "LL_" ++ ij ++ ij), (EKey ("1" ++ (str_twice qq))));
      (("S1" ++ dd ++ "RR_" ++ ji ++ ji), ((EConj (EKey ("2" ++ (str_twice qq)))) + ((EConj (EKey ("3" ++ (str_twice qq)))) / (SZ 3))%ex)%ex);
      (("S8" ++ dd ++ "RR_" ++ ji ++ ji), ((SZ 2) * (EConj (EKey ("3" ++ (str_twice qq)))))%ex);
      (("V1" ++ dd ++ "LR_" ++ ij ++ ij), (((ENeg (EKey ("4" ++ (str_twice qq)))) / (SZ 6))%ex - ((EKey ("5" ++ (str_twice qq))) / (SZ 2))%ex)%ex);
      (("V8" ++ dd ++ "LR_" ++ ij ++ ij), (ENeg (EKey ("4" ++ (str_twice qq)))));
      (("V" ++ dd ++ "RR_" ++ ij ++ ij), (EKey ("1p" ++ (str_twice qq))));
      (("S1" ++ dd ++ "RR_" ++ ij ++ ij), ((EKey ("2p" ++ (str_twice qq))) + ((EKey ("3p" ++ (str_twice qq))) / (SZ 3))%ex)%ex);
      (("S8" ++ dd ++ "RR_" ++ ij ++ ij), ((SZ 2) * (EKey ("3p" ++ (str_twice qq))))%ex)])) (PEach pop_conj)
  else PBlk (Ok [(("V" ++ dd ++ "LL_" ++ ij ++ ij), (EKey ("1" ++ (str_twice qq))));
      (("S1" ++ dd ++ "RR_" ++ ji ++ ji), ((EConj (EKey ("2" ++ (str_twice qq)))) + ((EConj (EKey ("3" ++ (str_twice qq)))) / (SZ 3))%ex)%ex);
      (("S8" ++ dd ++ "RR_" ++ ji ++ ji), ((SZ 2) * (EConj (EKey ("3" ++ (str_twice qq)))))%ex);
      (("V1" ++ dd ++ "LR_" ++ ij ++ ij), (((ENeg (EKey ("4" ++ (str_twice qq)))) / (SZ 6))%ex - ((EKey ("5" ++ (str_twice qq))) / (SZ 2))%ex)%ex);
      (("V8" ++ dd ++ "LR_" ++ ij ++ ij), (ENeg (EKey ("4" ++ (str_twice qq)))));
      (("V" ++ dd ++ "RR_" ++ ij ++ ij), (EKey ("1p" ++ (str_twice qq))));
      (("S1" ++ dd ++ "RR_" ++ ij ++ ij), ((EKey ("2p" ++ (str_twice qq))) + ((EKey ("3p" ++ (str_twice qq))) / (SZ 3))%ex)%ex);
      (("S8" ++ dd ++ "RR_" ++ ij ++ ij), ((SZ 2) * (EKey ("3p" ++ (str_twice qq))))%ex)])).

(* wilson/translate/wet.py 85-111 _JMS_to_EOS_I *)
Definition _JMS_to_EOS_I (qq : string) : prog :=
  pbind (if smem qq ["sb"; "db"] then bind (flavs dflav qq) (fun i0 => Ok ("dd", i0))
    else Err ValueError) (fun '(dd, ij) =>
  let ji : list Z := [(nth 1 ij 0); (nth 0 ij 0)] in
  let prefactor : sc := ((((SY Ysqrt2) / (SY YGF))%sc / (SZ 4))%sc / (((SV 2 (nth 1 ij 0)) * (SConj (SV 2 (nth 0 ij 0))))%sc ** 2)%sc)%sc in
  PBlk (Ok [(((str_twice qq) ++ "::c1"), (prefactor * (EArr ("V" ++ dd ++ "LL") (ij ++ ij)%list))%ex);
      (((str_twice qq) ++ "::c2"), (prefactor * ((EConj (EArr ("S1" ++ dd ++ "RR") (ji ++ ji)%list)) - ((EConj (EArr ("S8" ++ dd ++ "RR") (ji ++ ji)%list)) / ((SZ 2) * (SZ 3))%sc)%ex)%ex)%ex);
      (((str_twice qq) ++ "::c3"), ((prefactor * (EConj (EArr ("S8" ++ dd ++ "RR") (ji ++ ji)%list)))%ex / (SZ 2))%ex);
      (((str_twice qq) ++ "::c4"), (prefactor * (ENeg (EArr ("V8" ++ dd ++ "LR") (ij ++ ij)%list)))%ex);
      (((str_twice qq) ++ "::c5"), (prefactor * (((SNeg (SZ 2)) * (EArr ("V1" ++ dd ++ "LR") (ij ++ ij)%list))%ex + ((EArr ("V8" ++ dd ++ "LR") (ij ++ ij)%list) / (SZ 3))%ex)%ex)%ex);
      (((str_twice qq) ++ "::c1'"), (prefactor * (EArr ("V" ++ dd ++ "RR") (ij ++ ij)%list))%ex);
      (((str_twice qq) ++ "::c2'"), (prefactor * ((EArr ("S1" ++ dd ++ "RR") (ij ++ ij)%list) - ((EArr ("S8" ++ dd ++ "RR") (ij ++ ij)%list) / ((SZ 2) * (SZ 3))%sc)%ex)%ex)%ex);
      (((str_twice qq) ++ "::c3'"), ((prefactor * (EArr ("S8" ++ dd ++ "RR") (ij ++ ij)%list))%ex / (SZ 2))%ex)])).

(* wilson/translate/wet.py 113-129 _BernI_to_Flavio_I *)
Definition _BernI_to_Flavio_I (qq : string) : prog :=
  let qqf : string := (str_rev qq) in
  if smem qq ["sb"; "db"; "ds"; "cu"] then
    PBlk (Ok [(("CVLL_" ++ (str_twice qqf)), (EKey ("1" ++ (str_twice qq))));
        (("CSLL_" ++ (str_twice qqf)), ((EKey ("2" ++ (str_twice qq))) - (((SZ 1) / (SZ 2))%sc * (EKey ("3" ++ (str_twice qq))))%ex)%ex);
        (("CTLL_" ++ (str_twice qqf)), (((SNeg (SZ 1)) / (SZ 8))%sc * (EKey ("3" ++ (str_twice qq))))%ex);
        (("CVLR_" ++ (str_twice qqf)), (((SNeg (SZ 1)) / (SZ 2))%sc * (EKey ("5" ++ (str_twice qq))))%ex);
        (("CVRR_" ++ (str_twice qqf)), (EKey ("1p" ++ (str_twice qq))));
        (("CSRR_" ++ (str_twice qqf)), ((EKey ("2p" ++ (str_twice qq))) - (((SZ 1) / (SZ 2))%sc * (EKey ("3p" ++ (str_twice qq))))%ex)%ex);
        (("CTRR_" ++ (str_twice qqf)), (((SNeg (SZ 1)) / (SZ 8))%sc * (EKey ("3p" ++ (str_twice qq))))%ex);
        (("CSLR_" ++ (str_twice qqf)), (EKey ("4" ++ (str_twice qq))))])
  else PFail ValueError.

(* wilson/translate/wet.py 132-148 _FlavioI_to_Bern_I *)
Definition _FlavioI_to_Bern_I (qq : string) : prog :=
  let qqb : string := (str_rev qq) in
  if smem qq ["bs"; "bd"; "sd"; "uc"] then
    PBlk (Ok [(("1" ++ (str_twice qqb)), (EKey ("CVLL_" ++ (str_twice qq))));
        (("2" ++ (str_twice qqb)), ((EKey ("CSLL_" ++ (str_twice qq))) - ((SZ 4) * (EKey ("CTLL_" ++ (str_twice qq))))%ex)%ex);
        (("3" ++ (str_twice qqb)), ((SNeg (SZ 8)) * (EKey ("CTLL_" ++ (str_twice qq))))%ex);
        (("4" ++ (str_twice qqb)), (EKey ("CSLR_" ++ (str_twice qq))));
        (("5" ++ (str_twice qqb)), ((SNeg (SZ 2)) * (EKey ("CVLR_" ++ (str_twice qq))))%ex);
        (("1p" ++ (str_twice qqb)), (EKey ("CVRR_" ++ (str_twice qq))));
        (("2p" ++ (str_twice qqb)), ((EKey ("CSRR_" ++ (str_twice qq))) - ((SZ 4) * (EKey ("CTRR_" ++ (str_twice qq))))%ex)%ex);
        (("3p" ++ (str_twice qqb)), ((SNeg (SZ 8)) * (EKey ("CTRR_" ++ (str_twice qq))))%ex)])
  else PFail ValueError.

(* wilson/translate/wet.py 151-178 _BernI_to_FormFlavor_I *)
Definition _BernI_to_FormFlavor_I (qq : string) : prog :=
  let qqf : string := (str_rev qq) in
  if smem qq ["sb"; "db"; "ds"] then
    PBlk (Ok [(("CVLL_" ++ (str_twice qqf)), (EKey ("1" ++ (str_twice qq))));
        (("CSLL_" ++ (str_twice qqf)), ((EKey ("2" ++ (str_twice qq))) + (((SZ 1) / (SZ 2))%sc * (EKey ("3" ++ (str_twice qq))))%ex)%ex);
        (("CTLL_" ++ (str_twice qqf)), (((SNeg (SZ 1)) / (SZ 8))%sc * (EKey ("3" ++ (str_twice qq))))%ex);
        (("CVLR_" ++ (str_twice qqf)), (((SNeg (SZ 1)) / (SZ 2))%sc * (EKey ("5" ++ (str_twice qq))))%ex);
        (("CVRR_" ++ (str_twice qqf)), (EKey ("1p" ++ (str_twice qq))));
        (("CSRR_" ++ (str_twice qqf)), ((EKey ("2p" ++ (str_twice qq))) + (((SZ 1) / (SZ 2))%sc * (EKey ("3p" ++ (str_twice qq))))%ex)%ex);
        (("CTRR_" ++ (str_twice qqf)), (((SNeg (SZ 1)) / (SZ 8))%sc * (EKey ("3p" ++ (str_twice qq))))%ex);
        (("CSLR_" ++ (str_twice qqf)), (EKey ("4" ++ (str_twice qq))))])
  else if String.eqb qq "cu" then
    PBlk (Ok [(("CVLL_" ++ (str_twice qq)), (EConj (EKey ("1" ++ (str_twice qq)))));
        (("CSLL_" ++ (str_twice qq)), ((EKey ("2" ++ (str_twice qq))) + (((SZ 1) / (SZ 2))%sc * (EConj (EKey ("3" ++ (str_twice qq)))))%ex)%ex);
        (("CTLL_" ++ (str_twice qq)), (((SNeg (SZ 1)) / (SZ 8))%sc * (EConj (EKey ("3" ++ (str_twice qq)))))%ex);
        (("CVLR_" ++ (str_twice qq)), (((SNeg (SZ 1)) / (SZ 2))%sc * (EConj (EKey ("5" ++ (str_twice qq)))))%ex);
        (("CVRR_" ++ (str_twice qq)), (EConj (EKey ("1p" ++ (str_twice qq)))));
        (("CSRR_" ++ (str_twice qq)), ((EConj (EKey ("2p" ++ (str_twice qq)))) + (((SZ 1) / (SZ 2))%sc * (EConj (EKey ("3p" ++ (str_twice qq)))))%ex)%ex);
        (("CTRR_" ++ (str_twice qq)), (((SNeg (SZ 1)) / (SZ 8))%sc * (EKey ("3p" ++ (str_twice qq))))%ex);
        (("CSLR_" ++ (str_twice qq)), (EConj (EKey ("4" ++ (str_twice qq)))))])
  else PFail ValueError.

(* wilson/translate/wet.py 183-198 _JMS_to_Bern_II *)
Definition _JMS_to_Bern_II (udlnu : string) : prog :=
  pbind (flav uflav (str_at udlnu 0)) (fun u =>
  pbind (flav dflav (str_at udlnu 1)) (fun d_ =>
  pbind (str_find udlnu "n" 0) (fun n3 =>
  pbind (flav lflav (str_slice udlnu 4 n3)) (fun l_ =>
  pbind (str_find udlnu "_" 5) (fun n5 =>
  pbind (flav lflav (str_from udlnu (n5 + 1)%nat)) (fun lp =>
  pbind (str_find udlnu "n" 0) (fun n6 =>
  pbind (str_find udlnu "_" 5) (fun n7 =>
  let ind : string := ((((str_at udlnu 0) ++ (str_at udlnu 1)) ++ (str_slice udlnu 4 n6)) ++ (str_from udlnu (n7 + 1)%nat)) in
  PBlk (Ok [(("1" ++ ind), (EConj (EArr "VnueduLL" [lp; l_; d_; u])));
      (("5" ++ ind), (EConj (EArr "SnueduRL" [lp; l_; d_; u])));
      (("1p" ++ ind), (EConj (EArr "VnueduLR" [lp; l_; d_; u])));
      (("5p" ++ ind), (EConj (EArr "SnueduRR" [lp; l_; d_; u])));
      (("7p" ++ ind), (EConj (EArr "TnueduRR" [lp; l_; d_; u])))]))))))))).

(* wilson/translate/wet.py 201-216 _Bern_to_JMS_II *)
Definition _Bern_to_JMS_II (udlnu : string) : prog :=
  pbind (flav uflav (str_at udlnu 0)) (fun u =>
  pbind (flav dflav (str_at udlnu 1)) (fun d_ =>
  pbind (str_find udlnu "n" 0) (fun n3 =>
  pbind (flav lflav (str_slice udlnu 4 n3)) (fun l_ =>
  pbind (str_find udlnu "_" 5) (fun n5 =>
  pbind (flav lflav (str_from udlnu (n5 + 1)%nat)) (fun lp =>
  pbind (str_find udlnu "n" 0) (fun n6 =>
  pbind (str_find udlnu "_" 5) (fun n7 =>
  let ind : string := ((((str_at udlnu 0) ++ (str_at udlnu 1)) ++ (str_slice udlnu 4 n6)) ++ (str_from udlnu (n7 + 1)%nat)) in
  PBlk (Ok [(("VnueduLL_" ++ str_Z (lp + 1)%Z ++ str_Z (l_ + 1)%Z ++ str_Z (d_ + 1)%Z ++ str_Z (u + 1)%Z), (EConj (EKey ("1" ++ ind))));
      (("SnueduRL_" ++ str_Z (lp + 1)%Z ++ str_Z (l_ + 1)%Z ++ str_Z (d_ + 1)%Z ++ str_Z (u + 1)%Z), (EConj (EKey ("5" ++ ind))));
      (("VnueduLR_" ++ str_Z (lp + 1)%Z ++ str_Z (l_ + 1)%Z ++ str_Z (d_ + 1)%Z ++ str_Z (u + 1)%Z), (EConj (EKey ("1p" ++ ind))));
      (("SnueduRR_" ++ str_Z (lp + 1)%Z ++ str_Z (l_ + 1)%Z ++ str_Z (d_ + 1)%Z ++ str_Z (u + 1)%Z), (EConj (EKey ("5p" ++ ind))));
      (("TnueduRR_" ++ str_Z (lp + 1)%Z ++ str_Z (l_ + 1)%Z ++ str_Z (d_ + 1)%Z ++ str_Z (u + 1)%Z), (EConj (EKey ("7p" ++ ind))))]))))))))).

(* wilson/translate/wet.py 219-241 _BernII_to_Flavio_II *)
Definition _BernII_to_Flavio_II (udlnu : string) : prog :=
  pbind (flav uflav (str_at udlnu 0)) (fun u =>
  pbind (flav dflav (str_at udlnu 1)) (fun d_ =>
  pbind (str_find udlnu "n" 0) (fun n3 =>
  pbind (flav lflav (str_slice udlnu 4 n3)) (fun l_ =>
  pbind (str_find udlnu "_" 5) (fun n5 =>
  pbind (flav lflav (str_from udlnu (n5 + 1)%nat)) (fun lp =>
  pbind (str_find udlnu "n" 0) (fun n6 =>
  pbind (str_find udlnu "_" 5) (fun n7 =>
  let ind : string := ((((str_at udlnu 0) ++ (str_at udlnu 1)) ++ (str_slice udlnu 4 n6)) ++ (str_from udlnu (n7 + 1)%nat)) in
  pbind (str_find udlnu "n" 0) (fun n8 =>
  pbind (str_find udlnu "_" 5) (fun n9 =>
  let ind2 : string := (((((str_at udlnu 1) ++ (str_at udlnu 0)) ++ (str_slice udlnu 4 n8)) ++ "nu") ++ (str_from udlnu (n9 + 1)%nat)) in
  let prefactor : sc := ((((SNeg (SY Ysqrt2)) / (SY YGF))%sc / (SV u d_))%sc / (SZ 4))%sc in
  PScale prefactor (PBlk (Ok [(("CVL_" ++ ind2), (EKey ("1" ++ ind)));
      (("CVR_" ++ ind2), (EKey ("1p" ++ ind)));
      (("CSR_" ++ ind2), (EKey ("5" ++ ind)));
      (("CSL_" ++ ind2), (EKey ("5p" ++ ind)));
      (("CT_" ++ ind2), (EKey ("7p" ++ ind)))])))))))))))).

(* wilson/translate/wet.py 244-266 _FlavioII_to_BernII *)
Definition _FlavioII_to_BernII (udlnu : string) : prog :=
  pbind (flav uflav (str_at udlnu 0)) (fun u =>
  pbind (flav dflav (str_at udlnu 1)) (fun d_ =>
  pbind (str_find udlnu "n" 0) (fun n3 =>
  pbind (flav lflav (str_slice udlnu 4 n3)) (fun l_ =>
  pbind (str_find udlnu "_" 5) (fun n5 =>
  pbind (flav lflav (str_from udlnu (n5 + 1)%nat)) (fun lp =>
  pbind (str_find udlnu "n" 0) (fun n6 =>
  pbind (str_find udlnu "_" 5) (fun n7 =>
  let ind : string := ((((str_at udlnu 0) ++ (str_at udlnu 1)) ++ (str_slice udlnu 4 n6)) ++ (str_from udlnu (n7 + 1)%nat)) in
  pbind (str_find udlnu "n" 0) (fun n8 =>
  pbind (str_find udlnu "_" 5) (fun n9 =>
  let ind2 : string := (((((str_at udlnu 1) ++ (str_at udlnu 0)) ++ (str_slice udlnu 4 n8)) ++ "nu") ++ (str_from udlnu (n9 + 1)%nat)) in
  let prefactor : sc := ((((SNeg (SY Ysqrt2)) / (SY YGF))%sc / (SV u d_))%sc / (SZ 4))%sc in
  PDivS (PBlk (Ok [(("1" ++ ind), (EKey ("CVL_" ++ ind2)));
      (("1p" ++ ind), (EKey ("CVR_" ++ ind2)));
      (("5" ++ ind), (EKey ("CSR_" ++ ind2)));
      (("5p" ++ ind), (EKey ("CSL_" ++ ind2)));
      (("7p" ++ ind), (EKey ("CT_" ++ ind2)))])) prefactor)))))))))).

(* wilson/translate/wet.py 269-289 _BernII_to_EOS_II *)
Definition _BernII_to_EOS_II (udlnu : string) : prog :=
  pbind (flav uflav (str_at udlnu 0)) (fun u =>
  pbind (flav dflav (str_at udlnu 1)) (fun d_ =>
  pbind (str_find udlnu "n" 0) (fun n3 =>
  pbind (flav lflav (str_slice udlnu 4 n3)) (fun l_ =>
  pbind (str_find udlnu "_" 5) (fun n5 =>
  pbind (flav lflav (str_from udlnu (n5 + 1)%nat)) (fun lp =>
  pbind (str_find udlnu "n" 0) (fun n6 =>
  pbind (str_find udlnu "_" 5) (fun n7 =>
  let ind : string := ((((str_at udlnu 0) ++ (str_at udlnu 1)) ++ (str_slice udlnu 4 n6)) ++ (str_from udlnu (n7 + 1)%nat)) in
  pbind (str_find udlnu "n" 0) (fun n8 =>
  pbind (str_find udlnu "_" 5) (fun n9 =>
  let ind2 : string := ((((str_slice udlnu 0 2) ++ (str_slice udlnu 4 n8)) ++ "nu") ++ (str_from udlnu (n9 + 1)%nat)) in
  let prefactor : sc := ((((SNeg (SY Ysqrt2)) / (SY YGF))%sc / (SV u d_))%sc / (SZ 4))%sc in
  PScale prefactor (PBlk (Ok [((ind2 ++ "::cVL"), (EKey ("1" ++ ind)));
      ((ind2 ++ "::cVR"), (EKey ("1p" ++ ind)));
      ((ind2 ++ "::cSR"), (EKey ("5" ++ ind)));
      ((ind2 ++ "::cSL"), (EKey ("5p" ++ ind)));
      ((ind2 ++ "::cT"), (EKey ("7p" ++ ind)))])))))))))))).

(* wilson/translate/wet.py 294-440 _Fierz_to_JMS_III_IV_V *)
Definition _Fierz_to_JMS_III_IV_V (qqqq : string) : prog :=
  let classIII := ["sbuc"; "sbcu"; "dbuc"; "dbcu"; "dsuc"; "dscu"] in
  let classVdduu := ["sbuu"; "dbuu"; "dsuu"; "sbcc"; "dbcc"; "dscc"] in
  if smem qqqq (classIII ++ classVdduu)%list then
    pbind (flav dflav (str_at qqqq 0)) (fun i0 =>
    let f1 : string := (str_Z (i0 + 1)%Z) in
    pbind (flav dflav (str_at qqqq 1)) (fun i1 =>
    let f2 : string := (str_Z (i1 + 1)%Z) in
    pbind (flav uflav (str_at qqqq 2)) (fun i2 =>
    let f3 : string := (str_Z (i2 + 1)%Z) in
    pbind (flav uflav (str_at qqqq 3)) (fun i3 =>
    let f4 : string := (str_Z (i3 + 1)%Z) in
    PSymm (PBlk (Ok [((((("V1udLL_" ++ f3) ++ f4) ++ f1) ++ f2), ((EKey (("F" ++ qqqq) ++ "1")) + ((EKey (("F" ++ qqqq) ++ "2")) / (SZ 3))%ex)%ex);
        ((((("V8udLL_" ++ f3) ++ f4) ++ f1) ++ f2), ((SZ 2) * (EKey (("F" ++ qqqq) ++ "2")))%ex);
        ((((("V1duLR_" ++ f1) ++ f2) ++ f3) ++ f4), ((EKey (("F" ++ qqqq) ++ "3")) + ((EKey (("F" ++ qqqq) ++ "4")) / (SZ 3))%ex)%ex);
        ((((("V8duLR_" ++ f1) ++ f2) ++ f3) ++ f4), ((SZ 2) * (EKey (("F" ++ qqqq) ++ "4")))%ex);
        ((((("S1udRR_" ++ f3) ++ f4) ++ f1) ++ f2), ((((EKey (("F" ++ qqqq) ++ "5")) + ((EKey (("F" ++ qqqq) ++ "6")) / (SZ 3))%ex)%ex - ((SZ 4) * (EKey (("F" ++ qqqq) ++ "9")))%ex)%ex - (((SZ 4) * (EKey (("F" ++ qqqq) ++ "10")))%ex / (SZ 3))%ex)%ex);
        ((((("S8udRR_" ++ f3) ++ f4) ++ f1) ++ f2), (((SZ 2) * (EKey (("F" ++ qqqq) ++ "6")))%ex - ((SZ 8) * (EKey (("F" ++ qqqq) ++ "10")))%ex)%ex);
        ((((("S1udduRR_" ++ f3) ++ f2) ++ f1) ++ f4), ((ENeg (((SZ 8) * (EKey (("F" ++ qqqq) ++ "9")))%ex / (SZ 3))%ex) - ((SZ 8) * (EKey (("F" ++ qqqq) ++ "10")))%ex)%ex);
        ((((("V8udduLR_" ++ f4) ++ f1) ++ f2) ++ f3), (ENeg (EConj (EKey (("F" ++ qqqq) ++ "7")))));
        ((((("V1udduLR_" ++ f4) ++ f1) ++ f2) ++ f3), ((ENeg ((EConj (EKey (("F" ++ qqqq) ++ "7"))) / ((SZ 2) * (SZ 3))%sc)%ex) - ((EConj (EKey (("F" ++ qqqq) ++ "8"))) / (SZ 2))%ex)%ex);
        ((((("S8udduRR_" ++ f3) ++ f2) ++ f1) ++ f4), ((SNeg (SZ 16)) * (EKey (("F" ++ qqqq) ++ "9")))%ex);
        ((((("V1udRR_" ++ f3) ++ f4) ++ f1) ++ f2), ((EKey (("F" ++ qqqq) ++ "1p")) + ((EKey (("F" ++ qqqq) ++ "2p")) / (SZ 3))%ex)%ex);
        ((((("V8udRR_" ++ f3) ++ f4) ++ f1) ++ f2), ((SZ 2) * (EKey (("F" ++ qqqq) ++ "2p")))%ex);
        ((((("V1udLR_" ++ f3) ++ f4) ++ f1) ++ f2), ((EKey (("F" ++ qqqq) ++ "3p")) + ((EKey (("F" ++ qqqq) ++ "4p")) / (SZ 3))%ex)%ex);
        ((((("V8udLR_" ++ f3) ++ f4) ++ f1) ++ f2), ((SZ 2) * (EKey (("F" ++ qqqq) ++ "4p")))%ex);
        ((((("S1udRR_" ++ f4) ++ f3) ++ f2) ++ f1), ((((EConj (EKey (("F" ++ qqqq) ++ "5p"))) + ((EConj (EKey (("F" ++ qqqq) ++ "6p"))) / (SZ 3))%ex)%ex - ((SZ 4) * (EConj (EKey (("F" ++ qqqq) ++ "9p"))))%ex)%ex - (((SZ 4) * (EConj (EKey (("F" ++ qqqq) ++ "10p"))))%ex / (SZ 3))%ex)%ex);
        ((((("S8udRR_" ++ f4) ++ f3) ++ f2) ++ f1), (((SZ 2) * (EConj (EKey (("F" ++ qqqq) ++ "6p"))))%ex - ((SZ 8) * (EConj (EKey (("F" ++ qqqq) ++ "10p"))))%ex)%ex);
        ((((("S1udduRR_" ++ f4) ++ f1) ++ f2) ++ f3), ((ENeg (((SZ 8) * (EConj (EKey (("F" ++ qqqq) ++ "9p"))))%ex / (SZ 3))%ex) - ((SZ 8) * (EConj (EKey (("F" ++ qqqq) ++ "10p"))))%ex)%ex);
        ((((("V8udduLR_" ++ f3) ++ f2) ++ f1) ++ f4), (ENeg (EKey (("F" ++ qqqq) ++ "7p"))));
        ((((("V1udduLR_" ++ f3) ++ f2) ++ f1) ++ f4), ((ENeg ((EKey (("F" ++ qqqq) ++ "7p")) / ((SZ 2) * (SZ 3))%sc)%ex) - ((EKey (("F" ++ qqqq) ++ "8p")) / (SZ 2))%ex)%ex);
        ((((("S8udduRR_" ++ f4) ++ f1) ++ f2) ++ f3), ((SNeg (SZ 16)) * (EConj (EKey (("F" ++ qqqq) ++ "9p"))))%ex)]))))))
  else let classVuudd := ["ucdd"; "ucss"; "ucbb"] in
  if smem qqqq classVuudd then
    pbind (flav uflav (str_at qqqq 0)) (fun i4 =>
    let f3 : string := (str_Z (i4 + 1)%Z) in
    pbind (flav uflav (str_at qqqq 1)) (fun i5 =>
    let f4 : string := (str_Z (i5 + 1)%Z) in
    pbind (flav dflav (str_at qqqq 2)) (fun i6 =>
    let f1 : string := (str_Z (i6 + 1)%Z) in
    pbind (flav dflav (str_at qqqq 3)) (fun i7 =>
    let f2 : string := (str_Z (i7 + 1)%Z) in
    PSymm (PBlk (Ok [((((("V1udLL_" ++ f3) ++ f4) ++ f1) ++ f2), ((EKey (("F" ++ qqqq) ++ "1")) + ((EKey (("F" ++ qqqq) ++ "2")) / (SZ 3))%ex)%ex);
        ((((("V8udLL_" ++ f3) ++ f4) ++ f1) ++ f2), ((SZ 2) * (EKey (("F" ++ qqqq) ++ "2")))%ex);
        ((((("V1duLR_" ++ f1) ++ f2) ++ f3) ++ f4), ((EKey (("F" ++ qqqq) ++ "3p")) + ((EKey (("F" ++ qqqq) ++ "4p")) / (SZ 3))%ex)%ex);
        ((((("V8duLR_" ++ f1) ++ f2) ++ f3) ++ f4), ((SZ 2) * (EKey (("F" ++ qqqq) ++ "4p")))%ex);
        ((((("S1udRR_" ++ f3) ++ f4) ++ f1) ++ f2), ((((EKey (("F" ++ qqqq) ++ "5")) + ((EKey (("F" ++ qqqq) ++ "6")) / (SZ 3))%ex)%ex - ((SZ 4) * (EKey (("F" ++ qqqq) ++ "9")))%ex)%ex - (((SZ 4) * (EKey (("F" ++ qqqq) ++ "10")))%ex / (SZ 3))%ex)%ex);
        ((((("S8udRR_" ++ f3) ++ f4) ++ f1) ++ f2), (((SZ 2) * (EKey (("F" ++ qqqq) ++ "6")))%ex - ((SZ 8) * (EKey (("F" ++ qqqq) ++ "10")))%ex)%ex);
        ((((("S1udduRR_" ++ f3) ++ f2) ++ f1) ++ f4), ((ENeg (((SZ 8) * (EKey (("F" ++ qqqq) ++ "9")))%ex / (SZ 3))%ex) - ((SZ 8) * (EKey (("F" ++ qqqq) ++ "10")))%ex)%ex);
        ((((("V8udduLR_" ++ f4) ++ f1) ++ f2) ++ f3), (ENeg (EConj (EKey (("F" ++ qqqq) ++ "7p")))));
        ((((("V1udduLR_" ++ f4) ++ f1) ++ f2) ++ f3), ((ENeg ((EConj (EKey (("F" ++ qqqq) ++ "7p"))) / ((SZ 2) * (SZ 3))%sc)%ex) - ((EConj (EKey (("F" ++ qqqq) ++ "8p"))) / (SZ 2))%ex)%ex);
        ((((("S8udduRR_" ++ f3) ++ f2) ++ f1) ++ f4), ((SNeg (SZ 16)) * (EKey (("F" ++ qqqq) ++ "9")))%ex);
        ((((("V1udRR_" ++ f3) ++ f4) ++ f1) ++ f2), ((EKey (("F" ++ qqqq) ++ "1p")) + ((EKey (("F" ++ qqqq) ++ "2p")) / (SZ 3))%ex)%ex);
        ((((("V8udRR_" ++ f3) ++ f4) ++ f1) ++ f2), ((SZ 2) * (EKey (("F" ++ qqqq) ++ "2p")))%ex);
        ((((("V1udLR_" ++ f3) ++ f4) ++ f1) ++ f2), ((EKey (("F" ++ qqqq) ++ "3")) + ((EKey (("F" ++ qqqq) ++ "4")) / (SZ 3))%ex)%ex);
        ((((("V8udLR_" ++ f3) ++ f4) ++ f1) ++ f2), ((SZ 2) * (EKey (("F" ++ qqqq) ++ "4")))%ex);
        ((((("S1udRR_" ++ f4) ++ f3) ++ f2) ++ f1), ((((EConj (EKey (("F" ++ qqqq) ++ "5p"))) + ((EConj (EKey (("F" ++ qqqq) ++ "6p"))) / (SZ 3))%ex)%ex - ((SZ 4) * (EConj (EKey (("F" ++ qqqq) ++ "9p"))))%ex)%ex - (((SZ 4) * (EConj (EKey (("F" ++ qqqq) ++ "10p"))))%ex / (SZ 3))%ex)%ex);
        ((((("S8udRR_" ++ f4) ++ f3) ++ f2) ++ f1), (((SZ 2) * (EConj (EKey (("F" ++ qqqq) ++ "6p"))))%ex - ((SZ 8) * (EConj (EKey (("F" ++ qqqq) ++ "10p"))))%ex)%ex);
        ((((("S1udduRR_" ++ f4) ++ f1) ++ f2) ++ f3), ((ENeg (((SZ 8) * (EConj (EKey (("F" ++ qqqq) ++ "9p"))))%ex / (SZ 3))%ex) - ((SZ 8) * (EConj (EKey (("F" ++ qqqq) ++ "10p"))))%ex)%ex);
        ((((("V8udduLR_" ++ f3) ++ f2) ++ f1) ++ f4), (ENeg (EKey (("F" ++ qqqq) ++ "7"))));
        ((((("V1udduLR_" ++ f3) ++ f2) ++ f1) ++ f4), ((ENeg ((EKey (("F" ++ qqqq) ++ "7")) / ((SZ 2) * (SZ 3))%sc)%ex) - ((EKey (("F" ++ qqqq) ++ "8")) / (SZ 2))%ex)%ex);
        ((((("S8udduRR_" ++ f4) ++ f1) ++ f2) ++ f3), ((SNeg (SZ 16)) * (EConj (EKey (("F" ++ qqqq) ++ "9p"))))%ex)]))))))
  else let classIV := ["sbsd"; "dbds"; "bsbd"] in
  let classVdddd := ["sbss"; "dbdd"; "dsdd"; "sbbb"; "dbbb"; "dsss"] in
  let classVddddind := ["sbdd"; "dsbb"; "dbss"] in
  let classVuuuu := ["ucuu"; "cucc"; "uccc"; "cuuu"] in
  let ext := (fun P => if smem qqqq ((classVdddd ++ classIV)%list ++ classVuuuu)%list then
      PThen (PAssert odd_key) (PThen (PExt (flat_map (fun p_ =>
      if smem qqqq ["sbbb"; "dbbb"; "dsss"; "uccc"] then
      [(((("F" ++ qqqq) ++ "2") ++ p_), (EKey ((("F" ++ qqqq) ++ "1") ++ p_)));
      (((("F" ++ qqqq) ++ "4") ++ p_), (((SNeg (SZ 1)) / (SZ 2))%sc * (EKey ((("F" ++ qqqq) ++ "7") ++ p_)))%ex);
      (((("F" ++ qqqq) ++ "6") ++ p_), ((((SNeg (SZ 1)) / (SZ 2))%sc * (EKey ((("F" ++ qqqq) ++ "5") ++ p_)))%ex - ((SZ 6) * (EKey ((("F" ++ qqqq) ++ "9") ++ p_)))%ex)%ex);
      (((("F" ++ qqqq) ++ "8") ++ p_), ((SNeg (SZ 2)) * (EKey ((("F" ++ qqqq) ++ "3") ++ p_)))%ex);
      (((("F" ++ qqqq) ++ "10") ++ p_), ((((SNeg (SZ 1)) / (SZ 8))%sc * (EKey ((("F" ++ qqqq) ++ "5") ++ p_)))%ex + (((SZ 1) / (SZ 2))%sc * (EKey ((("F" ++ qqqq) ++ "9") ++ p_)))%ex)%ex)]
      else if smem qqqq ["sbss"; "dbdd"; "dsdd"; "sbsd"; "dbds"; "bsbd"; "ucuu"] then
      let notp := if String.eqb p_ "" then "p" else "" in
      [(((("F" ++ qqqq) ++ "2") ++ p_), (EKey ((("F" ++ qqqq) ++ "1") ++ p_)));
      (((("F" ++ qqqq) ++ "4") ++ p_), (((SNeg (SZ 1)) / (SZ 2))%sc * (EKey ((("F" ++ qqqq) ++ "7") ++ notp)))%ex);
      (((("F" ++ qqqq) ++ "6") ++ notp), ((((SNeg (SZ 1)) / (SZ 2))%sc * (EKey ((("F" ++ qqqq) ++ "5") ++ notp)))%ex - ((SZ 6) * (EKey ((("F" ++ qqqq) ++ "9") ++ notp)))%ex)%ex);
      (((("F" ++ qqqq) ++ "8") ++ notp), ((SNeg (SZ 2)) * (EKey ((("F" ++ qqqq) ++ "3") ++ p_)))%ex);
      (((("F" ++ qqqq) ++ "10") ++ notp), ((((SNeg (SZ 1)) / (SZ 8))%sc * (EKey ((("F" ++ qqqq) ++ "5") ++ notp)))%ex + (((SZ 1) / (SZ 2))%sc * (EKey ((("F" ++ qqqq) ++ "9") ++ notp)))%ex)%ex)]
      else []) [""; "p"]%list)) P)
      else P) in
  if smem qqqq ((classIV ++ classVdddd)%list ++ classVddddind)%list then
    pbind (flav dflav (str_at qqqq 0)) (fun i8 =>
    let f1 : string := (str_Z (i8 + 1)%Z) in
    pbind (flav dflav (str_at qqqq 1)) (fun i9 =>
    let f2 : string := (str_Z (i9 + 1)%Z) in
    pbind (flav dflav (str_at qqqq 2)) (fun i10 =>
    let f3 : string := (str_Z (i10 + 1)%Z) in
    pbind (flav dflav (str_at qqqq 3)) (fun i11 =>
    let f4 : string := (str_Z (i11 + 1)%Z) in
    PSymm (ext (PBlk (Ok [((((("VddLL_" ++ f3) ++ f4) ++ f1) ++ f2), (EKey (("F" ++ qqqq) ++ "1")));
        ((((("VddLL_" ++ f1) ++ f4) ++ f3) ++ f2), (EKey (("F" ++ qqqq) ++ "2")));
        ((((("V1ddLR_" ++ f1) ++ f2) ++ f3) ++ f4), ((EKey (("F" ++ qqqq) ++ "3")) + ((EKey (("F" ++ qqqq) ++ "4")) / (SZ 3))%ex)%ex);
        ((((("V8ddLR_" ++ f1) ++ f2) ++ f3) ++ f4), ((SZ 2) * (EKey (("F" ++ qqqq) ++ "4")))%ex);
        ((((("S1ddRR_" ++ f3) ++ f4) ++ f1) ++ f2), ((((EKey (("F" ++ qqqq) ++ "5")) + ((EKey (("F" ++ qqqq) ++ "6")) / (SZ 3))%ex)%ex - ((SZ 4) * (EKey (("F" ++ qqqq) ++ "9")))%ex)%ex - (((SZ 4) * (EKey (("F" ++ qqqq) ++ "10")))%ex / (SZ 3))%ex)%ex);
        ((((("S8ddRR_" ++ f3) ++ f4) ++ f1) ++ f2), (((SZ 2) * (EKey (("F" ++ qqqq) ++ "6")))%ex - ((SZ 8) * (EKey (("F" ++ qqqq) ++ "10")))%ex)%ex);
        ((((("V8ddLR_" ++ f1) ++ f4) ++ f3) ++ f2), (ENeg (EKey (("F" ++ qqqq) ++ "7"))));
        ((((("V1ddLR_" ++ f1) ++ f4) ++ f3) ++ f2), ((ENeg ((EKey (("F" ++ qqqq) ++ "7")) / ((SZ 2) * (SZ 3))%sc)%ex) - ((EKey (("F" ++ qqqq) ++ "8")) / (SZ 2))%ex)%ex);
        ((((("S1ddRR_" ++ f1) ++ f4) ++ f3) ++ f2), ((ENeg (((SZ 8) * (EKey (("F" ++ qqqq) ++ "9")))%ex / (SZ 3))%ex) - ((SZ 8) * (EKey (("F" ++ qqqq) ++ "10")))%ex)%ex);
        ((((("S8ddRR_" ++ f3) ++ f2) ++ f1) ++ f4), ((SNeg (SZ 16)) * (EKey (("F" ++ qqqq) ++ "9")))%ex);
        ((((("VddRR_" ++ f3) ++ f4) ++ f1) ++ f2), (EKey (("F" ++ qqqq) ++ "1p")));
        ((((("VddRR_" ++ f1) ++ f4) ++ f3) ++ f2), (EKey (("F" ++ qqqq) ++ "2p")));
        ((((("V1ddLR_" ++ f3) ++ f4) ++ f1) ++ f2), ((EKey (("F" ++ qqqq) ++ "3p")) + ((EKey (("F" ++ qqqq) ++ "4p")) / (SZ 3))%ex)%ex);
        ((((("V8ddLR_" ++ f3) ++ f4) ++ f1) ++ f2), ((SZ 2) * (EKey (("F" ++ qqqq) ++ "4p")))%ex);
        ((((("S1ddRR_" ++ f4) ++ f3) ++ f2) ++ f1), ((((EConj (EKey (("F" ++ qqqq) ++ "5p"))) + ((EConj (EKey (("F" ++ qqqq) ++ "6p"))) / (SZ 3))%ex)%ex - ((SZ 4) * (EConj (EKey (("F" ++ qqqq) ++ "9p"))))%ex)%ex - (((SZ 4) * (EConj (EKey (("F" ++ qqqq) ++ "10p"))))%ex / (SZ 3))%ex)%ex);
        ((((("S8ddRR_" ++ f4) ++ f3) ++ f2) ++ f1), (((SZ 2) * (EConj (EKey (("F" ++ qqqq) ++ "6p"))))%ex - ((SZ 8) * (EConj (EKey (("F" ++ qqqq) ++ "10p"))))%ex)%ex);
        ((((("V8ddLR_" ++ f3) ++ f2) ++ f1) ++ f4), (ENeg (EKey (("F" ++ qqqq) ++ "7p"))));
        ((((("V1ddLR_" ++ f3) ++ f2) ++ f1) ++ f4), ((ENeg ((EKey (("F" ++ qqqq) ++ "7p")) / ((SZ 2) * (SZ 3))%sc)%ex) - ((EKey (("F" ++ qqqq) ++ "8p")) / (SZ 2))%ex)%ex);
        ((((("S1ddRR_" ++ f4) ++ f1) ++ f2) ++ f3), ((ENeg (((SZ 8) * (EConj (EKey (("F" ++ qqqq) ++ "9p"))))%ex / (SZ 3))%ex) - ((SZ 8) * (EConj (EKey (("F" ++ qqqq) ++ "10p"))))%ex)%ex);
        ((((("S8ddRR_" ++ f4) ++ f1) ++ f2) ++ f3), ((SNeg (SZ 16)) * (EConj (EKey (("F" ++ qqqq) ++ "9p"))))%ex)])))))))
  else if smem qqqq classVuuuu then
    pbind (flav uflav (str_at qqqq 0)) (fun i12 =>
    let f1 : string := (str_Z (i12 + 1)%Z) in
    pbind (flav uflav (str_at qqqq 1)) (fun i13 =>
    let f2 : string := (str_Z (i13 + 1)%Z) in
    pbind (flav uflav (str_at qqqq 2)) (fun i14 =>
    let f3 : string := (str_Z (i14 + 1)%Z) in
    pbind (flav uflav (str_at qqqq 3)) (fun i15 =>
    let f4 : string := (str_Z (i15 + 1)%Z) in
    PSymm (ext (PBlk (Ok [((((("VuuLL_" ++ f3) ++ f4) ++ f1) ++ f2), (EKey (("F" ++ qqqq) ++ "1")));
        ((((("VuuLL_" ++ f1) ++ f4) ++ f3) ++ f2), (EKey (("F" ++ qqqq) ++ "2")));
        ((((("V1uuLR_" ++ f1) ++ f2) ++ f3) ++ f4), ((EKey (("F" ++ qqqq) ++ "3")) + ((EKey (("F" ++ qqqq) ++ "4")) / (SZ 3))%ex)%ex);
        ((((("V8uuLR_" ++ f1) ++ f2) ++ f3) ++ f4), ((SZ 2) * (EKey (("F" ++ qqqq) ++ "4")))%ex);
        ((((("S1uuRR_" ++ f3) ++ f4) ++ f1) ++ f2), ((((EKey (("F" ++ qqqq) ++ "5")) + ((EKey (("F" ++ qqqq) ++ "6")) / (SZ 3))%ex)%ex - ((SZ 4) * (EKey (("F" ++ qqqq) ++ "9")))%ex)%ex - (((SZ 4) * (EKey (("F" ++ qqqq) ++ "10")))%ex / (SZ 3))%ex)%ex);
        ((((("S8uuRR_" ++ f3) ++ f4) ++ f1) ++ f2), (((SZ 2) * (EKey (("F" ++ qqqq) ++ "6")))%ex - ((SZ 8) * (EKey (("F" ++ qqqq) ++ "10")))%ex)%ex);
        ((((("V8uuLR_" ++ f1) ++ f4) ++ f3) ++ f2), (ENeg (EKey (("F" ++ qqqq) ++ "7"))));
        ((((("V1uuLR_" ++ f1) ++ f4) ++ f3) ++ f2), ((ENeg ((EKey (("F" ++ qqqq) ++ "7")) / ((SZ 2) * (SZ 3))%sc)%ex) - ((EKey (("F" ++ qqqq) ++ "8")) / (SZ 2))%ex)%ex);
        ((((("S1uuRR_" ++ f1) ++ f4) ++ f3) ++ f2), ((ENeg (((SZ 8) * (EKey (("F" ++ qqqq) ++ "9")))%ex / (SZ 3))%ex) - ((SZ 8) * (EKey (("F" ++ qqqq) ++ "10")))%ex)%ex);
        ((((("S8uuRR_" ++ f3) ++ f2) ++ f1) ++ f4), ((SNeg (SZ 16)) * (EKey (("F" ++ qqqq) ++ "9")))%ex);
        ((((("VuuRR_" ++ f3) ++ f4) ++ f1) ++ f2), (EKey (("F" ++ qqqq) ++ "1p")));
        ((((("VuuRR_" ++ f1) ++ f4) ++ f3) ++ f2), (EKey (("F" ++ qqqq) ++ "2p")));
        ((((("V1uuLR_" ++ f3) ++ f4) ++ f1) ++ f2), ((EKey (("F" ++ qqqq) ++ "3p")) + ((EKey (("F" ++ qqqq) ++ "4p")) / (SZ 3))%ex)%ex);
        ((((("V8uuLR_" ++ f3) ++ f4) ++ f1) ++ f2), ((SZ 2) * (EKey (("F" ++ qqqq) ++ "4p")))%ex);
        ((((("S1uuRR_" ++ f4) ++ f3) ++ f2) ++ f1), ((((EConj (EKey (("F" ++ qqqq) ++ "5p"))) + ((EConj (EKey (("F" ++ qqqq) ++ "6p"))) / (SZ 3))%ex)%ex - ((SZ 4) * (EConj (EKey (("F" ++ qqqq) ++ "9p"))))%ex)%ex - (((SZ 4) * (EConj (EKey (("F" ++ qqqq) ++ "10p"))))%ex / (SZ 3))%ex)%ex);
        ((((("S8uuRR_" ++ f4) ++ f3) ++ f2) ++ f1), (((SZ 2) * (EConj (EKey (("F" ++ qqqq) ++ "6p"))))%ex - ((SZ 8) * (EConj (EKey (("F" ++ qqqq) ++ "10p"))))%ex)%ex);
        ((((("V8uuLR_" ++ f3) ++ f2) ++ f1) ++ f4), (ENeg (EKey (("F" ++ qqqq) ++ "7p"))));
        ((((("V1uuLR_" ++ f3) ++ f2) ++ f1) ++ f4), ((ENeg ((EKey (("F" ++ qqqq) ++ "7p")) / ((SZ 2) * (SZ 3))%sc)%ex) - ((EKey (("F" ++ qqqq) ++ "8p")) / (SZ 2))%ex)%ex);
        ((((("S1uuRR_" ++ f4) ++ f1) ++ f2) ++ f3), ((ENeg (((SZ 8) * (EConj (EKey (("F" ++ qqqq) ++ "9p"))))%ex / (SZ 3))%ex) - ((SZ 8) * (EConj (EKey (("F" ++ qqqq) ++ "10p"))))%ex)%ex);
        ((((("S8uuRR_" ++ f4) ++ f1) ++ f2) ++ f3), ((SNeg (SZ 16)) * (EConj (EKey (("F" ++ qqqq) ++ "9p"))))%ex)])))))))
  else PFail ValueError.

(* wilson/translate/wet.py 442-624 _JMS_to_Fierz_III_IV_V *)
Definition _JMS_to_Fierz_III_IV_V (qqqq : string) : prog :=
  let classIII := ["sbuc"; "sbcu"; "dbuc"; "dbcu"; "dsuc"; "dscu"] in
  let classVdduu := ["sbuu"; "dbuu"; "dsuu"; "sbcc"; "dbcc"; "dscc"] in
  if smem qqqq (classIII ++ classVdduu)%list then
    pbind (flav dflav (str_at qqqq 0)) (fun f1 =>
    pbind (flav dflav (str_at qqqq 1)) (fun f2 =>
    pbind (flav uflav (str_at qqqq 2)) (fun f3 =>
    pbind (flav uflav (str_at qqqq 3)) (fun f4 =>
    PBlk (Ok [((("F" ++ qqqq) ++ "1"), ((EArr "V1udLL" [f3; f4; f1; f2]) - ((EArr "V8udLL" [f3; f4; f1; f2]) / ((SZ 2) * (SZ 3))%sc)%ex)%ex);
        ((("F" ++ qqqq) ++ "2"), ((EArr "V8udLL" [f3; f4; f1; f2]) / (SZ 2))%ex);
        ((("F" ++ qqqq) ++ "3"), ((EArr "V1duLR" [f1; f2; f3; f4]) - ((EArr "V8duLR" [f1; f2; f3; f4]) / ((SZ 2) * (SZ 3))%sc)%ex)%ex);
        ((("F" ++ qqqq) ++ "4"), ((EArr "V8duLR" [f1; f2; f3; f4]) / (SZ 2))%ex);
        ((("F" ++ qqqq) ++ "5"), (((EArr "S1udRR" [f3; f4; f1; f2]) - ((EArr "S8udduRR" [f3; f2; f1; f4]) / (SZ 4))%ex)%ex - ((EArr "S8udRR" [f3; f4; f1; f2]) / ((SZ 2) * (SZ 3))%sc)%ex)%ex);
        ((("F" ++ qqqq) ++ "6"), ((((ENeg (EArr "S1udduRR" [f3; f2; f1; f4])) / (SZ 2))%ex + ((EArr "S8udduRR" [f3; f2; f1; f4]) / ((SZ 4) * (SZ 3))%sc)%ex)%ex + ((EArr "S8udRR" [f3; f4; f1; f2]) / (SZ 2))%ex)%ex);
        ((("F" ++ qqqq) ++ "7"), (ENeg (EConj (EArr "V8udduLR" [f4; f1; f2; f3]))));
        ((("F" ++ qqqq) ++ "8"), (((SNeg (SZ 2)) * (EConj (EArr "V1udduLR" [f4; f1; f2; f3])))%ex + ((EConj (EArr "V8udduLR" [f4; f1; f2; f3])) / (SZ 3))%ex)%ex);
        ((("F" ++ qqqq) ++ "9"), ((ENeg (EArr "S8udduRR" [f3; f2; f1; f4])) / (SZ 16))%ex);
        ((("F" ++ qqqq) ++ "10"), (((ENeg (EArr "S1udduRR" [f3; f2; f1; f4])) / (SZ 8))%ex + ((EArr "S8udduRR" [f3; f2; f1; f4]) / ((SZ 16) * (SZ 3))%sc)%ex)%ex);
        ((("F" ++ qqqq) ++ "1p"), ((EArr "V1udRR" [f3; f4; f1; f2]) - ((EArr "V8udRR" [f3; f4; f1; f2]) / ((SZ 2) * (SZ 3))%sc)%ex)%ex);
        ((("F" ++ qqqq) ++ "2p"), ((EArr "V8udRR" [f3; f4; f1; f2]) / (SZ 2))%ex);
        ((("F" ++ qqqq) ++ "3p"), ((EArr "V1udLR" [f3; f4; f1; f2]) - ((EArr "V8udLR" [f3; f4; f1; f2]) / ((SZ 2) * (SZ 3))%sc)%ex)%ex);
        ((("F" ++ qqqq) ++ "4p"), ((EArr "V8udLR" [f3; f4; f1; f2]) / (SZ 2))%ex);
        ((("F" ++ qqqq) ++ "5p"), (((EConj (EArr "S1udRR" [f4; f3; f2; f1])) - ((EConj (EArr "S8udduRR" [f4; f1; f2; f3])) / (SZ 4))%ex)%ex - ((EConj (EArr "S8udRR" [f4; f3; f2; f1])) / ((SZ 2) * (SZ 3))%sc)%ex)%ex);
        ((("F" ++ qqqq) ++ "6p"), ((((ENeg (EConj (EArr "S1udduRR" [f4; f1; f2; f3]))) / (SZ 2))%ex + ((EConj (EArr "S8udduRR" [f4; f1; f2; f3])) / ((SZ 4) * (SZ 3))%sc)%ex)%ex + ((EConj (EArr "S8udRR" [f4; f3; f2; f1])) / (SZ 2))%ex)%ex);
        ((("F" ++ qqqq) ++ "7p"), (ENeg (EArr "V8udduLR" [f3; f2; f1; f4])));
        ((("F" ++ qqqq) ++ "8p"), (((SNeg (SZ 2)) * (EArr "V1udduLR" [f3; f2; f1; f4]))%ex + ((EArr "V8udduLR" [f3; f2; f1; f4]) / (SZ 3))%ex)%ex);
        ((("F" ++ qqqq) ++ "9p"), ((ENeg (EConj (EArr "S8udduRR" [f4; f1; f2; f3]))) / (SZ 16))%ex);
        ((("F" ++ qqqq) ++ "10p"), (((ENeg (EConj (EArr "S1udduRR" [f4; f1; f2; f3]))) / (SZ 8))%ex + (((EConj (EArr "S8udduRR" [f4; f1; f2; f3])) / (SZ 16))%ex / (SZ 3))%ex)%ex)])))))
  else let classVuudd := ["ucdd"; "ucss"; "ucbb"] in
  if smem qqqq classVuudd then
    pbind (flav uflav (str_at qqqq 0)) (fun f3 =>
    pbind (flav uflav (str_at qqqq 1)) (fun f4 =>
    pbind (flav dflav (str_at qqqq 2)) (fun f1 =>
    pbind (flav dflav (str_at qqqq 3)) (fun f2 =>
    PBlk (Ok [((("F" ++ qqqq) ++ "1"), ((EArr "V1udLL" [f3; f4; f1; f2]) - ((EArr "V8udLL" [f3; f4; f1; f2]) / ((SZ 2) * (SZ 3))%sc)%ex)%ex);
        ((("F" ++ qqqq) ++ "2"), ((EArr "V8udLL" [f3; f4; f1; f2]) / (SZ 2))%ex);
        ((("F" ++ qqqq) ++ "3p"), ((EArr "V1duLR" [f1; f2; f3; f4]) - ((EArr "V8duLR" [f1; f2; f3; f4]) / ((SZ 2) * (SZ 3))%sc)%ex)%ex);
        ((("F" ++ qqqq) ++ "4p"), ((EArr "V8duLR" [f1; f2; f3; f4]) / (SZ 2))%ex);
        ((("F" ++ qqqq) ++ "5"), (((EArr "S1udRR" [f3; f4; f1; f2]) - ((EArr "S8udduRR" [f3; f2; f1; f4]) / (SZ 4))%ex)%ex - ((EArr "S8udRR" [f3; f4; f1; f2]) / ((SZ 2) * (SZ 3))%sc)%ex)%ex);
        ((("F" ++ qqqq) ++ "6"), ((((ENeg (EArr "S1udduRR" [f3; f2; f1; f4])) / (SZ 2))%ex + ((EArr "S8udduRR" [f3; f2; f1; f4]) / ((SZ 4) * (SZ 3))%sc)%ex)%ex + ((EArr "S8udRR" [f3; f4; f1; f2]) / (SZ 2))%ex)%ex);
        ((("F" ++ qqqq) ++ "7p"), (ENeg (EConj (EArr "V8udduLR" [f4; f1; f2; f3]))));
        ((("F" ++ qqqq) ++ "8p"), (((SNeg (SZ 2)) * (EConj (EArr "V1udduLR" [f4; f1; f2; f3])))%ex + ((EConj (EArr "V8udduLR" [f4; f1; f2; f3])) / (SZ 3))%ex)%ex);
        ((("F" ++ qqqq) ++ "9"), ((ENeg (EArr "S8udduRR" [f3; f2; f1; f4])) / (SZ 16))%ex);
        ((("F" ++ qqqq) ++ "10"), (((ENeg (EArr "S1udduRR" [f3; f2; f1; f4])) / (SZ 8))%ex + ((EArr "S8udduRR" [f3; f2; f1; f4]) / ((SZ 16) * (SZ 3))%sc)%ex)%ex);
        ((("F" ++ qqqq) ++ "1p"), ((EArr "V1udRR" [f3; f4; f1; f2]) - ((EArr "V8udRR" [f3; f4; f1; f2]) / ((SZ 2) * (SZ 3))%sc)%ex)%ex);
        ((("F" ++ qqqq) ++ "2p"), ((EArr "V8udRR" [f3; f4; f1; f2]) / (SZ 2))%ex);
        ((("F" ++ qqqq) ++ "3"), ((EArr "V1udLR" [f3; f4; f1; f2]) - ((EArr "V8udLR" [f3; f4; f1; f2]) / ((SZ 2) * (SZ 3))%sc)%ex)%ex);
        ((("F" ++ qqqq) ++ "4"), ((EArr "V8udLR" [f3; f4; f1; f2]) / (SZ 2))%ex);
        ((("F" ++ qqqq) ++ "5p"), (((EConj (EArr "S1udRR" [f4; f3; f2; f1])) - ((EConj (EArr "S8udduRR" [f4; f1; f2; f3])) / (SZ 4))%ex)%ex - ((EConj (EArr "S8udRR" [f4; f3; f2; f1])) / ((SZ 2) * (SZ 3))%sc)%ex)%ex);
        ((("F" ++ qqqq) ++ "6p"), ((((ENeg (EConj (EArr "S1udduRR" [f4; f1; f2; f3]))) / (SZ 2))%ex + ((EConj (EArr "S8udduRR" [f4; f1; f2; f3])) / ((SZ 4) * (SZ 3))%sc)%ex)%ex + ((EConj (EArr "S8udRR" [f4; f3; f2; f1])) / (SZ 2))%ex)%ex);
        ((("F" ++ qqqq) ++ "7"), (ENeg (EArr "V8udduLR" [f3; f2; f1; f4])));
        ((("F" ++ qqqq) ++ "8"), (((SNeg (SZ 2)) * (EArr "V1udduLR" [f3; f2; f1; f4]))%ex + ((EArr "V8udduLR" [f3; f2; f1; f4]) / (SZ 3))%ex)%ex);
        ((("F" ++ qqqq) ++ "9p"), ((ENeg (EConj (EArr "S8udduRR" [f4; f1; f2; f3]))) / (SZ 16))%ex);
        ((("F" ++ qqqq) ++ "10p"), (((ENeg (EConj (EArr "S1udduRR" [f4; f1; f2; f3]))) / (SZ 8))%ex + (((EConj (EArr "S8udduRR" [f4; f1; f2; f3])) / (SZ 16))%ex / (SZ 3))%ex)%ex)])))))
  else let classIV := ["sbsd"; "dbds"; "bsbd"] in
  let classVdddd := ["sbss"; "dbdd"; "dsdd"; "sbbb"; "dbbb"; "dsss"] in
  let classVddddind := ["sbdd"; "dsbb"; "dbss"] in
  if smem qqqq ((classIV ++ classVdddd)%list ++ classVddddind)%list then
    pbind (flav dflav (str_at qqqq 0)) (fun f1 =>
    pbind (flav dflav (str_at qqqq 1)) (fun f2 =>
    pbind (flav dflav (str_at qqqq 2)) (fun f3 =>
    pbind (flav dflav (str_at qqqq 3)) (fun f4 =>
    PBlk (Ok [((("F" ++ qqqq) ++ "1"), (EArr "VddLL" [f3; f4; f1; f2]));
        ((("F" ++ qqqq) ++ "2"), (EArr "VddLL" [f1; f4; f3; f2]));
        ((("F" ++ qqqq) ++ "3"), ((EArr "V1ddLR" [f1; f2; f3; f4]) - ((EArr "V8ddLR" [f1; f2; f3; f4]) / ((SZ 2) * (SZ 3))%sc)%ex)%ex);
        ((("F" ++ qqqq) ++ "4"), ((EArr "V8ddLR" [f1; f2; f3; f4]) / (SZ 2))%ex);
        ((("F" ++ qqqq) ++ "5"), (((EArr "S1ddRR" [f3; f4; f1; f2]) - ((EArr "S8ddRR" [f3; f2; f1; f4]) / (SZ 4))%ex)%ex - ((EArr "S8ddRR" [f3; f4; f1; f2]) / ((SZ 2) * (SZ 3))%sc)%ex)%ex);
        ((("F" ++ qqqq) ++ "6"), ((((ENeg (EArr "S1ddRR" [f1; f4; f3; f2])) / (SZ 2))%ex + ((EArr "S8ddRR" [f3; f2; f1; f4]) / ((SZ 4) * (SZ 3))%sc)%ex)%ex + ((EArr "S8ddRR" [f3; f4; f1; f2]) / (SZ 2))%ex)%ex);
        ((("F" ++ qqqq) ++ "7"), (ENeg (EArr "V8ddLR" [f1; f4; f3; f2])));
        ((("F" ++ qqqq) ++ "8"), (((SNeg (SZ 2)) * (EArr "V1ddLR" [f1; f4; f3; f2]))%ex + ((EArr "V8ddLR" [f1; f4; f3; f2]) / (SZ 3))%ex)%ex);
        ((("F" ++ qqqq) ++ "9"), ((ENeg (EArr "S8ddRR" [f3; f2; f1; f4])) / (SZ 16))%ex);
        ((("F" ++ qqqq) ++ "10"), (((ENeg (EArr "S1ddRR" [f1; f4; f3; f2])) / (SZ 8))%ex + ((EArr "S8ddRR" [f3; f2; f1; f4]) / ((SZ 16) * (SZ 3))%sc)%ex)%ex);
        ((("F" ++ qqqq) ++ "1p"), (EArr "VddRR" [f3; f4; f1; f2]));
        ((("F" ++ qqqq) ++ "2p"), (EArr "VddRR" [f1; f4; f3; f2]));
        ((("F" ++ qqqq) ++ "3p"), ((EArr "V1ddLR" [f3; f4; f1; f2]) - ((EArr "V8ddLR" [f3; f4; f1; f2]) / ((SZ 2) * (SZ 3))%sc)%ex)%ex);
        ((("F" ++ qqqq) ++ "4p"), ((EArr "V8ddLR" [f3; f4; f1; f2]) / (SZ 2))%ex);
        ((("F" ++ qqqq) ++ "5p"), (((EConj (EArr "S1ddRR" [f4; f3; f2; f1])) - ((EConj (EArr "S8ddRR" [f4; f1; f2; f3])) / (SZ 4))%ex)%ex - (((EConj (EArr "S8ddRR" [f4; f3; f2; f1])) / (SZ 2))%ex / (SZ 3))%ex)%ex);
        ((("F" ++ qqqq) ++ "6p"), ((((ENeg (EConj (EArr "S1ddRR" [f4; f1; f2; f3]))) / (SZ 2))%ex + (((EConj (EArr "S8ddRR" [f4; f1; f2; f3])) / (SZ 4))%ex / (SZ 3))%ex)%ex + ((EConj (EArr "S8ddRR" [f4; f3; f2; f1])) / (SZ 2))%ex)%ex);
        ((("F" ++ qqqq) ++ "7p"), (ENeg (EArr "V8ddLR" [f3; f2; f1; f4])));
        ((("F" ++ qqqq) ++ "8p"), (((SNeg (SZ 2)) * (EArr "V1ddLR" [f3; f2; f1; f4]))%ex + ((EArr "V8ddLR" [f3; f2; f1; f4]) / (SZ 3))%ex)%ex);
        ((("F" ++ qqqq) ++ "9p"), ((ENeg (EConj (EArr "S8ddRR" [f4; f1; f2; f3]))) / (SZ 16))%ex);
        ((("F" ++ qqqq) ++ "10p"), (((ENeg (EConj (EArr "S1ddRR" [f4; f1; f2; f3]))) / (SZ 8))%ex + (((EConj (EArr "S8ddRR" [f4; f1; f2; f3])) / (SZ 16))%ex / (SZ 3))%ex)%ex)])))))
  else let classVuuuu := ["ucuu"; "cucc"; "cuuu"; "uccc"] in
  if smem qqqq classVuuuu then
    pbind (flav uflav (str_at qqqq 0)) (fun f1 =>
    pbind (flav uflav (str_at qqqq 1)) (fun f2 =>
    pbind (flav uflav (str_at qqqq 2)) (fun f3 =>
    pbind (flav uflav (str_at qqqq 3)) (fun f4 =>
    PBlk (Ok [((("F" ++ qqqq) ++ "1"), (EArr "VuuLL" [f3; f4; f1; f2]));
        ((("F" ++ qqqq) ++ "2"), (EArr "VuuLL" [f1; f4; f3; f2]));
        ((("F" ++ qqqq) ++ "3"), ((EArr "V1uuLR" [f1; f2; f3; f4]) - ((EArr "V8uuLR" [f1; f2; f3; f4]) / ((SZ 2) * (SZ 3))%sc)%ex)%ex);
        ((("F" ++ qqqq) ++ "4"), ((EArr "V8uuLR" [f1; f2; f3; f4]) / (SZ 2))%ex);
        ((("F" ++ qqqq) ++ "5"), (((EArr "S1uuRR" [f3; f4; f1; f2]) - ((EArr "S8uuRR" [f3; f2; f1; f4]) / (SZ 4))%ex)%ex - ((EArr "S8uuRR" [f3; f4; f1; f2]) / ((SZ 2) * (SZ 3))%sc)%ex)%ex);
        ((("F" ++ qqqq) ++ "6"), ((((ENeg (EArr "S1uuRR" [f1; f4; f3; f2])) / (SZ 2))%ex + ((EArr "S8uuRR" [f3; f2; f1; f4]) / ((SZ 4) * (SZ 3))%sc)%ex)%ex + ((EArr "S8uuRR" [f3; f4; f1; f2]) / (SZ 2))%ex)%ex);
        ((("F" ++ qqqq) ++ "7"), (ENeg (EArr "V8uuLR" [f1; f4; f3; f2])));
        ((("F" ++ qqqq) ++ "8"), (((SNeg (SZ 2)) * (EArr "V1uuLR" [f1; f4; f3; f2]))%ex + ((EArr "V8uuLR" [f1; f4; f3; f2]) / (SZ 3))%ex)%ex);
        ((("F" ++ qqqq) ++ "9"), ((ENeg (EArr "S8uuRR" [f3; f2; f1; f4])) / (SZ 16))%ex);
        ((("F" ++ qqqq) ++ "10"), (((ENeg (EArr "S1uuRR" [f1; f4; f3; f2])) / (SZ 8))%ex + ((EArr "S8uuRR" [f3; f2; f1; f4]) / ((SZ 16) * (SZ 3))%sc)%ex)%ex);
        ((("F" ++ qqqq) ++ "1p"), (EArr "VuuRR" [f3; f4; f1; f2]));
        ((("F" ++ qqqq) ++ "2p"), (EArr "VuuRR" [f1; f3; f4; f2]));
        ((("F" ++ qqqq) ++ "3p"), ((EArr "V1uuLR" [f3; f4; f1; f2]) - ((EArr "V8uuLR" [f3; f4; f1; f2]) / ((SZ 2) * (SZ 3))%sc)%ex)%ex);
        ((("F" ++ qqqq) ++ "4p"), ((EArr "V8uuLR" [f3; f4; f1; f2]) / (SZ 2))%ex);
        ((("F" ++ qqqq) ++ "5p"), (((EConj (EArr "S1uuRR" [f4; f3; f2; f1])) - ((EConj (EArr "S8uuRR" [f4; f1; f2; f3])) / (SZ 4))%ex)%ex - (((EConj (EArr "S8uuRR" [f4; f3; f2; f1])) / (SZ 2))%ex / (SZ 3))%ex)%ex);
        ((("F" ++ qqqq) ++ "6p"), ((((ENeg (EConj (EArr "S1uuRR" [f4; f1; f2; f3]))) / (SZ 2))%ex + (((EConj (EArr "S8uuRR" [f4; f1; f2; f3])) / (SZ 4))%ex / (SZ 3))%ex)%ex + ((EConj (EArr "S8uuRR" [f4; f3; f2; f1])) / (SZ 2))%ex)%ex);
        ((("F" ++ qqqq) ++ "7p"), (ENeg (EArr "V8uuLR" [f3; f2; f1; f4])));
        ((("F" ++ qqqq) ++ "8p"), (((SNeg (SZ 2)) * (EArr "V1uuLR" [f3; f2; f1; f4]))%ex + ((EArr "V8uuLR" [f3; f2; f1; f4]) / (SZ 3))%ex)%ex);
        ((("F" ++ qqqq) ++ "9p"), ((ENeg (EConj (EArr "S8uuRR" [f4; f1; f2; f3]))) / (SZ 16))%ex);
        ((("F" ++ qqqq) ++ "10p"), (((ENeg (EConj (EArr "S1uuRR" [f4; f1; f2; f3]))) / (SZ 8))%ex + (((EConj (EArr "S8uuRR" [f4; f1; f2; f3])) / (SZ 16))%ex / (SZ 3))%ex)%ex)])))))
  else PFail ValueError.

(* wilson/translate/wet.py 627-739 _Fierz_to_Bern_III_IV_V *)
Definition _Fierz_to_Bern_III_IV_V (qqqq : string) : prog :=
  if smem qqqq ["sbss"; "dbdd"; "dbds"; "sbsd"; "bsbd"; "dsdd"] then
    PBlk (Ok [(("1" ++ qqqq), (((ENeg (EKey (("F" ++ qqqq) ++ "1"))) / (SZ 3))%ex + (((SZ 4) * (EKey (("F" ++ qqqq) ++ "3")))%ex / (SZ 3))%ex)%ex);
        (("3" ++ qqqq), (((EKey (("F" ++ qqqq) ++ "1")) / (SZ 12))%ex - ((EKey (("F" ++ qqqq) ++ "3")) / (SZ 12))%ex)%ex);
        (("5" ++ qqqq), (((ENeg (EKey (("F" ++ qqqq) ++ "5p"))) / (SZ 3))%ex + (((SZ 4) * (EKey (("F" ++ qqqq) ++ "7p")))%ex / (SZ 3))%ex)%ex);
        (("7" ++ qqqq), ((((EKey (("F" ++ qqqq) ++ "5p")) / (SZ 3))%ex - ((EKey (("F" ++ qqqq) ++ "7p")) / (SZ 3))%ex)%ex + (EKey (("F" ++ qqqq) ++ "9p")))%ex);
        (("9" ++ qqqq), (((EKey (("F" ++ qqqq) ++ "5p")) / (SZ 48))%ex - ((EKey (("F" ++ qqqq) ++ "7p")) / (SZ 48))%ex)%ex);
        (("1p" ++ qqqq), (((ENeg (EKey (("F" ++ qqqq) ++ "1p"))) / (SZ 3))%ex + (((SZ 4) * (EKey (("F" ++ qqqq) ++ "3p")))%ex / (SZ 3))%ex)%ex);
        (("3p" ++ qqqq), (((EKey (("F" ++ qqqq) ++ "1p")) / (SZ 12))%ex - ((EKey (("F" ++ qqqq) ++ "3p")) / (SZ 12))%ex)%ex);
        (("5p" ++ qqqq), (((ENeg (EKey (("F" ++ qqqq) ++ "5"))) / (SZ 3))%ex + (((SZ 4) * (EKey (("F" ++ qqqq) ++ "7")))%ex / (SZ 3))%ex)%ex);
        (("7p" ++ qqqq), ((((EKey (("F" ++ qqqq) ++ "5")) / (SZ 3))%ex - ((EKey (("F" ++ qqqq) ++ "7")) / (SZ 3))%ex)%ex + (EKey (("F" ++ qqqq) ++ "9")))%ex);
        (("9p" ++ qqqq), (((EKey (("F" ++ qqqq) ++ "5")) / (SZ 48))%ex - ((EKey (("F" ++ qqqq) ++ "7")) / (SZ 48))%ex)%ex)])
  else if smem qqqq ["dbbb"; "sbbb"; "dsss"] then
    PBlk (Ok [(("1" ++ qqqq), (((ENeg (EKey (("F" ++ qqqq) ++ "1"))) / (SZ 3))%ex + (((SZ 4) * (EKey (("F" ++ qqqq) ++ "3")))%ex / (SZ 3))%ex)%ex);
        (("3" ++ qqqq), (((EKey (("F" ++ qqqq) ++ "1")) / (SZ 12))%ex - ((EKey (("F" ++ qqqq) ++ "3")) / (SZ 12))%ex)%ex);
        (("5" ++ qqqq), (((ENeg (EKey (("F" ++ qqqq) ++ "5"))) / (SZ 3))%ex + (((SZ 4) * (EKey (("F" ++ qqqq) ++ "7")))%ex / (SZ 3))%ex)%ex);
        (("7" ++ qqqq), ((((EKey (("F" ++ qqqq) ++ "5")) / (SZ 3))%ex - ((EKey (("F" ++ qqqq) ++ "7")) / (SZ 3))%ex)%ex + (EKey (("F" ++ qqqq) ++ "9")))%ex);
        (("9" ++ qqqq), (((EKey (("F" ++ qqqq) ++ "5")) / (SZ 48))%ex - ((EKey (("F" ++ qqqq) ++ "7")) / (SZ 48))%ex)%ex);
        (("1p" ++ qqqq), (((ENeg (EKey (("F" ++ qqqq) ++ "1p"))) / (SZ 3))%ex + (((SZ 4) * (EKey (("F" ++ qqqq) ++ "3p")))%ex / (SZ 3))%ex)%ex);
        (("3p" ++ qqqq), (((EKey (("F" ++ qqqq) ++ "1p")) / (SZ 12))%ex - ((EKey (("F" ++ qqqq) ++ "3p")) / (SZ 12))%ex)%ex);
        (("5p" ++ qqqq), (((ENeg (EKey (("F" ++ qqqq) ++ "5p"))) / (SZ 3))%ex + (((SZ 4) * (EKey (("F" ++ qqqq) ++ "7p")))%ex / (SZ 3))%ex)%ex);
        (("7p" ++ qqqq), ((((EKey (("F" ++ qqqq) ++ "5p")) / (SZ 3))%ex - ((EKey (("F" ++ qqqq) ++ "7p")) / (SZ 3))%ex)%ex + (EKey (("F" ++ qqqq) ++ "9p")))%ex);
        (("9p" ++ qqqq), (((EKey (("F" ++ qqqq) ++ "5p")) / (SZ 48))%ex - ((EKey (("F" ++ qqqq) ++ "7p")) / (SZ 48))%ex)%ex)])
  else if smem qqqq ["sbuu"; "sbdd"; "sbuu"; "sbuc"; "sbcu"; "sbcc"; "dbuu"; "dbss"; "dbuu"; "dbuc"; "dbcu"; "dbcc"; "dsuu"; "dsbb"; "dsuu"; "dsuc"; "dscu"; "dscc"] then
    PBlk (Ok [(("1" ++ qqqq), (((((ENeg (EKey (("F" ++ qqqq) ++ "1"))) / (SZ 3))%ex + (((SZ 4) * (EKey (("F" ++ qqqq) ++ "3")))%ex / (SZ 3))%ex)%ex - ((EKey (("F" ++ qqqq) ++ "2")) / ((SZ 3) * (SZ 3))%sc)%ex)%ex + (((SZ 4) * (EKey (("F" ++ qqqq) ++ "4")))%ex / ((SZ 3) * (SZ 3))%sc)%ex)%ex);
        (("2" ++ qqqq), ((((SNeg (SZ 2)) * (EKey (("F" ++ qqqq) ++ "2")))%ex / (SZ 3))%ex + (((SZ 8) * (EKey (("F" ++ qqqq) ++ "4")))%ex / (SZ 3))%ex)%ex);
        (("3" ++ qqqq), (((((EKey (("F" ++ qqqq) ++ "1")) / (SZ 12))%ex - ((EKey (("F" ++ qqqq) ++ "3")) / (SZ 12))%ex)%ex + ((EKey (("F" ++ qqqq) ++ "2")) / ((SZ 12) * (SZ 3))%sc)%ex)%ex - ((EKey (("F" ++ qqqq) ++ "4")) / ((SZ 12) * (SZ 3))%sc)%ex)%ex);
        (("4" ++ qqqq), (((EKey (("F" ++ qqqq) ++ "2")) / (SZ 6))%ex - ((EKey (("F" ++ qqqq) ++ "4")) / (SZ 6))%ex)%ex);
        (("5" ++ qqqq), (((((ENeg (EKey (("F" ++ qqqq) ++ "5"))) / (SZ 3))%ex + (((SZ 4) * (EKey (("F" ++ qqqq) ++ "7")))%ex / (SZ 3))%ex)%ex - ((EKey (("F" ++ qqqq) ++ "6")) / ((SZ 3) * (SZ 3))%sc)%ex)%ex + (((SZ 4) * (EKey (("F" ++ qqqq) ++ "8")))%ex / ((SZ 3) * (SZ 3))%sc)%ex)%ex);
        (("6" ++ qqqq), ((((SNeg (SZ 2)) * (EKey (("F" ++ qqqq) ++ "6")))%ex / (SZ 3))%ex + (((SZ 8) * (EKey (("F" ++ qqqq) ++ "8")))%ex / (SZ 3))%ex)%ex);
        (("7" ++ qqqq), (((((((EKey (("F" ++ qqqq) ++ "5")) / (SZ 3))%ex - ((EKey (("F" ++ qqqq) ++ "7")) / (SZ 3))%ex)%ex + (EKey (("F" ++ qqqq) ++ "9")))%ex + ((EKey (("F" ++ qqqq) ++ "10")) / (SZ 3))%ex)%ex + ((EKey (("F" ++ qqqq) ++ "6")) / ((SZ 3) * (SZ 3))%sc)%ex)%ex - ((EKey (("F" ++ qqqq) ++ "8")) / ((SZ 3) * (SZ 3))%sc)%ex)%ex);
        (("8" ++ qqqq), ((((SZ 2) * (EKey (("F" ++ qqqq) ++ "10")))%ex + (((SZ 2) * (EKey (("F" ++ qqqq) ++ "6")))%ex / (SZ 3))%ex)%ex - (((SZ 2) * (EKey (("F" ++ qqqq) ++ "8")))%ex / (SZ 3))%ex)%ex);
        (("9" ++ qqqq), (((((EKey (("F" ++ qqqq) ++ "5")) / (SZ 48))%ex - ((EKey (("F" ++ qqqq) ++ "7")) / (SZ 48))%ex)%ex + ((EKey (("F" ++ qqqq) ++ "6")) / ((SZ 48) * (SZ 3))%sc)%ex)%ex - ((EKey (("F" ++ qqqq) ++ "8")) / ((SZ 48) * (SZ 3))%sc)%ex)%ex);
        (("10" ++ qqqq), (((EKey (("F" ++ qqqq) ++ "6")) / (SZ 24))%ex - ((EKey (("F" ++ qqqq) ++ "8")) / (SZ 24))%ex)%ex);
        (("1p" ++ qqqq), (((((ENeg (EKey (("F" ++ qqqq) ++ "1p"))) / (SZ 3))%ex + (((SZ 4) * (EKey (("F" ++ qqqq) ++ "3p")))%ex / (SZ 3))%ex)%ex - ((EKey (("F" ++ qqqq) ++ "2p")) / ((SZ 3) * (SZ 3))%sc)%ex)%ex + (((SZ 4) * (EKey (("F" ++ qqqq) ++ "4p")))%ex / ((SZ 3) * (SZ 3))%sc)%ex)%ex);
        (("2p" ++ qqqq), ((((SNeg (SZ 2)) * (EKey (("F" ++ qqqq) ++ "2p")))%ex / (SZ 3))%ex + (((SZ 8) * (EKey (("F" ++ qqqq) ++ "4p")))%ex / (SZ 3))%ex)%ex);
        (("3p" ++ qqqq), (((((EKey (("F" ++ qqqq) ++ "1p")) / (SZ 12))%ex - ((EKey (("F" ++ qqqq) ++ "3p")) / (SZ 12))%ex)%ex + ((EKey (("F" ++ qqqq) ++ "2p")) / ((SZ 12) * (SZ 3))%sc)%ex)%ex - ((EKey (("F" ++ qqqq) ++ "4p")) / ((SZ 12) * (SZ 3))%sc)%ex)%ex);
        (("4p" ++ qqqq), (((EKey (("F" ++ qqqq) ++ "2p")) / (SZ 6))%ex - ((EKey (("F" ++ qqqq) ++ "4p")) / (SZ 6))%ex)%ex);
        (("5p" ++ qqqq), (((((ENeg (EKey (("F" ++ qqqq) ++ "5p"))) / (SZ 3))%ex + (((SZ 4) * (EKey (("F" ++ qqqq) ++ "7p")))%ex / (SZ 3))%ex)%ex - ((EKey (("F" ++ qqqq) ++ "6p")) / ((SZ 3) * (SZ 3))%sc)%ex)%ex + (((SZ 4) * (EKey (("F" ++ qqqq) ++ "8p")))%ex / ((SZ 3) * (SZ 3))%sc)%ex)%ex);
        (("6p" ++ qqqq), ((((SNeg (SZ 2)) * (EKey (("F" ++ qqqq) ++ "6p")))%ex / (SZ 3))%ex + (((SZ 8) * (EKey (("F" ++ qqqq) ++ "8p")))%ex / (SZ 3))%ex)%ex);
        (("7p" ++ qqqq), (((((((EKey (("F" ++ qqqq) ++ "5p")) / (SZ 3))%ex - ((EKey (("F" ++ qqqq) ++ "7p")) / (SZ 3))%ex)%ex + (EKey (("F" ++ qqqq) ++ "9p")))%ex + ((EKey (("F" ++ qqqq) ++ "10p")) / (SZ 3))%ex)%ex + ((EKey (("F" ++ qqqq) ++ "6p")) / ((SZ 3) * (SZ 3))%sc)%ex)%ex - ((EKey (("F" ++ qqqq) ++ "8p")) / ((SZ 3) * (SZ 3))%sc)%ex)%ex);
        (("8p" ++ qqqq), ((((SZ 2) * (EKey (("F" ++ qqqq) ++ "10p")))%ex + (((SZ 2) * (EKey (("F" ++ qqqq) ++ "6p")))%ex / (SZ 3))%ex)%ex - (((SZ 2) * (EKey (("F" ++ qqqq) ++ "8p")))%ex / (SZ 3))%ex)%ex);
        (("9p" ++ qqqq), (((((EKey (("F" ++ qqqq) ++ "5p")) / (SZ 48))%ex - ((EKey (("F" ++ qqqq) ++ "7p")) / (SZ 48))%ex)%ex + ((EKey (("F" ++ qqqq) ++ "6p")) / ((SZ 48) * (SZ 3))%sc)%ex)%ex - ((EKey (("F" ++ qqqq) ++ "8p")) / ((SZ 48) * (SZ 3))%sc)%ex)%ex);
        (("10p" ++ qqqq), (((EKey (("F" ++ qqqq) ++ "6p")) / (SZ 24))%ex - ((EKey (("F" ++ qqqq) ++ "8p")) / (SZ 24))%ex)%ex)])
  else PFail ValueError.

(* wilson/translate/wet.py 741-797 _Bern_to_Fierz_III_IV_V *)
Definition _Bern_to_Fierz_III_IV_V (qqqq : string) : prog :=
  if smem qqqq ["sbss"; "dbdd"; "dbds"; "sbsd"; "bsbd"; "dsdd"] then
    PBlk (Ok [((("F" ++ qqqq) ++ "1"), ((EKey ("1" ++ qqqq)) + ((SZ 16) * (EKey ("3" ++ qqqq)))%ex)%ex);
        ((("F" ++ qqqq) ++ "1p"), ((EKey ("1p" ++ qqqq)) + ((SZ 16) * (EKey ("3p" ++ qqqq)))%ex)%ex);
        ((("F" ++ qqqq) ++ "3"), ((EKey ("1" ++ qqqq)) + ((SZ 4) * (EKey ("3" ++ qqqq)))%ex)%ex);
        ((("F" ++ qqqq) ++ "3p"), ((EKey ("1p" ++ qqqq)) + ((SZ 4) * (EKey ("3p" ++ qqqq)))%ex)%ex);
        ((("F" ++ qqqq) ++ "5"), ((EKey ("5p" ++ qqqq)) + ((SZ 64) * (EKey ("9p" ++ qqqq)))%ex)%ex);
        ((("F" ++ qqqq) ++ "5p"), ((EKey ("5" ++ qqqq)) + ((SZ 64) * (EKey ("9" ++ qqqq)))%ex)%ex);
        ((("F" ++ qqqq) ++ "7"), ((EKey ("5p" ++ qqqq)) + ((SZ 16) * (EKey ("9p" ++ qqqq)))%ex)%ex);
        ((("F" ++ qqqq) ++ "7p"), ((EKey ("5" ++ qqqq)) + ((SZ 16) * (EKey ("9" ++ qqqq)))%ex)%ex);
        ((("F" ++ qqqq) ++ "9"), ((EKey ("7p" ++ qqqq)) - ((SZ 16) * (EKey ("9p" ++ qqqq)))%ex)%ex);
        ((("F" ++ qqqq) ++ "9p"), ((EKey ("7" ++ qqqq)) - ((SZ 16) * (EKey ("9" ++ qqqq)))%ex)%ex)])
  else if smem qqqq ["dbbb"; "sbbb"; "dsss"] then
    PBlk (Ok [((("F" ++ qqqq) ++ "1"), ((EKey ("1" ++ qqqq)) + ((SZ 16) * (EKey ("3" ++ qqqq)))%ex)%ex);
        ((("F" ++ qqqq) ++ "1p"), ((EKey ("1p" ++ qqqq)) + ((SZ 16) * (EKey ("3p" ++ qqqq)))%ex)%ex);
        ((("F" ++ qqqq) ++ "3"), ((EKey ("1" ++ qqqq)) + ((SZ 4) * (EKey ("3" ++ qqqq)))%ex)%ex);
        ((("F" ++ qqqq) ++ "3p"), ((EKey ("1p" ++ qqqq)) + ((SZ 4) * (EKey ("3p" ++ qqqq)))%ex)%ex);
        ((("F" ++ qqqq) ++ "5"), ((EKey ("5" ++ qqqq)) + ((SZ 64) * (EKey ("9" ++ qqqq)))%ex)%ex);
        ((("F" ++ qqqq) ++ "5p"), ((EKey ("5p" ++ qqqq)) + ((SZ 64) * (EKey ("9p" ++ qqqq)))%ex)%ex);
        ((("F" ++ qqqq) ++ "7"), ((EKey ("5" ++ qqqq)) + ((SZ 16) * (EKey ("9" ++ qqqq)))%ex)%ex);
        ((("F" ++ qqqq) ++ "7p"), ((EKey ("5p" ++ qqqq)) + ((SZ 16) * (EKey ("9p" ++ qqqq)))%ex)%ex);
        ((("F" ++ qqqq) ++ "9"), ((EKey ("7" ++ qqqq)) - ((SZ 16) * (EKey ("9" ++ qqqq)))%ex)%ex);
        ((("F" ++ qqqq) ++ "9p"), ((EKey ("7p" ++ qqqq)) - ((SZ 16) * (EKey ("9p" ++ qqqq)))%ex)%ex)])
  else if smem qqqq ["sbuu"; "sbdd"; "sbuu"; "sbuc"; "sbcu"; "sbcc"; "dbuu"; "dbss"; "dbuu"; "dbuc"; "dbcu"; "dbcc"; "dsuu"; "dsbb"; "dsuu"; "dsuc"; "dscu"; "dscc"] then
    PBlk (Ok [((("F" ++ qqqq) ++ "1"), ((((EKey ("1" ++ qqqq)) - ((EKey ("2" ++ qqqq)) / (SZ 6))%ex)%ex + ((SZ 16) * (EKey ("3" ++ qqqq)))%ex)%ex - (((SZ 8) * (EKey ("4" ++ qqqq)))%ex / (SZ 3))%ex)%ex);
        ((("F" ++ qqqq) ++ "10"), (((SNeg (SZ 8)) * (EKey ("10" ++ qqqq)))%ex + ((EKey ("8" ++ qqqq)) / (SZ 2))%ex)%ex);
        ((("F" ++ qqqq) ++ "10p"), (((SNeg (SZ 8)) * (EKey ("10p" ++ qqqq)))%ex + ((EKey ("8p" ++ qqqq)) / (SZ 2))%ex)%ex);
        ((("F" ++ qqqq) ++ "1p"), ((((EKey ("1p" ++ qqqq)) - ((EKey ("2p" ++ qqqq)) / (SZ 6))%ex)%ex + ((SZ 16) * (EKey ("3p" ++ qqqq)))%ex)%ex - (((SZ 8) * (EKey ("4p" ++ qqqq)))%ex / (SZ 3))%ex)%ex);
        ((("F" ++ qqqq) ++ "2"), (((EKey ("2" ++ qqqq)) / (SZ 2))%ex + ((SZ 8) * (EKey ("4" ++ qqqq)))%ex)%ex);
        ((("F" ++ qqqq) ++ "2p"), (((EKey ("2p" ++ qqqq)) / (SZ 2))%ex + ((SZ 8) * (EKey ("4p" ++ qqqq)))%ex)%ex);
        ((("F" ++ qqqq) ++ "3"), ((((EKey ("1" ++ qqqq)) - ((EKey ("2" ++ qqqq)) / (SZ 6))%ex)%ex + ((SZ 4) * (EKey ("3" ++ qqqq)))%ex)%ex - (((SZ 2) * (EKey ("4" ++ qqqq)))%ex / (SZ 3))%ex)%ex);
        ((("F" ++ qqqq) ++ "3p"), ((((EKey ("1p" ++ qqqq)) - ((EKey ("2p" ++ qqqq)) / (SZ 6))%ex)%ex + ((SZ 4) * (EKey ("3p" ++ qqqq)))%ex)%ex - (((SZ 2) * (EKey ("4p" ++ qqqq)))%ex / (SZ 3))%ex)%ex);
        ((("F" ++ qqqq) ++ "4"), (((EKey ("2" ++ qqqq)) / (SZ 2))%ex + ((SZ 2) * (EKey ("4" ++ qqqq)))%ex)%ex);
        ((("F" ++ qqqq) ++ "4p"), (((EKey ("2p" ++ qqqq)) / (SZ 2))%ex + ((SZ 2) * (EKey ("4p" ++ qqqq)))%ex)%ex);
        ((("F" ++ qqqq) ++ "5"), ((((ENeg (((SZ 32) * (EKey ("10" ++ qqqq)))%ex / (SZ 3))%ex) + (EKey ("5" ++ qqqq)))%ex - ((EKey ("6" ++ qqqq)) / (SZ 6))%ex)%ex + ((SZ 64) * (EKey ("9" ++ qqqq)))%ex)%ex);
        ((("F" ++ qqqq) ++ "5p"), ((((ENeg (((SZ 32) * (EKey ("10p" ++ qqqq)))%ex / (SZ 3))%ex) + (EKey ("5p" ++ qqqq)))%ex - ((EKey ("6p" ++ qqqq)) / (SZ 6))%ex)%ex + ((SZ 64) * (EKey ("9p" ++ qqqq)))%ex)%ex);
        ((("F" ++ qqqq) ++ "6"), (((SZ 32) * (EKey ("10" ++ qqqq)))%ex + ((EKey ("6" ++ qqqq)) / (SZ 2))%ex)%ex);
        ((("F" ++ qqqq) ++ "6p"), (((SZ 32) * (EKey ("10p" ++ qqqq)))%ex + ((EKey ("6p" ++ qqqq)) / (SZ 2))%ex)%ex);
        ((("F" ++ qqqq) ++ "7"), ((((ENeg (((SZ 8) * (EKey ("10" ++ qqqq)))%ex / (SZ 3))%ex) + (EKey ("5" ++ qqqq)))%ex - ((EKey ("6" ++ qqqq)) / (SZ 6))%ex)%ex + ((SZ 16) * (EKey ("9" ++ qqqq)))%ex)%ex);
        ((("F" ++ qqqq) ++ "7p"), ((((ENeg (((SZ 8) * (EKey ("10p" ++ qqqq)))%ex / (SZ 3))%ex) + (EKey ("5p" ++ qqqq)))%ex - ((EKey ("6p" ++ qqqq)) / (SZ 6))%ex)%ex + ((SZ 16) * (EKey ("9p" ++ qqqq)))%ex)%ex);
        ((("F" ++ qqqq) ++ "8"), (((SZ 8) * (EKey ("10" ++ qqqq)))%ex + ((EKey ("6" ++ qqqq)) / (SZ 2))%ex)%ex);
        ((("F" ++ qqqq) ++ "8p"), (((SZ 8) * (EKey ("10p" ++ qqqq)))%ex + ((EKey ("6p" ++ qqqq)) / (SZ 2))%ex)%ex);
        ((("F" ++ qqqq) ++ "9"), ((((((SZ 8) * (EKey ("10" ++ qqqq)))%ex / (SZ 3))%ex + (EKey ("7" ++ qqqq)))%ex - ((EKey ("8" ++ qqqq)) / (SZ 6))%ex)%ex - ((SZ 16) * (EKey ("9" ++ qqqq)))%ex)%ex);
        ((("F" ++ qqqq) ++ "9p"), ((((((SZ 8) * (EKey ("10p" ++ qqqq)))%ex / (SZ 3))%ex + (EKey ("7p" ++ qqqq)))%ex - ((EKey ("8p" ++ qqqq)) / (SZ 6))%ex)%ex - ((SZ 16) * (EKey ("9p" ++ qqqq)))%ex)%ex)])
  else PFail ValueError.

(* wilson/translate/wet.py 799-872 _Fierz_to_EOS_III *)
Definition _Fierz_to_EOS_III (qqqq : string) : prog :=
  let pf : sc := (((SY Ysqrt2) / (SZ 4))%sc / (SY YGF))%sc in
  pbind (flav dflav (str_at qqqq 0)) (fun d1 =>
  pbind (flav dflav (str_at qqqq 1)) (fun d2 =>
  pbind (flav uflav (str_at qqqq 2)) (fun u1 =>
  pbind (flav uflav (str_at qqqq 3)) (fun u2 =>
  if smem qqqq ["sbcu"; "dbcu"] then
    let pf_ckm : sc := (pf / ((SV u1 d2) * (SConj (SV u2 d1)))%sc)%sc in
    PScale pf_ckm (PBlk (Ok [((qqqq ++ "::c1"), (((((ENeg (EKey (("F" ++ qqqq) ++ "1"))) / (SZ 3))%ex + (((SZ 4) * (EKey (("F" ++ qqqq) ++ "3")))%ex / (SZ 3))%ex)%ex - ((EKey (("F" ++ qqqq) ++ "2")) / ((SZ 3) * (SZ 3))%sc)%ex)%ex + (((SZ 4) * (EKey (("F" ++ qqqq) ++ "4")))%ex / ((SZ 3) * (SZ 3))%sc)%ex)%ex);
        ((qqqq ++ "::c2"), ((((SNeg (SZ 2)) * (EKey (("F" ++ qqqq) ++ "2")))%ex / (SZ 3))%ex + (((SZ 8) * (EKey (("F" ++ qqqq) ++ "4")))%ex / (SZ 3))%ex)%ex);
        ((qqqq ++ "::c3"), (((((EKey (("F" ++ qqqq) ++ "1")) / (SZ 12))%ex - ((EKey (("F" ++ qqqq) ++ "3")) / (SZ 12))%ex)%ex + ((EKey (("F" ++ qqqq) ++ "2")) / ((SZ 12) * (SZ 3))%sc)%ex)%ex - ((EKey (("F" ++ qqqq) ++ "4")) / ((SZ 12) * (SZ 3))%sc)%ex)%ex);
        ((qqqq ++ "::c4"), (((EKey (("F" ++ qqqq) ++ "2")) / (SZ 6))%ex - ((EKey (("F" ++ qqqq) ++ "4")) / (SZ 6))%ex)%ex);
        ((qqqq ++ "::c5"), (((((ENeg (EKey (("F" ++ qqqq) ++ "5"))) / (SZ 3))%ex + (((SZ 4) * (EKey (("F" ++ qqqq) ++ "7")))%ex / (SZ 3))%ex)%ex - ((EKey (("F" ++ qqqq) ++ "6")) / ((SZ 3) * (SZ 3))%sc)%ex)%ex + (((SZ 4) * (EKey (("F" ++ qqqq) ++ "8")))%ex / ((SZ 3) * (SZ 3))%sc)%ex)%ex);
        ((qqqq ++ "::c6"), ((((SNeg (SZ 2)) * (EKey (("F" ++ qqqq) ++ "6")))%ex / (SZ 3))%ex + (((SZ 8) * (EKey (("F" ++ qqqq) ++ "8")))%ex / (SZ 3))%ex)%ex);
        ((qqqq ++ "::c7"), (((((((EKey (("F" ++ qqqq) ++ "5")) / (SZ 3))%ex - ((EKey (("F" ++ qqqq) ++ "7")) / (SZ 3))%ex)%ex + (EKey (("F" ++ qqqq) ++ "9")))%ex + ((EKey (("F" ++ qqqq) ++ "10")) / (SZ 3))%ex)%ex + ((EKey (("F" ++ qqqq) ++ "6")) / ((SZ 3) * (SZ 3))%sc)%ex)%ex - ((EKey (("F" ++ qqqq) ++ "8")) / ((SZ 3) * (SZ 3))%sc)%ex)%ex);
        ((qqqq ++ "::c8"), ((((SZ 2) * (EKey (("F" ++ qqqq) ++ "10")))%ex + (((SZ 2) * (EKey (("F" ++ qqqq) ++ "6")))%ex / (SZ 3))%ex)%ex - (((SZ 2) * (EKey (("F" ++ qqqq) ++ "8")))%ex / (SZ 3))%ex)%ex);
        ((qqqq ++ "::c9"), (((((EKey (("F" ++ qqqq) ++ "5")) / (SZ 48))%ex - ((EKey (("F" ++ qqqq) ++ "7")) / (SZ 48))%ex)%ex + ((EKey (("F" ++ qqqq) ++ "6")) / ((SZ 48) * (SZ 3))%sc)%ex)%ex - ((EKey (("F" ++ qqqq) ++ "8")) / ((SZ 48) * (SZ 3))%sc)%ex)%ex);
        ((qqqq ++ "::c10"), (((EKey (("F" ++ qqqq) ++ "6")) / (SZ 24))%ex - ((EKey (("F" ++ qqqq) ++ "8")) / (SZ 24))%ex)%ex);
        ((qqqq ++ "::c1'"), (((((ENeg (EKey (("F" ++ qqqq) ++ "1p"))) / (SZ 3))%ex + (((SZ 4) * (EKey (("F" ++ qqqq) ++ "3p")))%ex / (SZ 3))%ex)%ex - ((EKey (("F" ++ qqqq) ++ "2p")) / ((SZ 3) * (SZ 3))%sc)%ex)%ex + (((SZ 4) * (EKey (("F" ++ qqqq) ++ "4p")))%ex / ((SZ 3) * (SZ 3))%sc)%ex)%ex);
        ((qqqq ++ "::c2'"), ((((SNeg (SZ 2)) * (EKey (("F" ++ qqqq) ++ "2p")))%ex / (SZ 3))%ex + (((SZ 8) * (EKey (("F" ++ qqqq) ++ "4p")))%ex / (SZ 3))%ex)%ex);
        ((qqqq ++ "::c3'"), (((((EKey (("F" ++ qqqq) ++ "1p")) / (SZ 12))%ex - ((EKey (("F" ++ qqqq) ++ "3p")) / (SZ 12))%ex)%ex + ((EKey (("F" ++ qqqq) ++ "2p")) / ((SZ 12) * (SZ 3))%sc)%ex)%ex - ((EKey (("F" ++ qqqq) ++ "4p")) / ((SZ 12) * (SZ 3))%sc)%ex)%ex);
        ((qqqq ++ "::c4'"), (((EKey (("F" ++ qqqq) ++ "2p")) / (SZ 6))%ex - ((EKey (("F" ++ qqqq) ++ "4p")) / (SZ 6))%ex)%ex);
        ((qqqq ++ "::c5'"), (((((ENeg (EKey (("F" ++ qqqq) ++ "5p"))) / (SZ 3))%ex + (((SZ 4) * (EKey (("F" ++ qqqq) ++ "7p")))%ex / (SZ 3))%ex)%ex - ((EKey (("F" ++ qqqq) ++ "6p")) / ((SZ 3) * (SZ 3))%sc)%ex)%ex + (((SZ 4) * (EKey (("F" ++ qqqq) ++ "8p")))%ex / ((SZ 3) * (SZ 3))%sc)%ex)%ex);
        ((qqqq ++ "::c6'"), ((((SNeg (SZ 2)) * (EKey (("F" ++ qqqq) ++ "6p")))%ex / (SZ 3))%ex + (((SZ 8) * (EKey (("F" ++ qqqq) ++ "8p")))%ex / (SZ 3))%ex)%ex);
        ((qqqq ++ "::c7'"), (((((((EKey (("F" ++ qqqq) ++ "5p")) / (SZ 3))%ex - ((EKey (("F" ++ qqqq) ++ "7p")) / (SZ 3))%ex)%ex + (EKey (("F" ++ qqqq) ++ "9p")))%ex + ((EKey (("F" ++ qqqq) ++ "10p")) / (SZ 3))%ex)%ex + ((EKey (("F" ++ qqqq) ++ "6p")) / ((SZ 3) * (SZ 3))%sc)%ex)%ex - ((EKey (("F" ++ qqqq) ++ "8p")) / ((SZ 3) * (SZ 3))%sc)%ex)%ex);
        ((qqqq ++ "::c8'"), ((((SZ 2) * (EKey (("F" ++ qqqq) ++ "10p")))%ex + (((SZ 2) * (EKey (("F" ++ qqqq) ++ "6p")))%ex / (SZ 3))%ex)%ex - (((SZ 2) * (EKey (("F" ++ qqqq) ++ "8p")))%ex / (SZ 3))%ex)%ex);
        ((qqqq ++ "::c9'"), (((((EKey (("F" ++ qqqq) ++ "5p")) / (SZ 48))%ex - ((EKey (("F" ++ qqqq) ++ "7p")) / (SZ 48))%ex)%ex + ((EKey (("F" ++ qqqq) ++ "6p")) / ((SZ 48) * (SZ 3))%sc)%ex)%ex - ((EKey (("F" ++ qqqq) ++ "8p")) / ((SZ 48) * (SZ 3))%sc)%ex)%ex);
        ((qqqq ++ "::c10'"), (((EKey (("F" ++ qqqq) ++ "6p")) / (SZ 24))%ex - ((EKey (("F" ++ qqqq) ++ "8p")) / (SZ 24))%ex)%ex)]))
  else PFail ValueError)))).

(* wilson/translate/wet.py 874-926 _Fierz_to_Flavio_V *)
Definition _Fierz_to_Flavio_V (qqqq : string) : prog :=
  pbind (if String.eqb (str_to qqqq 2) "sb" then Ok ((SV 2 2) * (SConj (SV 2 1)))%sc
    else if String.eqb (str_to qqqq 2) "db" then Ok ((SV 2 2) * (SConj (SV 2 0)))%sc
    else if String.eqb (str_to qqqq 2) "ds" then Ok ((SV 2 1) * (SConj (SV 2 0)))%sc
    else if String.eqb (str_to qqqq 2) "uc" then Ok ((SConj (SV 1 2)) * (SV 0 2))%sc
    else Err ValueError) (fun xi =>
  let pf : sc := ((((SY Ysqrt2) / (SY YGF))%sc / xi)%sc / (SZ 4))%sc in
  let qqqq_fl : string := (((str_at qqqq 1) ++ (str_at qqqq 0)) ++ (str_from qqqq 2)) in
  if smem qqqq ["dsss"; "dsdd"; "dbbb"; "dbdd"; "sbss"; "sbbb"; "ucuu"; "uccc"] then
    PBlk (Ok [(("CVLL_" ++ qqqq_fl), (pf * (EKey (("F" ++ qqqq) ++ "1")))%ex);
        (("CVLR_" ++ qqqq_fl), (pf * (EKey (("F" ++ qqqq) ++ "3")))%ex);
        (("CSRR_" ++ qqqq_fl), (pf * (EKey (("F" ++ qqqq) ++ "5")))%ex);
        (("CSRL_" ++ qqqq_fl), (pf * (EKey (("F" ++ qqqq) ++ "7")))%ex);
        (("CTRR_" ++ qqqq_fl), (pf * (EKey (("F" ++ qqqq) ++ "9")))%ex);
        (("CVRR_" ++ qqqq_fl), (pf * (EKey (("F" ++ qqqq) ++ "1p")))%ex);
        (("CVRL_" ++ qqqq_fl), (pf * (EKey (("F" ++ qqqq) ++ "3p")))%ex);
        (("CSLL_" ++ qqqq_fl), (pf * (EKey (("F" ++ qqqq) ++ "5p")))%ex);
        (("CSLR_" ++ qqqq_fl), (pf * (EKey (("F" ++ qqqq) ++ "7p")))%ex);
        (("CTLL_" ++ qqqq_fl), (pf * (EKey (("F" ++ qqqq) ++ "9p")))%ex)])
  else if smem qqqq ["dsuu"; "dscc"; "dsbb"; "dbuu"; "dbcc"; "dbss"; "sbuu"; "sbcc"; "sbdd"; "ucdd"; "ucss"; "ucbb"] then
    PBlk (Ok [(("CVLL_" ++ qqqq_fl), (pf * (EKey (("F" ++ qqqq) ++ "1")))%ex);
        (("CVLLt_" ++ qqqq_fl), (pf * (EKey (("F" ++ qqqq) ++ "2")))%ex);
        (("CVLR_" ++ qqqq_fl), (pf * (EKey (("F" ++ qqqq) ++ "3")))%ex);
        (("CVLRt_" ++ qqqq_fl), (pf * (EKey (("F" ++ qqqq) ++ "4")))%ex);
        (("CSRR_" ++ qqqq_fl), (pf * (EKey (("F" ++ qqqq) ++ "5")))%ex);
        (("CSRRt_" ++ qqqq_fl), (pf * (EKey (("F" ++ qqqq) ++ "6")))%ex);
        (("CSRL_" ++ qqqq_fl), (pf * (EKey (("F" ++ qqqq) ++ "7")))%ex);
        (("CSRLt_" ++ qqqq_fl), (pf * (EKey (("F" ++ qqqq) ++ "8")))%ex);
        (("CTRR_" ++ qqqq_fl), (pf * (EKey (("F" ++ qqqq) ++ "9")))%ex);
        (("CTRRt_" ++ qqqq_fl), (pf * (EKey (("F" ++ qqqq) ++ "10")))%ex);
        (("CVRR_" ++ qqqq_fl), (pf * (EKey (("F" ++ qqqq) ++ "1p")))%ex);
        (("CVRRt_" ++ qqqq_fl), (pf * (EKey (("F" ++ qqqq) ++ "2p")))%ex);
        (("CVRL_" ++ qqqq_fl), (pf * (EKey (("F" ++ qqqq) ++ "3p")))%ex);
        (("CVRLt_" ++ qqqq_fl), (pf * (EKey (("F" ++ qqqq) ++ "4p")))%ex);
        (("CSLL_" ++ qqqq_fl), (pf * (EKey (("F" ++ qqqq) ++ "5p")))%ex);
        (("CSLLt_" ++ qqqq_fl), (pf * (EKey (("F" ++ qqqq) ++ "6p")))%ex);
        (("CSLR_" ++ qqqq_fl), (pf * (EKey (("F" ++ qqqq) ++ "7p")))%ex);
        (("CSLRt_" ++ qqqq_fl), (pf * (EKey (("F" ++ qqqq) ++ "8p")))%ex);
        (("CTLL_" ++ qqqq_fl), (pf * (EKey (("F" ++ qqqq) ++ "9p")))%ex);
        (("CTLLt_" ++ qqqq_fl), (pf * (EKey (("F" ++ qqqq) ++ "10p")))%ex)])
  else PFail ValueError).

(* wilson/translate/wet.py 929-981 _Flavio_to_Fierz_V *)
Definition _Flavio_to_Fierz_V (qqqq : string) : prog :=
  pbind (if String.eqb (str_to qqqq 2) "sb" then Ok ((SV 2 2) * (SConj (SV 2 1)))%sc
    else if String.eqb (str_to qqqq 2) "db" then Ok ((SV 2 2) * (SConj (SV 2 0)))%sc
    else if String.eqb (str_to qqqq 2) "ds" then Ok ((SV 2 1) * (SConj (SV 2 0)))%sc
    else if String.eqb (str_to qqqq 2) "uc" then Ok ((SConj (SV 1 2)) * (SV 0 2))%sc
    else Err ValueError) (fun xi =>
  let pf : sc := ((((SZ 4) * (SY YGF))%sc / (SY Ysqrt2))%sc * xi)%sc in
  let qqqq_fl : string := (((str_at qqqq 1) ++ (str_at qqqq 0)) ++ (str_from qqqq 2)) in
  if smem qqqq ["dsss"; "dsdd"; "dbbb"; "dbdd"; "sbss"; "sbbb"; "ucuu"; "uccc"] then
    PBlk (Ok [((("F" ++ qqqq) ++ "1"), (pf * (EKey ("CVLL_" ++ qqqq_fl)))%ex);
        ((("F" ++ qqqq) ++ "3"), (pf * (EKey ("CVLR_" ++ qqqq_fl)))%ex);
        ((("F" ++ qqqq) ++ "5"), (pf * (EKey ("CSRR_" ++ qqqq_fl)))%ex);
        ((("F" ++ qqqq) ++ "7"), (pf * (EKey ("CSRL_" ++ qqqq_fl)))%ex);
        ((("F" ++ qqqq) ++ "9"), (pf * (EKey ("CTRR_" ++ qqqq_fl)))%ex);
        ((("F" ++ qqqq) ++ "1p"), (pf * (EKey ("CVRR_" ++ qqqq_fl)))%ex);
        ((("F" ++ qqqq) ++ "3p"), (pf * (EKey ("CVRL_" ++ qqqq_fl)))%ex);
        ((("F" ++ qqqq) ++ "5p"), (pf * (EKey ("CSLL_" ++ qqqq_fl)))%ex);
        ((("F" ++ qqqq) ++ "7p"), (pf * (EKey ("CSLR_" ++ qqqq_fl)))%ex);
        ((("F" ++ qqqq) ++ "9p"), (pf * (EKey ("CTLL_" ++ qqqq_fl)))%ex)])
  else if smem qqqq ["dsuu"; "dscc"; "dsbb"; "dbuu"; "dbcc"; "dbss"; "sbuu"; "sbcc"; "sbdd"; "ucdd"; "ucss"; "ucbb"] then
    PBlk (Ok [((("F" ++ qqqq) ++ "1"), (pf * (EKey ("CVLL_" ++ qqqq_fl)))%ex);
        ((("F" ++ qqqq) ++ "2"), (pf * (EKey ("CVLLt_" ++ qqqq_fl)))%ex);
        ((("F" ++ qqqq) ++ "3"), (pf * (EKey ("CVLR_" ++ qqqq_fl)))%ex);
        ((("F" ++ qqqq) ++ "4"), (pf * (EKey ("CVLRt_" ++ qqqq_fl)))%ex);
        ((("F" ++ qqqq) ++ "5"), (pf * (EKey ("CSRR_" ++ qqqq_fl)))%ex);
        ((("F" ++ qqqq) ++ "6"), (pf * (EKey ("CSRRt_" ++ qqqq_fl)))%ex);
        ((("F" ++ qqqq) ++ "7"), (pf * (EKey ("CSRL_" ++ qqqq_fl)))%ex);
        ((("F" ++ qqqq) ++ "8"), (pf * (EKey ("CSRLt_" ++ qqqq_fl)))%ex);
        ((("F" ++ qqqq) ++ "9"), (pf * (EKey ("CTRR_" ++ qqqq_fl)))%ex);
        ((("F" ++ qqqq) ++ "10"), (pf * (EKey ("CTRRt_" ++ qqqq_fl)))%ex);
        ((("F" ++ qqqq) ++ "1p"), (pf * (EKey ("CVRR_" ++ qqqq_fl)))%ex);
        ((("F" ++ qqqq) ++ "2p"), (pf * (EKey ("CVRRt_" ++ qqqq_fl)))%ex);
        ((("F" ++ qqqq) ++ "3p"), (pf * (EKey ("CVRL_" ++ qqqq_fl)))%ex);
        ((("F" ++ qqqq) ++ "4p"), (pf * (EKey ("CVRLt_" ++ qqqq_fl)))%ex);
        ((("F" ++ qqqq) ++ "5p"), (pf * (EKey ("CSLL_" ++ qqqq_fl)))%ex);
        ((("F" ++ qqqq) ++ "6p"), (pf * (EKey ("CSLLt_" ++ qqqq_fl)))%ex);
        ((("F" ++ qqqq) ++ "7p"), (pf * (EKey ("CSLR_" ++ qqqq_fl)))%ex);
        ((("F" ++ qqqq) ++ "8p"), (pf * (EKey ("CSLRt_" ++ qqqq_fl)))%ex);
        ((("F" ++ qqqq) ++ "9p"), (pf * (EKey ("CTLL_" ++ qqqq_fl)))%ex);
        ((("F" ++ qqqq) ++ "10p"), (pf * (EKey ("CTLLt_" ++ qqqq_fl)))%ex)])
  else PFail ValueError).

(* wilson/translate/wet.py 984-1048 _Fierz_to_EOS_V.  Simplification: the five dictionaries Fsbuu, ... have different
   keys and are merged into one.  c5 is a tuple with one element in the code (a trailing comma), so that
   its value is an array of one number; here it is that number. *)
Definition _Fierz_to_EOS_V : prog :=
  let Vtb : sc := (SV 2 2) in
  let Vts : sc := (SV 2 1) in
  let c1 : ex := ((((((((ENeg (EKey "Fsbbb1")) / (SZ 3))%ex + ((SZ 2) * (EKey "Fsbcc1"))%ex)%ex - (((SZ 2) * (EKey "Fsbdd1"))%ex / (SZ 3))%ex)%ex + ((EKey "Fsbdd2") / (SZ 3))%ex)%ex - ((EKey "Fsbss1") / (SZ 3))%ex)%ex - (((SZ 2) * (EKey "Fsbuu1"))%ex / (SZ 3))%ex)%ex + ((EKey "Fsbuu2") / (SZ 3))%ex)%ex in
  let c2 : ex := ((((((((((SNeg (SZ 2)) * (EKey "Fsbbb1"))%ex / (SZ 9))%ex + ((EKey "Fsbcc1") / (SZ 3))%ex)%ex + (EKey "Fsbcc2"))%ex + ((EKey "Fsbdd1") / (SZ 18))%ex)%ex - (((SZ 5) * (EKey "Fsbdd2"))%ex / (SZ 18))%ex)%ex - (((SZ 2) * (EKey "Fsbss1"))%ex / (SZ 9))%ex)%ex + ((EKey "Fsbuu1") / (SZ 18))%ex)%ex - (((SZ 5) * (EKey "Fsbuu2"))%ex / (SZ 18))%ex)%ex in
  let c3 : ex := ((((((((((((((((((SNeg (SZ 2)) * (EKey "Fsbbb1"))%ex / (SZ 27))%ex + (((SZ 4) * (EKey "Fsbbb3"))%ex / (SZ 15))%ex)%ex + (((SZ 4) * (EKey "Fsbbb4"))%ex / (SZ 45))%ex)%ex + (((SZ 4) * (EKey "Fsbcc3"))%ex / (SZ 15))%ex)%ex + (((SZ 4) * (EKey "Fsbcc4"))%ex / (SZ 45))%ex)%ex - (((SZ 5) * (EKey "Fsbdd1"))%ex / (SZ 54))%ex)%ex + ((EKey "Fsbdd2") / (SZ 54))%ex)%ex + (((SZ 4) * (EKey "Fsbdd3"))%ex / (SZ 15))%ex)%ex + (((SZ 4) * (EKey "Fsbdd4"))%ex / (SZ 45))%ex)%ex - (((SZ 2) * (EKey "Fsbss1"))%ex / (SZ 27))%ex)%ex + (((SZ 4) * (EKey "Fsbss3"))%ex / (SZ 15))%ex)%ex + (((SZ 4) * (EKey "Fsbss4"))%ex / (SZ 45))%ex)%ex - (((SZ 5) * (EKey "Fsbuu1"))%ex / (SZ 54))%ex)%ex + ((EKey "Fsbuu2") / (SZ 54))%ex)%ex + (((SZ 4) * (EKey "Fsbuu3"))%ex / (SZ 15))%ex)%ex + (((SZ 4) * (EKey "Fsbuu4"))%ex / (SZ 45))%ex)%ex in
  let c4 : ex := ((((((((((((ENeg (EKey "Fsbbb1")) / (SZ 9))%ex + (((SZ 8) * (EKey "Fsbbb4"))%ex / (SZ 15))%ex)%ex + (((SZ 8) * (EKey "Fsbcc4"))%ex / (SZ 15))%ex)%ex + ((EKey "Fsbdd1") / (SZ 9))%ex)%ex - (((SZ 2) * (EKey "Fsbdd2"))%ex / (SZ 9))%ex)%ex + (((SZ 8) * (EKey "Fsbdd4"))%ex / (SZ 15))%ex)%ex - ((EKey "Fsbss1") / (SZ 9))%ex)%ex + (((SZ 8) * (EKey "Fsbss4"))%ex / (SZ 15))%ex)%ex + ((EKey "Fsbuu1") / (SZ 9))%ex)%ex - (((SZ 2) * (EKey "Fsbuu2"))%ex / (SZ 9))%ex)%ex + (((SZ 8) * (EKey "Fsbuu4"))%ex / (SZ 15))%ex)%ex in
  let c5 : ex := (((((((((((((((((EKey "Fsbbb1") / (SZ 54))%ex - ((EKey "Fsbbb3") / (SZ 60))%ex)%ex - ((EKey "Fsbbb4") / (SZ 180))%ex)%ex - ((EKey "Fsbcc3") / (SZ 60))%ex)%ex - ((EKey "Fsbcc4") / (SZ 180))%ex)%ex + (((SZ 5) * (EKey "Fsbdd1"))%ex / (SZ 216))%ex)%ex - ((EKey "Fsbdd2") / (SZ 216))%ex)%ex - ((EKey "Fsbdd3") / (SZ 60))%ex)%ex - ((EKey "Fsbdd4") / (SZ 180))%ex)%ex + ((EKey "Fsbss1") / (SZ 54))%ex)%ex - ((EKey "Fsbss3") / (SZ 60))%ex)%ex - ((EKey "Fsbss4") / (SZ 180))%ex)%ex + (((SZ 5) * (EKey "Fsbuu1"))%ex / (SZ 216))%ex)%ex - ((EKey "Fsbuu2") / (SZ 216))%ex)%ex - ((EKey "Fsbuu3") / (SZ 60))%ex)%ex - ((EKey "Fsbuu4") / (SZ 180))%ex)%ex in
  let c6 : ex := ((((((((((((EKey "Fsbbb1") / (SZ 36))%ex - ((EKey "Fsbbb4") / (SZ 30))%ex)%ex - ((EKey "Fsbcc4") / (SZ 30))%ex)%ex - ((EKey "Fsbdd1") / (SZ 36))%ex)%ex + ((EKey "Fsbdd2") / (SZ 18))%ex)%ex - ((EKey "Fsbdd4") / (SZ 30))%ex)%ex + ((EKey "Fsbss1") / (SZ 36))%ex)%ex - ((EKey "Fsbss4") / (SZ 30))%ex)%ex - ((EKey "Fsbuu1") / (SZ 36))%ex)%ex + ((EKey "Fsbuu2") / (SZ 18))%ex)%ex - ((EKey "Fsbuu4") / (SZ 30))%ex)%ex in
  let prefactor : sc := (((((SY Ysqrt2) / (SY YGF))%sc / Vtb)%sc / (SConj Vts))%sc / (SZ 4))%sc in
  PScale prefactor (PBlk (Ok [("b->s::c1", (ERe c1));
      ("b->s::c2", (ERe c2));
      ("b->s::c3", (ERe c3));
      ("b->s::c4", (ERe c4));
      ("b->s::c5", (ERe c5));
      ("b->s::c6", (ERe c6))])).

(* wilson/translate/wet.py 1054-1089 JMS_to_Fierz_lep *)
Definition JMS_to_Fierz_lep (ddll : string) : prog :=
  pbind (if String.eqb (str_to ddll 2) "uc" then bind (flav uflav (str_at ddll 0)) (fun i0 => bind (flav uflav (str_at ddll 1)) (fun i1 => Ok (i0, i1, "u")))
    else bind (flav dflav (str_at ddll 0)) (fun i2 => bind (flav dflav (str_at ddll 1)) (fun i3 => Ok (i2, i3, "d")))) (fun '(s_, b, q_) =>
  pbind (str_find ddll "n" 0) (fun n5 =>
  pbind (flav lflav (str_slice ddll 4 n5)) (fun l_ =>
  pbind (str_find ddll "_" 5) (fun n7 =>
  pbind (flav lflav (str_from ddll (n7 + 1)%nat)) (fun lp =>
  let ind : string := (str_remove "nu_" (str_remove "l_" ddll)) in
  PBlk (Ok [((("F" ++ ind) ++ "9"), (((EArr (("V" ++ q_) ++ "eLR") [s_; b; l_; lp]) / (SZ 2))%ex + ((EArr (("Ve" ++ q_) ++ "LL") [l_; lp; s_; b]) / (SZ 2))%ex)%ex);
      ((("F" ++ ind) ++ "10"), (((EArr (("V" ++ q_) ++ "eLR") [s_; b; l_; lp]) / (SZ 2))%ex - ((EArr (("Ve" ++ q_) ++ "LL") [l_; lp; s_; b]) / (SZ 2))%ex)%ex);
      ((("F" ++ ind) ++ "S"), (((EConj (EArr (("Se" ++ q_) ++ "RL") [lp; l_; b; s_])) / (SZ 2))%ex + ((EArr (("Se" ++ q_) ++ "RR") [l_; lp; s_; b]) / (SZ 2))%ex)%ex);
      ((("F" ++ ind) ++ "P"), (((ENeg (EConj (EArr (("Se" ++ q_) ++ "RL") [lp; l_; b; s_]))) / (SZ 2))%ex + ((EArr (("Se" ++ q_) ++ "RR") [l_; lp; s_; b]) / (SZ 2))%ex)%ex);
      ((("F" ++ ind) ++ "T"), (((EArr (("Te" ++ q_) ++ "RR") [l_; lp; s_; b]) / (SZ 2))%ex + ((EConj (EArr (("Te" ++ q_) ++ "RR") [lp; l_; b; s_])) / (SZ 2))%ex)%ex);
      ((("F" ++ ind) ++ "T5"), (((EArr (("Te" ++ q_) ++ "RR") [l_; lp; s_; b]) / (SZ 2))%ex - ((EConj (EArr (("Te" ++ q_) ++ "RR") [lp; l_; b; s_])) / (SZ 2))%ex)%ex);
      ((("F" ++ ind) ++ "9p"), (((EArr (("Ve" ++ q_) ++ "LR") [l_; lp; s_; b]) / (SZ 2))%ex + ((EArr (("Ve" ++ q_) ++ "RR") [l_; lp; s_; b]) / (SZ 2))%ex)%ex);
      ((("F" ++ ind) ++ "10p"), (((ENeg (EArr (("Ve" ++ q_) ++ "LR") [l_; lp; s_; b])) / (SZ 2))%ex + ((EArr (("Ve" ++ q_) ++ "RR") [l_; lp; s_; b]) / (SZ 2))%ex)%ex);
      ((("F" ++ ind) ++ "Sp"), (((EArr (("Se" ++ q_) ++ "RL") [l_; lp; s_; b]) / (SZ 2))%ex + ((EConj (EArr (("Se" ++ q_) ++ "RR") [lp; l_; b; s_])) / (SZ 2))%ex)%ex);
      ((("F" ++ ind) ++ "Pp"), (((EArr (("Se" ++ q_) ++ "RL") [l_; lp; s_; b]) / (SZ 2))%ex - ((EConj (EArr (("Se" ++ q_) ++ "RR") [lp; l_; b; s_])) / (SZ 2))%ex)%ex)])))))).

(* wilson/translate/wet.py 1091-1102 JMS_to_Fierz_nunu *)
Definition JMS_to_Fierz_nunu (ddll : string) : prog :=
  pbind (flav dflav (str_at ddll 0)) (fun s_ =>
  pbind (flav dflav (str_at ddll 1)) (fun b =>
  pbind (str_find ddll "n" 0) (fun n3 =>
  pbind (flav lflav (str_slice ddll 4 n3)) (fun l_ =>
  pbind (str_find ddll "_" 5) (fun n5 =>
  pbind (flav lflav (str_from ddll (n5 + 1)%nat)) (fun lp =>
  let ind : string := (str_remove "nu_" (str_remove "l_" ddll)) in
  PBlk (Ok [((("F" ++ ind) ++ "nu"), (EArr "VnudLL" [l_; lp; s_; b]));
      ((("F" ++ ind) ++ "nup"), (EArr "VnudLR" [l_; lp; s_; b]))]))))))).

(* wilson/translate/wet.py 1105-1131 Fierz_to_JMS_lep *)
Definition Fierz_to_JMS_lep (ddll : string) : prog :=
  pbind (if String.eqb (str_to ddll 2) "uc" then bind (flav uflav (str_at ddll 0)) (fun i0 => bind (flav uflav (str_at ddll 1)) (fun i1 => Ok ((str_Z (i0 + 1)%Z), (str_Z (i1 + 1)%Z), "u")))
    else bind (flav dflav (str_at ddll 0)) (fun i2 => bind (flav dflav (str_at ddll 1)) (fun i3 => Ok ((str_Z (i2 + 1)%Z), (str_Z (i3 + 1)%Z), "d")))) (fun '(s_, b, q_) =>
  pbind (str_find ddll "n" 0) (fun n5 =>
  pbind (flav lflav (str_slice ddll 4 n5)) (fun i4 =>
  let l_ : string := (str_Z (i4 + 1)%Z) in
  pbind (str_find ddll "_" 5) (fun n7 =>
  pbind (flav lflav (str_from ddll (n7 + 1)%nat)) (fun i6 =>
  let lp : string := (str_Z (i6 + 1)%Z) in
  let ind : string := (str_remove "nu_" (str_remove "l_" ddll)) in
  PSymm (PBlk (Ok [(((((((("Ve" ++ q_) ++ "LL") ++ "_") ++ l_) ++ lp) ++ s_) ++ b), ((ENeg (EKey (("F" ++ ind) ++ "10"))) + (EKey (("F" ++ ind) ++ "9")))%ex);
      (((((((("V" ++ q_) ++ "eLR") ++ "_") ++ s_) ++ b) ++ l_) ++ lp), ((EKey (("F" ++ ind) ++ "10")) + (EKey (("F" ++ ind) ++ "9")))%ex);
      (((((((("Se" ++ q_) ++ "RR") ++ "_") ++ l_) ++ lp) ++ s_) ++ b), ((EKey (("F" ++ ind) ++ "P")) + (EKey (("F" ++ ind) ++ "S")))%ex);
      (((((((("Se" ++ q_) ++ "RL") ++ "_") ++ lp) ++ l_) ++ b) ++ s_), ((ENeg (EConj (EKey (("F" ++ ind) ++ "P")))) + (EConj (EKey (("F" ++ ind) ++ "S"))))%ex);
      (((((((("Te" ++ q_) ++ "RR") ++ "_") ++ lp) ++ l_) ++ b) ++ s_), ((EConj (EKey (("F" ++ ind) ++ "T"))) - (EConj (EKey (("F" ++ ind) ++ "T5"))))%ex);
      (((((((("Te" ++ q_) ++ "RR") ++ "_") ++ l_) ++ lp) ++ s_) ++ b), ((EKey (("F" ++ ind) ++ "T")) + (EKey (("F" ++ ind) ++ "T5")))%ex);
      (((((((("Ve" ++ q_) ++ "LR") ++ "_") ++ l_) ++ lp) ++ s_) ++ b), ((ENeg (EKey (("F" ++ ind) ++ "10p"))) + (EKey (("F" ++ ind) ++ "9p")))%ex);
      (((((((("Ve" ++ q_) ++ "RR") ++ "_") ++ l_) ++ lp) ++ s_) ++ b), ((EKey (("F" ++ ind) ++ "10p")) + (EKey (("F" ++ ind) ++ "9p")))%ex);
      (((((((("Se" ++ q_) ++ "RL") ++ "_") ++ l_) ++ lp) ++ s_) ++ b), ((EKey (("F" ++ ind) ++ "Pp")) + (EKey (("F" ++ ind) ++ "Sp")))%ex);
      (((((((("Se" ++ q_) ++ "RR") ++ "_") ++ lp) ++ l_) ++ b) ++ s_), ((ENeg (EConj (EKey (("F" ++ ind) ++ "Pp")))) + (EConj (EKey (("F" ++ ind) ++ "Sp"))))%ex)]))))))).

(* wilson/translate/wet.py 1133-1145 Fierz_to_JMS_nunu *)
Definition Fierz_to_JMS_nunu (ddll : string) : prog :=
  pbind (flav dflav (str_at ddll 0)) (fun i0 =>
  let s_ : string := (str_Z (i0 + 1)%Z) in
  pbind (flav dflav (str_at ddll 1)) (fun i1 =>
  let b : string := (str_Z (i1 + 1)%Z) in
  pbind (str_find ddll "n" 0) (fun n3 =>
  pbind (flav lflav (str_slice ddll 4 n3)) (fun i2 =>
  let l_ : string := (str_Z (i2 + 1)%Z) in
  pbind (str_find ddll "_" 5) (fun n5 =>
  pbind (flav lflav (str_from ddll (n5 + 1)%nat)) (fun i4 =>
  let lp : string := (str_Z (i4 + 1)%Z) in
  let ind : string := (str_remove "nu_" (str_remove "l_" ddll)) in
  PSymm (PBlk (Ok [(((((("VnudLL" ++ "_") ++ l_) ++ lp) ++ s_) ++ b), (EKey (("F" ++ ind) ++ "nu")));
      (((((("VnudLR" ++ "_") ++ l_) ++ lp) ++ s_) ++ b), (EKey (("F" ++ ind) ++ "nup")))])))))))).

(* wilson/translate/wet.py 1148-1167 Fierz_to_Bern_lep *)
Definition Fierz_to_Bern_lep (ddll : string) : prog :=
  let ind : string := (str_remove "nu_" (str_remove "l_" ddll)) in
  PBlk (Ok [(("1" ++ ind), ((((SZ 5) * (EKey (("F" ++ ind) ++ "10")))%ex / (SZ 3))%ex + (EKey (("F" ++ ind) ++ "9")))%ex);
      (("3" ++ ind), ((ENeg (EKey (("F" ++ ind) ++ "10"))) / (SZ 6))%ex);
      (("5" ++ ind), ((EKey (("F" ++ ind) ++ "S")) - (((SZ 5) * (EKey (("F" ++ ind) ++ "P")))%ex / (SZ 3))%ex)%ex);
      (("7" ++ ind), (((((SZ 2) * (EKey (("F" ++ ind) ++ "P")))%ex / (SZ 3))%ex + (EKey (("F" ++ ind) ++ "T")))%ex + (EKey (("F" ++ ind) ++ "T5")))%ex);
      (("9" ++ ind), ((EKey (("F" ++ ind) ++ "P")) / (SZ 24))%ex);
      (("1p" ++ ind), ((EKey (("F" ++ ind) ++ "9p")) - (((SZ 5) * (EKey (("F" ++ ind) ++ "10p")))%ex / (SZ 3))%ex)%ex);
      (("3p" ++ ind), ((EKey (("F" ++ ind) ++ "10p")) / (SZ 6))%ex);
      (("5p" ++ ind), ((((SZ 5) * (EKey (("F" ++ ind) ++ "Pp")))%ex / (SZ 3))%ex + (EKey (("F" ++ ind) ++ "Sp")))%ex);
      (("7p" ++ ind), (((((SNeg (SZ 2)) * (EKey (("F" ++ ind) ++ "Pp")))%ex / (SZ 3))%ex + (EKey (("F" ++ ind) ++ "T")))%ex - (EKey (("F" ++ ind) ++ "T5")))%ex);
      (("9p" ++ ind), ((ENeg (EKey (("F" ++ ind) ++ "Pp"))) / (SZ 24))%ex)]).

(* wilson/translate/wet.py 1169-1179 Fierz_to_Bern_nunu *)
Definition Fierz_to_Bern_nunu (ddll : string) : prog :=
  let ind : string := (str_remove "nu_" (str_remove "l_" ddll)) in
  PBlk (Ok [(("nu1" ++ ind), (EKey (("F" ++ ind) ++ "nu")));
      (("nu1p" ++ ind), (EKey (("F" ++ ind) ++ "nup")))]).

(* wilson/translate/wet.py 1182-1197 Bern_to_Fierz_lep *)
Definition Bern_to_Fierz_lep (ddll : string) : prog :=
  let ind : string := (str_remove "nu_" (str_remove "l_" ddll)) in
  PBlk (Ok [((("F" ++ ind) ++ "9"), ((EKey ("1" ++ ind)) + ((SZ 10) * (EKey ("3" ++ ind)))%ex)%ex);
      ((("F" ++ ind) ++ "10"), ((SNeg (SZ 6)) * (EKey ("3" ++ ind)))%ex);
      ((("F" ++ ind) ++ "S"), ((EKey ("5" ++ ind)) + ((SZ 40) * (EKey ("9" ++ ind)))%ex)%ex);
      ((("F" ++ ind) ++ "P"), ((SZ 24) * (EKey ("9" ++ ind)))%ex);
      ((("F" ++ ind) ++ "T"), (((((EKey ("7" ++ ind)) / (SZ 2))%ex + ((EKey ("7p" ++ ind)) / (SZ 2))%ex)%ex - ((SZ 8) * (EKey ("9" ++ ind)))%ex)%ex - ((SZ 8) * (EKey ("9p" ++ ind)))%ex)%ex);
      ((("F" ++ ind) ++ "T5"), (((((EKey ("7" ++ ind)) / (SZ 2))%ex - ((EKey ("7p" ++ ind)) / (SZ 2))%ex)%ex - ((SZ 8) * (EKey ("9" ++ ind)))%ex)%ex + ((SZ 8) * (EKey ("9p" ++ ind)))%ex)%ex);
      ((("F" ++ ind) ++ "9p"), ((EKey ("1p" ++ ind)) + ((SZ 10) * (EKey ("3p" ++ ind)))%ex)%ex);
      ((("F" ++ ind) ++ "10p"), ((SZ 6) * (EKey ("3p" ++ ind)))%ex);
      ((("F" ++ ind) ++ "Sp"), ((EKey ("5p" ++ ind)) + ((SZ 40) * (EKey ("9p" ++ ind)))%ex)%ex);
      ((("F" ++ ind) ++ "Pp"), ((SNeg (SZ 24)) * (EKey ("9p" ++ ind)))%ex)]).

(* wilson/translate/wet.py 1200-1208 Bern_to_Fierz_nunu *)
Definition Bern_to_Fierz_nunu (ddll : string) : prog :=
  let ind : string := (str_remove "nu_" (str_remove "l_" ddll)) in
  PBlk (Ok [((("F" ++ ind) ++ "nu"), (EKey ("nu1" ++ ind)));
      ((("F" ++ ind) ++ "nup"), (EKey ("nu1p" ++ ind)))]).

(* wilson/translate/wet.py 1211-1256 Fierz_to_Flavio_lep *)
Definition Fierz_to_Flavio_lep (ddll : string) (norm_gf : bool) : prog :=
  pbind (if String.eqb (str_to ddll 2) "sb" then Ok ((SV 2 2) * (SConj (SV 2 1)))%sc
    else if String.eqb (str_to ddll 2) "db" then Ok ((SV 2 2) * (SConj (SV 2 0)))%sc
    else if String.eqb (str_to ddll 2) "ds" then Ok ((SV 2 1) * (SConj (SV 2 0)))%sc
    else if String.eqb (str_to ddll 2) "uc" then Ok ((SConj (SV 1 2)) * (SV 0 2))%sc
    else Err ValueError) (fun xi =>
  let q1 := str_at (str_to ddll 2) 0 in
  let q2 := str_at (str_to ddll 2) 1 in
  pbind (str_find ddll "n" 0) (fun n0 =>
  let l1 : string := (str_slice ddll 4 n0) in
  pbind (str_find ddll "_" 5) (fun n1 =>
  let l2 : string := (str_from ddll (n1 + 1)%nat) in
  let ind : string := (((q1 ++ q2) ++ l1) ++ l2) in
  let indfl : string := (((q2 ++ q1) ++ l2) ++ l1) in
  let e_ : sc := (SY Ye) in
  pbind (if (String.eqb (str_to ddll 2) "sb" || String.eqb (str_to ddll 2) "db")%bool then Ok (SY Ym_b)
    else if String.eqb (str_to ddll 2) "ds" then Ok (SY Ym_s)
    else if String.eqb (str_to ddll 2) "uc" then Ok (SY Ym_c)
    else Err UnboundLocalError) (fun mq =>
  let prefactor : sc := if norm_gf then ((((SY Ysqrt2) / (SY YGF))%sc / xi)%sc / (SZ 4))%sc else ((SZ 1) / xi)%sc in
  PScale prefactor (PBlk (Ok [(("C9_" ++ indfl), ((((SZ 16) * ((SY Ypi) ** 2)%sc)%sc / (e_ ** 2)%sc)%sc * (EKey (("F" ++ ind) ++ "9")))%ex);
      (("C9p_" ++ indfl), ((((SZ 16) * ((SY Ypi) ** 2)%sc)%sc / (e_ ** 2)%sc)%sc * (EKey (("F" ++ ind) ++ "9p")))%ex);
      (("C10_" ++ indfl), ((((SZ 16) * ((SY Ypi) ** 2)%sc)%sc / (e_ ** 2)%sc)%sc * (EKey (("F" ++ ind) ++ "10")))%ex);
      (("C10p_" ++ indfl), ((((SZ 16) * ((SY Ypi) ** 2)%sc)%sc / (e_ ** 2)%sc)%sc * (EKey (("F" ++ ind) ++ "10p")))%ex);
      (("CS_" ++ indfl), (((((SZ 16) * ((SY Ypi) ** 2)%sc)%sc / (e_ ** 2)%sc)%sc / mq)%sc * (EKey (("F" ++ ind) ++ "S")))%ex);
      (("CSp_" ++ indfl), (((((SZ 16) * ((SY Ypi) ** 2)%sc)%sc / (e_ ** 2)%sc)%sc / mq)%sc * (EKey (("F" ++ ind) ++ "Sp")))%ex);
      (("CP_" ++ indfl), (((((SZ 16) * ((SY Ypi) ** 2)%sc)%sc / (e_ ** 2)%sc)%sc / mq)%sc * (EKey (("F" ++ ind) ++ "P")))%ex);
      (("CPp_" ++ indfl), (((((SZ 16) * ((SY Ypi) ** 2)%sc)%sc / (e_ ** 2)%sc)%sc / mq)%sc * (EKey (("F" ++ ind) ++ "Pp")))%ex)])))))).

(* wilson/translate/wet.py 1259-1288 Fierz_to_Flavio_nunu *)
Definition Fierz_to_Flavio_nunu (ddll : string) (norm_gf : bool) : prog :=
  pbind (if String.eqb (str_to ddll 2) "sb" then Ok ((SV 2 2) * (SConj (SV 2 1)))%sc
    else if String.eqb (str_to ddll 2) "db" then Ok ((SV 2 2) * (SConj (SV 2 0)))%sc
    else if String.eqb (str_to ddll 2) "ds" then Ok ((SV 2 1) * (SConj (SV 2 0)))%sc
    else Err ValueError) (fun xi =>
  let q1 := str_at (str_to ddll 2) 0 in
  let q2 := str_at (str_to ddll 2) 1 in
  pbind (str_find ddll "n" 0) (fun n0 =>
  let l1 : string := (str_slice ddll 4 n0) in
  pbind (str_find ddll "_" 5) (fun n1 =>
  let l2 : string := (str_from ddll (n1 + 1)%nat) in
  let ind : string := (((q1 ++ q2) ++ l1) ++ l2) in
  let indnu : string := (((((q2 ++ q1) ++ "nu") ++ l2) ++ "nu") ++ l1) in
  let e_ : sc := (SY Ye) in
  let prefactor : sc := if norm_gf then ((((SY Ysqrt2) / (SY YGF))%sc / xi)%sc / (SZ 4))%sc else ((SZ 1) / xi)%sc in
  PScale prefactor (PBlk (Ok [(("CL_" ++ indnu), ((((SZ 8) * ((SY Ypi) ** 2)%sc)%sc / (e_ ** 2)%sc)%sc * (EKey (("F" ++ ind) ++ "nu")))%ex);
      (("CR_" ++ indnu), ((((SZ 8) * ((SY Ypi) ** 2)%sc)%sc / (e_ ** 2)%sc)%sc * (EKey (("F" ++ ind) ++ "nup")))%ex)]))))).

(* wilson/translate/wet.py 1292-1339 Flavio_to_Fierz_lep *)
Definition Flavio_to_Fierz_lep (ddll : string) (norm_gf : bool) : prog :=
  pbind (if String.eqb (str_to ddll 2) "sb" then Ok ((SV 2 2) * (SConj (SV 2 1)))%sc
    else if String.eqb (str_to ddll 2) "db" then Ok ((SV 2 2) * (SConj (SV 2 0)))%sc
    else if String.eqb (str_to ddll 2) "ds" then Ok ((SV 2 1) * (SConj (SV 2 0)))%sc
    else if String.eqb (str_to ddll 2) "uc" then Ok ((SConj (SV 1 2)) * (SV 0 2))%sc
    else Err ValueError) (fun xi =>
  let q1 := str_at (str_to ddll 2) 0 in
  let q2 := str_at (str_to ddll 2) 1 in
  pbind (str_find ddll "n" 0) (fun n0 =>
  let l1 : string := (str_slice ddll 4 n0) in
  pbind (str_find ddll "_" 5) (fun n1 =>
  let l2 : string := (str_from ddll (n1 + 1)%nat) in
  let ind : string := (((q1 ++ q2) ++ l1) ++ l2) in
  let indfl : string := (((q2 ++ q1) ++ l2) ++ l1) in
  let e_ : sc := (SY Ye) in
  pbind (if (String.eqb (str_to ddll 2) "sb" || String.eqb (str_to ddll 2) "db")%bool then Ok (SY Ym_b)
    else if String.eqb (str_to ddll 2) "ds" then Ok (SY Ym_s)
    else if String.eqb (str_to ddll 2) "uc" then Ok (SY Ym_c)
    else Err UnboundLocalError) (fun mq =>
  let prefactor : sc := if norm_gf then ((((SY Ysqrt2) / (SY YGF))%sc / xi)%sc / (SZ 4))%sc else ((SZ 1) / xi)%sc in
  PDivS (PBlk (Ok [((("F" ++ ind) ++ "9"), ((EKey ("C9_" ++ indfl)) / (((SZ 16) * ((SY Ypi) ** 2)%sc)%sc / (e_ ** 2)%sc)%sc)%ex);
      ((("F" ++ ind) ++ "9p"), ((EKey ("C9p_" ++ indfl)) / (((SZ 16) * ((SY Ypi) ** 2)%sc)%sc / (e_ ** 2)%sc)%sc)%ex);
      ((("F" ++ ind) ++ "10"), ((EKey ("C10_" ++ indfl)) / (((SZ 16) * ((SY Ypi) ** 2)%sc)%sc / (e_ ** 2)%sc)%sc)%ex);
      ((("F" ++ ind) ++ "10p"), ((EKey ("C10p_" ++ indfl)) / (((SZ 16) * ((SY Ypi) ** 2)%sc)%sc / (e_ ** 2)%sc)%sc)%ex);
      ((("F" ++ ind) ++ "S"), ((EKey ("CS_" ++ indfl)) / ((((SZ 16) * ((SY Ypi) ** 2)%sc)%sc / (e_ ** 2)%sc)%sc / mq)%sc)%ex);
      ((("F" ++ ind) ++ "Sp"), ((EKey ("CSp_" ++ indfl)) / ((((SZ 16) * ((SY Ypi) ** 2)%sc)%sc / (e_ ** 2)%sc)%sc / mq)%sc)%ex);
      ((("F" ++ ind) ++ "P"), ((EKey ("CP_" ++ indfl)) / ((((SZ 16) * ((SY Ypi) ** 2)%sc)%sc / (e_ ** 2)%sc)%sc / mq)%sc)%ex);
      ((("F" ++ ind) ++ "Pp"), ((EKey ("CPp_" ++ indfl)) / ((((SZ 16) * ((SY Ypi) ** 2)%sc)%sc / (e_ ** 2)%sc)%sc / mq)%sc)%ex);
      ((("F" ++ ind) ++ "T"), E0);
      ((("F" ++ ind) ++ "T5"), E0)])) prefactor)))).

(* wilson/translate/wet.py 1342-1371 Flavio_to_Fierz_nunu *)
Definition Flavio_to_Fierz_nunu (ddll : string) (norm_gf : bool) : prog :=
  pbind (if String.eqb (str_to ddll 2) "sb" then Ok ((SV 2 2) * (SConj (SV 2 1)))%sc
    else if String.eqb (str_to ddll 2) "db" then Ok ((SV 2 2) * (SConj (SV 2 0)))%sc
    else if String.eqb (str_to ddll 2) "ds" then Ok ((SV 2 1) * (SConj (SV 2 0)))%sc
    else Err ValueError) (fun xi =>
  let q1 := str_at (str_to ddll 2) 0 in
  let q2 := str_at (str_to ddll 2) 1 in
  pbind (str_find ddll "n" 0) (fun n0 =>
  let l1 : string := (str_slice ddll 4 n0) in
  pbind (str_find ddll "_" 5) (fun n1 =>
  let l2 : string := (str_from ddll (n1 + 1)%nat) in
  let ind : string := (((q1 ++ q2) ++ l1) ++ l2) in
  let indnu : string := (((((q2 ++ q1) ++ "nu") ++ l2) ++ "nu") ++ l1) in
  let e_ : sc := (SY Ye) in
  let prefactor : sc := if norm_gf then ((((SY Ysqrt2) / (SY YGF))%sc / xi)%sc / (SZ 4))%sc else ((SZ 1) / xi)%sc in
  PDivS (PBlk (Ok [((("F" ++ ind) ++ "nu"), ((EKey ("CL_" ++ indnu)) / (((SZ 8) * ((SY Ypi) ** 2)%sc)%sc / (e_ ** 2)%sc)%sc)%ex);
      ((("F" ++ ind) ++ "nup"), ((EKey ("CR_" ++ indnu)) / (((SZ 8) * ((SY Ypi) ** 2)%sc)%sc / (e_ ** 2)%sc)%sc)%ex)])) prefactor))).

(* wilson/translate/wet.py 1374-1408 Fierz_to_EOS_lep *)
Definition Fierz_to_EOS_lep (ddll : string) : prog :=
  let Vtb : sc := (SV 2 2) in
  let Vts : sc := (SV 2 1) in
  let ind : string := (str_remove "nu_" (str_remove "l_" ddll)) in
  let ind2 : string := (str_from (str_remove "nu_" (str_remove "l_" ddll)) 2) in
  let e_ : sc := (SY Ye) in
  let prefactor : sc := (((((SY Ysqrt2) / (SY YGF))%sc / Vtb)%sc / (SConj Vts))%sc / (SZ 4))%sc in
  PScale prefactor (PBlk (Ok [((("b->s" ++ ind2) ++ "::Re{c9}"), (ERe ((((SZ 16) * ((SY Ypi) ** 2)%sc)%sc / (e_ ** 2)%sc)%sc * (EKey (("F" ++ ind) ++ "9")))%ex));
      ((("b->s" ++ ind2) ++ "::Im{c9}"), (EIm ((((SZ 16) * ((SY Ypi) ** 2)%sc)%sc / (e_ ** 2)%sc)%sc * (EKey (("F" ++ ind) ++ "9")))%ex));
      ((("b->s" ++ ind2) ++ "::Re{c9'}"), (ERe ((((SZ 16) * ((SY Ypi) ** 2)%sc)%sc / (e_ ** 2)%sc)%sc * (EKey (("F" ++ ind) ++ "9p")))%ex));
      ((("b->s" ++ ind2) ++ "::Im{c9'}"), (EIm ((((SZ 16) * ((SY Ypi) ** 2)%sc)%sc / (e_ ** 2)%sc)%sc * (EKey (("F" ++ ind) ++ "9p")))%ex));
      ((("b->s" ++ ind2) ++ "::Re{c10}"), (ERe ((((SZ 16) * ((SY Ypi) ** 2)%sc)%sc / (e_ ** 2)%sc)%sc * (EKey (("F" ++ ind) ++ "10")))%ex));
      ((("b->s" ++ ind2) ++ "::Im{c10}"), (EIm ((((SZ 16) * ((SY Ypi) ** 2)%sc)%sc / (e_ ** 2)%sc)%sc * (EKey (("F" ++ ind) ++ "10")))%ex));
      ((("b->s" ++ ind2) ++ "::Re{c10'}"), (ERe ((((SZ 16) * ((SY Ypi) ** 2)%sc)%sc / (e_ ** 2)%sc)%sc * (EKey (("F" ++ ind) ++ "10p")))%ex));
      ((("b->s" ++ ind2) ++ "::Im{c10'}"), (EIm ((((SZ 16) * ((SY Ypi) ** 2)%sc)%sc / (e_ ** 2)%sc)%sc * (EKey (("F" ++ ind) ++ "10p")))%ex));
      ((("b->s" ++ ind2) ++ "::Re{cS}"), (ERe ((((SZ 16) * ((SY Ypi) ** 2)%sc)%sc / (e_ ** 2)%sc)%sc * (EKey (("F" ++ ind) ++ "S")))%ex));
      ((("b->s" ++ ind2) ++ "::Im{cS}"), (EIm ((((SZ 16) * ((SY Ypi) ** 2)%sc)%sc / (e_ ** 2)%sc)%sc * (EKey (("F" ++ ind) ++ "S")))%ex));
      ((("b->s" ++ ind2) ++ "::Re{cS'}"), (ERe ((((SZ 16) * ((SY Ypi) ** 2)%sc)%sc / (e_ ** 2)%sc)%sc * (EKey (("F" ++ ind) ++ "Sp")))%ex));
      ((("b->s" ++ ind2) ++ "::Im{cS'}"), (EIm ((((SZ 16) * ((SY Ypi) ** 2)%sc)%sc / (e_ ** 2)%sc)%sc * (EKey (("F" ++ ind) ++ "Sp")))%ex));
      ((("b->s" ++ ind2) ++ "::Re{cP}"), (ERe ((((SZ 16) * ((SY Ypi) ** 2)%sc)%sc / (e_ ** 2)%sc)%sc * (EKey (("F" ++ ind) ++ "P")))%ex));
      ((("b->s" ++ ind2) ++ "::Im{cP}"), (EIm ((((SZ 16) * ((SY Ypi) ** 2)%sc)%sc / (e_ ** 2)%sc)%sc * (EKey (("F" ++ ind) ++ "P")))%ex));
      ((("b->s" ++ ind2) ++ "::Re{cP'}"), (ERe ((((SZ 16) * ((SY Ypi) ** 2)%sc)%sc / (e_ ** 2)%sc)%sc * (EKey (("F" ++ ind) ++ "Pp")))%ex));
      ((("b->s" ++ ind2) ++ "::Im{cP'}"), (EIm ((((SZ 16) * ((SY Ypi) ** 2)%sc)%sc / (e_ ** 2)%sc)%sc * (EKey (("F" ++ ind) ++ "Pp")))%ex));
      ((("b->s" ++ ind2) ++ "::Re{cT}"), (ERe ((((SZ 16) * ((SY Ypi) ** 2)%sc)%sc / (e_ ** 2)%sc)%sc * (EKey (("F" ++ ind) ++ "T")))%ex));
      ((("b->s" ++ ind2) ++ "::Im{cT}"), (EIm ((((SZ 16) * ((SY Ypi) ** 2)%sc)%sc / (e_ ** 2)%sc)%sc * (EKey (("F" ++ ind) ++ "T")))%ex));
      ((("b->s" ++ ind2) ++ "::Re{cT5}"), (ERe ((((SZ 16) * ((SY Ypi) ** 2)%sc)%sc / (e_ ** 2)%sc)%sc * (EKey (("F" ++ ind) ++ "T5")))%ex));
      ((("b->s" ++ ind2) ++ "::Im{cT5}"), (EIm ((((SZ 16) * ((SY Ypi) ** 2)%sc)%sc / (e_ ** 2)%sc)%sc * (EKey (("F" ++ ind) ++ "T5")))%ex))])).

(* wilson/translate/wet.py 1410-1433 JMS_to_FormFlavor_lep *)
Definition JMS_to_FormFlavor_lep (dd : string) : prog :=
  pbind (flav dflav (str_at dd 0)) (fun b =>
  pbind (flav dflav (str_at dd 1)) (fun s_ =>
  PBlk (Ok [((("CVLL_" ++ dd) ++ "mm"), (EArr "VedLL" [1; 1; s_; b]));
      ((("CVRR_" ++ dd) ++ "mm"), (EArr "VedRR" [1; 1; s_; b]));
      ((("CVLR_" ++ dd) ++ "mm"), (EArr "VdeLR" [s_; b; 1; 1]));
      ((("CVRL_" ++ dd) ++ "mm"), (EArr "VedLR" [1; 1; s_; b]));
      ((("CSLL_" ++ dd) ++ "mm"), (EConj (EArr "SedRR" [1; 1; b; s_])));
      ((("CSRR_" ++ dd) ++ "mm"), (EArr "SedRR" [1; 1; s_; b]));
      ((("CSLR_" ++ dd) ++ "mm"), (EArr "SedRL" [1; 1; s_; b]));
      ((("CSRL_" ++ dd) ++ "mm"), (EConj (EArr "SedRL" [1; 1; b; s_])));
      ((("CTLL_" ++ dd) ++ "mm"), (EConj (EArr "TedRR" [1; 1; b; s_])));
      ((("CTRR_" ++ dd) ++ "mm"), (EArr "TedRR" [1; 1; s_; b]));
      ("CVLL_sdnn", (((((SZ 1) / (SZ 3))%sc * (EArr "VnudLL" [0; 0; (s_ - 1)%Z; s_]))%ex + (((SZ 1) / (SZ 3))%sc * (EArr "VnudLL" [1; 1; (s_ - 1)%Z; s_]))%ex)%ex + (((SZ 1) / (SZ 3))%sc * (EArr "VnudLL" [2; 2; (s_ - 1)%Z; s_]))%ex)%ex);
      ("CVRL_sdnn", (((((SZ 1) / (SZ 3))%sc * (EArr "VnudLR" [0; 0; (s_ - 1)%Z; s_]))%ex + (((SZ 1) / (SZ 3))%sc * (EArr "VnudLR" [1; 1; (s_ - 1)%Z; s_]))%ex)%ex + (((SZ 1) / (SZ 3))%sc * (EArr "VnudLR" [2; 2; (s_ - 1)%Z; s_]))%ex)%ex)]))).

(* wilson/translate/wet.py 1436-1456 JMS_to_Fierz_chrom *)
Definition JMS_to_Fierz_chrom (qq : string) : prog :=
  if dmem dflav (str_at qq 0) then
    pbind (flav dflav (str_at qq 0)) (fun s_ =>
    pbind (flav dflav (str_at qq 1)) (fun b =>
    PBlk (Ok [(("F7gamma" ++ qq), (EArr "dgamma" [s_; b]));
        (("F8g" ++ qq), (EArr "dG" [s_; b]));
        (("F7pgamma" ++ qq), (EConj (EArr "dgamma" [b; s_])));
        (("F8pg" ++ qq), (EConj (EArr "dG" [b; s_])))])))
  else pbind (flav uflav (str_at qq 0)) (fun u =>
  pbind (flav uflav (str_at qq 1)) (fun c_ =>
  PBlk (Ok [(("F7gamma" ++ qq), (EArr "ugamma" [u; c_]));
      (("F8g" ++ qq), (EArr "uG" [u; c_]));
      (("F7pgamma" ++ qq), (EConj (EArr "ugamma" [c_; u])));
      (("F8pg" ++ qq), (EConj (EArr "uG" [c_; u])))]))).

(* wilson/translate/wet.py 1459-1477 Fierz_to_JMS_chrom *)
Definition Fierz_to_JMS_chrom (qq : string) : prog :=
  if dmem dflav (str_at qq 0) then
    pbind (flav dflav (str_at qq 0)) (fun i0 =>
    let s_ : Z := (i0 + 1)%Z in
    pbind (flav dflav (str_at qq 1)) (fun i1 =>
    let b : Z := (i1 + 1)%Z in
    PBlk (Ok [(("dgamma_" ++ (str_Z s_) ++ (str_Z b)), (EKey ("F7gamma" ++ qq)));
        (("dG_" ++ (str_Z s_) ++ (str_Z b)), (EKey ("F8g" ++ qq)));
        (("dgamma_" ++ (str_Z b) ++ (str_Z s_)), (EConj (EKey ("F7pgamma" ++ qq))));
        (("dG_" ++ (str_Z b) ++ (str_Z s_)), (EConj (EKey ("F8pg" ++ qq))))])))
  else pbind (flav uflav (str_at qq 0)) (fun i2 =>
  let u : Z := (i2 + 1)%Z in
  pbind (flav uflav (str_at qq 1)) (fun i3 =>
  let c_ : Z := (i3 + 1)%Z in
  PBlk (Ok [(("ugamma_" ++ (str_Z u) ++ (str_Z c_)), (EKey ("F7gamma" ++ qq)));
      (("uG_" ++ (str_Z u) ++ (str_Z c_)), (EKey ("F8g" ++ qq)));
      (("ugamma_" ++ (str_Z c_) ++ (str_Z u)), (EConj (EKey ("F7pgamma" ++ qq))));
      (("uG_" ++ (str_Z c_) ++ (str_Z u)), (EConj (EKey ("F8pg" ++ qq))))]))).

(* wilson/translate/wet.py 1480-1496 Fierz_to_Bern_chrom *)
Definition Fierz_to_Bern_chrom (dd : string) : prog :=
  let e_ : sc := (SY Ye) in
  let gs : sc := (SY Ygs) in
  pbind (if (String.eqb dd "sb" || String.eqb dd "db")%bool then Ok (SY Ym_b)
    else if String.eqb dd "ds" then Ok (SY Ym_s)
    else Err UnboundLocalError) (fun mq =>
  PBlk (Ok [(("7gamma" ++ dd), ((((gs ** 2)%sc / e_)%sc / mq)%sc * (EKey ("F7gamma" ++ dd)))%ex);
      (("8g" ++ dd), ((gs / mq)%sc * (EKey ("F8g" ++ dd)))%ex);
      (("7pgamma" ++ dd), ((((gs ** 2)%sc / e_)%sc / mq)%sc * (EKey ("F7pgamma" ++ dd)))%ex);
      (("8pg" ++ dd), ((gs / mq)%sc * (EKey ("F8pg" ++ dd)))%ex)])).

(* wilson/translate/wet.py 1499-1515 Bern_to_Fierz_chrom *)
Definition Bern_to_Fierz_chrom (dd : string) : prog :=
  let e_ : sc := (SY Ye) in
  let gs : sc := (SY Ygs) in
  pbind (if (String.eqb dd "sb" || String.eqb dd "db")%bool then Ok (SY Ym_b)
    else if String.eqb dd "ds" then Ok (SY Ym_s)
    else Err UnboundLocalError) (fun mq =>
  PBlk (Ok [(("F7gamma" ++ dd), ((EKey ("7gamma" ++ dd)) / (((gs ** 2)%sc / e_)%sc / mq)%sc)%ex);
      (("F8g" ++ dd), ((EKey ("8g" ++ dd)) / (gs / mq)%sc)%ex);
      (("F7pgamma" ++ dd), ((EKey ("7pgamma" ++ dd)) / (((gs ** 2)%sc / e_)%sc / mq)%sc)%ex);
      (("F8pg" ++ dd), ((EKey ("8pg" ++ dd)) / (gs / mq)%sc)%ex)])).

(* wilson/translate/wet.py 1518-1551 Fierz_to_Flavio_chrom *)
Definition Fierz_to_Flavio_chrom (qq : string) : prog :=
  pbind (if String.eqb qq "sb" then Ok ((SV 2 2) * (SConj (SV 2 1)))%sc
    else if String.eqb qq "db" then Ok ((SV 2 2) * (SConj (SV 2 0)))%sc
    else if String.eqb qq "ds" then Ok ((SV 2 1) * (SConj (SV 2 0)))%sc
    else if String.eqb qq "uc" then Ok ((SConj (SV 1 2)) * (SV 0 2))%sc
    else Err ValueError) (fun xi =>
  let qqfl : string := (str_rev qq) in
  let e_ : sc := (SY Ye) in
  let gs : sc := (SY Ygs) in
  pbind (if (String.eqb qq "sb" || String.eqb qq "db")%bool then Ok (SY Ym_b)
    else if String.eqb qq "ds" then Ok (SY Ym_s)
    else if String.eqb qq "uc" then Ok (SY Ym_c)
    else Err UnboundLocalError) (fun mq =>
  let prefactor : sc := ((((SY Ysqrt2) / (SY YGF))%sc / xi)%sc / (SZ 4))%sc in
  PScale prefactor (PBlk (Ok [(("C7_" ++ qqfl), (((((SZ 16) * ((SY Ypi) ** 2)%sc)%sc / e_)%sc / mq)%sc * (EKey ("F7gamma" ++ qq)))%ex);
      (("C8_" ++ qqfl), (((((SZ 16) * ((SY Ypi) ** 2)%sc)%sc / gs)%sc / mq)%sc * (EKey ("F8g" ++ qq)))%ex);
      (("C7p_" ++ qqfl), (((((SZ 16) * ((SY Ypi) ** 2)%sc)%sc / e_)%sc / mq)%sc * (EKey ("F7pgamma" ++ qq)))%ex);
      (("C8p_" ++ qqfl), (((((SZ 16) * ((SY Ypi) ** 2)%sc)%sc / gs)%sc / mq)%sc * (EKey ("F8pg" ++ qq)))%ex)])))).

(* wilson/translate/wet.py 1554-1587 Flavio_to_Fierz_chrom *)
Definition Flavio_to_Fierz_chrom (qq : string) : prog :=
  pbind (if String.eqb qq "sb" then Ok ((SV 2 2) * (SConj (SV 2 1)))%sc
    else if String.eqb qq "db" then Ok ((SV 2 2) * (SConj (SV 2 0)))%sc
    else if String.eqb qq "ds" then Ok ((SV 2 1) * (SConj (SV 2 0)))%sc
    else if String.eqb qq "uc" then Ok ((SConj (SV 1 2)) * (SV 0 2))%sc
    else Err ValueError) (fun xi =>
  let qqfl : string := (str_rev qq) in
  let e_ : sc := (SY Ye) in
  let gs : sc := (SY Ygs) in
  pbind (if (String.eqb qq "sb" || String.eqb qq "db")%bool then Ok (SY Ym_b)
    else if String.eqb qq "ds" then Ok (SY Ym_s)
    else if String.eqb qq "uc" then Ok (SY Ym_c)
    else Err UnboundLocalError) (fun mq =>
  let prefactor : sc := ((((SY Ysqrt2) / (SY YGF))%sc / xi)%sc / (SZ 4))%sc in
  PDivS (PBlk (Ok [(("F7gamma" ++ qq), ((EKey ("C7_" ++ qqfl)) / ((((SZ 16) * ((SY Ypi) ** 2)%sc)%sc / e_)%sc / mq)%sc)%ex);
      (("F8g" ++ qq), ((EKey ("C8_" ++ qqfl)) / ((((SZ 16) * ((SY Ypi) ** 2)%sc)%sc / gs)%sc / mq)%sc)%ex);
      (("F7pgamma" ++ qq), ((EKey ("C7p_" ++ qqfl)) / ((((SZ 16) * ((SY Ypi) ** 2)%sc)%sc / e_)%sc / mq)%sc)%ex);
      (("F8pg" ++ qq), ((EKey ("C8p_" ++ qqfl)) / ((((SZ 16) * ((SY Ypi) ** 2)%sc)%sc / gs)%sc / mq)%sc)%ex)])) prefactor)).

(* wilson/translate/wet.py 1590-1609 Fierz_to_EOS_chrom *)
Definition Fierz_to_EOS_chrom (dd : string) : prog :=
  let Vtb : sc := (SV 2 2) in
  let Vts : sc := (SV 2 1) in
  let e_ : sc := (SY Ye) in
  let gs : sc := (SY Ygs) in
  let mb : sc := (SY Ym_b) in
  let prefactor : sc := (((((SY Ysqrt2) / (SY YGF))%sc / Vtb)%sc / (SConj Vts))%sc / (SZ 4))%sc in
  PScale prefactor (PBlk (Ok [("b->s::Re{c7}", (ERe (((((SZ 16) * ((SY Ypi) ** 2)%sc)%sc / mb)%sc / e_)%sc * (EKey ("F7gamma" ++ dd)))%ex));
      ("b->s::Im{c7}", (EIm (((((SZ 16) * ((SY Ypi) ** 2)%sc)%sc / mb)%sc / e_)%sc * (EKey ("F7gamma" ++ dd)))%ex));
      ("b->s::Re{c7'}", (ERe (((((SZ 16) * ((SY Ypi) ** 2)%sc)%sc / mb)%sc / e_)%sc * (EKey ("F7pgamma" ++ dd)))%ex));
      ("b->s::Im{c7'}", (EIm (((((SZ 16) * ((SY Ypi) ** 2)%sc)%sc / mb)%sc / e_)%sc * (EKey ("F7pgamma" ++ dd)))%ex));
      ("b->s::c8", (ERe (((((SZ 16) * ((SY Ypi) ** 2)%sc)%sc / mb)%sc / gs)%sc * (EKey ("F8g" ++ dd)))%ex));
      ("b->s::c8'", (ERe (((((SZ 16) * ((SY Ypi) ** 2)%sc)%sc / mb)%sc / gs)%sc * (EKey ("F8pg" ++ dd)))%ex))])).

(* wilson/translate/wet.py 1612-1643 JMS_to_FormFlavor_chrom *)
Definition JMS_to_FormFlavor_chrom (qq : string) : prog :=
  let e_ : sc := (SY Ye) in
  let gs : sc := (SY Ygs) in
  if dmem dflav (str_at qq 0) then
    pbind (flav dflav (str_at qq 0)) (fun s_ =>
    pbind (flav dflav (str_at qq 1)) (fun b =>
    PBlk (Ok [(("CAR_" ++ qq), ((EArr "dgamma" [s_; b]) / e_)%ex);
        (("CGR_" ++ qq), ((EArr "dG" [s_; b]) / gs)%ex);
        (("CAL_" ++ qq), ((EConj (EArr "dgamma" [b; s_])) / e_)%ex);
        (("CGL_" ++ qq), ((EConj (EArr "dG" [b; s_])) / gs)%ex)])))
  else if dmem llflav (str_at qq 0) then
    pbind (flav llflav (str_at qq 0)) (fun l1 =>
    pbind (flav llflav (str_at qq 1)) (fun l2 =>
    PBlk (Ok [(("CAR_" ++ qq), ((EArr "egamma" [l1; l2]) / e_)%ex);
        (("CAL_" ++ qq), ((EConj (EArr "egamma" [l2; l1])) / gs)%ex)])))
  else if dmem uflav (str_at qq 0) then
    pbind (flav uflav (str_at qq 0)) (fun u =>
    pbind (flav uflav (str_at qq 1)) (fun c_ =>
    PBlk (Ok [(("CAR_" ++ qq), ((EArr "ugamma" [u; c_]) / e_)%ex);
        (("CGR_" ++ qq), ((EArr "uG" [u; c_]) / gs)%ex);
        (("CAL_" ++ qq), ((EConj (EArr "ugamma" [c_; u])) / e_)%ex);
        (("CGL_" ++ qq), ((EConj (EArr "uG" [c_; u])) / gs)%ex)])))
  else PFail ValueError.

(* wilson/translate/wet.py 1646-1670 _JMS_to_Flavio_VII *)
Definition _JMS_to_Flavio_VII  : prog :=
  let gs : sc := (SY Ygs) in
  let e_ : sc := (SY Ye) in
  let preC7 : sc := (((SZ 16) * ((SY Ypi) ** 2)%sc)%sc / e_)%sc in
  let preC8 : sc := (((SZ 16) * ((SY Ypi) ** 2)%sc)%sc / gs)%sc in
  let preGF : sc := (((SY Ysqrt2) / (SY YGF))%sc / (SZ 4))%sc in
  PScale preGF (PBlk (Ok (map (fun jf : string * string => (snd jf, EGet (fst jf))) flavio_jms_vii ++ [("C8_uu", ((preC8 / (SY Ym_u))%sc * (EGet "uG_11"))%ex);
      ("C8_cc", ((preC8 / (SY Ym_c))%sc * (EGet "uG_22"))%ex);
      ("C8_dd", ((preC8 / (SY Ym_d))%sc * (EGet "dG_11"))%ex);
      ("C8_ss", ((preC8 / (SY Ym_s))%sc * (EGet "dG_22"))%ex);
      ("C8_bb", ((preC8 / (SY Ym_b))%sc * (EGet "dG_33"))%ex);
      ("C7_uu", ((preC7 / (SY Ym_u))%sc * (EGet "ugamma_11"))%ex);
      ("C7_cc", ((preC7 / (SY Ym_c))%sc * (EGet "ugamma_22"))%ex);
      ("C7_dd", ((preC7 / (SY Ym_d))%sc * (EGet "dgamma_11"))%ex);
      ("C7_ss", ((preC7 / (SY Ym_s))%sc * (EGet "dgamma_22"))%ex);
      ("C7_bb", ((preC7 / (SY Ym_b))%sc * (EGet "dgamma_33"))%ex);
      ("C7_ee", ((preC7 / (SY Ym_e))%sc * (EGet "egamma_11"))%ex);
      ("C7_mumu", ((preC7 / (SY Ym_mu))%sc * (EGet "egamma_22"))%ex);
      ("C7_tautau", ((preC7 / (SY Ym_tau))%sc * (EGet "egamma_33"))%ex)])%list)).

(* wilson/translate/wet.py 1673-1697 _Flavio_to_JMS_VII *)
Definition _Flavio_to_JMS_VII  : prog :=
  let gs : sc := (SY Ygs) in
  let e_ : sc := (SY Ye) in
  let preC7 : sc := (((SZ 16) * ((SY Ypi) ** 2)%sc)%sc / e_)%sc in
  let preC8 : sc := (((SZ 16) * ((SY Ypi) ** 2)%sc)%sc / gs)%sc in
  let preGF : sc := (((SY Ysqrt2) / (SY YGF))%sc / (SZ 4))%sc in
  PDivS (PBlk (Ok (map (fun jf : string * string => (fst jf, EGet (snd jf))) flavio_jms_vii ++ [("uG_11", (((SY Ym_u) / preC8)%sc * (EGet "C8_uu"))%ex);
      ("uG_22", (((SY Ym_c) / preC8)%sc * (EGet "C8_cc"))%ex);
      ("dG_11", (((SY Ym_d) / preC8)%sc * (EGet "C8_dd"))%ex);
      ("dG_22", (((SY Ym_s) / preC8)%sc * (EGet "C8_ss"))%ex);
      ("dG_33", (((SY Ym_b) / preC8)%sc * (EGet "C8_bb"))%ex);
      ("ugamma_11", (((SY Ym_u) / preC7)%sc * (EGet "C7_uu"))%ex);
      ("ugamma_22", (((SY Ym_c) / preC7)%sc * (EGet "C7_cc"))%ex);
      ("dgamma_11", (((SY Ym_d) / preC7)%sc * (EGet "C7_dd"))%ex);
      ("dgamma_22", (((SY Ym_s) / preC7)%sc * (EGet "C7_ss"))%ex);
      ("dgamma_33", (((SY Ym_b) / preC7)%sc * (EGet "C7_bb"))%ex);
      ("egamma_11", (((SY Ym_e) / preC7)%sc * (EGet "C7_ee"))%ex);
      ("egamma_22", (((SY Ym_mu) / preC7)%sc * (EGet "C7_mumu"))%ex);
      ("egamma_33", (((SY Ym_tau) / preC7)%sc * (EGet "C7_tautau"))%ex)])%list)) preGF.
