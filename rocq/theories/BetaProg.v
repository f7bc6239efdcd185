(* Generated by tools/gen_beta.py from wilson/run/smeft/beta.py:39-1814; do not edit. *)
From Coq Require Import List ZArith String.
From Verif Require Import BetaModel.
Import ListNotations.
Local Open Scope string_scope.
Local Open Scope Z_scope.

(* beta.py:41-41 *)
Definition st00 : stmt := SLocal "g"
     (EC "g").
(* beta.py:42-42 *)
Definition st01 : stmt := SLocal "gp"
     (EC "gp").
(* beta.py:43-43 *)
Definition st02 : stmt := SLocal "gs"
     (EC "gs").
(* beta.py:44-44 *)
Definition st03 : stmt := SLocal "m2"
     (EC "m2").
(* beta.py:45-45 *)
Definition st04 : stmt := SLocal "Lambda"
     (EC "Lambda").
(* beta.py:46-46 *)
Definition st05 : stmt := SLocal "Gu"
     (EC "Gu").
(* beta.py:47-47 *)
Definition st06 : stmt := SLocal "Gd"
     (EC "Gd").
(* beta.py:48-48 *)
Definition st07 : stmt := SLocal "Ge"
     (EC "Ge").
(* beta.py:51-56 *)
Definition st08 : stmt := SLocal "Eta1"
     (EDiv (EAdd (EAdd (EAdd (EAdd (EAdd (EMul (ENum 3) (ETrace (EMat (EC "uphi") (ET (EConj (EV "Gu")))))) (EMul (ENum 3) (ETrace (EMat (EC "dphi")
     (ET (EConj (EV "Gd"))))))) (ETrace (EMat (EC "ephi") (ET (EConj (EV "Ge")))))) (EMul (ENum 3) (EConj (ETrace (EMat (EC "uphi") (ET (EConj (EV
     "Gu")))))))) (EMul (ENum 3) (EConj (ETrace (EMat (EC "dphi") (ET (EConj (EV "Gd")))))))) (EConj (ETrace (EMat (EC "ephi") (ET (EConj (EV
     "Ge"))))))) (ENum 2)).
(* beta.py:57-61 *)
Definition st09 : stmt := SLocal "Eta2"
     (EAdd (ESub (ESub (EMul (ENeg (ENum 6)) (ETrace (EMat (EMat (EC "phiq3") (EV "Gu")) (ET (EConj (EV "Gu")))))) (EMul (ENum 6) (ETrace (EMat (EMat
     (EC "phiq3") (EV "Gd")) (ET (EConj (EV "Gd"))))))) (EMul (ENum 2) (ETrace (EMat (EMat (EC "phil3") (EV "Ge")) (ET (EConj (EV "Ge"))))))) (EMul
     (ENum 3) (EAdd (ETrace (EMat (EMat (EC "phiud") (ET (EConj (EV "Gd")))) (EV "Gu"))) (EConj (ETrace (EMat (EMat (EC "phiud") (ET (EConj (EV
     "Gd")))) (EV "Gu"))))))).
(* beta.py:62-72 *)
Definition st10 : stmt := SLocal "Eta3"
     (ESub (EAdd (EAdd (ESub (ESub (EAdd (EAdd (EAdd (ESub (EMul (ENum 3) (ETrace (EMat (EMat (EC "phiq1") (EV "Gd")) (ET (EConj (EV "Gd")))))) (EMul
     (ENum 3) (ETrace (EMat (EMat (EC "phiq1") (EV "Gu")) (ET (EConj (EV "Gu"))))))) (EMul (ENum 9) (ETrace (EMat (EMat (EC "phiq3") (EV "Gd")) (ET
     (EConj (EV "Gd"))))))) (EMul (ENum 9) (ETrace (EMat (EMat (EC "phiq3") (EV "Gu")) (ET (EConj (EV "Gu"))))))) (EMul (ENum 3) (ETrace (EMat (EMat
     (EC "phiu") (ET (EConj (EV "Gu")))) (EV "Gu"))))) (EMul (ENum 3) (ETrace (EMat (EMat (EC "phid") (ET (EConj (EV "Gd")))) (EV "Gd"))))) (EMul
     (ENum 3) (EAdd (ETrace (EMat (EMat (EC "phiud") (ET (EConj (EV "Gd")))) (EV "Gu"))) (EConj (ETrace (EMat (EMat (EC "phiud") (ET (EConj (EV
     "Gd")))) (EV "Gu"))))))) (ETrace (EMat (EMat (EC "phil1") (EV "Ge")) (ET (EConj (EV "Ge")))))) (EMul (ENum 3) (ETrace (EMat (EMat (EC "phil3")
     (EV "Ge")) (ET (EConj (EV "Ge"))))))) (ETrace (EMat (EMat (EC "phie") (ET (EConj (EV "Ge")))) (EV "Ge")))).
(* beta.py:73-80 *)
Definition st11 : stmt := SLocal "Eta4"
     (ESub (EAdd (EAdd (ESub (EAdd (ESub (EMul (ENum 12) (ETrace (EMat (EMat (EC "phiq1") (EV "Gd")) (ET (EConj (EV "Gd")))))) (EMul (ENum 12) (ETrace
     (EMat (EMat (EC "phiq1") (EV "Gu")) (ET (EConj (EV "Gu"))))))) (EMul (ENum 12) (ETrace (EMat (EMat (EC "phiu") (ET (EConj (EV "Gu")))) (EV
     "Gu"))))) (EMul (ENum 12) (ETrace (EMat (EMat (EC "phid") (ET (EConj (EV "Gd")))) (EV "Gd"))))) (EMul (ENum 6) (EAdd (ETrace (EMat (EMat (EC
     "phiud") (ET (EConj (EV "Gd")))) (EV "Gu"))) (EConj (ETrace (EMat (EMat (EC "phiud") (ET (EConj (EV "Gd")))) (EV "Gu"))))))) (EMul (ENum 4)
     (ETrace (EMat (EMat (EC "phil1") (EV "Ge")) (ET (EConj (EV "Ge"))))))) (EMul (ENum 4) (ETrace (EMat (EMat (EC "phie") (ET (EConj (EV "Ge")))) (EV
     "Ge"))))).
(* beta.py:81-86 *)
Definition st12 : stmt := SLocal "Eta5"
     (EAdd (ESub (EMul (EDiv (EMul (EIm 1) (ENum 3)) (ENum 2)) (ESub (ETrace (EMat (EV "Gd") (ET (EConj (EC "dphi"))))) (EConj (ETrace (EMat (EV "Gd")
     (ET (EConj (EC "dphi")))))))) (EMul (EDiv (EMul (EIm 1) (ENum 3)) (ENum 2)) (ESub (ETrace (EMat (EV "Gu") (ET (EConj (EC "uphi"))))) (EConj
     (ETrace (EMat (EV "Gu") (ET (EConj (EC "uphi"))))))))) (EMul (EDiv (EMul (EIm 1) (ENum 1)) (ENum 2)) (ESub (ETrace (EMat (EV "Ge") (ET (EConj (EC
     "ephi"))))) (EConj (ETrace (EMat (EV "Ge") (ET (EConj (EC "ephi"))))))))).
(* beta.py:88-88 *)
Definition st13 : stmt := SLocal "GammaH"
     (ETrace (EAdd (EAdd (EMat (EMul (ENum 3) (EV "Gu")) (ET (EConj (EV "Gu")))) (EMat (EMul (ENum 3) (EV "Gd")) (ET (EConj (EV "Gd"))))) (EMat (EV
     "Ge") (ET (EConj (EV "Ge")))))).
(* beta.py:89-89 *)
Definition st14 : stmt := SLocal "Gammaq"
     (EMul (EDiv (ENum 1) (ENum 2)) (EAdd (EMat (EV "Gu") (ET (EConj (EV "Gu")))) (EMat (EV "Gd") (ET (EConj (EV "Gd")))))).
(* beta.py:90-90 *)
Definition st15 : stmt := SLocal "Gammau"
     (EMat (ET (EConj (EV "Gu"))) (EV "Gu")).
(* beta.py:91-91 *)
Definition st16 : stmt := SLocal "Gammad"
     (EMat (ET (EConj (EV "Gd"))) (EV "Gd")).
(* beta.py:92-92 *)
Definition st17 : stmt := SLocal "Gammal"
     (EMat (EMul (EDiv (ENum 1) (ENum 2)) (EV "Ge")) (ET (EConj (EV "Ge")))).
(* beta.py:93-93 *)
Definition st18 : stmt := SLocal "Gammae"
     (EMat (ET (EConj (EV "Ge"))) (EV "Ge")).
(* beta.py:97-97 *)
Definition st19 : stmt := SBeta "g"
     (ESub (EMul (EDiv (ENeg (ENum 19)) (ENum 6)) (EPow (EV "g") 3)) (EMul (EDiv (EMul (EMul (ENum 8) (EV "g")) (EV "m2")) (EPow (EV "HIGHSCALE") 2))
     (EC "phiW"))).
(* beta.py:99-99 *)
Definition st20 : stmt := SBeta "gp"
     (ESub (EMul (EDiv (ENum 41) (ENum 6)) (EPow (EV "gp") 3)) (EMul (EDiv (EMul (EMul (ENum 8) (EV "gp")) (EV "m2")) (EPow (EV "HIGHSCALE") 2)) (EC
     "phiB"))).
(* beta.py:101-101 *)
Definition st21 : stmt := SBeta "gs"
     (ESub (EMul (ENeg (ENum 7)) (EPow (EV "gs") 3)) (EMul (EDiv (EMul (EMul (ENum 8) (EV "gs")) (EV "m2")) (EPow (EV "HIGHSCALE") 2)) (EC "phiG"))).
(* beta.py:103-117 *)
Definition st22 : stmt := SBeta "Lambda"
     (EAdd (ESub (EAdd (ESub (EAdd (EAdd (EAdd (EMul (ENum 12) (EPow (EV "Lambda") 2)) (EMul (EDiv (ENum 3) (ENum 4)) (EPow (EV "gp") 4))) (EMul (EMul
     (EDiv (ENum 3) (ENum 2)) (EPow (EV "g") 2)) (EPow (EV "gp") 2))) (EMul (EDiv (ENum 9) (ENum 4)) (EPow (EV "g") 4))) (EMul (EMul (ENum 3) (EAdd
     (EPow (EV "gp") 2) (EMul (ENum 3) (EPow (EV "g") 2)))) (EV "Lambda"))) (EMul (EMul (ENum 4) (EV "Lambda")) (EV "GammaH"))) (EMul (ENum 4) (EAdd
     (EAdd (EMul (ENum 3) (ETrace (EMat (EMat (EMat (EV "Gd") (ET (EConj (EV "Gd")))) (EV "Gd")) (ET (EConj (EV "Gd")))))) (EMul (ENum 3) (ETrace
     (EMat (EMat (EMat (EV "Gu") (ET (EConj (EV "Gu")))) (EV "Gu")) (ET (EConj (EV "Gu"))))))) (ETrace (EMat (EMat (EMat (EV "Ge") (ET (EConj (EV
     "Ge")))) (EV "Ge")) (ET (EConj (EV "Ge")))))))) (EMul (EDiv (EMul (ENum 4) (EV "m2")) (EPow (EV "HIGHSCALE") 2)) (EAdd (EAdd (EAdd (EAdd (EAdd
     (EAdd (EAdd (EMul (ENum 12) (EC "phi")) (EMul (EAdd (EMul (ENeg (ENum 16)) (EV "Lambda")) (EMul (EDiv (ENum 10) (ENum 3)) (EPow (EV "g") 2))) (EC
     "phiBox"))) (EMul (EAdd (EMul (ENum 6) (EV "Lambda")) (EMul (EDiv (ENum 3) (ENum 2)) (ESub (EPow (EV "gp") 2) (EPow (EV "g") 2)))) (EC "phiD")))
     (EMul (ENum 2) (EAdd (EV "Eta1") (EV "Eta2")))) (EMul (EMul (ENum 9) (EPow (EV "g") 2)) (EC "phiW"))) (EMul (EMul (ENum 3) (EPow (EV "gp") 2))
     (EC "phiB"))) (EMul (EMul (EMul (ENum 3) (EV "g")) (EV "gp")) (EC "phiWB"))) (EMul (EMul (EDiv (ENum 4) (ENum 3)) (EPow (EV "g") 2)) (EAdd
     (ETrace (EC "phil3")) (EMul (ENum 3) (ETrace (EC "phiq3")))))))).
(* beta.py:119-121 *)
Definition st23 : stmt := SBeta "m2"
     (EMul (EV "m2") (EAdd (EAdd (ESub (ESub (EMul (ENum 6) (EV "Lambda")) (EMul (EDiv (ENum 9) (ENum 2)) (EPow (EV "g") 2))) (EMul (EDiv (ENum 3)
     (ENum 2)) (EPow (EV "gp") 2))) (EMul (ENum 2) (EV "GammaH"))) (EMul (EDiv (EMul (ENum 4) (EV "m2")) (EPow (EV "HIGHSCALE") 2)) (ESub (EC "phiD")
     (EMul (ENum 2) (EC "phiBox")))))).
(* beta.py:123-136 *)
Definition st24 : stmt := SBeta "Gu"
     (EAdd (EAdd (EMul (EDiv (ENum 3) (ENum 2)) (ESub (EMat (EMat (EV "Gu") (ET (EConj (EV "Gu")))) (EV "Gu")) (EMat (EMat (EV "Gd") (ET (EConj (EV
     "Gd")))) (EV "Gu")))) (EMul (ESub (ESub (ESub (EV "GammaH") (EMul (EDiv (ENum 9) (ENum 4)) (EPow (EV "g") 2))) (EMul (EDiv (ENum 17) (ENum 12))
     (EPow (EV "gp") 2))) (EMul (ENum 8) (EPow (EV "gs") 2))) (EV "Gu"))) (EMul (EDiv (EMul (ENum 2) (EV "m2")) (EPow (EV "HIGHSCALE") 2)) (EAdd (EAdd
     (ESub (ESub (ESub (EAdd (EAdd (ESub (EAdd (EMul (ENum 3) (EC "uphi")) (EMul (EMul (EDiv (ENum 1) (ENum 2)) (ESub (EC "phiD") (EMul (ENum 2) (EC
     "phiBox")))) (EV "Gu"))) (EMat (ET (EConj (EC "phiq1"))) (EV "Gu"))) (EMat (EMul (ENum 3) (ET (EConj (EC "phiq3")))) (EV "Gu"))) (EMat (EV "Gu")
     (ET (EConj (EC "phiu"))))) (EMat (EV "Gd") (ET (EConj (EC "phiud"))))) (EMul (ENum 2) (EAdd (EEin2 "rpts,pt" (EC "qu1") (EV "Gu")) (EMul (EDiv
     (ENum 4) (ENum 3)) (EEin2 "rpts,pt" (EC "qu8") (EV "Gu")))))) (EEin2 "ptrs,pt" (EC "lequ1") (EConj (EV "Ge")))) (EMul (ENum 3) (EEin2 "rspt,pt"
     (EC "quqd1") (EConj (EV "Gd"))))) (EMul (EDiv (ENum 1) (ENum 2)) (EAdd (EEin2 "psrt,pt" (EC "quqd1") (EConj (EV "Gd"))) (EMul (EDiv (ENum 4)
     (ENum 3)) (EEin2 "psrt,pt" (EC "quqd8") (EConj (EV "Gd"))))))))).
(* beta.py:138-151 *)
Definition st25 : stmt := SBeta "Gd"
     (EAdd (EAdd (EMul (EDiv (ENum 3) (ENum 2)) (ESub (EMat (EMat (EV "Gd") (ET (EConj (EV "Gd")))) (EV "Gd")) (EMat (EMat (EV "Gu") (ET (EConj (EV
     "Gu")))) (EV "Gd")))) (EMul (ESub (ESub (ESub (EV "GammaH") (EMul (EDiv (ENum 9) (ENum 4)) (EPow (EV "g") 2))) (EMul (EDiv (ENum 5) (ENum 12))
     (EPow (EV "gp") 2))) (EMul (ENum 8) (EPow (EV "gs") 2))) (EV "Gd"))) (EMul (EDiv (EMul (ENum 2) (EV "m2")) (EPow (EV "HIGHSCALE") 2)) (EAdd (EAdd
     (EAdd (ESub (ESub (ESub (EAdd (EAdd (EAdd (EMul (ENum 3) (EC "dphi")) (EMul (EMul (EDiv (ENum 1) (ENum 2)) (ESub (EC "phiD") (EMul (ENum 2) (EC
     "phiBox")))) (EV "Gd"))) (EMat (ET (EConj (EC "phiq1"))) (EV "Gd"))) (EMat (EMul (ENum 3) (ET (EConj (EC "phiq3")))) (EV "Gd"))) (EMat (EV "Gd")
     (ET (EConj (EC "phid"))))) (EMat (EV "Gu") (EC "phiud"))) (EMul (ENum 2) (EAdd (EEin2 "rpts,pt" (EC "qd1") (EV "Gd")) (EMul (EDiv (ENum 4) (ENum
     3)) (EEin2 "rpts,pt" (EC "qd8") (EV "Gd")))))) (EEin2 "ptsr,pt" (EConj (EC "ledq")) (EV "Ge"))) (EMul (ENum 3) (EEin2 "ptrs,pt" (EC "quqd1")
     (EConj (EV "Gu"))))) (EMul (EDiv (ENum 1) (ENum 2)) (EAdd (EEin2 "rpts,tp" (EC "quqd1") (EConj (EV "Gu"))) (EMul (EDiv (ENum 4) (ENum 3)) (EEin2
     "rpts,tp" (EC "quqd8") (EConj (EV "Gu"))))))))).
(* beta.py:153-161 *)
Definition st26 : stmt := SBeta "Ge"
     (EAdd (EAdd (EMat (EMat (EMul (EDiv (ENum 3) (ENum 2)) (EV "Ge")) (ET (EConj (EV "Ge")))) (EV "Ge")) (EMul (ESub (EV "GammaH") (EMul (EDiv (ENum
     3) (ENum 4)) (EAdd (EMul (ENum 3) (EPow (EV "g") 2)) (EMul (ENum 5) (EPow (EV "gp") 2))))) (EV "Ge"))) (EMul (EDiv (EMul (ENum 2) (EV "m2"))
     (EPow (EV "HIGHSCALE") 2)) (ESub (EAdd (ESub (ESub (EAdd (EAdd (EAdd (EMul (ENum 3) (EC "ephi")) (EMul (EMul (EDiv (ENum 1) (ENum 2)) (ESub (EC
     "phiD") (EMul (ENum 2) (EC "phiBox")))) (EV "Ge"))) (EMat (ET (EConj (EC "phil1"))) (EV "Ge"))) (EMat (EMul (ENum 3) (ET (EConj (EC "phil3"))))
     (EV "Ge"))) (EMat (EV "Ge") (ET (EConj (EC "phie"))))) (EMul (ENum 2) (EEin2 "rpts,pt" (EC "le") (EV "Ge")))) (EMul (ENum 3) (EEin2 "rspt,tp" (EC
     "ledq") (EV "Gd")))) (EMul (ENum 3) (EEin2 "rspt,pt" (EC "lequ1") (EConj (EV "Gu"))))))).
(* beta.py:163-168 *)
Definition st27 : stmt := SReturnUnlessNP.
(* beta.py:171-174 *)
Definition st28 : stmt := SLocal "XiB"
     (EAdd (EMul (EDiv (ENum 2) (ENum 3)) (EAdd (EC "phiBox") (EC "phiD"))) (EMul (EDiv (ENum 8) (ENum 3)) (ESub (EAdd (ESub (EAdd (ENeg (ETrace (EC
     "phil1"))) (ETrace (EC "phiq1"))) (ETrace (EC "phie"))) (EMul (ENum 2) (ETrace (EC "phiu")))) (ETrace (EC "phid"))))).
(* beta.py:175-177 *)
Definition st29 : stmt := SLocal "Xie"
     (EAdd (ESub (EMul (ENum 2) (EEin2 "prst,rs" (EC "le") (EV "Ge"))) (EMul (ENum 3) (EEin2 "ptsr,rs" (EC "ledq") (EV "Gd")))) (EMul (ENum 3) (EEin2
     "ptsr,sr" (EC "lequ1") (EConj (EV "Gu"))))).
(* beta.py:178-183 *)
Definition st30 : stmt := SLocal "Xid"
     (ESub (ESub (EMul (ENum 2) (EAdd (EEin2 "prst,rs" (EC "qd1") (EV "Gd")) (EMul (EDiv (ENum 4) (ENum 3)) (EEin2 "prst,rs" (EC "qd8") (EV "Gd")))))
     (EAdd (EMul (ENum 3) (EEin2 "srpt,sr" (EC "quqd1") (EConj (EV "Gu")))) (EMul (EDiv (ENum 1) (ENum 2)) (EAdd (EEin2 "prst,sr" (EC "quqd1") (EConj
     (EV "Gu"))) (EMul (EDiv (ENum 4) (ENum 3)) (EEin2 "prst,sr" (EC "quqd8") (EConj (EV "Gu")))))))) (EEin2 "srtp,sr" (EConj (EC "ledq")) (EV "Ge"))).
(* beta.py:184-189 *)
Definition st31 : stmt := SLocal "Xiu"
     (EAdd (ESub (EMul (ENum 2) (EAdd (EEin2 "prst,rs" (EC "qu1") (EV "Gu")) (EMul (EDiv (ENum 4) (ENum 3)) (EEin2 "prst,rs" (EC "qu8") (EV "Gu")))))
     (EAdd (EMul (ENum 3) (EEin2 "ptsr,sr" (EC "quqd1") (EConj (EV "Gd")))) (EMul (EDiv (ENum 1) (ENum 2)) (EAdd (EEin2 "stpr,sr" (EC "quqd1") (EConj
     (EV "Gd"))) (EMul (EDiv (ENum 4) (ENum 3)) (EEin2 "stpr,sr" (EC "quqd8") (EConj (EV "Gd")))))))) (EEin2 "srpt,sr" (EC "lequ1") (EConj (EV
     "Ge")))).
(* beta.py:191-191 *)
Definition st32 : stmt := SBeta "G"
     (EMul (EMul (ENum 15) (EPow (EV "gs") 2)) (EC "G")).
(* beta.py:193-193 *)
Definition st33 : stmt := SBeta "Gtilde"
     (EMul (EMul (ENum 15) (EPow (EV "gs") 2)) (EC "Gtilde")).
(* beta.py:195-195 *)
Definition st34 : stmt := SBeta "W"
     (EMul (EMul (EDiv (ENum 29) (ENum 2)) (EPow (EV "g") 2)) (EC "W")).
(* beta.py:197-197 *)
Definition st35 : stmt := SBeta "Wtilde"
     (EMul (EMul (EDiv (ENum 29) (ENum 2)) (EPow (EV "g") 2)) (EC "Wtilde")).
(* beta.py:200-229 *)
Definition st36 : stmt := SBeta "phi"
     (EAdd (ESub (EAdd (EAdd (ESub (EAdd (EAdd (ESub (ESub (ESub (EAdd (ESub (EAdd (EMul (EMul (EDiv (ENeg (ENum 9)) (ENum 2)) (EAdd (EMul (ENum 3)
     (EPow (EV "g") 2)) (EPow (EV "gp") 2))) (EC "phi")) (EMul (EV "Lambda") (EAdd (EMul (EMul (EDiv (ENum 20) (ENum 3)) (EPow (EV "g") 2)) (EC
     "phiBox")) (EMul (EMul (ENum 3) (ESub (EPow (EV "gp") 2) (EPow (EV "g") 2))) (EC "phiD"))))) (EMul (EMul (EDiv (ENum 3) (ENum 4)) (EPow (EAdd
     (EPow (EV "g") 2) (EPow (EV "gp") 2)) 2)) (EC "phiD"))) (EMul (EMul (ENum 6) (EV "Lambda")) (EAdd (EAdd (EMul (EMul (ENum 3) (EPow (EV "g") 2))
     (EC "phiW")) (EMul (EPow (EV "gp") 2) (EC "phiB"))) (EMul (EMul (EV "g") (EV "gp")) (EC "phiWB"))))) (EMul (EMul (ENum 3) (EAdd (EMul (EPow (EV
     "g") 2) (EPow (EV "gp") 2)) (EMul (ENum 3) (EPow (EV "g") 4)))) (EC "phiW"))) (EMul (EMul (ENum 3) (EAdd (EPow (EV "gp") 4) (EMul (EPow (EV "g")
     2) (EPow (EV "gp") 2)))) (EC "phiB"))) (EMul (EMul (ENum 3) (EAdd (EMul (EV "g") (EPow (EV "gp") 3)) (EMul (EPow (EV "g") 3) (EV "gp")))) (EC
     "phiWB"))) (EMul (EMul (EMul (EDiv (ENum 8) (ENum 3)) (EV "Lambda")) (EPow (EV "g") 2)) (EAdd (ETrace (EC "phil3")) (EMul (ENum 3) (ETrace (EC
     "phiq3")))))) (EMul (EMul (ENum 54) (EV "Lambda")) (EC "phi"))) (EMul (EMul (ENum 40) (EPow (EV "Lambda") 2)) (EC "phiBox"))) (EMul (EMul (ENum
     12) (EPow (EV "Lambda") 2)) (EC "phiD"))) (EMul (EMul (ENum 4) (EV "Lambda")) (EAdd (EV "Eta1") (EV "Eta2")))) (EMul (ENum 4) (EAdd (EAdd (EAdd
     (EAdd (EAdd (EMul (ENum 3) (ETrace (EMat (EMat (EMat (EC "uphi") (ET (EConj (EV "Gu")))) (EV "Gu")) (ET (EConj (EV "Gu")))))) (EMul (ENum 3)
     (ETrace (EMat (EMat (EMat (EC "dphi") (ET (EConj (EV "Gd")))) (EV "Gd")) (ET (EConj (EV "Gd"))))))) (ETrace (EMat (EMat (EMat (EC "ephi") (ET
     (EConj (EV "Ge")))) (EV "Ge")) (ET (EConj (EV "Ge")))))) (EMul (ENum 3) (EConj (ETrace (EMat (EMat (EMat (EC "uphi") (ET (EConj (EV "Gu")))) (EV
     "Gu")) (ET (EConj (EV "Gu")))))))) (EMul (ENum 3) (EConj (ETrace (EMat (EMat (EMat (EC "dphi") (ET (EConj (EV "Gd")))) (EV "Gd")) (ET (EConj (EV
     "Gd")))))))) (EConj (ETrace (EMat (EMat (EMat (EC "ephi") (ET (EConj (EV "Ge")))) (EV "Ge")) (ET (EConj (EV "Ge"))))))))) (EMul (EMul (ENum 6)
     (EV "GammaH")) (EC "phi"))).
(* beta.py:231-243 *)
Definition st37 : stmt := SBeta "phiBox"
     (EAdd (ESub (EAdd (EAdd (EAdd (EAdd (EMul (ENeg (EAdd (EMul (ENum 4) (EPow (EV "g") 2)) (EMul (EDiv (ENum 4) (ENum 3)) (EPow (EV "gp") 2)))) (EC
     "phiBox")) (EMul (EMul (EDiv (ENum 5) (ENum 3)) (EPow (EV "gp") 2)) (EC "phiD"))) (EMul (EMul (ENum 2) (EPow (EV "g") 2)) (EAdd (ETrace (EC
     "phil3")) (EMul (ENum 3) (ETrace (EC "phiq3")))))) (EMul (EMul (EDiv (ENum 2) (ENum 3)) (EPow (EV "gp") 2)) (ESub (EAdd (ESub (ESub (EMul (ENum
     2) (ETrace (EC "phiu"))) (ETrace (EC "phid"))) (ETrace (EC "phie"))) (ETrace (EC "phiq1"))) (ETrace (EC "phil1"))))) (EMul (EMul (ENum 12) (EV
     "Lambda")) (EC "phiBox"))) (EMul (ENum 2) (EV "Eta3"))) (EMul (EMul (ENum 4) (EV "GammaH")) (EC "phiBox"))).
(* beta.py:245-255 *)
Definition st38 : stmt := SBeta "phiD"
     (EAdd (ESub (EAdd (EAdd (EAdd (EMul (EMul (EDiv (ENum 20) (ENum 3)) (EPow (EV "gp") 2)) (EC "phiBox")) (EMul (ESub (EMul (EDiv (ENum 9) (ENum 2))
     (EPow (EV "g") 2)) (EMul (EDiv (ENum 5) (ENum 6)) (EPow (EV "gp") 2))) (EC "phiD"))) (EMul (EMul (EDiv (ENum 8) (ENum 3)) (EPow (EV "gp") 2))
     (ESub (EAdd (ESub (ESub (EMul (ENum 2) (ETrace (EC "phiu"))) (ETrace (EC "phid"))) (ETrace (EC "phie"))) (ETrace (EC "phiq1"))) (ETrace (EC
     "phil1"))))) (EMul (EMul (ENum 6) (EV "Lambda")) (EC "phiD"))) (EMul (ENum 2) (EV "Eta4"))) (EMul (EMul (ENum 4) (EV "GammaH")) (EC "phiD"))).
(* beta.py:258-266 *)
Definition st39 : stmt := SBeta "phiG"
     (EAdd (ESub (EAdd (EMul (ESub (ESub (EMul (EDiv (ENeg (ENum 3)) (ENum 2)) (EPow (EV "gp") 2)) (EMul (EDiv (ENum 9) (ENum 2)) (EPow (EV "g") 2)))
     (EMul (ENum 14) (EPow (EV "gs") 2))) (EC "phiG")) (EMul (EMul (ENum 6) (EV "Lambda")) (EC "phiG"))) (EMul (EMul (ENum 2) (EV "gs")) (EAdd (EAdd
     (EAdd (ETrace (EMat (EC "uG") (ET (EConj (EV "Gu"))))) (ETrace (EMat (EC "dG") (ET (EConj (EV "Gd")))))) (EConj (ETrace (EMat (EC "uG") (ET
     (EConj (EV "Gu"))))))) (EConj (ETrace (EMat (EC "dG") (ET (EConj (EV "Gd"))))))))) (EMul (EMul (ENum 2) (EV "GammaH")) (EC "phiG"))).
(* beta.py:269-280 *)
Definition st40 : stmt := SBeta "phiB"
     (EAdd (EAdd (EAdd (EAdd (EMul (ESub (EMul (EDiv (ENum 85) (ENum 6)) (EPow (EV "gp") 2)) (EMul (EDiv (ENum 9) (ENum 2)) (EPow (EV "g") 2))) (EC
     "phiB")) (EMul (EMul (EMul (ENum 3) (EV "g")) (EV "gp")) (EC "phiWB"))) (EMul (EMul (ENum 6) (EV "Lambda")) (EC "phiB"))) (EMul (EV "gp") (EAdd
     (EAdd (ESub (EAdd (EAdd (EMul (ENeg (ENum 5)) (ETrace (EMat (EC "uB") (ET (EConj (EV "Gu")))))) (ETrace (EMat (EC "dB") (ET (EConj (EV "Gd"))))))
     (EMul (ENum 3) (ETrace (EMat (EC "eB") (ET (EConj (EV "Ge"))))))) (EMul (ENum 5) (EConj (ETrace (EMat (EC "uB") (ET (EConj (EV "Gu"))))))))
     (EConj (ETrace (EMat (EC "dB") (ET (EConj (EV "Gd"))))))) (EMul (ENum 3) (EConj (ETrace (EMat (EC "eB") (ET (EConj (EV "Ge")))))))))) (EMul (EMul
     (ENum 2) (EV "GammaH")) (EC "phiB"))).
(* beta.py:283-294 *)
Definition st41 : stmt := SBeta "phiW"
     (EAdd (ESub (EAdd (ESub (EAdd (EMul (ESub (EMul (EDiv (ENeg (ENum 3)) (ENum 2)) (EPow (EV "gp") 2)) (EMul (EDiv (ENum 53) (ENum 6)) (EPow (EV
     "g") 2))) (EC "phiW")) (EMul (EMul (EV "g") (EV "gp")) (EC "phiWB"))) (EMul (EMul (ENum 15) (EPow (EV "g") 3)) (EC "W"))) (EMul (EMul (ENum 6)
     (EV "Lambda")) (EC "phiW"))) (EMul (EV "g") (EAdd (EAdd (EAdd (EAdd (EAdd (EMul (ENum 3) (ETrace (EMat (EC "uW") (ET (EConj (EV "Gu")))))) (EMul
     (ENum 3) (ETrace (EMat (EC "dW") (ET (EConj (EV "Gd"))))))) (ETrace (EMat (EC "eW") (ET (EConj (EV "Ge")))))) (EMul (ENum 3) (EConj (ETrace (EMat
     (EC "uW") (ET (EConj (EV "Gu")))))))) (EMul (ENum 3) (EConj (ETrace (EMat (EC "dW") (ET (EConj (EV "Gd")))))))) (EConj (ETrace (EMat (EC "eW")
     (ET (EConj (EV "Ge"))))))))) (EMul (EMul (ENum 2) (EV "GammaH")) (EC "phiW"))).
(* beta.py:297-315 *)
Definition st42 : stmt := SBeta "phiWB"
     (EAdd (EAdd (EAdd (EAdd (EAdd (EAdd (EMul (EAdd (EMul (EDiv (ENum 19) (ENum 3)) (EPow (EV "gp") 2)) (EMul (EDiv (ENum 4) (ENum 3)) (EPow (EV "g")
     2))) (EC "phiWB")) (EMul (EMul (EMul (ENum 2) (EV "g")) (EV "gp")) (EAdd (EC "phiB") (EC "phiW")))) (EMul (EMul (EMul (ENum 3) (EPow (EV "g") 2))
     (EV "gp")) (EC "W"))) (EMul (EMul (ENum 2) (EV "Lambda")) (EC "phiWB"))) (EMul (EV "g") (ESub (ESub (EAdd (ESub (ESub (EMul (ENum 3) (ETrace
     (EMat (EC "uB") (ET (EConj (EV "Gu")))))) (EMul (ENum 3) (ETrace (EMat (EC "dB") (ET (EConj (EV "Gd"))))))) (ETrace (EMat (EC "eB") (ET (EConj
     (EV "Ge")))))) (EMul (ENum 3) (EConj (ETrace (EMat (EC "uB") (ET (EConj (EV "Gu")))))))) (EMul (ENum 3) (EConj (ETrace (EMat (EC "dB") (ET (EConj
     (EV "Gd")))))))) (EConj (ETrace (EMat (EC "eB") (ET (EConj (EV "Ge"))))))))) (EMul (EV "gp") (EAdd (EAdd (EAdd (EAdd (EAdd (EMul (ENum 5) (ETrace
     (EMat (EC "uW") (ET (EConj (EV "Gu")))))) (ETrace (EMat (EC "dW") (ET (EConj (EV "Gd")))))) (EMul (ENum 3) (ETrace (EMat (EC "eW") (ET (EConj (EV
     "Ge"))))))) (EMul (ENum 5) (EConj (ETrace (EMat (EC "uW") (ET (EConj (EV "Gu")))))))) (EConj (ETrace (EMat (EC "dW") (ET (EConj (EV "Gd")))))))
     (EMul (ENum 3) (EConj (ETrace (EMat (EC "eW") (ET (EConj (EV "Ge")))))))))) (EMul (EMul (ENum 2) (EV "GammaH")) (EC "phiWB"))).
(* beta.py:318-326 *)
Definition st43 : stmt := SBeta "phiGtilde"
     (EAdd (EAdd (EAdd (EMul (ESub (ESub (EMul (EDiv (ENeg (ENum 3)) (ENum 2)) (EPow (EV "gp") 2)) (EMul (EDiv (ENum 9) (ENum 2)) (EPow (EV "g") 2)))
     (EMul (ENum 14) (EPow (EV "gs") 2))) (EC "phiGtilde")) (EMul (EMul (ENum 6) (EV "Lambda")) (EC "phiGtilde"))) (EMul (EMul (EIm 2) (EV "gs"))
     (ESub (ESub (EAdd (ETrace (EMat (EC "uG") (ET (EConj (EV "Gu"))))) (ETrace (EMat (EC "dG") (ET (EConj (EV "Gd")))))) (EConj (ETrace (EMat (EC
     "uG") (ET (EConj (EV "Gu"))))))) (EConj (ETrace (EMat (EC "dG") (ET (EConj (EV "Gd"))))))))) (EMul (EMul (ENum 2) (EV "GammaH")) (EC
     "phiGtilde"))).
(* beta.py:329-340 *)
Definition st44 : stmt := SBeta "phiBtilde"
     (EAdd (ESub (EAdd (EAdd (EMul (ESub (EMul (EDiv (ENum 85) (ENum 6)) (EPow (EV "gp") 2)) (EMul (EDiv (ENum 9) (ENum 2)) (EPow (EV "g") 2))) (EC
     "phiBtilde")) (EMul (EMul (EMul (ENum 3) (EV "g")) (EV "gp")) (EC "phiWtildeB"))) (EMul (EMul (ENum 6) (EV "Lambda")) (EC "phiBtilde"))) (EMul
     (EMul (EIm 1) (EV "gp")) (ESub (ESub (EAdd (EAdd (EAdd (EMul (ENeg (ENum 5)) (ETrace (EMat (EC "uB") (ET (EConj (EV "Gu")))))) (ETrace (EMat (EC
     "dB") (ET (EConj (EV "Gd")))))) (EMul (ENum 3) (ETrace (EMat (EC "eB") (ET (EConj (EV "Ge"))))))) (EMul (ENum 5) (EConj (ETrace (EMat (EC "uB")
     (ET (EConj (EV "Gu")))))))) (EConj (ETrace (EMat (EC "dB") (ET (EConj (EV "Gd"))))))) (EMul (ENum 3) (EConj (ETrace (EMat (EC "eB") (ET (EConj
     (EV "Ge")))))))))) (EMul (EMul (ENum 2) (EV "GammaH")) (EC "phiBtilde"))).
(* beta.py:343-354 *)
Definition st45 : stmt := SBeta "phiWtilde"
     (EAdd (EAdd (EAdd (ESub (EAdd (EMul (ESub (EMul (EDiv (ENeg (ENum 3)) (ENum 2)) (EPow (EV "gp") 2)) (EMul (EDiv (ENum 53) (ENum 6)) (EPow (EV
     "g") 2))) (EC "phiWtilde")) (EMul (EMul (EV "g") (EV "gp")) (EC "phiWtildeB"))) (EMul (EMul (ENum 15) (EPow (EV "g") 3)) (EC "Wtilde"))) (EMul
     (EMul (ENum 6) (EV "Lambda")) (EC "phiWtilde"))) (EMul (EMul (EIm 1) (EV "g")) (ESub (ESub (ESub (EAdd (EAdd (EMul (ENum 3) (ETrace (EMat (EC
     "uW") (ET (EConj (EV "Gu")))))) (EMul (ENum 3) (ETrace (EMat (EC "dW") (ET (EConj (EV "Gd"))))))) (ETrace (EMat (EC "eW") (ET (EConj (EV
     "Ge")))))) (EMul (ENum 3) (EConj (ETrace (EMat (EC "uW") (ET (EConj (EV "Gu")))))))) (EMul (ENum 3) (EConj (ETrace (EMat (EC "dW") (ET (EConj (EV
     "Gd")))))))) (EConj (ETrace (EMat (EC "eW") (ET (EConj (EV "Ge"))))))))) (EMul (EMul (ENum 2) (EV "GammaH")) (EC "phiWtilde"))).
(* beta.py:357-375 *)
Definition st46 : stmt := SBeta "phiWtildeB"
     (EAdd (ESub (ESub (EAdd (EAdd (EAdd (EMul (EAdd (EMul (EDiv (ENum 19) (ENum 3)) (EPow (EV "gp") 2)) (EMul (EDiv (ENum 4) (ENum 3)) (EPow (EV "g")
     2))) (EC "phiWtildeB")) (EMul (EMul (EMul (ENum 2) (EV "g")) (EV "gp")) (EAdd (EC "phiBtilde") (EC "phiWtilde")))) (EMul (EMul (EMul (ENum 3)
     (EPow (EV "g") 2)) (EV "gp")) (EC "Wtilde"))) (EMul (EMul (ENum 2) (EV "Lambda")) (EC "phiWtildeB"))) (EMul (EMul (EIm 1) (EV "g")) (EAdd (EAdd
     (ESub (ESub (ESub (EMul (ENum 3) (ETrace (EMat (EC "uB") (ET (EConj (EV "Gu")))))) (EMul (ENum 3) (ETrace (EMat (EC "dB") (ET (EConj (EV
     "Gd"))))))) (ETrace (EMat (EC "eB") (ET (EConj (EV "Ge")))))) (EMul (ENum 3) (EConj (ETrace (EMat (EC "uB") (ET (EConj (EV "Gu")))))))) (EMul
     (ENum 3) (EConj (ETrace (EMat (EC "dB") (ET (EConj (EV "Gd")))))))) (EConj (ETrace (EMat (EC "eB") (ET (EConj (EV "Ge"))))))))) (EMul (EMul (EIm
     1) (EV "gp")) (ESub (ESub (ESub (EAdd (EAdd (EMul (ENum 5) (ETrace (EMat (EC "uW") (ET (EConj (EV "Gu")))))) (ETrace (EMat (EC "dW") (ET (EConj
     (EV "Gd")))))) (EMul (ENum 3) (ETrace (EMat (EC "eW") (ET (EConj (EV "Ge"))))))) (EMul (ENum 5) (EConj (ETrace (EMat (EC "uW") (ET (EConj (EV
     "Gu")))))))) (EConj (ETrace (EMat (EC "dW") (ET (EConj (EV "Gd"))))))) (EMul (ENum 3) (EConj (ETrace (EMat (EC "eW") (ET (EConj (EV
     "Ge")))))))))) (EMul (EMul (ENum 2) (EV "GammaH")) (EC "phiWtildeB"))).
(* beta.py:379-447 *)
Definition st47 : stmt := SBeta "uphi"
     (EAdd (EAdd (EAdd (ESub (ESub (ESub (EAdd (EAdd (EAdd (ESub (ESub (EAdd (ESub (EAdd (EAdd (ESub (EAdd (EAdd (EAdd (ESub (ESub (ESub (ESub (ESub
     (ESub (EAdd (EAdd (ESub (EAdd (ESub (ESub (EMul (EAdd (ESub (EAdd (EAdd (EAdd (EAdd (EMul (EMul (EDiv (ENum 10) (ENum 3)) (EPow (EV "g") 2)) (EC
     "phiBox")) (EMul (EMul (EDiv (ENum 3) (ENum 2)) (ESub (EPow (EV "gp") 2) (EPow (EV "g") 2))) (EC "phiD"))) (EMul (EMul (ENum 32) (EPow (EV "gs")
     2)) (EAdd (EC "phiG") (EMul (EIm 1) (EC "phiGtilde"))))) (EMul (EMul (ENum 9) (EPow (EV "g") 2)) (EAdd (EC "phiW") (EMul (EIm 1) (EC
     "phiWtilde"))))) (EMul (EMul (EDiv (ENum 17) (ENum 3)) (EPow (EV "gp") 2)) (EAdd (EC "phiB") (EMul (EIm 1) (EC "phiBtilde"))))) (EMul (EMul (EV
     "g") (EV "gp")) (EAdd (EC "phiWB") (EMul (EIm 1) (EC "phiWtildeB"))))) (EMul (EMul (EDiv (ENum 4) (ENum 3)) (EPow (EV "g") 2)) (EAdd (ETrace (EC
     "phil3")) (EMul (ENum 3) (ETrace (EC "phiq3")))))) (EV "Gu")) (EMul (EAdd (EAdd (EMul (EDiv (ENum 35) (ENum 12)) (EPow (EV "gp") 2)) (EMul (EDiv
     (ENum 27) (ENum 4)) (EPow (EV "g") 2))) (EMul (ENum 8) (EPow (EV "gs") 2))) (EC "uphi"))) (EMul (EMul (EV "gp") (ESub (EMul (ENum 5) (EPow (EV
     "gp") 2)) (EMul (ENum 3) (EPow (EV "g") 2)))) (EC "uB"))) (EMul (EMul (EV "g") (ESub (EMul (ENum 5) (EPow (EV "gp") 2)) (EMul (ENum 9) (EPow (EV
     "g") 2)))) (EC "uW"))) (EMat (EMul (ESub (EMul (ENum 3) (EPow (EV "g") 2)) (EPow (EV "gp") 2)) (EV "Gu")) (EC "phiu"))) (EMat (EMul (EMul (ENum
     3) (EPow (EV "g") 2)) (EV "Gd")) (ET (EConj (EC "phiud"))))) (EMat (EMul (EMul (ENum 4) (EPow (EV "gp") 2)) (EC "phiq1")) (EV "Gu"))) (EMat (EMul
     (EMul (ENum 4) (EPow (EV "gp") 2)) (EC "phiq3")) (EV "Gu"))) (EMul (EMul (ENum 5) (EV "gp")) (EAdd (EMat (EMat (EC "uB") (ET (EConj (EV "Gu"))))
     (EV "Gu")) (EMat (EMat (EV "Gu") (ET (EConj (EV "Gu")))) (EC "uB"))))) (EMul (EMul (ENum 3) (EV "g")) (ESub (EMat (EMat (EC "uW") (ET (EConj (EV
     "Gu")))) (EV "Gu")) (EMat (EMat (EV "Gu") (ET (EConj (EV "Gu")))) (EC "uW"))))) (EMul (EMul (ENum 16) (EV "gs")) (EAdd (EMat (EMat (EC "uG") (ET
     (EConj (EV "Gu")))) (EV "Gu")) (EMat (EMat (EV "Gu") (ET (EConj (EV "Gu")))) (EC "uG"))))) (EMat (EMat (EMul (EMul (ENum 12) (EV "g")) (EV "Gd"))
     (ET (EConj (EV "Gd")))) (EC "uW"))) (EMat (EMat (EMul (EMul (ENum 6) (EV "g")) (EC "dW")) (ET (EConj (EV "Gd")))) (EV "Gu"))) (EMul (EV "Lambda")
     (EAdd (EAdd (EAdd (ESub (ESub (ESub (EAdd (ESub (ESub (EAdd (EAdd (ESub (EMul (ENum 12) (EC "uphi")) (EMat (EMul (ENum 2) (EC "phiq1")) (EV
     "Gu"))) (EMat (EMul (ENum 6) (EC "phiq3")) (EV "Gu"))) (EMat (EMul (ENum 2) (EV "Gu")) (EC "phiu"))) (EMat (EMul (ENum 2) (EV "Gd")) (ET (EConj
     (EC "phiud"))))) (EMul (EMul (ENum 2) (EC "phiBox")) (EV "Gu"))) (EMul (EC "phiD") (EV "Gu"))) (EMul (ENum 4) (EEin2 "rpts,pt" (EC "qu1") (EV
     "Gu")))) (EMul (EDiv (ENum 16) (ENum 3)) (EEin2 "rpts,pt" (EC "qu8") (EV "Gu")))) (EMul (ENum 2) (EEin2 "ptrs,pt" (EC "lequ1") (EConj (EV
     "Ge"))))) (EMul (ENum 6) (EEin2 "rspt,pt" (EC "quqd1") (EConj (EV "Gd"))))) (EEin2 "psrt,pt" (EC "quqd1") (EConj (EV "Gd")))) (EMul (EDiv (ENum
     4) (ENum 3)) (EEin2 "psrt,pt" (EC "quqd8") (EConj (EV "Gd"))))))) (EMul (EMul (ENum 2) (ESub (EAdd (EV "Eta1") (EV "Eta2")) (EMul (EIm 1) (EV
     "Eta5")))) (EV "Gu"))) (EMat (EMat (EMul (ESub (EC "phiD") (EMul (ENum 6) (EC "phiBox"))) (EV "Gu")) (ET (EConj (EV "Gu")))) (EV "Gu"))) (EMat
     (EMat (EMat (EMul (ENum 2) (EC "phiq1")) (EV "Gu")) (ET (EConj (EV "Gu")))) (EV "Gu"))) (EMat (EMat (EMat (EMul (ENum 6) (EC "phiq3")) (EV "Gd"))
     (ET (EConj (EV "Gd")))) (EV "Gu"))) (EMat (EMat (EMat (EMul (ENum 2) (EV "Gu")) (ET (EConj (EV "Gu")))) (EV "Gu")) (EC "phiu"))) (EMat (EMat
     (EMat (EMul (ENum 2) (EV "Gd")) (ET (EConj (EV "Gd")))) (EV "Gd")) (ET (EConj (EC "phiud"))))) (EMul (ENum 8) (EAdd (EEin2 "rpts,pt" (EC "qu1")
     (EMat (EMat (EV "Gu") (ET (EConj (EV "Gu")))) (EV "Gu"))) (EMul (EDiv (ENum 4) (ENum 3)) (EEin2 "rpts,pt" (EC "qu8") (EMat (EMat (EV "Gu") (ET
     (EConj (EV "Gu")))) (EV "Gu"))))))) (EMul (ENum 2) (EAdd (EEin2 "tsrp,pt" (EC "quqd1") (EMat (EMat (ET (EConj (EV "Gd"))) (EV "Gd")) (ET (EConj
     (EV "Gd"))))) (EMul (EDiv (ENum 4) (ENum 3)) (EEin2 "tsrp,pt" (EC "quqd8") (EMat (EMat (ET (EConj (EV "Gd"))) (EV "Gd")) (ET (EConj (EV
     "Gd"))))))))) (EMul (ENum 12) (EEin2 "rstp,pt" (EC "quqd1") (EMat (EMat (ET (EConj (EV "Gd"))) (EV "Gd")) (ET (EConj (EV "Gd"))))))) (EMul (ENum
     4) (EEin2 "tprs,pt" (EC "lequ1") (EMat (EMat (ET (EConj (EV "Ge"))) (EV "Ge")) (ET (EConj (EV "Ge"))))))) (EMat (EMat (EMul (ENum 4) (EC "uphi"))
     (ET (EConj (EV "Gu")))) (EV "Gu"))) (EMat (EMat (EMul (ENum 5) (EV "Gu")) (ET (EConj (EV "Gu")))) (EC "uphi"))) (EMat (EMat (EMul (ENum 2) (EV
     "Gd")) (ET (EConj (EC "dphi")))) (EV "Gu"))) (EMat (EMat (EC "dphi") (ET (EConj (EV "Gd")))) (EV "Gu"))) (EMat (EMat (EMul (ENum 2) (EV "Gd"))
     (ET (EConj (EV "Gd")))) (EC "uphi"))) (EMul (EMul (ENum 3) (EV "GammaH")) (EC "uphi"))) (EMat (EV "Gammaq") (EC "uphi"))) (EMat (EC "uphi") (EV
     "Gammau"))).
(* beta.py:450-518 *)
Definition st48 : stmt := SBeta "dphi"
     (EAdd (EAdd (EAdd (ESub (ESub (ESub (EAdd (EAdd (ESub (ESub (ESub (EAdd (ESub (ESub (EAdd (EAdd (EAdd (EAdd (EAdd (ESub (ESub (ESub (ESub (EAdd
     (ESub (ESub (EAdd (EAdd (ESub (ESub (ESub (EMul (EAdd (EAdd (EAdd (EAdd (EAdd (EAdd (EMul (EMul (EDiv (ENum 10) (ENum 3)) (EPow (EV "g") 2)) (EC
     "phiBox")) (EMul (EMul (EDiv (ENum 3) (ENum 2)) (ESub (EPow (EV "gp") 2) (EPow (EV "g") 2))) (EC "phiD"))) (EMul (EMul (ENum 32) (EPow (EV "gs")
     2)) (EAdd (EC "phiG") (EMul (EIm 1) (EC "phiGtilde"))))) (EMul (EMul (ENum 9) (EPow (EV "g") 2)) (EAdd (EC "phiW") (EMul (EIm 1) (EC
     "phiWtilde"))))) (EMul (EMul (EDiv (ENum 5) (ENum 3)) (EPow (EV "gp") 2)) (EAdd (EC "phiB") (EMul (EIm 1) (EC "phiBtilde"))))) (EMul (EMul (EV
     "g") (EV "gp")) (EAdd (EC "phiWB") (EMul (EIm 1) (EC "phiWtildeB"))))) (EMul (EMul (EDiv (ENum 4) (ENum 3)) (EPow (EV "g") 2)) (EAdd (ETrace (EC
     "phil3")) (EMul (ENum 3) (ETrace (EC "phiq3")))))) (EV "Gd")) (EMul (EAdd (EAdd (EMul (EDiv (ENum 23) (ENum 12)) (EPow (EV "gp") 2)) (EMul (EDiv
     (ENum 27) (ENum 4)) (EPow (EV "g") 2))) (EMul (ENum 8) (EPow (EV "gs") 2))) (EC "dphi"))) (EMul (EMul (EV "gp") (ESub (EMul (ENum 3) (EPow (EV
     "g") 2)) (EPow (EV "gp") 2))) (EC "dB"))) (EMul (EMul (EV "g") (ESub (EMul (ENum 9) (EPow (EV "g") 2)) (EPow (EV "gp") 2))) (EC "dW"))) (EMat
     (EMul (EAdd (EMul (ENum 3) (EPow (EV "g") 2)) (EPow (EV "gp") 2)) (EV "Gd")) (EC "phid"))) (EMat (EMul (EMul (ENum 3) (EPow (EV "g") 2)) (EV
     "Gu")) (EC "phiud"))) (EMat (EMul (EMul (ENum 2) (EPow (EV "gp") 2)) (EC "phiq1")) (EV "Gd"))) (EMat (EMul (EMul (ENum 2) (EPow (EV "gp") 2)) (EC
     "phiq3")) (EV "Gd"))) (EMul (EV "gp") (EAdd (EMat (EMat (EC "dB") (ET (EConj (EV "Gd")))) (EV "Gd")) (EMat (EMat (EV "Gd") (ET (EConj (EV
     "Gd")))) (EC "dB"))))) (EMul (EMul (ENum 3) (EV "g")) (ESub (EMat (EMat (EC "dW") (ET (EConj (EV "Gd")))) (EV "Gd")) (EMat (EMat (EV "Gd") (ET
     (EConj (EV "Gd")))) (EC "dW"))))) (EMul (EMul (ENum 16) (EV "gs")) (EAdd (EMat (EMat (EC "dG") (ET (EConj (EV "Gd")))) (EV "Gd")) (EMat (EMat (EV
     "Gd") (ET (EConj (EV "Gd")))) (EC "dG"))))) (EMat (EMat (EMul (EMul (ENum 12) (EV "g")) (EV "Gu")) (ET (EConj (EV "Gu")))) (EC "dW"))) (EMat
     (EMat (EMul (EMul (ENum 6) (EV "g")) (EC "uW")) (ET (EConj (EV "Gu")))) (EV "Gd"))) (EMul (EV "Lambda") (EAdd (EAdd (EAdd (EAdd (ESub (ESub (EAdd
     (ESub (ESub (ESub (EAdd (EAdd (EMul (ENum 12) (EC "dphi")) (EMat (EMul (ENum 2) (EC "phiq1")) (EV "Gd"))) (EMat (EMul (ENum 6) (EC "phiq3")) (EV
     "Gd"))) (EMat (EMul (ENum 2) (EV "Gd")) (EC "phid"))) (EMat (EMul (ENum 2) (EV "Gu")) (EC "phiud"))) (EMul (EMul (ENum 2) (EC "phiBox")) (EV
     "Gd"))) (EMul (EC "phiD") (EV "Gd"))) (EMul (ENum 4) (EEin2 "rpts,pt" (EC "qd1") (EV "Gd")))) (EMul (EDiv (ENum 16) (ENum 3)) (EEin2 "rpts,pt"
     (EC "qd8") (EV "Gd")))) (EMul (ENum 2) (EEin2 "ptsr,pt" (EConj (EC "ledq")) (EV "Ge")))) (EMul (ENum 6) (EEin2 "ptrs,pt" (EC "quqd1") (EConj (EV
     "Gu"))))) (EEin2 "rtps,pt" (EC "quqd1") (EConj (EV "Gu")))) (EMul (EDiv (ENum 4) (ENum 3)) (EEin2 "rtps,pt" (EC "quqd8") (EConj (EV "Gu")))))))
     (EMul (EMul (ENum 2) (EAdd (EAdd (EV "Eta1") (EV "Eta2")) (EMul (EIm 1) (EV "Eta5")))) (EV "Gd"))) (EMat (EMat (EMul (ESub (EC "phiD") (EMul
     (ENum 6) (EC "phiBox"))) (EV "Gd")) (ET (EConj (EV "Gd")))) (EV "Gd"))) (EMat (EMat (EMat (EMul (ENum 2) (EC "phiq1")) (EV "Gd")) (ET (EConj (EV
     "Gd")))) (EV "Gd"))) (EMat (EMat (EMat (EMul (ENum 6) (EC "phiq3")) (EV "Gu")) (ET (EConj (EV "Gu")))) (EV "Gd"))) (EMat (EMat (EMat (EMul (ENum
     2) (EV "Gd")) (ET (EConj (EV "Gd")))) (EV "Gd")) (EC "phid"))) (EMat (EMat (EMat (EMul (ENum 2) (EV "Gu")) (ET (EConj (EV "Gu")))) (EV "Gu")) (EC
     "phiud"))) (EMul (ENum 8) (EAdd (EEin2 "rpts,pt" (EC "qd1") (EMat (EMat (EV "Gd") (ET (EConj (EV "Gd")))) (EV "Gd"))) (EMul (EDiv (ENum 4) (ENum
     3)) (EEin2 "rpts,pt" (EC "qd8") (EMat (EMat (EV "Gd") (ET (EConj (EV "Gd")))) (EV "Gd"))))))) (EMul (ENum 2) (EAdd (EEin2 "rpts,pt" (EC "quqd1")
     (EMat (EMat (ET (EConj (EV "Gu"))) (EV "Gu")) (ET (EConj (EV "Gu"))))) (EMul (EDiv (ENum 4) (ENum 3)) (EEin2 "rpts,pt" (EC "quqd8") (EMat (EMat
     (ET (EConj (EV "Gu"))) (EV "Gu")) (ET (EConj (EV "Gu"))))))))) (EMul (ENum 12) (EEin2 "tprs,pt" (EC "quqd1") (EMat (EMat (EV "Gu") (ET (EConj (EV
     "Gu")))) (EV "Gu"))))) (EMul (ENum 4) (EEin2 "ptsr,pt" (EConj (EC "ledq")) (EMat (EMat (EV "Ge") (ET (EConj (EV "Ge")))) (EV "Ge"))))) (EMat
     (EMat (EMul (ENum 4) (EC "dphi")) (ET (EConj (EV "Gd")))) (EV "Gd"))) (EMat (EMat (EMul (ENum 5) (EV "Gd")) (ET (EConj (EV "Gd")))) (EC "dphi")))
     (EMat (EMat (EMul (ENum 2) (EV "Gu")) (ET (EConj (EC "uphi")))) (EV "Gd"))) (EMat (EMat (EC "uphi") (ET (EConj (EV "Gu")))) (EV "Gd"))) (EMat
     (EMat (EMul (ENum 2) (EV "Gu")) (ET (EConj (EV "Gu")))) (EC "dphi"))) (EMul (EMul (ENum 3) (EV "GammaH")) (EC "dphi"))) (EMat (EV "Gammaq") (EC
     "dphi"))) (EMat (EC "dphi") (EV "Gammad"))).
(* beta.py:521-569 *)
Definition st49 : stmt := SBeta "ephi"
     (EAdd (EAdd (EAdd (EAdd (EAdd (EAdd (ESub (EAdd (ESub (EAdd (EAdd (EAdd (EAdd (ESub (EAdd (ESub (ESub (EAdd (ESub (ESub (ESub (EMul (EAdd (ESub
     (EAdd (EAdd (EAdd (EMul (EMul (EDiv (ENum 10) (ENum 3)) (EPow (EV "g") 2)) (EC "phiBox")) (EMul (EMul (EDiv (ENum 3) (ENum 2)) (ESub (EPow (EV
     "gp") 2) (EPow (EV "g") 2))) (EC "phiD"))) (EMul (EMul (ENum 9) (EPow (EV "g") 2)) (EAdd (EC "phiW") (EMul (EIm 1) (EC "phiWtilde"))))) (EMul
     (EMul (ENum 15) (EPow (EV "gp") 2)) (EAdd (EC "phiB") (EMul (EIm 1) (EC "phiBtilde"))))) (EMul (EMul (EMul (ENum 3) (EV "g")) (EV "gp")) (EAdd
     (EC "phiWB") (EMul (EIm 1) (EC "phiWtildeB"))))) (EMul (EMul (EDiv (ENum 4) (ENum 3)) (EPow (EV "g") 2)) (EAdd (ETrace (EC "phil3")) (EMul (ENum
     3) (ETrace (EC "phiq3")))))) (EV "Ge")) (EMul (EMul (EDiv (ENum 3) (ENum 4)) (EAdd (EMul (ENum 7) (EPow (EV "gp") 2)) (EMul (ENum 9) (EPow (EV
     "g") 2)))) (EC "ephi"))) (EMul (EMul (EMul (ENum 3) (EV "gp")) (ESub (EPow (EV "g") 2) (EMul (ENum 3) (EPow (EV "gp") 2)))) (EC "eB"))) (EMul
     (EMul (EMul (ENum 9) (EV "g")) (ESub (EPow (EV "g") 2) (EPow (EV "gp") 2))) (EC "eW"))) (EMat (EMul (EMul (ENum 3) (ESub (EPow (EV "g") 2) (EPow
     (EV "gp") 2))) (EV "Ge")) (EC "phie"))) (EMat (EMul (EMul (ENum 6) (EPow (EV "gp") 2)) (EC "phil1")) (EV "Ge"))) (EMat (EMul (EMul (ENum 6) (EPow
     (EV "gp") 2)) (EC "phil3")) (EV "Ge"))) (EMul (EMul (ENum 9) (EV "gp")) (EAdd (EMat (EMat (EC "eB") (ET (EConj (EV "Ge")))) (EV "Ge")) (EMat
     (EMat (EV "Ge") (ET (EConj (EV "Ge")))) (EC "eB"))))) (EMul (EMul (ENum 3) (EV "g")) (ESub (EMat (EMat (EC "eW") (ET (EConj (EV "Ge")))) (EV
     "Ge")) (EMat (EMat (EV "Ge") (ET (EConj (EV "Ge")))) (EC "eW"))))) (EMul (EV "Lambda") (ESub (EAdd (ESub (EAdd (ESub (ESub (EAdd (EAdd (EMul
     (ENum 12) (EC "ephi")) (EMat (EMul (ENum 2) (EC "phil1")) (EV "Ge"))) (EMat (EMul (ENum 6) (EC "phil3")) (EV "Ge"))) (EMat (EMul (ENum 2) (EV
     "Ge")) (EC "phie"))) (EMul (EMul (ENum 2) (EC "phiBox")) (EV "Ge"))) (EMul (EC "phiD") (EV "Ge"))) (EMul (ENum 4) (EEin2 "rpts,pt" (EC "le") (EV
     "Ge")))) (EMul (ENum 6) (EEin2 "rspt,tp" (EC "ledq") (EV "Gd")))) (EMul (ENum 6) (EEin2 "rspt,pt" (EC "lequ1") (EConj (EV "Gu"))))))) (EMul (EMul
     (ENum 2) (EAdd (EAdd (EV "Eta1") (EV "Eta2")) (EMul (EIm 1) (EV "Eta5")))) (EV "Ge"))) (EMat (EMat (EMul (ESub (EC "phiD") (EMul (ENum 6) (EC
     "phiBox"))) (EV "Ge")) (ET (EConj (EV "Ge")))) (EV "Ge"))) (EMat (EMat (EMat (EMul (ENum 2) (EC "phil1")) (EV "Ge")) (ET (EConj (EV "Ge")))) (EV
     "Ge"))) (EMat (EMat (EMat (EMul (ENum 2) (EV "Ge")) (ET (EConj (EV "Ge")))) (EV "Ge")) (EC "phie"))) (EMul (ENum 8) (EEin2 "rpts,pt" (EC "le")
     (EMat (EMat (EV "Ge") (ET (EConj (EV "Ge")))) (EV "Ge"))))) (EMul (ENum 12) (EEin2 "rspt,tp" (EC "ledq") (EMat (EMat (EV "Gd") (ET (EConj (EV
     "Gd")))) (EV "Gd"))))) (EMul (ENum 12) (EEin2 "rstp,pt" (EC "lequ1") (EMat (EMat (ET (EConj (EV "Gu"))) (EV "Gu")) (ET (EConj (EV "Gu")))))))
     (EMat (EMat (EMul (ENum 4) (EC "ephi")) (ET (EConj (EV "Ge")))) (EV "Ge"))) (EMat (EMat (EMul (ENum 5) (EV "Ge")) (ET (EConj (EV "Ge")))) (EC
     "ephi"))) (EMul (EMul (ENum 3) (EV "GammaH")) (EC "ephi"))) (EMat (EV "Gammal") (EC "ephi"))) (EMat (EC "ephi") (EV "Gammae"))).
(* beta.py:572-583 *)
Definition st50 : stmt := SBeta "eW"
     (EAdd (EAdd (EAdd (EAdd (ESub (ESub (ESub (EMul (EMul (EDiv (ENum 1) (ENum 12)) (ESub (EMul (ENum 3) (EPow (EV "gp") 2)) (EMul (ENum 11) (EPow
     (EV "g") 2)))) (EC "eW")) (EMul (EMul (EMul (EDiv (ENum 1) (ENum 2)) (EV "g")) (EV "gp")) (EC "eB"))) (EMul (ESub (EMul (EV "g") (EAdd (EC
     "phiW") (EMul (EIm 1) (EC "phiWtilde")))) (EMul (EMul (EDiv (ENum 3) (ENum 2)) (EV "gp")) (EAdd (EC "phiWB") (EMul (EIm 1) (EC "phiWtildeB")))))
     (EV "Ge"))) (EMul (EMul (ENum 6) (EV "g")) (EEin2 "rspt,pt" (EC "lequ3") (EConj (EV "Gu"))))) (EMat (EMat (EC "eW") (ET (EConj (EV "Ge")))) (EV
     "Ge"))) (EMul (EV "GammaH") (EC "eW"))) (EMat (EV "Gammal") (EC "eW"))) (EMat (EC "eW") (EV "Gammae"))).
(* beta.py:586-598 *)
Definition st51 : stmt := SBeta "eB"
     (EAdd (EAdd (EAdd (EAdd (EAdd (EAdd (ESub (ESub (EMul (EMul (EDiv (ENum 1) (ENum 4)) (ESub (EMul (EDiv (ENum 151) (ENum 3)) (EPow (EV "gp") 2))
     (EMul (ENum 9) (EPow (EV "g") 2)))) (EC "eB")) (EMul (EMul (EMul (EDiv (ENum 3) (ENum 2)) (EV "g")) (EV "gp")) (EC "eW"))) (EMul (ESub (EMul
     (EMul (EDiv (ENum 3) (ENum 2)) (EV "g")) (EAdd (EC "phiWB") (EMul (EIm 1) (EC "phiWtildeB")))) (EMul (EMul (ENum 3) (EV "gp")) (EAdd (EC "phiB")
     (EMul (EIm 1) (EC "phiBtilde"))))) (EV "Ge"))) (EMul (EMul (ENum 10) (EV "gp")) (EEin2 "rspt,pt" (EC "lequ3") (EConj (EV "Gu"))))) (EMat (EMat
     (EC "eB") (ET (EConj (EV "Ge")))) (EV "Ge"))) (EMat (EMat (EMul (ENum 2) (EV "Ge")) (ET (EConj (EV "Ge")))) (EC "eB"))) (EMul (EV "GammaH") (EC
     "eB"))) (EMat (EV "Gammal") (EC "eB"))) (EMat (EC "eB") (EV "Gammae"))).
(* beta.py:601-618 *)
Definition st52 : stmt := SBeta "uG"
     (EAdd (EAdd (EAdd (EAdd (ESub (ESub (EAdd (ESub (ESub (EAdd (EAdd (EMul (EMul (EDiv (ENeg (ENum 1)) (ENum 36)) (EAdd (EAdd (EMul (ENum 81) (EPow
     (EV "g") 2)) (EMul (ENum 19) (EPow (EV "gp") 2))) (EMul (ENum 204) (EPow (EV "gs") 2)))) (EC "uG")) (EMul (EMul (EMul (ENum 6) (EV "g")) (EV
     "gs")) (EC "uW"))) (EMul (EMul (EMul (EDiv (ENum 10) (ENum 3)) (EV "gp")) (EV "gs")) (EC "uB"))) (EMul (EMul (EV "gs") (ESub (EMul (ENum 4) (EAdd
     (EC "phiG") (EMul (EIm 1) (EC "phiGtilde")))) (EMul (EMul (ENum 9) (EV "gs")) (EAdd (EC "G") (EMul (EIm 1) (EC "Gtilde")))))) (EV "Gu"))) (EMul
     (EV "gs") (ESub (EEin2 "psrt,pt" (EC "quqd1") (EConj (EV "Gd"))) (EMul (EDiv (ENum 1) (ENum 6)) (EEin2 "psrt,pt" (EC "quqd8") (EConj (EV
     "Gd"))))))) (EMat (EMat (EMul (ENum 2) (EV "Gu")) (ET (EConj (EV "Gu")))) (EC "uG"))) (EMat (EMat (EMul (ENum 2) (EV "Gd")) (ET (EConj (EV
     "Gd")))) (EC "uG"))) (EMat (EMat (EC "dG") (ET (EConj (EV "Gd")))) (EV "Gu"))) (EMat (EMat (EC "uG") (ET (EConj (EV "Gu")))) (EV "Gu"))) (EMul
     (EV "GammaH") (EC "uG"))) (EMat (EV "Gammaq") (EC "uG"))) (EMat (EC "uG") (EV "Gammau"))).
(* beta.py:621-638 *)
Definition st53 : stmt := SBeta "uW"
     (EAdd (EAdd (EAdd (EAdd (ESub (EAdd (ESub (EAdd (ESub (ESub (EAdd (EMul (EMul (EDiv (ENeg (ENum 1)) (ENum 36)) (ESub (EAdd (EMul (ENum 33) (EPow
     (EV "g") 2)) (EMul (ENum 19) (EPow (EV "gp") 2))) (EMul (ENum 96) (EPow (EV "gs") 2)))) (EC "uW")) (EMul (EMul (EMul (EDiv (ENum 8) (ENum 3)) (EV
     "g")) (EV "gs")) (EC "uG"))) (EMul (EMul (EMul (EDiv (ENum 1) (ENum 6)) (EV "g")) (EV "gp")) (EC "uB"))) (EMul (ESub (EMul (EV "g") (EAdd (EC
     "phiW") (EMul (EIm 1) (EC "phiWtilde")))) (EMul (EMul (EDiv (ENum 5) (ENum 6)) (EV "gp")) (EAdd (EC "phiWB") (EMul (EIm 1) (EC "phiWtildeB")))))
     (EV "Gu"))) (EMul (EDiv (EV "g") (ENum 4)) (EAdd (EEin2 "psrt,pt" (EC "quqd1") (EConj (EV "Gd"))) (EMul (EDiv (ENum 4) (ENum 3)) (EEin2 "psrt,pt"
     (EC "quqd8") (EConj (EV "Gd"))))))) (EMul (EMul (ENum 2) (EV "g")) (EEin2 "ptrs,pt" (EC "lequ3") (EConj (EV "Ge"))))) (EMat (EMat (EMul (ENum 2)
     (EV "Gd")) (ET (EConj (EV "Gd")))) (EC "uW"))) (EMat (EMat (EC "dW") (ET (EConj (EV "Gd")))) (EV "Gu"))) (EMat (EMat (EC "uW") (ET (EConj (EV
     "Gu")))) (EV "Gu"))) (EMul (EV "GammaH") (EC "uW"))) (EMat (EV "Gammaq") (EC "uW"))) (EMat (EC "uW") (EV "Gammau"))).
(* beta.py:641-659 *)
Definition st54 : stmt := SBeta "uB"
     (EAdd (EAdd (EAdd (EAdd (ESub (ESub (EAdd (ESub (EAdd (ESub (ESub (EAdd (EMul (EMul (EDiv (ENeg (ENum 1)) (ENum 36)) (ESub (ESub (EMul (ENum 81)
     (EPow (EV "g") 2)) (EMul (ENum 313) (EPow (EV "gp") 2))) (EMul (ENum 96) (EPow (EV "gs") 2)))) (EC "uB")) (EMul (EMul (EMul (EDiv (ENum 40) (ENum
     9)) (EV "gp")) (EV "gs")) (EC "uG"))) (EMul (EMul (EMul (EDiv (ENum 1) (ENum 2)) (EV "g")) (EV "gp")) (EC "uW"))) (EMul (EAdd (EMul (EMul (EDiv
     (ENeg (ENum 3)) (ENum 2)) (EV "g")) (EAdd (EC "phiWB") (EMul (EIm 1) (EC "phiWtildeB")))) (EMul (EMul (EDiv (ENum 5) (ENum 3)) (EV "gp")) (EAdd
     (EC "phiB") (EMul (EIm 1) (EC "phiBtilde"))))) (EV "Gu"))) (EMul (EDiv (EV "gp") (ENum 12)) (EAdd (EEin2 "psrt,pt" (EC "quqd1") (EConj (EV
     "Gd"))) (EMul (EDiv (ENum 4) (ENum 3)) (EEin2 "psrt,pt" (EC "quqd8") (EConj (EV "Gd"))))))) (EMul (EMul (ENum 6) (EV "gp")) (EEin2 "ptrs,pt" (EC
     "lequ3") (EConj (EV "Ge"))))) (EMat (EMat (EMul (ENum 2) (EV "Gu")) (ET (EConj (EV "Gu")))) (EC "uB"))) (EMat (EMat (EMul (ENum 2) (EV "Gd")) (ET
     (EConj (EV "Gd")))) (EC "uB"))) (EMat (EMat (EC "dB") (ET (EConj (EV "Gd")))) (EV "Gu"))) (EMat (EMat (EC "uB") (ET (EConj (EV "Gu")))) (EV
     "Gu"))) (EMul (EV "GammaH") (EC "uB"))) (EMat (EV "Gammaq") (EC "uB"))) (EMat (EC "uB") (EV "Gammau"))).
(* beta.py:662-679 *)
Definition st55 : stmt := SBeta "dG"
     (EAdd (EAdd (EAdd (EAdd (ESub (EAdd (ESub (ESub (ESub (ESub (EAdd (EMul (EMul (EDiv (ENeg (ENum 1)) (ENum 36)) (EAdd (EAdd (EMul (ENum 81) (EPow
     (EV "g") 2)) (EMul (ENum 31) (EPow (EV "gp") 2))) (EMul (ENum 204) (EPow (EV "gs") 2)))) (EC "dG")) (EMul (EMul (EMul (ENum 6) (EV "g")) (EV
     "gs")) (EC "dW"))) (EMul (EMul (EMul (EDiv (ENum 2) (ENum 3)) (EV "gp")) (EV "gs")) (EC "dB"))) (EMul (EMul (EV "gs") (ESub (EMul (ENum 4) (EAdd
     (EC "phiG") (EMul (EIm 1) (EC "phiGtilde")))) (EMul (EMul (ENum 9) (EV "gs")) (EAdd (EC "G") (EMul (EIm 1) (EC "Gtilde")))))) (EV "Gd"))) (EMul
     (EV "gs") (ESub (EEin2 "rtps,pt" (EC "quqd1") (EConj (EV "Gu"))) (EMul (EDiv (ENum 1) (ENum 6)) (EEin2 "rtps,pt" (EC "quqd8") (EConj (EV
     "Gu"))))))) (EMat (EMat (EMul (ENum 2) (EV "Gu")) (ET (EConj (EV "Gu")))) (EC "dG"))) (EMat (EMat (EMul (ENum 2) (EV "Gd")) (ET (EConj (EV
     "Gd")))) (EC "dG"))) (EMat (EMat (EC "uG") (ET (EConj (EV "Gu")))) (EV "Gd"))) (EMat (EMat (EC "dG") (ET (EConj (EV "Gd")))) (EV "Gd"))) (EMul
     (EV "GammaH") (EC "dG"))) (EMat (EV "Gammaq") (EC "dG"))) (EMat (EC "dG") (EV "Gammad"))).
(* beta.py:682-698 *)
Definition st56 : stmt := SBeta "dW"
     (EAdd (EAdd (EAdd (EAdd (ESub (EAdd (EAdd (ESub (EAdd (EAdd (EMul (EMul (EDiv (ENeg (ENum 1)) (ENum 36)) (ESub (EAdd (EMul (ENum 33) (EPow (EV
     "g") 2)) (EMul (ENum 31) (EPow (EV "gp") 2))) (EMul (ENum 96) (EPow (EV "gs") 2)))) (EC "dW")) (EMul (EMul (EMul (EDiv (ENum 8) (ENum 3)) (EV
     "g")) (EV "gs")) (EC "dG"))) (EMul (EMul (EMul (EDiv (ENum 5) (ENum 6)) (EV "g")) (EV "gp")) (EC "dB"))) (EMul (ESub (EMul (EV "g") (EAdd (EC
     "phiW") (EMul (EIm 1) (EC "phiWtilde")))) (EMul (EDiv (EV "gp") (ENum 6)) (EAdd (EC "phiWB") (EMul (EIm 1) (EC "phiWtildeB"))))) (EV "Gd")))
     (EMul (EDiv (EV "g") (ENum 4)) (EAdd (EEin2 "rtps,pt" (EC "quqd1") (EConj (EV "Gu"))) (EMul (EDiv (ENum 4) (ENum 3)) (EEin2 "rtps,pt" (EC
     "quqd8") (EConj (EV "Gu"))))))) (EMat (EMat (EMul (ENum 2) (EV "Gu")) (ET (EConj (EV "Gu")))) (EC "dW"))) (EMat (EMat (EC "uW") (ET (EConj (EV
     "Gu")))) (EV "Gd"))) (EMat (EMat (EC "dW") (ET (EConj (EV "Gd")))) (EV "Gd"))) (EMul (EV "GammaH") (EC "dW"))) (EMat (EV "Gammaq") (EC "dW")))
     (EMat (EC "dW") (EV "Gammad"))).
(* beta.py:701-718 *)
Definition st57 : stmt := SBeta "dB"
     (EAdd (EAdd (EAdd (EAdd (ESub (EAdd (ESub (ESub (ESub (EAdd (ESub (EMul (EMul (EDiv (ENeg (ENum 1)) (ENum 36)) (ESub (ESub (EMul (ENum 81) (EPow
     (EV "g") 2)) (EMul (ENum 253) (EPow (EV "gp") 2))) (EMul (ENum 96) (EPow (EV "gs") 2)))) (EC "dB")) (EMul (EMul (EMul (EDiv (ENum 8) (ENum 9))
     (EV "gp")) (EV "gs")) (EC "dG"))) (EMul (EMul (EMul (EDiv (ENum 5) (ENum 2)) (EV "g")) (EV "gp")) (EC "dW"))) (EMul (ESub (EMul (EMul (EDiv (ENum
     3) (ENum 2)) (EV "g")) (EAdd (EC "phiWB") (EMul (EIm 1) (EC "phiWtildeB")))) (EMul (EDiv (EV "gp") (ENum 3)) (EAdd (EC "phiB") (EMul (EIm 1) (EC
     "phiBtilde"))))) (EV "Gd"))) (EMul (EMul (EDiv (ENum 5) (ENum 12)) (EV "gp")) (EAdd (EEin2 "rtps,pt" (EC "quqd1") (EConj (EV "Gu"))) (EMul (EDiv
     (ENum 4) (ENum 3)) (EEin2 "rtps,pt" (EC "quqd8") (EConj (EV "Gu"))))))) (EMat (EMat (EMul (ENum 2) (EV "Gu")) (ET (EConj (EV "Gu")))) (EC "dB")))
     (EMat (EMat (EMul (ENum 2) (EV "Gd")) (ET (EConj (EV "Gd")))) (EC "dB"))) (EMat (EMat (EC "uB") (ET (EConj (EV "Gu")))) (EV "Gd"))) (EMat (EMat
     (EC "dB") (ET (EConj (EV "Gd")))) (EV "Gd"))) (EMul (EV "GammaH") (EC "dB"))) (EMat (EV "Gammaq") (EC "dB"))) (EMat (EC "dB") (EV "Gammad"))).
(* beta.py:721-745 *)
Definition st58 : stmt := SBeta "phil1"
     (EAdd (EAdd (EAdd (EAdd (ESub (EAdd (ESub (ESub (EAdd (EAdd (ESub (ESub (ESub (EAdd (EMul (EMul (EMul (EDiv (ENeg (ENum 1)) (ENum 4)) (EV "XiB"))
     (EPow (EV "gp") 2)) (EV "I3")) (EMul (EMul (EDiv (ENum 1) (ENum 3)) (EPow (EV "gp") 2)) (EC "phil1"))) (EMul (EMul (EDiv (ENum 2) (ENum 3)) (EPow
     (EV "gp") 2)) (ESub (ESub (EAdd (EAdd (EAdd (EEin1 "rstt" (EC "ld")) (EEin1 "rstt" (EC "le"))) (EMul (ENum 2) (EEin1 "rstt" (EC "ll")))) (EEin1
     "rtts" (EC "ll"))) (EEin1 "rstt" (EC "lq1"))) (EMul (ENum 2) (EEin1 "rstt" (EC "lu")))))) (EMat (EMul (EMul (EDiv (ENum 1) (ENum 2)) (EAdd (EC
     "phiBox") (EC "phiD"))) (EV "Ge")) (ET (EConj (EV "Ge"))))) (EMat (EMat (EV "Ge") (EC "phie")) (ET (EConj (EV "Ge"))))) (EMul (EDiv (ENum 3)
     (ENum 2)) (EAdd (EAdd (EAdd (EMat (EMat (EV "Ge") (ET (EConj (EV "Ge")))) (EC "phil1")) (EMat (EMat (EC "phil1") (EV "Ge")) (ET (EConj (EV
     "Ge"))))) (EMat (EMat (EMul (ENum 3) (EV "Ge")) (ET (EConj (EV "Ge")))) (EC "phil3"))) (EMat (EMat (EMul (ENum 3) (EC "phil3")) (EV "Ge")) (ET
     (EConj (EV "Ge"))))))) (EMul (ENum 2) (EEin2 "rspt,tp" (EC "le") (EMat (ET (EConj (EV "Ge"))) (EV "Ge"))))) (EMul (ENum 2) (EAdd (EMul (ENum 2)
     (EEin2 "rspt,tp" (EC "ll") (EMat (EV "Ge") (ET (EConj (EV "Ge")))))) (EEin2 "rtps,tp" (EC "ll") (EMat (EV "Ge") (ET (EConj (EV "Ge")))))))) (EMul
     (ENum 6) (EEin2 "rspt,tp" (EC "lq1") (EMat (EV "Gd") (ET (EConj (EV "Gd"))))))) (EMul (ENum 6) (EEin2 "rspt,tp" (EC "lq1") (EMat (EV "Gu") (ET
     (EConj (EV "Gu"))))))) (EMul (ENum 6) (EEin2 "rspt,tp" (EC "lu") (EMat (ET (EConj (EV "Gu"))) (EV "Gu"))))) (EMul (ENum 6) (EEin2 "rspt,tp" (EC
     "ld") (EMat (ET (EConj (EV "Gd"))) (EV "Gd"))))) (EMul (EMul (ENum 2) (EV "GammaH")) (EC "phil1"))) (EMat (EV "Gammal") (EC "phil1"))) (EMat (EC
     "phil1") (EV "Gammal"))).
(* beta.py:748-764 *)
Definition st59 : stmt := SBeta "phil3"
     (EAdd (EAdd (EAdd (ESub (ESub (ESub (EAdd (ESub (EAdd (EAdd (ESub (EMul (EMul (EMul (EDiv (ENum 2) (ENum 3)) (EPow (EV "g") 2)) (EAdd (EAdd (EMul
     (EDiv (ENum 1) (ENum 4)) (EC "phiBox")) (ETrace (EC "phil3"))) (EMul (ENum 3) (ETrace (EC "phiq3"))))) (EV "I3")) (EMul (EMul (EDiv (ENum 17)
     (ENum 3)) (EPow (EV "g") 2)) (EC "phil3"))) (EMul (EMul (EDiv (ENum 2) (ENum 3)) (EPow (EV "g") 2)) (EEin1 "rtts" (EC "ll")))) (EMul (EMul (ENum
     2) (EPow (EV "g") 2)) (EEin1 "rstt" (EC "lq3")))) (EMat (EMul (EMul (EDiv (ENum 1) (ENum 2)) (EC "phiBox")) (EV "Ge")) (ET (EConj (EV "Ge")))))
     (EMul (EDiv (ENum 1) (ENum 2)) (EAdd (EAdd (EAdd (EMat (EMat (EMul (ENum 3) (EV "Ge")) (ET (EConj (EV "Ge")))) (EC "phil1")) (EMat (EMat (EMul
     (ENum 3) (EC "phil1")) (EV "Ge")) (ET (EConj (EV "Ge"))))) (EMat (EMat (EV "Ge") (ET (EConj (EV "Ge")))) (EC "phil3"))) (EMat (EMat (EC "phil3")
     (EV "Ge")) (ET (EConj (EV "Ge"))))))) (EMul (ENum 2) (EEin2 "rtps,tp" (EC "ll") (EMat (EV "Ge") (ET (EConj (EV "Ge"))))))) (EMul (ENum 6) (EEin2
     "rspt,tp" (EC "lq3") (EMat (EV "Gd") (ET (EConj (EV "Gd"))))))) (EMul (ENum 6) (EEin2 "rspt,tp" (EC "lq3") (EMat (EV "Gu") (ET (EConj (EV
     "Gu"))))))) (EMul (EMul (ENum 2) (EV "GammaH")) (EC "phil3"))) (EMat (EV "Gammal") (EC "phil3"))) (EMat (EC "phil3") (EV "Gammal"))).
(* beta.py:767-787 *)
Definition st60 : stmt := SBeta "phie"
     (EAdd (EAdd (EAdd (EAdd (ESub (EAdd (ESub (EAdd (ESub (EAdd (ESub (EAdd (ESub (EAdd (EMul (EMul (EMul (EDiv (ENeg (ENum 1)) (ENum 2)) (EV "XiB"))
     (EPow (EV "gp") 2)) (EV "I3")) (EMul (EMul (EDiv (ENum 1) (ENum 3)) (EPow (EV "gp") 2)) (EC "phie"))) (EMul (EMul (EDiv (ENum 2) (ENum 3)) (EPow
     (EV "gp") 2)) (ESub (EAdd (ESub (EAdd (EEin1 "rstt" (EC "ed")) (EMul (ENum 4) (EEin1 "rstt" (EC "ee")))) (EMul (ENum 2) (EEin1 "rstt" (EC
     "eu")))) (EEin1 "ttrs" (EC "le"))) (EEin1 "ttrs" (EC "qe"))))) (EMat (EMul (EAdd (EC "phiBox") (EC "phiD")) (ET (EConj (EV "Ge")))) (EV "Ge")))
     (EMat (EMat (EMul (ENum 2) (ET (EConj (EV "Ge")))) (EC "phil1")) (EV "Ge"))) (EMul (ENum 3) (EAdd (EMat (EMat (ET (EConj (EV "Ge"))) (EV "Ge"))
     (EC "phie")) (EMat (EMat (EC "phie") (ET (EConj (EV "Ge")))) (EV "Ge"))))) (EMul (ENum 2) (EEin2 "ptrs,tp" (EC "le") (EMat (EV "Ge") (ET (EConj
     (EV "Ge"))))))) (EMul (ENum 8) (EEin2 "rspt,tp" (EC "ee") (EMat (ET (EConj (EV "Ge"))) (EV "Ge"))))) (EMul (ENum 6) (EEin2 "rspt,tp" (EC "eu")
     (EMat (ET (EConj (EV "Gu"))) (EV "Gu"))))) (EMul (ENum 6) (EEin2 "rspt,tp" (EC "ed") (EMat (ET (EConj (EV "Gd"))) (EV "Gd"))))) (EMul (ENum 6)
     (EEin2 "ptrs,tp" (EC "qe") (EMat (EV "Gd") (ET (EConj (EV "Gd"))))))) (EMul (ENum 6) (EEin2 "ptrs,tp" (EC "qe") (EMat (EV "Gu") (ET (EConj (EV
     "Gu"))))))) (EMul (EMul (ENum 2) (EV "GammaH")) (EC "phie"))) (EMat (EV "Gammae") (EC "phie"))) (EMat (EC "phie") (EV "Gammae"))).
(* beta.py:790-824 *)
Definition st61 : stmt := SBeta "phiq1"
     (EAdd (EAdd (EAdd (EAdd (ESub (ESub (EAdd (ESub (EAdd (ESub (ESub (EAdd (ESub (EAdd (EMul (EMul (EMul (EDiv (ENum 1) (ENum 12)) (EV "XiB")) (EPow
     (EV "gp") 2)) (EV "I3")) (EMul (EMul (EDiv (ENum 1) (ENum 3)) (EPow (EV "gp") 2)) (EC "phiq1"))) (EMul (EMul (EDiv (ENum 2) (ENum 3)) (EPow (EV
     "gp") 2)) (ESub (ESub (ESub (EAdd (ESub (EAdd (EEin1 "ttrs" (EC "lq1")) (EEin1 "rstt" (EC "qd1"))) (EMul (ENum 2) (EEin1 "rstt" (EC "qu1"))))
     (EEin1 "rstt" (EC "qe"))) (EMul (ENum 2) (EEin1 "rstt" (EC "qq1")))) (EMul (EDiv (ENum 1) (ENum 3)) (EEin1 "rtts" (EC "qq1")))) (EEin1 "rtts" (EC
     "qq3"))))) (EMul (EMul (EDiv (ENum 1) (ENum 2)) (EAdd (EC "phiBox") (EC "phiD"))) (ESub (EMat (EV "Gu") (ET (EConj (EV "Gu")))) (EMat (EV "Gd")
     (ET (EConj (EV "Gd"))))))) (EMat (EMat (EV "Gu") (EC "phiu")) (ET (EConj (EV "Gu"))))) (EMat (EMat (EV "Gd") (EC "phid")) (ET (EConj (EV
     "Gd"))))) (EMul (ENum 2) (EEin2 "rspt,tp" (EC "qe") (EMat (ET (EConj (EV "Ge"))) (EV "Ge"))))) (EMul (ENum 2) (EEin2 "ptrs,tp" (EC "lq1") (EMat
     (EV "Ge") (ET (EConj (EV "Ge"))))))) (EMul (EDiv (ENum 3) (ENum 2)) (ESub (EAdd (ESub (EAdd (EAdd (EAdd (EAdd (EMat (EMat (EV "Gd") (ET (EConj
     (EV "Gd")))) (EC "phiq1")) (EMat (EMat (EV "Gu") (ET (EConj (EV "Gu")))) (EC "phiq1"))) (EMat (EMat (EC "phiq1") (EV "Gd")) (ET (EConj (EV
     "Gd"))))) (EMat (EMat (EC "phiq1") (EV "Gu")) (ET (EConj (EV "Gu"))))) (EMat (EMat (EMul (ENum 3) (EV "Gd")) (ET (EConj (EV "Gd")))) (EC
     "phiq3"))) (EMat (EMat (EMul (ENum 3) (EV "Gu")) (ET (EConj (EV "Gu")))) (EC "phiq3"))) (EMat (EMat (EMul (ENum 3) (EC "phiq3")) (EV "Gd")) (ET
     (EConj (EV "Gd"))))) (EMat (EMat (EMul (ENum 3) (EC "phiq3")) (EV "Gu")) (ET (EConj (EV "Gu"))))))) (EMul (ENum 2) (ESub (ESub (ESub (EAdd (EAdd
     (EMul (ENum 6) (EEin2 "ptrs,tp" (EC "qq1") (EMat (EV "Gd") (ET (EConj (EV "Gd")))))) (EEin2 "psrt,tp" (EC "qq1") (EMat (EV "Gd") (ET (EConj (EV
     "Gd")))))) (EMul (ENum 3) (EEin2 "psrt,tp" (EC "qq3") (EMat (EV "Gd") (ET (EConj (EV "Gd"))))))) (EMul (ENum 6) (EEin2 "ptrs,tp" (EC "qq1") (EMat
     (EV "Gu") (ET (EConj (EV "Gu"))))))) (EEin2 "psrt,tp" (EC "qq1") (EMat (EV "Gu") (ET (EConj (EV "Gu")))))) (EMul (ENum 3) (EEin2 "psrt,tp" (EC
     "qq3") (EMat (EV "Gu") (ET (EConj (EV "Gu"))))))))) (EMul (ENum 6) (EEin2 "rspt,tp" (EC "qu1") (EMat (ET (EConj (EV "Gu"))) (EV "Gu"))))) (EMul
     (ENum 6) (EEin2 "rspt,tp" (EC "qd1") (EMat (ET (EConj (EV "Gd"))) (EV "Gd"))))) (EMul (EMul (ENum 2) (EV "GammaH")) (EC "phiq1"))) (EMat (EV
     "Gammaq") (EC "phiq1"))) (EMat (EC "phiq1") (EV "Gammaq"))).
(* beta.py:827-854 *)
Definition st62 : stmt := SBeta "phiq3"
     (EAdd (EAdd (EAdd (ESub (ESub (EAdd (ESub (EAdd (ESub (EMul (EMul (EMul (EDiv (ENum 2) (ENum 3)) (EPow (EV "g") 2)) (EAdd (EAdd (EMul (EDiv (ENum
     1) (ENum 4)) (EC "phiBox")) (ETrace (EC "phil3"))) (EMul (ENum 3) (ETrace (EC "phiq3"))))) (EV "I3")) (EMul (EMul (EDiv (ENum 17) (ENum 3)) (EPow
     (EV "g") 2)) (EC "phiq3"))) (EMul (EMul (EDiv (ENum 2) (ENum 3)) (EPow (EV "g") 2)) (ESub (EAdd (EAdd (EEin1 "ttrs" (EC "lq3")) (EEin1 "rtts" (EC
     "qq1"))) (EMul (ENum 6) (EEin1 "rstt" (EC "qq3")))) (EEin1 "rtts" (EC "qq3"))))) (EMul (EMul (EDiv (ENum 1) (ENum 2)) (EC "phiBox")) (EAdd (EMat
     (EV "Gu") (ET (EConj (EV "Gu")))) (EMat (EV "Gd") (ET (EConj (EV "Gd"))))))) (EMul (EDiv (ENum 1) (ENum 2)) (EAdd (EAdd (EAdd (EAdd (ESub (EAdd
     (ESub (EMat (EMat (EMul (ENum 3) (EV "Gd")) (ET (EConj (EV "Gd")))) (EC "phiq1")) (EMat (EMat (EMul (ENum 3) (EV "Gu")) (ET (EConj (EV "Gu"))))
     (EC "phiq1"))) (EMat (EMat (EMul (ENum 3) (EC "phiq1")) (EV "Gd")) (ET (EConj (EV "Gd"))))) (EMat (EMat (EMul (ENum 3) (EC "phiq1")) (EV "Gu"))
     (ET (EConj (EV "Gu"))))) (EMat (EMat (EV "Gd") (ET (EConj (EV "Gd")))) (EC "phiq3"))) (EMat (EMat (EV "Gu") (ET (EConj (EV "Gu")))) (EC
     "phiq3"))) (EMat (EMat (EC "phiq3") (EV "Gd")) (ET (EConj (EV "Gd"))))) (EMat (EMat (EC "phiq3") (EV "Gu")) (ET (EConj (EV "Gu"))))))) (EMul
     (ENum 2) (ESub (EAdd (EAdd (ESub (EAdd (EMul (ENum 6) (EEin2 "rspt,tp" (EC "qq3") (EMat (EV "Gd") (ET (EConj (EV "Gd")))))) (EEin2 "rtps,tp" (EC
     "qq1") (EMat (EV "Gd") (ET (EConj (EV "Gd")))))) (EEin2 "rtps,tp" (EC "qq3") (EMat (EV "Gd") (ET (EConj (EV "Gd")))))) (EMul (ENum 6) (EEin2
     "rspt,tp" (EC "qq3") (EMat (EV "Gu") (ET (EConj (EV "Gu"))))))) (EEin2 "rtps,tp" (EC "qq1") (EMat (EV "Gu") (ET (EConj (EV "Gu")))))) (EEin2
     "rtps,tp" (EC "qq3") (EMat (EV "Gu") (ET (EConj (EV "Gu")))))))) (EMul (ENum 2) (EEin2 "ptrs,tp" (EC "lq3") (EMat (EV "Ge") (ET (EConj (EV
     "Ge"))))))) (EMul (EMul (ENum 2) (EV "GammaH")) (EC "phiq3"))) (EMat (EV "Gammaq") (EC "phiq3"))) (EMat (EC "phiq3") (EV "Gammaq"))).
(* beta.py:857-881 *)
Definition st63 : stmt := SBeta "phiu"
     (EAdd (EAdd (EAdd (EAdd (ESub (EAdd (ESub (EAdd (ESub (EAdd (EAdd (EAdd (ESub (ESub (ESub (EAdd (EMul (EMul (EMul (EDiv (ENum 1) (ENum 3)) (EV
     "XiB")) (EPow (EV "gp") 2)) (EV "I3")) (EMul (EMul (EDiv (ENum 1) (ENum 3)) (EPow (EV "gp") 2)) (EC "phiu"))) (EMul (EMul (EDiv (ENum 2) (ENum
     3)) (EPow (EV "gp") 2)) (ESub (ESub (EAdd (ESub (EAdd (EEin1 "ttrs" (EC "eu")) (EEin1 "ttrs" (EC "lu"))) (EEin1 "ttrs" (EC "qu1"))) (EEin1 "rstt"
     (EC "ud1"))) (EMul (ENum 4) (EEin1 "rstt" (EC "uu")))) (EMul (EDiv (ENum 4) (ENum 3)) (EEin1 "rtts" (EC "uu")))))) (EMat (EMul (EAdd (EC
     "phiBox") (EC "phiD")) (ET (EConj (EV "Gu")))) (EV "Gu"))) (EMat (EMat (EMul (ENum 2) (ET (EConj (EV "Gu")))) (EC "phiq1")) (EV "Gu"))) (EMul
     (ENum 3) (EAdd (EMat (EMat (ET (EConj (EV "Gu"))) (EV "Gu")) (EC "phiu")) (EMat (EMat (EC "phiu") (ET (EConj (EV "Gu")))) (EV "Gu"))))) (EMat
     (EMat (ET (EConj (EV "Gu"))) (EV "Gd")) (ET (EConj (EC "phiud"))))) (EMat (EMat (EC "phiud") (ET (EConj (EV "Gd")))) (EV "Gu"))) (EMul (ENum 4)
     (EAdd (EMul (ENum 3) (EEin2 "rspt,tp" (EC "uu") (EMat (ET (EConj (EV "Gu"))) (EV "Gu")))) (EEin2 "rtps,tp" (EC "uu") (EMat (ET (EConj (EV "Gu")))
     (EV "Gu")))))) (EMul (ENum 2) (EEin2 "ptrs,tp" (EC "eu") (EMat (ET (EConj (EV "Ge"))) (EV "Ge"))))) (EMul (ENum 2) (EEin2 "ptrs,tp" (EC "lu")
     (EMat (EV "Ge") (ET (EConj (EV "Ge"))))))) (EMul (ENum 6) (EEin2 "rspt,tp" (EC "ud1") (EMat (ET (EConj (EV "Gd"))) (EV "Gd"))))) (EMul (ENum 6)
     (EEin2 "ptrs,tp" (EC "qu1") (EMat (EV "Gd") (ET (EConj (EV "Gd"))))))) (EMul (ENum 6) (EEin2 "ptrs,tp" (EC "qu1") (EMat (EV "Gu") (ET (EConj (EV
     "Gu"))))))) (EMul (EMul (ENum 2) (EV "GammaH")) (EC "phiu"))) (EMat (EV "Gammau") (EC "phiu"))) (EMat (EC "phiu") (EV "Gammau"))).
(* beta.py:884-908 *)
Definition st64 : stmt := SBeta "phid"
     (EAdd (EAdd (EAdd (EAdd (ESub (ESub (ESub (EAdd (EAdd (ESub (ESub (EAdd (ESub (EAdd (ESub (EAdd (EMul (EMul (EMul (EDiv (ENeg (ENum 1)) (ENum 6))
     (EV "XiB")) (EPow (EV "gp") 2)) (EV "I3")) (EMul (EMul (EDiv (ENum 1) (ENum 3)) (EPow (EV "gp") 2)) (EC "phid"))) (EMul (EMul (EDiv (ENum 2)
     (ENum 3)) (EPow (EV "gp") 2)) (ESub (ESub (EAdd (EAdd (EAdd (EMul (ENum 2) (EEin1 "rstt" (EC "dd"))) (EMul (EDiv (ENum 2) (ENum 3)) (EEin1 "rtts"
     (EC "dd")))) (EEin1 "ttrs" (EC "ed"))) (EEin1 "ttrs" (EC "ld"))) (EEin1 "ttrs" (EC "qd1"))) (EMul (ENum 2) (EEin1 "ttrs" (EC "ud1")))))) (EMat
     (EMul (EAdd (EC "phiBox") (EC "phiD")) (ET (EConj (EV "Gd")))) (EV "Gd"))) (EMat (EMat (EMul (ENum 2) (ET (EConj (EV "Gd")))) (EC "phiq1")) (EV
     "Gd"))) (EMul (ENum 3) (EAdd (EMat (EMat (ET (EConj (EV "Gd"))) (EV "Gd")) (EC "phid")) (EMat (EMat (EC "phid") (ET (EConj (EV "Gd")))) (EV
     "Gd"))))) (EMat (EMat (ET (EConj (EV "Gd"))) (EV "Gu")) (EC "phiud"))) (EMat (EMat (ET (EConj (EC "phiud"))) (ET (EConj (EV "Gu")))) (EV "Gd")))
     (EMul (ENum 4) (EAdd (EMul (ENum 3) (EEin2 "rspt,tp" (EC "dd") (EMat (ET (EConj (EV "Gd"))) (EV "Gd")))) (EEin2 "rtps,tp" (EC "dd") (EMat (ET
     (EConj (EV "Gd"))) (EV "Gd")))))) (EMul (ENum 2) (EEin2 "ptrs,tp" (EC "ed") (EMat (ET (EConj (EV "Ge"))) (EV "Ge"))))) (EMul (ENum 2) (EEin2
     "ptrs,tp" (EC "ld") (EMat (EV "Ge") (ET (EConj (EV "Ge"))))))) (EMul (ENum 6) (EEin2 "ptrs,tp" (EC "ud1") (EMat (ET (EConj (EV "Gu"))) (EV
     "Gu"))))) (EMul (ENum 6) (EEin2 "ptrs,tp" (EC "qd1") (EMat (EV "Gd") (ET (EConj (EV "Gd"))))))) (EMul (ENum 6) (EEin2 "ptrs,tp" (EC "qd1") (EMat
     (EV "Gu") (ET (EConj (EV "Gu"))))))) (EMul (EMul (ENum 2) (EV "GammaH")) (EC "phid"))) (EMat (EV "Gammad") (EC "phid"))) (EMat (EC "phid") (EV
     "Gammad"))).
(* beta.py:911-922 *)
Definition st65 : stmt := SBeta "phiud"
     (EAdd (EAdd (EAdd (EAdd (EAdd (EAdd (EAdd (ESub (EAdd (EMul (EMul (ENeg (ENum 3)) (EPow (EV "gp") 2)) (EC "phiud")) (EMat (EMul (ESub (EMul (ENum
     2) (EC "phiBox")) (EC "phiD")) (ET (EConj (EV "Gu")))) (EV "Gd"))) (EMat (EMat (EMul (ENum 2) (ET (EConj (EV "Gu")))) (EV "Gd")) (EC "phid")))
     (EMat (EMat (EMul (ENum 2) (EC "phiu")) (ET (EConj (EV "Gu")))) (EV "Gd"))) (EMul (ENum 4) (EAdd (EEin2 "rtps,tp" (EC "ud1") (EMat (ET (EConj (EV
     "Gu"))) (EV "Gd"))) (EMul (EDiv (ENum 4) (ENum 3)) (EEin2 "rtps,tp" (EC "ud8") (EMat (ET (EConj (EV "Gu"))) (EV "Gd"))))))) (EMat (EMat (EMul
     (ENum 2) (ET (EConj (EV "Gu")))) (EV "Gu")) (EC "phiud"))) (EMat (EMat (EMul (ENum 2) (EC "phiud")) (ET (EConj (EV "Gd")))) (EV "Gd"))) (EMul
     (EMul (ENum 2) (EV "GammaH")) (EC "phiud"))) (EMat (EV "Gammau") (EC "phiud"))) (EMat (EC "phiud") (EV "Gammad"))).
(* beta.py:925-928 *)
Definition st66 : stmt := SBeta "llphiphi"
     (ESub (EMul (EAdd (ESub (EMul (ENum 2) (EV "Lambda")) (EMul (ENum 3) (EPow (EV "g") 2))) (EMul (ENum 2) (EV "GammaH"))) (EC "llphiphi")) (EMul
     (EDiv (ENum 3) (ENum 2)) (EAdd (EMat (EMat (EC "llphiphi") (EV "Ge")) (ET (EConj (EV "Ge")))) (EMat (EMat (EConj (EV "Ge")) (ET (EV "Ge"))) (EC
     "llphiphi"))))).
(* beta.py:932-974 *)
Definition st67 : stmt := SBeta "ll"
     (EAdd (EAdd (EAdd (EAdd (ESub (ESub (ESub (EAdd (EAdd (ESub (ESub (EAdd (ESub (EAdd (ESub (ESub (EAdd (EAdd (ESub (ESub (ESub (EAdd (EAdd (ESub
     (ESub (EAdd (ESub (EAdd (ESub (EMul (EMul (EDiv (ENeg (ENum 1)) (ENum 6)) (EPow (EV "gp") 2)) (EEin2 "st,pr" (EC "phil1") (EV "I3"))) (EMul (EMul
     (EDiv (ENum 1) (ENum 6)) (EPow (EV "g") 2)) (ESub (EEin2 "st,pr" (EC "phil3") (EV "I3")) (EMul (ENum 2) (EEin2 "sr,pt" (EC "phil3") (EV
     "I3")))))) (EMul (EMul (EDiv (ENum 1) (ENum 3)) (EPow (EV "gp") 2)) (EAdd (EMul (ENum 2) (EEin2 "prww,st" (EC "ll") (EV "I3"))) (EEin2 "pwwr,st"
     (EC "ll") (EV "I3"))))) (EMul (EMul (EDiv (ENum 1) (ENum 3)) (EPow (EV "g") 2)) (EEin2 "pwwr,st" (EC "ll") (EV "I3")))) (EMul (EMul (EDiv (ENum
     2) (ENum 3)) (EPow (EV "g") 2)) (EEin2 "swwr,pt" (EC "ll") (EV "I3")))) (EMul (EMul (EDiv (ENum 1) (ENum 3)) (EPow (EV "gp") 2)) (EEin2 "prww,st"
     (EC "lq1") (EV "I3")))) (EMul (EPow (EV "g") 2) (EEin2 "prww,st" (EC "lq3") (EV "I3")))) (EMul (EMul (ENum 2) (EPow (EV "g") 2)) (EEin2 "ptww,rs"
     (EC "lq3") (EV "I3")))) (EMul (EMul (EDiv (ENum 1) (ENum 3)) (EPow (EV "gp") 2)) (EAdd (EAdd (EMul (ENeg (ENum 2)) (EEin2 "prww,st" (EC "lu") (EV
     "I3"))) (EEin2 "prww,st" (EC "ld") (EV "I3"))) (EEin2 "prww,st" (EC "le") (EV "I3"))))) (EMul (EDiv (ENum 1) (ENum 2)) (ESub (EEin2 "pr,st" (EMat
     (EV "Ge") (ET (EConj (EV "Ge")))) (EC "phil1")) (EEin2 "pr,st" (EMat (EV "Ge") (ET (EConj (EV "Ge")))) (EC "phil3"))))) (EEin2 "pt,sr" (EMat (EV
     "Ge") (ET (EConj (EV "Ge")))) (EC "phil3"))) (EMul (EDiv (ENum 1) (ENum 2)) (EEin3 "sv,tw,prvw" (EV "Ge") (EConj (EV "Ge")) (EC "le")))) (EEin2
     "pv,vrst" (EV "Gammal") (EC "ll"))) (EEin2 "pvst,vr" (EC "ll") (EV "Gammal"))) (EMul (EMul (EDiv (ENum 1) (ENum 6)) (EPow (EV "gp") 2)) (EEin2
     "pr,st" (EC "phil1") (EV "I3")))) (EMul (EMul (EDiv (ENum 1) (ENum 6)) (EPow (EV "g") 2)) (ESub (EEin2 "pr,st" (EC "phil3") (EV "I3")) (EMul
     (ENum 2) (EEin2 "pt,sr" (EC "phil3") (EV "I3")))))) (EMul (EMul (EDiv (ENum 1) (ENum 3)) (EPow (EV "gp") 2)) (EAdd (EMul (ENum 2) (EEin2
     "stww,pr" (EC "ll") (EV "I3"))) (EEin2 "swwt,pr" (EC "ll") (EV "I3"))))) (EMul (EMul (EDiv (ENum 1) (ENum 3)) (EPow (EV "g") 2)) (EEin2 "swwt,pr"
     (EC "ll") (EV "I3")))) (EMul (EMul (EDiv (ENum 2) (ENum 3)) (EPow (EV "g") 2)) (EEin2 "pwwt,sr" (EC "ll") (EV "I3")))) (EMul (EMul (EDiv (ENum 1)
     (ENum 3)) (EPow (EV "gp") 2)) (EEin2 "stww,pr" (EC "lq1") (EV "I3")))) (EMul (EPow (EV "g") 2) (EEin2 "stww,pr" (EC "lq3") (EV "I3")))) (EMul
     (EMul (ENum 2) (EPow (EV "g") 2)) (EEin2 "srww,tp" (EC "lq3") (EV "I3")))) (EMul (EMul (EDiv (ENum 1) (ENum 3)) (EPow (EV "gp") 2)) (EAdd (EAdd
     (EMul (ENeg (ENum 2)) (EEin2 "stww,pr" (EC "lu") (EV "I3"))) (EEin2 "stww,pr" (EC "ld") (EV "I3"))) (EEin2 "stww,pr" (EC "le") (EV "I3")))))
     (EMul (EDiv (ENum 1) (ENum 2)) (ESub (EEin2 "st,pr" (EMat (EV "Ge") (ET (EConj (EV "Ge")))) (EC "phil1")) (EEin2 "st,pr" (EMat (EV "Ge") (ET
     (EConj (EV "Ge")))) (EC "phil3"))))) (EEin2 "sr,pt" (EMat (EV "Ge") (ET (EConj (EV "Ge")))) (EC "phil3"))) (EMul (EDiv (ENum 1) (ENum 2)) (EEin3
     "pv,rw,stvw" (EV "Ge") (EConj (EV "Ge")) (EC "le")))) (EEin2 "sv,vtpr" (EV "Gammal") (EC "ll"))) (EEin2 "svpr,vt" (EC "ll") (EV "Gammal"))) (EMul
     (EMul (ENum 6) (EPow (EV "g") 2)) (EEin1 "ptsr" (EC "ll")))) (EMul (EMul (ENum 3) (ESub (EPow (EV "gp") 2) (EPow (EV "g") 2))) (EEin1 "prst" (EC
     "ll")))).
(* beta.py:976-1044 *)
Definition st68 : stmt := SBeta "qq1"
     (EAdd (ESub (EAdd (EAdd (EAdd (EAdd (ESub (ESub (ESub (ESub (ESub (EAdd (ESub (ESub (EAdd (ESub (EAdd (ESub (EAdd (EAdd (ESub (EAdd (EAdd (EAdd
     (EAdd (ESub (ESub (ESub (ESub (ESub (EAdd (ESub (ESub (EAdd (ESub (EAdd (ESub (EAdd (EAdd (ESub (EMul (EMul (EDiv (ENum 1) (ENum 18)) (EPow (EV
     "gp") 2)) (EEin2 "st,pr" (EC "phiq1") (EV "I3"))) (EMul (EMul (EDiv (ENum 1) (ENum 9)) (EPow (EV "gp") 2)) (EEin2 "wwst,pr" (EC "lq1") (EV
     "I3")))) (EMul (EMul (EDiv (ENum 1) (ENum 9)) (EPow (EV "gp") 2)) (EAdd (EMul (ENum 2) (EEin2 "prww,st" (EC "qq1") (EV "I3"))) (EMul (EDiv (ENum
     1) (ENum 3)) (EAdd (EEin2 "pwwr,st" (EC "qq1") (EV "I3")) (EMul (ENum 3) (EEin2 "pwwr,st" (EC "qq3") (EV "I3")))))))) (EMul (EMul (EDiv (ENum 1)
     (ENum 3)) (EPow (EV "gs") 2)) (EAdd (EEin2 "swwr,pt" (EC "qq1") (EV "I3")) (EMul (ENum 3) (EEin2 "swwr,pt" (EC "qq3") (EV "I3")))))) (EMul (EMul
     (EDiv (ENum 2) (ENum 9)) (EPow (EV "gs") 2)) (EAdd (EEin2 "pwwr,st" (EC "qq1") (EV "I3")) (EMul (ENum 3) (EEin2 "pwwr,st" (EC "qq3") (EV
     "I3")))))) (EMul (EMul (EDiv (ENum 2) (ENum 9)) (EPow (EV "gp") 2)) (EEin2 "prww,st" (EC "qu1") (EV "I3")))) (EMul (EMul (EDiv (ENum 1) (ENum 9))
     (EPow (EV "gp") 2)) (EEin2 "prww,st" (EC "qd1") (EV "I3")))) (EMul (EMul (EDiv (ENum 1) (ENum 12)) (EPow (EV "gs") 2)) (EAdd (EEin2 "srww,pt" (EC
     "qu8") (EV "I3")) (EEin2 "srww,pt" (EC "qd8") (EV "I3"))))) (EMul (EMul (EDiv (ENum 1) (ENum 18)) (EPow (EV "gs") 2)) (EAdd (EEin2 "prww,st" (EC
     "qu8") (EV "I3")) (EEin2 "prww,st" (EC "qd8") (EV "I3"))))) (EMul (EMul (EDiv (ENum 1) (ENum 9)) (EPow (EV "gp") 2)) (EEin2 "prww,st" (EC "qe")
     (EV "I3")))) (EMul (EDiv (ENum 1) (ENum 2)) (ESub (EEin2 "pr,st" (EMat (EV "Gu") (ET (EConj (EV "Gu")))) (EC "phiq1")) (EEin2 "pr,st" (EMat (EV
     "Gd") (ET (EConj (EV "Gd")))) (EC "phiq1"))))) (EMul (EDiv (ENum 1) (ENum 2)) (ESub (EEin3 "pv,rw,stvw" (EV "Gu") (EConj (EV "Gu")) (EC "qu1"))
     (EMul (EDiv (ENum 1) (ENum 6)) (EEin3 "pv,rw,stvw" (EV "Gu") (EConj (EV "Gu")) (EC "qu8")))))) (EMul (EDiv (ENum 1) (ENum 2)) (ESub (EEin3
     "pv,rw,stvw" (EV "Gd") (EConj (EV "Gd")) (EC "qd1")) (EMul (EDiv (ENum 1) (ENum 6)) (EEin3 "pv,rw,stvw" (EV "Gd") (EConj (EV "Gd")) (EC
     "qd8")))))) (EMul (EDiv (ENum 1) (ENum 8)) (EAdd (EEin3 "pv,tw,srvw" (EV "Gu") (EConj (EV "Gu")) (EC "qu8")) (EEin3 "pv,tw,srvw" (EV "Gd") (EConj
     (EV "Gd")) (EC "qd8"))))) (EMul (EDiv (ENum 1) (ENum 8)) (ESub (EEin3 "tw,rv,pvsw" (EConj (EV "Gd")) (EConj (EV "Gu")) (EC "quqd1")) (EMul (EDiv
     (ENum 1) (ENum 6)) (EEin3 "tw,rv,pvsw" (EConj (EV "Gd")) (EConj (EV "Gu")) (EC "quqd8")))))) (EMul (EDiv (ENum 1) (ENum 8)) (ESub (EEin3
     "sw,pv,rvtw" (EV "Gd") (EV "Gu") (EConj (EC "quqd1"))) (EMul (EDiv (ENum 1) (ENum 6)) (EEin3 "sw,pv,rvtw" (EV "Gd") (EV "Gu") (EConj (EC
     "quqd8"))))))) (EMul (EDiv (ENum 1) (ENum 16)) (EAdd (EEin3 "tw,rv,svpw" (EConj (EV "Gd")) (EConj (EV "Gu")) (EC "quqd8")) (EEin3 "sw,pv,tvrw"
     (EV "Gd") (EV "Gu") (EConj (EC "quqd8")))))) (EEin2 "pv,vrst" (EV "Gammaq") (EC "qq1"))) (EEin2 "pvst,vr" (EC "qq1") (EV "Gammaq"))) (EMul (EMul
     (EDiv (ENum 1) (ENum 18)) (EPow (EV "gp") 2)) (EEin2 "pr,st" (EC "phiq1") (EV "I3")))) (EMul (EMul (EDiv (ENum 1) (ENum 9)) (EPow (EV "gp") 2))
     (EEin2 "wwpr,st" (EC "lq1") (EV "I3")))) (EMul (EMul (EDiv (ENum 1) (ENum 9)) (EPow (EV "gp") 2)) (EAdd (EMul (ENum 2) (EEin2 "stww,pr" (EC
     "qq1") (EV "I3"))) (EMul (EDiv (ENum 1) (ENum 3)) (EAdd (EEin2 "swwt,pr" (EC "qq1") (EV "I3")) (EMul (ENum 3) (EEin2 "swwt,pr" (EC "qq3") (EV
     "I3")))))))) (EMul (EMul (EDiv (ENum 1) (ENum 3)) (EPow (EV "gs") 2)) (EAdd (EEin2 "pwwt,sr" (EC "qq1") (EV "I3")) (EMul (ENum 3) (EEin2
     "pwwt,sr" (EC "qq3") (EV "I3")))))) (EMul (EMul (EDiv (ENum 2) (ENum 9)) (EPow (EV "gs") 2)) (EAdd (EEin2 "swwt,pr" (EC "qq1") (EV "I3")) (EMul
     (ENum 3) (EEin2 "swwt,pr" (EC "qq3") (EV "I3")))))) (EMul (EMul (EDiv (ENum 2) (ENum 9)) (EPow (EV "gp") 2)) (EEin2 "stww,pr" (EC "qu1") (EV
     "I3")))) (EMul (EMul (EDiv (ENum 1) (ENum 9)) (EPow (EV "gp") 2)) (EEin2 "stww,pr" (EC "qd1") (EV "I3")))) (EMul (EMul (EDiv (ENum 1) (ENum 12))
     (EPow (EV "gs") 2)) (EAdd (EEin2 "ptww,sr" (EC "qu8") (EV "I3")) (EEin2 "ptww,sr" (EC "qd8") (EV "I3"))))) (EMul (EMul (EDiv (ENum 1) (ENum 18))
     (EPow (EV "gs") 2)) (EAdd (EEin2 "stww,pr" (EC "qu8") (EV "I3")) (EEin2 "stww,pr" (EC "qd8") (EV "I3"))))) (EMul (EMul (EDiv (ENum 1) (ENum 9))
     (EPow (EV "gp") 2)) (EEin2 "stww,pr" (EC "qe") (EV "I3")))) (EMul (EDiv (ENum 1) (ENum 2)) (ESub (EEin2 "st,pr" (EMat (EV "Gu") (ET (EConj (EV
     "Gu")))) (EC "phiq1")) (EEin2 "st,pr" (EMat (EV "Gd") (ET (EConj (EV "Gd")))) (EC "phiq1"))))) (EMul (EDiv (ENum 1) (ENum 2)) (ESub (EEin3
     "sv,tw,prvw" (EV "Gu") (EConj (EV "Gu")) (EC "qu1")) (EMul (EDiv (ENum 1) (ENum 6)) (EEin3 "sv,tw,prvw" (EV "Gu") (EConj (EV "Gu")) (EC
     "qu8")))))) (EMul (EDiv (ENum 1) (ENum 2)) (ESub (EEin3 "sv,tw,prvw" (EV "Gd") (EConj (EV "Gd")) (EC "qd1")) (EMul (EDiv (ENum 1) (ENum 6))
     (EEin3 "sv,tw,prvw" (EV "Gd") (EConj (EV "Gd")) (EC "qd8")))))) (EMul (EDiv (ENum 1) (ENum 8)) (EAdd (EEin3 "sv,rw,ptvw" (EV "Gu") (EConj (EV
     "Gu")) (EC "qu8")) (EEin3 "sv,rw,ptvw" (EV "Gd") (EConj (EV "Gd")) (EC "qd8"))))) (EMul (EDiv (ENum 1) (ENum 8)) (ESub (EEin3 "rw,tv,svpw" (EConj
     (EV "Gd")) (EConj (EV "Gu")) (EC "quqd1")) (EMul (EDiv (ENum 1) (ENum 6)) (EEin3 "rw,tv,svpw" (EConj (EV "Gd")) (EConj (EV "Gu")) (EC
     "quqd8")))))) (EMul (EDiv (ENum 1) (ENum 8)) (ESub (EEin3 "pw,sv,tvrw" (EV "Gd") (EV "Gu") (EConj (EC "quqd1"))) (EMul (EDiv (ENum 1) (ENum 6))
     (EEin3 "pw,sv,tvrw" (EV "Gd") (EV "Gu") (EConj (EC "quqd8"))))))) (EMul (EDiv (ENum 1) (ENum 16)) (EAdd (EEin3 "rw,tv,pvsw" (EConj (EV "Gd"))
     (EConj (EV "Gu")) (EC "quqd8")) (EEin3 "pw,sv,rvtw" (EV "Gd") (EV "Gu") (EConj (EC "quqd8")))))) (EEin2 "sv,vtpr" (EV "Gammaq") (EC "qq1")))
     (EEin2 "svpr,vt" (EC "qq1") (EV "Gammaq"))) (EMul (EMul (ENum 9) (EPow (EV "g") 2)) (EEin1 "prst" (EC "qq3")))) (EMul (EMul (ENum 2) (ESub (EPow
     (EV "gs") 2) (EMul (EDiv (ENum 1) (ENum 6)) (EPow (EV "gp") 2)))) (EEin1 "prst" (EC "qq1")))) (EMul (EMul (ENum 3) (EPow (EV "gs") 2)) (EAdd
     (EEin1 "ptsr" (EC "qq1")) (EMul (ENum 3) (EEin1 "ptsr" (EC "qq3")))))).
(* beta.py:1046-1093 *)
Definition st69 : stmt := SBeta "qq3"
     (EAdd (ESub (EAdd (EAdd (EAdd (ESub (EAdd (EAdd (ESub (ESub (EAdd (EAdd (EAdd (EAdd (EAdd (EAdd (EAdd (EAdd (ESub (EAdd (EAdd (ESub (ESub (EAdd
     (EAdd (EAdd (EAdd (EAdd (EMul (EMul (EDiv (ENum 1) (ENum 6)) (EPow (EV "g") 2)) (EEin2 "st,pr" (EC "phiq3") (EV "I3"))) (EMul (EMul (EDiv (ENum
     1) (ENum 3)) (EPow (EV "g") 2)) (EEin2 "wwst,pr" (EC "lq3") (EV "I3")))) (EMul (EMul (EDiv (ENum 1) (ENum 3)) (EPow (EV "g") 2)) (ESub (EEin2
     "pwwr,st" (EC "qq1") (EV "I3")) (EEin2 "pwwr,st" (EC "qq3") (EV "I3"))))) (EMul (EMul (ENum 2) (EPow (EV "g") 2)) (EEin2 "prww,st" (EC "qq3") (EV
     "I3")))) (EMul (EMul (EDiv (ENum 1) (ENum 3)) (EPow (EV "gs") 2)) (EAdd (EEin2 "swwr,pt" (EC "qq1") (EV "I3")) (EMul (ENum 3) (EEin2 "swwr,pt"
     (EC "qq3") (EV "I3")))))) (EMul (EMul (EDiv (ENum 1) (ENum 12)) (EPow (EV "gs") 2)) (EAdd (EEin2 "srww,pt" (EC "qu8") (EV "I3")) (EEin2 "srww,pt"
     (EC "qd8") (EV "I3"))))) (EMul (EDiv (ENum 1) (ENum 2)) (EAdd (EEin2 "pr,st" (EMat (EV "Gu") (ET (EConj (EV "Gu")))) (EC "phiq3")) (EEin2 "pr,st"
     (EMat (EV "Gd") (ET (EConj (EV "Gd")))) (EC "phiq3"))))) (EMul (EDiv (ENum 1) (ENum 8)) (EAdd (EEin3 "pv,tw,srvw" (EV "Gu") (EConj (EV "Gu")) (EC
     "qu8")) (EEin3 "pv,tw,srvw" (EV "Gd") (EConj (EV "Gd")) (EC "qd8"))))) (EMul (EDiv (ENum 1) (ENum 8)) (ESub (EEin3 "tw,rv,pvsw" (EConj (EV "Gd"))
     (EConj (EV "Gu")) (EC "quqd1")) (EMul (EDiv (ENum 1) (ENum 6)) (EEin3 "tw,rv,pvsw" (EConj (EV "Gd")) (EConj (EV "Gu")) (EC "quqd8")))))) (EMul
     (EDiv (ENum 1) (ENum 8)) (ESub (EEin3 "sw,pv,rvtw" (EV "Gd") (EV "Gu") (EConj (EC "quqd1"))) (EMul (EDiv (ENum 1) (ENum 6)) (EEin3 "sw,pv,rvtw"
     (EV "Gd") (EV "Gu") (EConj (EC "quqd8"))))))) (EMul (EDiv (ENum 1) (ENum 16)) (EAdd (EEin3 "tw,rv,svpw" (EConj (EV "Gd")) (EConj (EV "Gu")) (EC
     "quqd8")) (EEin3 "sw,pv,tvrw" (EV "Gd") (EV "Gu") (EConj (EC "quqd8")))))) (EEin2 "pv,vrst" (EV "Gammaq") (EC "qq3"))) (EEin2 "pvst,vr" (EC
     "qq3") (EV "Gammaq"))) (EMul (EMul (EDiv (ENum 1) (ENum 6)) (EPow (EV "g") 2)) (EEin2 "pr,st" (EC "phiq3") (EV "I3")))) (EMul (EMul (EDiv (ENum
     1) (ENum 3)) (EPow (EV "g") 2)) (EEin2 "wwpr,st" (EC "lq3") (EV "I3")))) (EMul (EMul (EDiv (ENum 1) (ENum 3)) (EPow (EV "g") 2)) (ESub (EEin2
     "swwt,pr" (EC "qq1") (EV "I3")) (EEin2 "swwt,pr" (EC "qq3") (EV "I3"))))) (EMul (EMul (ENum 2) (EPow (EV "g") 2)) (EEin2 "stww,pr" (EC "qq3") (EV
     "I3")))) (EMul (EMul (EDiv (ENum 1) (ENum 3)) (EPow (EV "gs") 2)) (EAdd (EEin2 "pwwt,sr" (EC "qq1") (EV "I3")) (EMul (ENum 3) (EEin2 "pwwt,sr"
     (EC "qq3") (EV "I3")))))) (EMul (EMul (EDiv (ENum 1) (ENum 12)) (EPow (EV "gs") 2)) (EAdd (EEin2 "ptww,sr" (EC "qu8") (EV "I3")) (EEin2 "ptww,sr"
     (EC "qd8") (EV "I3"))))) (EMul (EDiv (ENum 1) (ENum 2)) (EAdd (EEin2 "st,pr" (EMat (EV "Gu") (ET (EConj (EV "Gu")))) (EC "phiq3")) (EEin2 "st,pr"
     (EMat (EV "Gd") (ET (EConj (EV "Gd")))) (EC "phiq3"))))) (EMul (EDiv (ENum 1) (ENum 8)) (EAdd (EEin3 "sv,rw,ptvw" (EV "Gu") (EConj (EV "Gu")) (EC
     "qu8")) (EEin3 "sv,rw,ptvw" (EV "Gd") (EConj (EV "Gd")) (EC "qd8"))))) (EMul (EDiv (ENum 1) (ENum 8)) (ESub (EEin3 "rw,tv,svpw" (EConj (EV "Gd"))
     (EConj (EV "Gu")) (EC "quqd1")) (EMul (EDiv (ENum 1) (ENum 6)) (EEin3 "rw,tv,svpw" (EConj (EV "Gd")) (EConj (EV "Gu")) (EC "quqd8")))))) (EMul
     (EDiv (ENum 1) (ENum 8)) (ESub (EEin3 "pw,sv,tvrw" (EV "Gd") (EV "Gu") (EConj (EC "quqd1"))) (EMul (EDiv (ENum 1) (ENum 6)) (EEin3 "pw,sv,tvrw"
     (EV "Gd") (EV "Gu") (EConj (EC "quqd8"))))))) (EMul (EDiv (ENum 1) (ENum 16)) (EAdd (EEin3 "rw,tv,pvsw" (EConj (EV "Gd")) (EConj (EV "Gu")) (EC
     "quqd8")) (EEin3 "pw,sv,rvtw" (EV "Gd") (EV "Gu") (EConj (EC "quqd8")))))) (EEin2 "sv,vtpr" (EV "Gammaq") (EC "qq3"))) (EEin2 "svpr,vt" (EC
     "qq3") (EV "Gammaq"))) (EMul (EMul (ENum 3) (EPow (EV "gs") 2)) (ESub (EEin1 "ptsr" (EC "qq1")) (EEin1 "ptsr" (EC "qq3"))))) (EMul (EMul (ENum 2)
     (ESub (EAdd (EPow (EV "gs") 2) (EMul (ENum 3) (EPow (EV "g") 2))) (EMul (EDiv (ENum 1) (ENum 6)) (EPow (EV "gp") 2)))) (EEin1 "prst" (EC
     "qq3")))) (EMul (EMul (ENum 3) (EPow (EV "g") 2)) (EEin1 "prst" (EC "qq1")))).
(* beta.py:1096-1128 *)
Definition st70 : stmt := SBeta "lq1"
     (EAdd (EAdd (EAdd (EAdd (EAdd (ESub (ESub (ESub (EAdd (ESub (EAdd (ESub (EAdd (ESub (EAdd (ESub (ESub (EAdd (EAdd (ESub (EAdd (EMul (EMul (EDiv
     (ENeg (ENum 1)) (ENum 3)) (EPow (EV "gp") 2)) (EEin2 "st,pr" (EC "phiq1") (EV "I3"))) (EMul (EMul (EDiv (ENum 1) (ENum 9)) (EPow (EV "gp") 2))
     (EEin2 "pr,st" (EC "phil1") (EV "I3")))) (EMul (EMul (EDiv (ENum 2) (ENum 9)) (EPow (EV "gp") 2)) (EAdd (EMul (ENum 2) (EEin2 "prww,st" (EC "ll")
     (EV "I3"))) (EEin2 "pwwr,st" (EC "ll") (EV "I3"))))) (EMul (EMul (EDiv (ENum 2) (ENum 9)) (EPow (EV "gp") 2)) (EEin2 "prww,st" (EC "lq1") (EV
     "I3")))) (EMul (EMul (EDiv (ENum 2) (ENum 3)) (EPow (EV "gp") 2)) (EEin2 "wwst,pr" (EC "lq1") (EV "I3")))) (EMul (EMul (EDiv (ENum 2) (ENum 9))
     (EPow (EV "gp") 2)) (EAdd (EAdd (EMul (ENum 6) (EEin2 "stww,pr" (EC "qq1") (EV "I3"))) (EEin2 "swwt,pr" (EC "qq1") (EV "I3"))) (EMul (ENum 3)
     (EEin2 "swwt,pr" (EC "qq3") (EV "I3")))))) (EMul (EMul (EDiv (ENum 2) (ENum 3)) (EPow (EV "gp") 2)) (ESub (ESub (EMul (ENum 2) (EEin2 "stww,pr"
     (EC "qu1") (EV "I3"))) (EEin2 "stww,pr" (EC "qd1") (EV "I3"))) (EEin2 "stww,pr" (EC "qe") (EV "I3"))))) (EMul (EMul (EDiv (ENum 2) (ENum 9))
     (EPow (EV "gp") 2)) (ESub (ESub (EMul (ENum 2) (EEin2 "prww,st" (EC "lu") (EV "I3"))) (EEin2 "prww,st" (EC "ld") (EV "I3"))) (EEin2 "prww,st" (EC
     "le") (EV "I3"))))) (EMul (EPow (EV "gp") 2) (EEin1 "prst" (EC "lq1")))) (EMul (EMul (ENum 9) (EPow (EV "g") 2)) (EEin1 "prst" (EC "lq3"))))
     (EEin2 "pr,st" (EMat (EV "Ge") (ET (EConj (EV "Ge")))) (EC "phiq1"))) (EEin2 "st,pr" (EMat (EV "Gu") (ET (EConj (EV "Gu")))) (EC "phil1")))
     (EEin2 "st,pr" (EMat (EV "Gd") (ET (EConj (EV "Gd")))) (EC "phil1"))) (EMul (EDiv (ENum 1) (ENum 4)) (ESub (EAdd (ESub (EEin3 "tw,rv,pvsw" (EConj
     (EV "Gu")) (EConj (EV "Ge")) (EC "lequ1")) (EMul (ENum 12) (EEin3 "tw,rv,pvsw" (EConj (EV "Gu")) (EConj (EV "Ge")) (EC "lequ3")))) (EEin3
     "sw,pv,rvtw" (EV "Gu") (EV "Ge") (EConj (EC "lequ1")))) (EMul (ENum 12) (EEin3 "sw,pv,rvtw" (EV "Gu") (EV "Ge") (EConj (EC "lequ3"))))))) (EEin3
     "sv,tw,prvw" (EV "Gu") (EConj (EV "Gu")) (EC "lu"))) (EEin3 "sv,tw,prvw" (EV "Gd") (EConj (EV "Gd")) (EC "ld"))) (EEin3 "pv,rw,stvw" (EV "Ge")
     (EConj (EV "Ge")) (EC "qe"))) (EMul (EDiv (ENum 1) (ENum 4)) (EAdd (EEin3 "sw,rv,pvwt" (EV "Gd") (EConj (EV "Ge")) (EC "ledq")) (EEin3
     "pv,tw,rvws" (EV "Ge") (EConj (EV "Gd")) (EConj (EC "ledq")))))) (EEin2 "pv,vrst" (EV "Gammal") (EC "lq1"))) (EEin2 "sv,prvt" (EV "Gammaq") (EC
     "lq1"))) (EEin2 "pvst,vr" (EC "lq1") (EV "Gammal"))) (EEin2 "prsv,vt" (EC "lq1") (EV "Gammaq"))).
(* beta.py:1130-1153 *)
Definition st71 : stmt := SBeta "lq3"
     (EAdd (EAdd (EAdd (EAdd (EAdd (ESub (ESub (ESub (ESub (ESub (EAdd (EAdd (EAdd (EAdd (EMul (EMul (EDiv (ENum 1) (ENum 3)) (EPow (EV "g") 2)) (EAdd
     (EEin2 "st,pr" (EC "phiq3") (EV "I3")) (EEin2 "pr,st" (EC "phil3") (EV "I3")))) (EMul (EMul (EDiv (ENum 2) (ENum 3)) (EPow (EV "g") 2)) (EAdd
     (EMul (ENum 3) (EEin2 "prww,st" (EC "lq3") (EV "I3"))) (EEin2 "wwst,pr" (EC "lq3") (EV "I3"))))) (EMul (EMul (EDiv (ENum 2) (ENum 3)) (EPow (EV
     "g") 2)) (ESub (EAdd (EMul (ENum 6) (EEin2 "stww,pr" (EC "qq3") (EV "I3"))) (EEin2 "swwt,pr" (EC "qq1") (EV "I3"))) (EEin2 "swwt,pr" (EC "qq3")
     (EV "I3"))))) (EMul (EMul (EDiv (ENum 2) (ENum 3)) (EPow (EV "g") 2)) (EEin2 "pwwr,st" (EC "ll") (EV "I3")))) (EMul (EMul (ENum 3) (EPow (EV "g")
     2)) (EEin1 "prst" (EC "lq1")))) (EMul (EAdd (EMul (ENum 6) (EPow (EV "g") 2)) (EPow (EV "gp") 2)) (EEin1 "prst" (EC "lq3")))) (EEin2 "pr,st"
     (EMat (EV "Ge") (ET (EConj (EV "Ge")))) (EC "phiq3"))) (EEin2 "st,pr" (EMat (EV "Gu") (ET (EConj (EV "Gu")))) (EC "phil3"))) (EEin2 "st,pr" (EMat
     (EV "Gd") (ET (EConj (EV "Gd")))) (EC "phil3"))) (EMul (EDiv (ENum 1) (ENum 4)) (ESub (EAdd (ESub (EEin3 "tw,rv,pvsw" (EConj (EV "Gu")) (EConj
     (EV "Ge")) (EC "lequ1")) (EMul (ENum 12) (EEin3 "tw,rv,pvsw" (EConj (EV "Gu")) (EConj (EV "Ge")) (EC "lequ3")))) (EEin3 "sw,pv,rvtw" (EV "Gu")
     (EV "Ge") (EConj (EC "lequ1")))) (EMul (ENum 12) (EEin3 "sw,pv,rvtw" (EV "Gu") (EV "Ge") (EConj (EC "lequ3"))))))) (EMul (EDiv (ENum 1) (ENum 4))
     (EAdd (EEin3 "sw,rv,pvwt" (EV "Gd") (EConj (EV "Ge")) (EC "ledq")) (EEin3 "pv,tw,rvws" (EV "Ge") (EConj (EV "Gd")) (EConj (EC "ledq")))))) (EEin2
     "pv,vrst" (EV "Gammal") (EC "lq3"))) (EEin2 "sv,prvt" (EV "Gammaq") (EC "lq3"))) (EEin2 "pvst,vr" (EC "lq3") (EV "Gammal"))) (EEin2 "prsv,vt" (EC
     "lq3") (EV "Gammaq"))).
(* beta.py:1156-1176 *)
Definition st72 : stmt := SBeta "ee"
     (EAdd (EAdd (EAdd (ESub (EAdd (EAdd (ESub (EAdd (EAdd (ESub (EAdd (EAdd (EMul (EMul (EDiv (ENeg (ENum 1)) (ENum 3)) (EPow (EV "gp") 2)) (EEin2
     "st,pr" (EC "phie") (EV "I3"))) (EMul (EMul (EDiv (ENum 2) (ENum 3)) (EPow (EV "gp") 2)) (EAdd (EAdd (ESub (ESub (EEin2 "wwpr,st" (EC "le") (EV
     "I3")) (EEin2 "wwpr,st" (EC "qe") (EV "I3"))) (EMul (ENum 2) (EEin2 "prww,st" (EC "eu") (EV "I3")))) (EEin2 "prww,st" (EC "ed") (EV "I3"))) (EMul
     (ENum 4) (EEin2 "prww,st" (EC "ee") (EV "I3")))))) (EEin2 "pr,st" (EMat (ET (EConj (EV "Ge"))) (EV "Ge")) (EC "phie"))) (EEin3 "wr,vp,vwst" (EV
     "Ge") (EConj (EV "Ge")) (EC "le"))) (EEin2 "pv,vrst" (EV "Gammae") (EC "ee"))) (EEin2 "pvst,vr" (EC "ee") (EV "Gammae"))) (EMul (EMul (EDiv (ENum
     1) (ENum 3)) (EPow (EV "gp") 2)) (EEin2 "pr,st" (EC "phie") (EV "I3")))) (EMul (EMul (EDiv (ENum 2) (ENum 3)) (EPow (EV "gp") 2)) (EAdd (EAdd
     (ESub (ESub (EEin2 "wwst,pr" (EC "le") (EV "I3")) (EEin2 "wwst,pr" (EC "qe") (EV "I3"))) (EMul (ENum 2) (EEin2 "stww,pr" (EC "eu") (EV "I3"))))
     (EEin2 "stww,pr" (EC "ed") (EV "I3"))) (EMul (ENum 4) (EEin2 "wwst,pr" (EC "ee") (EV "I3")))))) (EEin2 "st,pr" (EMat (ET (EConj (EV "Ge"))) (EV
     "Ge")) (EC "phie"))) (EEin3 "wt,vs,vwpr" (EV "Ge") (EConj (EV "Ge")) (EC "le"))) (EEin2 "sv,vtpr" (EV "Gammae") (EC "ee"))) (EEin2 "svpr,vt" (EC
     "ee") (EV "Gammae"))) (EMul (EMul (ENum 12) (EPow (EV "gp") 2)) (EEin1 "prst" (EC "ee")))).
(* beta.py:1179-1219 *)
Definition st73 : stmt := SBeta "uu"
     (EAdd (EAdd (EAdd (EAdd (ESub (ESub (ESub (ESub (ESub (ESub (EAdd (ESub (ESub (EAdd (EAdd (EAdd (ESub (ESub (ESub (ESub (ESub (ESub (EAdd (ESub
     (ESub (EMul (EMul (EDiv (ENum 2) (ENum 9)) (EPow (EV "gp") 2)) (EEin2 "st,pr" (EC "phiu") (EV "I3"))) (EMul (EMul (EDiv (ENum 4) (ENum 9)) (EPow
     (EV "gp") 2)) (ESub (ESub (ESub (EAdd (EEin2 "wwst,pr" (EC "eu") (EV "I3")) (EEin2 "wwst,pr" (EC "lu") (EV "I3"))) (EEin2 "wwst,pr" (EC "qu1")
     (EV "I3"))) (EMul (ENum 4) (EEin2 "wwst,pr" (EC "uu") (EV "I3")))) (EMul (EDiv (ENum 4) (ENum 3)) (EEin2 "swwt,pr" (EC "uu") (EV "I3")))))) (EMul
     (EMul (EDiv (ENum 1) (ENum 9)) (EPow (EV "gs") 2)) (ESub (EEin2 "wwst,pr" (EC "qu8") (EV "I3")) (EMul (ENum 3) (EEin2 "wwsr,pt" (EC "qu8") (EV
     "I3")))))) (EMul (EMul (EDiv (ENum 2) (ENum 3)) (EPow (EV "gs") 2)) (EEin2 "pwwt,rs" (EC "uu") (EV "I3")))) (EMul (EMul (EDiv (ENum 2) (ENum 9))
     (EPow (EV "gs") 2)) (EEin2 "swwt,pr" (EC "uu") (EV "I3")))) (EMul (EMul (EDiv (ENum 4) (ENum 9)) (EPow (EV "gp") 2)) (EEin2 "stww,pr" (EC "ud1")
     (EV "I3")))) (EMul (EMul (EDiv (ENum 1) (ENum 18)) (EPow (EV "gs") 2)) (ESub (EEin2 "stww,pr" (EC "ud8") (EV "I3")) (EMul (ENum 3) (EEin2
     "srww,pt" (EC "ud8") (EV "I3")))))) (EEin2 "pr,st" (EMat (ET (EConj (EV "Gu"))) (EV "Gu")) (EC "phiu"))) (ESub (EEin3 "wr,vp,vwst" (EV "Gu")
     (EConj (EV "Gu")) (EC "qu1")) (EMul (EDiv (ENum 1) (ENum 6)) (EEin3 "wr,vp,vwst" (EV "Gu") (EConj (EV "Gu")) (EC "qu8"))))) (EMul (EDiv (ENum 1)
     (ENum 2)) (EEin3 "wr,vs,vwpt" (EV "Gu") (EConj (EV "Gu")) (EC "qu8")))) (EEin2 "pv,vrst" (EV "Gammau") (EC "uu"))) (EEin2 "pvst,vr" (EC "uu") (EV
     "Gammau"))) (EMul (EMul (EDiv (ENum 2) (ENum 9)) (EPow (EV "gp") 2)) (EEin2 "pr,st" (EC "phiu") (EV "I3")))) (EMul (EMul (EDiv (ENum 4) (ENum 9))
     (EPow (EV "gp") 2)) (ESub (ESub (ESub (EAdd (EEin2 "wwpr,st" (EC "eu") (EV "I3")) (EEin2 "wwpr,st" (EC "lu") (EV "I3"))) (EEin2 "wwpr,st" (EC
     "qu1") (EV "I3"))) (EMul (ENum 4) (EEin2 "wwpr,st" (EC "uu") (EV "I3")))) (EMul (EDiv (ENum 4) (ENum 3)) (EEin2 "pwwr,st" (EC "uu") (EV
     "I3")))))) (EMul (EMul (EDiv (ENum 1) (ENum 9)) (EPow (EV "gs") 2)) (ESub (EEin2 "wwpr,st" (EC "qu8") (EV "I3")) (EMul (ENum 3) (EEin2 "wwpt,sr"
     (EC "qu8") (EV "I3")))))) (EMul (EMul (EDiv (ENum 2) (ENum 3)) (EPow (EV "gs") 2)) (EEin2 "swwr,tp" (EC "uu") (EV "I3")))) (EMul (EMul (EDiv
     (ENum 2) (ENum 9)) (EPow (EV "gs") 2)) (EEin2 "pwwr,st" (EC "uu") (EV "I3")))) (EMul (EMul (EDiv (ENum 4) (ENum 9)) (EPow (EV "gp") 2)) (EEin2
     "prww,st" (EC "ud1") (EV "I3")))) (EMul (EMul (EDiv (ENum 1) (ENum 18)) (EPow (EV "gs") 2)) (ESub (EEin2 "prww,st" (EC "ud8") (EV "I3")) (EMul
     (ENum 3) (EEin2 "ptww,sr" (EC "ud8") (EV "I3")))))) (EEin2 "st,pr" (EMat (ET (EConj (EV "Gu"))) (EV "Gu")) (EC "phiu"))) (ESub (EEin3
     "wt,vs,vwpr" (EV "Gu") (EConj (EV "Gu")) (EC "qu1")) (EMul (EDiv (ENum 1) (ENum 6)) (EEin3 "wt,vs,vwpr" (EV "Gu") (EConj (EV "Gu")) (EC
     "qu8"))))) (EMul (EDiv (ENum 1) (ENum 2)) (EEin3 "wt,vp,vwsr" (EV "Gu") (EConj (EV "Gu")) (EC "qu8")))) (EEin2 "sv,vtpr" (EV "Gammau") (EC
     "uu"))) (EEin2 "svpr,vt" (EC "uu") (EV "Gammau"))) (EMul (EMul (ENum 2) (ESub (EMul (EDiv (ENum 8) (ENum 3)) (EPow (EV "gp") 2)) (EPow (EV "gs")
     2))) (EEin1 "prst" (EC "uu")))) (EMul (EMul (ENum 6) (EPow (EV "gs") 2)) (EEin1 "ptsr" (EC "uu")))).
(* beta.py:1222-1262 *)
Definition st74 : stmt := SBeta "dd"
     (EAdd (EAdd (EAdd (EAdd (ESub (ESub (EAdd (ESub (ESub (ESub (EAdd (ESub (EAdd (ESub (EAdd (EAdd (ESub (ESub (EAdd (ESub (ESub (ESub (EAdd (ESub
     (EAdd (EMul (EMul (EDiv (ENeg (ENum 1)) (ENum 9)) (EPow (EV "gp") 2)) (EEin2 "st,pr" (EC "phid") (EV "I3"))) (EMul (EMul (EDiv (ENum 2) (ENum 9))
     (EPow (EV "gp") 2)) (EAdd (EAdd (ESub (EAdd (EEin2 "wwst,pr" (EC "ed") (EV "I3")) (EEin2 "wwst,pr" (EC "ld") (EV "I3"))) (EEin2 "wwst,pr" (EC
     "qd1") (EV "I3"))) (EMul (ENum 2) (EEin2 "wwst,pr" (EC "dd") (EV "I3")))) (EMul (EDiv (ENum 2) (ENum 3)) (EEin2 "swwt,pr" (EC "dd") (EV
     "I3")))))) (EMul (EMul (EDiv (ENum 1) (ENum 9)) (EPow (EV "gs") 2)) (ESub (EEin2 "wwst,pr" (EC "qd8") (EV "I3")) (EMul (ENum 3) (EEin2 "wwsr,pt"
     (EC "qd8") (EV "I3")))))) (EMul (EMul (EDiv (ENum 2) (ENum 3)) (EPow (EV "gs") 2)) (EEin2 "pwwt,rs" (EC "dd") (EV "I3")))) (EMul (EMul (EDiv
     (ENum 2) (ENum 9)) (EPow (EV "gs") 2)) (EEin2 "swwt,pr" (EC "dd") (EV "I3")))) (EMul (EMul (EDiv (ENum 4) (ENum 9)) (EPow (EV "gp") 2)) (EEin2
     "wwst,pr" (EC "ud1") (EV "I3")))) (EMul (EMul (EDiv (ENum 1) (ENum 18)) (EPow (EV "gs") 2)) (ESub (EEin2 "wwst,pr" (EC "ud8") (EV "I3")) (EMul
     (ENum 3) (EEin2 "wwsr,pt" (EC "ud8") (EV "I3")))))) (EEin2 "pr,st" (EMat (ET (EConj (EV "Gd"))) (EV "Gd")) (EC "phid"))) (ESub (EEin3
     "wr,vp,vwst" (EV "Gd") (EConj (EV "Gd")) (EC "qd1")) (EMul (EDiv (ENum 1) (ENum 6)) (EEin3 "wr,vp,vwst" (EV "Gd") (EConj (EV "Gd")) (EC
     "qd8"))))) (EMul (EDiv (ENum 1) (ENum 2)) (EEin3 "wr,vs,vwpt" (EV "Gd") (EConj (EV "Gd")) (EC "qd8")))) (EEin2 "pv,vrst" (EV "Gammad") (EC
     "dd"))) (EEin2 "pvst,vr" (EC "dd") (EV "Gammad"))) (EMul (EMul (EDiv (ENum 1) (ENum 9)) (EPow (EV "gp") 2)) (EEin2 "pr,st" (EC "phid") (EV
     "I3")))) (EMul (EMul (EDiv (ENum 2) (ENum 9)) (EPow (EV "gp") 2)) (EAdd (EAdd (ESub (EAdd (EEin2 "wwpr,st" (EC "ed") (EV "I3")) (EEin2 "wwpr,st"
     (EC "ld") (EV "I3"))) (EEin2 "wwpr,st" (EC "qd1") (EV "I3"))) (EMul (ENum 2) (EEin2 "wwpr,st" (EC "dd") (EV "I3")))) (EMul (EDiv (ENum 2) (ENum
     3)) (EEin2 "pwwr,st" (EC "dd") (EV "I3")))))) (EMul (EMul (EDiv (ENum 1) (ENum 9)) (EPow (EV "gs") 2)) (ESub (EEin2 "wwpr,st" (EC "qd8") (EV
     "I3")) (EMul (ENum 3) (EEin2 "wwpt,sr" (EC "qd8") (EV "I3")))))) (EMul (EMul (EDiv (ENum 2) (ENum 3)) (EPow (EV "gs") 2)) (EEin2 "swwr,tp" (EC
     "dd") (EV "I3")))) (EMul (EMul (EDiv (ENum 2) (ENum 9)) (EPow (EV "gs") 2)) (EEin2 "pwwr,st" (EC "dd") (EV "I3")))) (EMul (EMul (EDiv (ENum 4)
     (ENum 9)) (EPow (EV "gp") 2)) (EEin2 "wwpr,st" (EC "ud1") (EV "I3")))) (EMul (EMul (EDiv (ENum 1) (ENum 18)) (EPow (EV "gs") 2)) (ESub (EEin2
     "wwpr,st" (EC "ud8") (EV "I3")) (EMul (ENum 3) (EEin2 "wwpt,sr" (EC "ud8") (EV "I3")))))) (EEin2 "st,pr" (EMat (ET (EConj (EV "Gd"))) (EV "Gd"))
     (EC "phid"))) (ESub (EEin3 "wt,vs,vwpr" (EV "Gd") (EConj (EV "Gd")) (EC "qd1")) (EMul (EDiv (ENum 1) (ENum 6)) (EEin3 "wt,vs,vwpr" (EV "Gd")
     (EConj (EV "Gd")) (EC "qd8"))))) (EMul (EDiv (ENum 1) (ENum 2)) (EEin3 "wt,vp,vwsr" (EV "Gd") (EConj (EV "Gd")) (EC "qd8")))) (EEin2 "sv,vtpr"
     (EV "Gammad") (EC "dd"))) (EEin2 "svpr,vt" (EC "dd") (EV "Gammad"))) (EMul (EMul (ENum 2) (ESub (EMul (EDiv (ENum 2) (ENum 3)) (EPow (EV "gp")
     2)) (EPow (EV "gs") 2))) (EEin1 "prst" (EC "dd")))) (EMul (EMul (ENum 6) (EPow (EV "gs") 2)) (EEin1 "ptsr" (EC "dd")))).
(* beta.py:1264-1289 *)
Definition st75 : stmt := SBeta "eu"
     (EAdd (EAdd (EAdd (EAdd (ESub (ESub (ESub (EAdd (ESub (EAdd (ESub (EAdd (ESub (EAdd (EMul (EMul (EDiv (ENeg (ENum 2)) (ENum 3)) (EPow (EV "gp")
     2)) (EAdd (EAdd (EEin2 "st,pr" (EC "phiu") (EV "I3")) (EMul (ENum 2) (ESub (ESub (EAdd (ESub (EEin2 "wwst,pr" (EC "qu1") (EV "I3")) (EEin2
     "wwst,pr" (EC "lu") (EV "I3"))) (EMul (ENum 4) (EEin2 "wwst,pr" (EC "uu") (EV "I3")))) (EEin2 "wwst,pr" (EC "eu") (EV "I3"))) (EEin2 "stww,pr"
     (EC "ud1") (EV "I3"))))) (EMul (EDiv (ENum 8) (ENum 3)) (EEin2 "swwt,pr" (EC "uu") (EV "I3"))))) (EMul (EMul (EDiv (ENum 4) (ENum 9)) (EPow (EV
     "gp") 2)) (EAdd (EEin2 "pr,st" (EC "phie") (EV "I3")) (EMul (ENum 2) (ESub (EAdd (ESub (ESub (EEin2 "wwpr,st" (EC "qe") (EV "I3")) (EEin2
     "wwpr,st" (EC "le") (EV "I3"))) (EMul (ENum 4) (EEin2 "prww,st" (EC "ee") (EV "I3")))) (EMul (ENum 2) (EEin2 "prww,st" (EC "eu") (EV "I3"))))
     (EEin2 "prww,st" (EC "ed") (EV "I3"))))))) (EMul (EMul (ENum 8) (EPow (EV "gp") 2)) (EEin1 "prst" (EC "eu")))) (EMul (ENum 2) (EEin2 "pr,st"
     (EMat (ET (EConj (EV "Ge"))) (EV "Ge")) (EC "phiu")))) (EMul (ENum 2) (EEin2 "st,pr" (EMat (ET (EConj (EV "Gu"))) (EV "Gu")) (EC "phie"))))
     (EEin3 "vp,ws,vrwt" (EConj (EV "Ge")) (EConj (EV "Gu")) (EC "lequ1"))) (EMul (ENum 12) (EEin3 "vp,ws,vrwt" (EConj (EV "Ge")) (EConj (EV "Gu"))
     (EC "lequ3")))) (EEin3 "vr,wt,vpws" (EV "Ge") (EV "Gu") (EConj (EC "lequ1")))) (EMul (ENum 12) (EEin3 "vr,wt,vpws" (EV "Ge") (EV "Gu") (EConj (EC
     "lequ3"))))) (EMul (ENum 2) (EEin3 "vp,wr,vwst" (EConj (EV "Ge")) (EV "Ge") (EC "lu")))) (EMul (ENum 2) (EEin3 "vs,wt,vwpr" (EConj (EV "Gu")) (EV
     "Gu") (EC "qe")))) (EEin2 "pv,vrst" (EV "Gammae") (EC "eu"))) (EEin2 "sv,prvt" (EV "Gammau") (EC "eu"))) (EEin2 "pvst,vr" (EC "eu") (EV
     "Gammae"))) (EEin2 "prsv,vt" (EC "eu") (EV "Gammau"))).
(* beta.py:1291-1314 *)
Definition st76 : stmt := SBeta "ed"
     (EAdd (EAdd (EAdd (EAdd (EAdd (EAdd (ESub (ESub (EAdd (EAdd (EAdd (ESub (EMul (EMul (EDiv (ENeg (ENum 2)) (ENum 3)) (EPow (EV "gp") 2)) (ESub
     (EAdd (EEin2 "st,pr" (EC "phid") (EV "I3")) (EMul (ENum 2) (EAdd (ESub (ESub (ESub (EEin2 "wwst,pr" (EC "qd1") (EV "I3")) (EEin2 "wwst,pr" (EC
     "ld") (EV "I3"))) (EMul (ENum 2) (EEin2 "wwst,pr" (EC "dd") (EV "I3")))) (EEin2 "wwst,pr" (EC "ed") (EV "I3"))) (EMul (ENum 2) (EEin2 "wwst,pr"
     (EC "ud1") (EV "I3")))))) (EMul (EDiv (ENum 4) (ENum 3)) (EEin2 "swwt,pr" (EC "dd") (EV "I3"))))) (EMul (EMul (EDiv (ENum 2) (ENum 9)) (EPow (EV
     "gp") 2)) (EAdd (EEin2 "pr,st" (EC "phie") (EV "I3")) (EMul (ENum 2) (EAdd (ESub (ESub (ESub (EEin2 "wwpr,st" (EC "qe") (EV "I3")) (EEin2
     "wwpr,st" (EC "le") (EV "I3"))) (EMul (ENum 4) (EEin2 "prww,st" (EC "ee") (EV "I3")))) (EEin2 "prww,st" (EC "ed") (EV "I3"))) (EMul (ENum 2)
     (EEin2 "prww,st" (EC "eu") (EV "I3")))))))) (EMul (EMul (ENum 4) (EPow (EV "gp") 2)) (EEin1 "prst" (EC "ed")))) (EMul (ENum 2) (EEin2 "pr,st"
     (EMat (ET (EConj (EV "Ge"))) (EV "Ge")) (EC "phid")))) (EMul (ENum 2) (EEin2 "st,pr" (EMat (ET (EConj (EV "Gd"))) (EV "Gd")) (EC "phie")))) (EMul
     (ENum 2) (EEin3 "vp,wr,vwst" (EConj (EV "Ge")) (EV "Ge") (EC "ld")))) (EMul (ENum 2) (EEin3 "vs,wt,vwpr" (EConj (EV "Gd")) (EV "Gd") (EC "qe"))))
     (EEin3 "vp,wt,vrsw" (EConj (EV "Ge")) (EV "Gd") (EC "ledq"))) (EEin3 "vr,ws,vptw" (EV "Ge") (EConj (EV "Gd")) (EConj (EC "ledq")))) (EEin2
     "pv,vrst" (EV "Gammae") (EC "ed"))) (EEin2 "sv,prvt" (EV "Gammad") (EC "ed"))) (EEin2 "pvst,vr" (EC "ed") (EV "Gammae"))) (EEin2 "prsv,vt" (EC
     "ed") (EV "Gammad"))).
(* beta.py:1317-1348 *)
Definition st77 : stmt := SBeta "ud1"
     (EAdd (EAdd (EAdd (EAdd (ESub (ESub (ESub (ESub (EAdd (EAdd (EAdd (EAdd (ESub (ESub (ESub (EMul (EMul (EDiv (ENum 4) (ENum 9)) (EPow (EV "gp")
     2)) (ESub (EAdd (EEin2 "st,pr" (EC "phid") (EV "I3")) (EMul (ENum 2) (ESub (EAdd (ESub (ESub (EEin2 "wwst,pr" (EC "qd1") (EV "I3")) (EEin2
     "wwst,pr" (EC "ld") (EV "I3"))) (EMul (ENum 2) (EEin2 "wwst,pr" (EC "dd") (EV "I3")))) (EMul (ENum 2) (EEin2 "wwst,pr" (EC "ud1") (EV "I3"))))
     (EEin2 "wwst,pr" (EC "ed") (EV "I3"))))) (EMul (EDiv (ENum 4) (ENum 3)) (EEin2 "swwt,pr" (EC "dd") (EV "I3"))))) (EMul (EMul (EDiv (ENum 2) (ENum
     9)) (EPow (EV "gp") 2)) (EAdd (EAdd (EEin2 "pr,st" (EC "phiu") (EV "I3")) (EMul (ENum 2) (ESub (ESub (EAdd (ESub (EEin2 "wwpr,st" (EC "qu1") (EV
     "I3")) (EEin2 "wwpr,st" (EC "lu") (EV "I3"))) (EMul (ENum 4) (EEin2 "wwpr,st" (EC "uu") (EV "I3")))) (EEin2 "prww,st" (EC "ud1") (EV "I3")))
     (EEin2 "wwpr,st" (EC "eu") (EV "I3"))))) (EMul (EDiv (ENum 8) (ENum 3)) (EEin2 "pwwr,st" (EC "uu") (EV "I3")))))) (EMul (EDiv (ENum 8) (ENum 3))
     (ESub (EMul (EPow (EV "gp") 2) (EEin1 "prst" (EC "ud1"))) (EMul (EPow (EV "gs") 2) (EEin1 "prst" (EC "ud8")))))) (EMul (ENum 2) (EEin2 "pr,st"
     (EMat (ET (EConj (EV "Gu"))) (EV "Gu")) (EC "phid")))) (EMul (ENum 2) (EEin2 "st,pr" (EMat (ET (EConj (EV "Gd"))) (EV "Gd")) (EC "phiu")))) (EMul
     (EDiv (ENum 2) (ENum 3)) (EEin2 "sr,pt" (EMat (ET (EConj (EV "Gd"))) (EV "Gu")) (EC "phiud")))) (EMul (EDiv (ENum 2) (ENum 3)) (EEin2 "pt,rs"
     (EMat (ET (EConj (EV "Gu"))) (EV "Gd")) (EConj (EC "phiud"))))) (EMul (EDiv (ENum 1) (ENum 3)) (EAdd (EAdd (EAdd (EEin3 "vs,wp,vrwt" (EConj (EV
     "Gd")) (EConj (EV "Gu")) (EC "quqd1")) (EMul (EDiv (ENum 4) (ENum 3)) (EEin3 "vs,wp,vrwt" (EConj (EV "Gd")) (EConj (EV "Gu")) (EC "quqd8"))))
     (EEin3 "vt,wr,vpws" (EV "Gd") (EV "Gu") (EConj (EC "quqd1")))) (EMul (EDiv (ENum 4) (ENum 3)) (EEin3 "vt,wr,vpws" (EV "Gd") (EV "Gu") (EConj (EC
     "quqd8"))))))) (EEin3 "ws,vp,vrwt" (EConj (EV "Gd")) (EConj (EV "Gu")) (EC "quqd1"))) (EEin3 "wt,vr,vpws" (EV "Gd") (EV "Gu") (EConj (EC
     "quqd1")))) (EMul (ENum 2) (EEin3 "vp,wr,vwst" (EConj (EV "Gu")) (EV "Gu") (EC "qd1")))) (EMul (ENum 2) (EEin3 "vs,wt,vwpr" (EConj (EV "Gd")) (EV
     "Gd") (EC "qu1")))) (EEin2 "pv,vrst" (EV "Gammau") (EC "ud1"))) (EEin2 "sv,prvt" (EV "Gammad") (EC "ud1"))) (EEin2 "pvst,vr" (EC "ud1") (EV
     "Gammau"))) (EEin2 "prsv,vt" (EC "ud1") (EV "Gammad"))).
(* beta.py:1351-1373 *)
Definition st78 : stmt := SBeta "ud8"
     (EAdd (EAdd (EAdd (EAdd (ESub (ESub (ESub (EAdd (EAdd (EAdd (EAdd (ESub (EAdd (EAdd (EAdd (EAdd (EAdd (EMul (EMul (EDiv (ENum 8) (ENum 3)) (EPow
     (EV "gs") 2)) (EEin2 "pwwr,st" (EC "uu") (EV "I3"))) (EMul (EMul (EDiv (ENum 8) (ENum 3)) (EPow (EV "gs") 2)) (EEin2 "swwt,pr" (EC "dd") (EV
     "I3")))) (EMul (EMul (EDiv (ENum 4) (ENum 3)) (EPow (EV "gs") 2)) (EEin2 "wwpr,st" (EC "qu8") (EV "I3")))) (EMul (EMul (EDiv (ENum 4) (ENum 3))
     (EPow (EV "gs") 2)) (EEin2 "wwst,pr" (EC "qd8") (EV "I3")))) (EMul (EMul (EDiv (ENum 2) (ENum 3)) (EPow (EV "gs") 2)) (EEin2 "prww,st" (EC "ud8")
     (EV "I3")))) (EMul (EMul (EDiv (ENum 2) (ENum 3)) (EPow (EV "gs") 2)) (EEin2 "wwst,pr" (EC "ud8") (EV "I3")))) (EMul (EMul (ENum 4) (EAdd (EMul
     (EDiv (ENum 2) (ENum 3)) (EPow (EV "gp") 2)) (EPow (EV "gs") 2))) (EEin1 "prst" (EC "ud8")))) (EMul (EMul (ENum 12) (EPow (EV "gs") 2)) (EEin1
     "prst" (EC "ud1")))) (EMul (ENum 4) (EEin2 "sr,pt" (EMat (ET (EConj (EV "Gd"))) (EV "Gu")) (EC "phiud")))) (EMul (ENum 4) (EEin2 "pt,rs" (EMat
     (ET (EConj (EV "Gu"))) (EV "Gd")) (EConj (EC "phiud"))))) (EMul (ENum 2) (ESub (EAdd (ESub (EEin3 "vs,wp,vrwt" (EConj (EV "Gd")) (EConj (EV
     "Gu")) (EC "quqd1")) (EMul (EDiv (ENum 1) (ENum 6)) (EEin3 "vs,wp,vrwt" (EConj (EV "Gd")) (EConj (EV "Gu")) (EC "quqd8")))) (EEin3 "vt,wr,vpws"
     (EV "Gd") (EV "Gu") (EConj (EC "quqd1")))) (EMul (EDiv (ENum 1) (ENum 6)) (EEin3 "vt,wr,vpws" (EV "Gd") (EV "Gu") (EConj (EC "quqd8"))))))) (EMul
     (ENum 2) (EEin3 "vp,wr,vwst" (EConj (EV "Gu")) (EV "Gu") (EC "qd8")))) (EMul (ENum 2) (EEin3 "vs,wt,vwpr" (EConj (EV "Gd")) (EV "Gd") (EC
     "qu8")))) (EAdd (EEin3 "ws,vp,vrwt" (EConj (EV "Gd")) (EConj (EV "Gu")) (EC "quqd8")) (EEin3 "wt,vr,vpws" (EV "Gd") (EV "Gu") (EConj (EC
     "quqd8"))))) (EEin2 "pv,vrst" (EV "Gammau") (EC "ud8"))) (EEin2 "sv,prvt" (EV "Gammad") (EC "ud8"))) (EEin2 "pvst,vr" (EC "ud8") (EV "Gammau")))
     (EEin2 "prsv,vt" (EC "ud8") (EV "Gammad"))).
(* beta.py:1375-1401 *)
Definition st79 : stmt := SBeta "le"
     (EAdd (EAdd (EAdd (EAdd (EAdd (ESub (ESub (EAdd (ESub (EAdd (ESub (EAdd (EAdd (ESub (EAdd (EAdd (ESub (EAdd (ESub (EAdd (EAdd (ESub (ESub (EAdd
     (EAdd (ESub (EMul (EMul (EDiv (ENeg (ENum 1)) (ENum 3)) (EPow (EV "gp") 2)) (EEin2 "st,pr" (EC "phie") (EV "I3"))) (EMul (EMul (EDiv (ENum 2)
     (ENum 3)) (EPow (EV "gp") 2)) (EEin2 "pr,st" (EC "phil1") (EV "I3")))) (EMul (EMul (EDiv (ENum 8) (ENum 3)) (EPow (EV "gp") 2)) (EEin2 "prww,st"
     (EC "ll") (EV "I3")))) (EMul (EMul (EDiv (ENum 4) (ENum 3)) (EPow (EV "gp") 2)) (EEin2 "pwwr,st" (EC "ll") (EV "I3")))) (EMul (EMul (EDiv (ENum
     4) (ENum 3)) (EPow (EV "gp") 2)) (EEin2 "prww,st" (EC "lq1") (EV "I3")))) (EMul (EMul (EDiv (ENum 2) (ENum 3)) (EPow (EV "gp") 2)) (EEin2
     "wwst,pr" (EC "qe") (EV "I3")))) (EMul (EMul (EDiv (ENum 4) (ENum 3)) (EPow (EV "gp") 2)) (EEin2 "prww,st" (EC "le") (EV "I3")))) (EMul (EMul
     (EDiv (ENum 2) (ENum 3)) (EPow (EV "gp") 2)) (EEin2 "wwst,pr" (EC "le") (EV "I3")))) (EMul (EMul (EDiv (ENum 8) (ENum 3)) (EPow (EV "gp") 2))
     (EEin2 "prww,st" (EC "lu") (EV "I3")))) (EMul (EMul (EDiv (ENum 4) (ENum 3)) (EPow (EV "gp") 2)) (EEin2 "prww,st" (EC "ld") (EV "I3")))) (EMul
     (EMul (EDiv (ENum 4) (ENum 3)) (EPow (EV "gp") 2)) (EEin2 "stww,pr" (EC "eu") (EV "I3")))) (EMul (EMul (EDiv (ENum 2) (ENum 3)) (EPow (EV "gp")
     2)) (EEin2 "stww,pr" (EC "ed") (EV "I3")))) (EMul (EMul (EDiv (ENum 8) (ENum 3)) (EPow (EV "gp") 2)) (EEin2 "wwst,pr" (EC "ee") (EV "I3"))))
     (EMul (EMul (ENum 6) (EPow (EV "gp") 2)) (EEin1 "prst" (EC "le")))) (EEin2 "rs,pt" (EConj (EV "Ge")) (EV "Xie"))) (EEin2 "pt,rs" (EV "Ge") (EConj
     (EV "Xie")))) (EEin2 "pr,st" (EMat (EV "Ge") (ET (EConj (EV "Ge")))) (EC "phie"))) (EMul (ENum 2) (EEin2 "st,pr" (EMat (ET (EConj (EV "Ge"))) (EV
     "Ge")) (EC "phil1")))) (EMul (ENum 4) (EEin3 "pv,rw,vtsw" (EV "Ge") (EConj (EV "Ge")) (EC "ee")))) (EEin3 "pw,vs,vrwt" (EV "Ge") (EConj (EV
     "Ge")) (EC "le"))) (EMul (ENum 2) (EEin3 "wt,vs,pwvr" (EV "Ge") (EConj (EV "Ge")) (EC "ll")))) (EMul (ENum 4) (EEin3 "wt,vs,prvw" (EV "Ge")
     (EConj (EV "Ge")) (EC "ll")))) (EEin3 "vt,rw,pvsw" (EV "Ge") (EConj (EV "Ge")) (EC "le"))) (EEin2 "pv,vrst" (EV "Gammal") (EC "le"))) (EEin2
     "sv,prvt" (EV "Gammae") (EC "le"))) (EEin2 "pvst,vr" (EC "le") (EV "Gammal"))) (EEin2 "prsv,vt" (EC "le") (EV "Gammae"))).
(* beta.py:1404-1430 *)
Definition st80 : stmt := SBeta "lu"
     (EAdd (EAdd (EAdd (EAdd (ESub (ESub (ESub (ESub (ESub (ESub (EAdd (ESub (ESub (EAdd (EAdd (ESub (ESub (EAdd (EAdd (ESub (EAdd (ESub (ESub (EAdd
     (EMul (EMul (EDiv (ENeg (ENum 1)) (ENum 3)) (EPow (EV "gp") 2)) (EEin2 "st,pr" (EC "phiu") (EV "I3"))) (EMul (EMul (EDiv (ENum 4) (ENum 9)) (EPow
     (EV "gp") 2)) (EEin2 "pr,st" (EC "phil1") (EV "I3")))) (EMul (EMul (EDiv (ENum 16) (ENum 9)) (EPow (EV "gp") 2)) (EEin2 "prww,st" (EC "ll") (EV
     "I3")))) (EMul (EMul (EDiv (ENum 8) (ENum 9)) (EPow (EV "gp") 2)) (EEin2 "pwwr,st" (EC "ll") (EV "I3")))) (EMul (EMul (EDiv (ENum 8) (ENum 9))
     (EPow (EV "gp") 2)) (EEin2 "prww,st" (EC "lq1") (EV "I3")))) (EMul (EMul (EDiv (ENum 2) (ENum 3)) (EPow (EV "gp") 2)) (EEin2 "wwst,pr" (EC "qu1")
     (EV "I3")))) (EMul (EMul (EDiv (ENum 16) (ENum 9)) (EPow (EV "gp") 2)) (EEin2 "prww,st" (EC "lu") (EV "I3")))) (EMul (EMul (EDiv (ENum 2) (ENum
     3)) (EPow (EV "gp") 2)) (EEin2 "wwst,pr" (EC "lu") (EV "I3")))) (EMul (EMul (EDiv (ENum 8) (ENum 9)) (EPow (EV "gp") 2)) (EEin2 "prww,st" (EC
     "ld") (EV "I3")))) (EMul (EMul (EDiv (ENum 8) (ENum 9)) (EPow (EV "gp") 2)) (EEin2 "prww,st" (EC "le") (EV "I3")))) (EMul (EMul (EDiv (ENum 2)
     (ENum 3)) (EPow (EV "gp") 2)) (EEin2 "stww,pr" (EC "ud1") (EV "I3")))) (EMul (EMul (EDiv (ENum 2) (ENum 3)) (EPow (EV "gp") 2)) (EEin2 "wwst,pr"
     (EC "eu") (EV "I3")))) (EMul (EMul (EDiv (ENum 8) (ENum 3)) (EPow (EV "gp") 2)) (EEin2 "stww,pr" (EC "uu") (EV "I3")))) (EMul (EMul (EDiv (ENum
     8) (ENum 9)) (EPow (EV "gp") 2)) (EEin2 "swwt,pr" (EC "uu") (EV "I3")))) (EMul (EMul (ENum 4) (EPow (EV "gp") 2)) (EEin1 "prst" (EC "lu"))))
     (EEin2 "pr,st" (EMat (EV "Ge") (ET (EConj (EV "Ge")))) (EC "phiu"))) (EMul (ENum 2) (EEin2 "st,pr" (EMat (ET (EConj (EV "Gu"))) (EV "Gu")) (EC
     "phil1")))) (EMul (EDiv (ENum 1) (ENum 2)) (EAdd (EEin3 "rv,ws,pvwt" (EConj (EV "Ge")) (EConj (EV "Gu")) (EC "lequ1")) (EMul (ENum 12) (EEin3
     "rv,ws,pvwt" (EConj (EV "Ge")) (EConj (EV "Gu")) (EC "lequ3")))))) (EMul (EDiv (ENum 1) (ENum 2)) (EAdd (EEin3 "pv,wt,rvws" (EV "Ge") (EV "Gu")
     (EConj (EC "lequ1"))) (EMul (ENum 12) (EEin3 "pv,wt,rvws" (EV "Ge") (EV "Gu") (EConj (EC "lequ3"))))))) (EMul (ENum 2) (EEin3 "vs,wt,prvw" (EConj
     (EV "Gu")) (EV "Gu") (EC "lq1")))) (EEin3 "rw,pv,vwst" (EConj (EV "Ge")) (EV "Ge") (EC "eu"))) (EEin2 "pv,vrst" (EV "Gammal") (EC "lu"))) (EEin2
     "sv,prvt" (EV "Gammau") (EC "lu"))) (EEin2 "pvst,vr" (EC "lu") (EV "Gammal"))) (EEin2 "prsv,vt" (EC "lu") (EV "Gammau"))).
(* beta.py:1432-1456 *)
Definition st81 : stmt := SBeta "ld"
     (EAdd (EAdd (EAdd (EAdd (ESub (ESub (ESub (ESub (EAdd (ESub (ESub (EAdd (EAdd (EAdd (ESub (EAdd (ESub (EAdd (EAdd (ESub (ESub (EAdd (EAdd (ESub
     (EMul (EMul (EDiv (ENeg (ENum 1)) (ENum 3)) (EPow (EV "gp") 2)) (EEin2 "st,pr" (EC "phid") (EV "I3"))) (EMul (EMul (EDiv (ENum 2) (ENum 9)) (EPow
     (EV "gp") 2)) (EEin2 "pr,st" (EC "phil1") (EV "I3")))) (EMul (EMul (EDiv (ENum 8) (ENum 9)) (EPow (EV "gp") 2)) (EEin2 "prww,st" (EC "ll") (EV
     "I3")))) (EMul (EMul (EDiv (ENum 4) (ENum 9)) (EPow (EV "gp") 2)) (EEin2 "pwwr,st" (EC "ll") (EV "I3")))) (EMul (EMul (EDiv (ENum 4) (ENum 9))
     (EPow (EV "gp") 2)) (EEin2 "prww,st" (EC "lq1") (EV "I3")))) (EMul (EMul (EDiv (ENum 2) (ENum 3)) (EPow (EV "gp") 2)) (EEin2 "wwst,pr" (EC "qd1")
     (EV "I3")))) (EMul (EMul (EDiv (ENum 4) (ENum 9)) (EPow (EV "gp") 2)) (EEin2 "prww,st" (EC "ld") (EV "I3")))) (EMul (EMul (EDiv (ENum 2) (ENum
     3)) (EPow (EV "gp") 2)) (EEin2 "wwst,pr" (EC "ld") (EV "I3")))) (EMul (EMul (EDiv (ENum 8) (ENum 9)) (EPow (EV "gp") 2)) (EEin2 "prww,st" (EC
     "lu") (EV "I3")))) (EMul (EMul (EDiv (ENum 4) (ENum 9)) (EPow (EV "gp") 2)) (EEin2 "prww,st" (EC "le") (EV "I3")))) (EMul (EMul (EDiv (ENum 4)
     (ENum 3)) (EPow (EV "gp") 2)) (EEin2 "wwst,pr" (EC "ud1") (EV "I3")))) (EMul (EMul (EDiv (ENum 2) (ENum 3)) (EPow (EV "gp") 2)) (EEin2 "wwst,pr"
     (EC "ed") (EV "I3")))) (EMul (EMul (EDiv (ENum 4) (ENum 3)) (EPow (EV "gp") 2)) (EEin2 "stww,pr" (EC "dd") (EV "I3")))) (EMul (EMul (EDiv (ENum
     4) (ENum 9)) (EPow (EV "gp") 2)) (EEin2 "swwt,pr" (EC "dd") (EV "I3")))) (EMul (EMul (ENum 2) (EPow (EV "gp") 2)) (EEin1 "prst" (EC "ld"))))
     (EEin2 "pr,st" (EMat (EV "Ge") (ET (EConj (EV "Ge")))) (EC "phid"))) (EMul (ENum 2) (EEin2 "st,pr" (EMat (ET (EConj (EV "Gd"))) (EV "Gd")) (EC
     "phil1")))) (EMul (EDiv (ENum 1) (ENum 2)) (EEin3 "rv,wt,pvsw" (EConj (EV "Ge")) (EV "Gd") (EC "ledq")))) (EMul (EDiv (ENum 1) (ENum 2)) (EEin3
     "pv,ws,rvtw" (EV "Ge") (EConj (EV "Gd")) (EConj (EC "ledq"))))) (EMul (ENum 2) (EEin3 "vs,wt,prvw" (EConj (EV "Gd")) (EV "Gd") (EC "lq1"))))
     (EEin3 "rw,pv,vwst" (EConj (EV "Ge")) (EV "Ge") (EC "ed"))) (EEin2 "pv,vrst" (EV "Gammal") (EC "ld"))) (EEin2 "sv,prvt" (EV "Gammad") (EC "ld")))
     (EEin2 "pvst,vr" (EC "ld") (EV "Gammal"))) (EEin2 "prsv,vt" (EC "ld") (EV "Gammad"))).
(* beta.py:1458-1488 *)
Definition st82 : stmt := SBeta "qe"
     (EAdd (EAdd (EAdd (EAdd (ESub (ESub (ESub (ESub (ESub (ESub (ESub (EAdd (ESub (EAdd (EAdd (ESub (ESub (EAdd (EAdd (ESub (EAdd (EAdd (ESub (EAdd
     (ESub (ESub (ESub (EMul (EMul (EDiv (ENum 1) (ENum 9)) (EPow (EV "gp") 2)) (EEin2 "st,pr" (EC "phie") (EV "I3"))) (EMul (EMul (EDiv (ENum 2)
     (ENum 3)) (EPow (EV "gp") 2)) (EEin2 "pr,st" (EC "phiq1") (EV "I3")))) (EMul (EMul (EDiv (ENum 8) (ENum 3)) (EPow (EV "gp") 2)) (EEin2 "prww,st"
     (EC "qq1") (EV "I3")))) (EMul (EMul (EDiv (ENum 4) (ENum 9)) (EPow (EV "gp") 2)) (EAdd (EEin2 "pwwr,st" (EC "qq1") (EV "I3")) (EMul (ENum 3)
     (EEin2 "pwwr,st" (EC "qq3") (EV "I3")))))) (EMul (EMul (EDiv (ENum 4) (ENum 3)) (EPow (EV "gp") 2)) (EEin2 "wwpr,st" (EC "lq1") (EV "I3"))))
     (EMul (EMul (EDiv (ENum 2) (ENum 9)) (EPow (EV "gp") 2)) (EEin2 "wwst,pr" (EC "le") (EV "I3")))) (EMul (EMul (EDiv (ENum 4) (ENum 3)) (EPow (EV
     "gp") 2)) (EEin2 "prww,st" (EC "qe") (EV "I3")))) (EMul (EMul (EDiv (ENum 2) (ENum 9)) (EPow (EV "gp") 2)) (EEin2 "wwst,pr" (EC "qe") (EV
     "I3")))) (EMul (EMul (EDiv (ENum 8) (ENum 3)) (EPow (EV "gp") 2)) (EEin2 "prww,st" (EC "qu1") (EV "I3")))) (EMul (EMul (EDiv (ENum 4) (ENum 3))
     (EPow (EV "gp") 2)) (EEin2 "prww,st" (EC "qd1") (EV "I3")))) (EMul (EMul (EDiv (ENum 4) (ENum 9)) (EPow (EV "gp") 2)) (EEin2 "stww,pr" (EC "eu")
     (EV "I3")))) (EMul (EMul (EDiv (ENum 2) (ENum 9)) (EPow (EV "gp") 2)) (EEin2 "stww,pr" (EC "ed") (EV "I3")))) (EMul (EMul (EDiv (ENum 8) (ENum
     9)) (EPow (EV "gp") 2)) (EEin2 "wwst,pr" (EC "ee") (EV "I3")))) (EMul (EMul (ENum 2) (EPow (EV "gp") 2)) (EEin1 "prst" (EC "qe")))) (EEin2
     "pr,st" (EMat (EV "Gu") (ET (EConj (EV "Gu")))) (EC "phie"))) (EEin2 "pr,st" (EMat (EV "Gd") (ET (EConj (EV "Gd")))) (EC "phie"))) (EMul (ENum 2)
     (EEin2 "st,pr" (EMat (ET (EConj (EV "Ge"))) (EV "Ge")) (EC "phiq1")))) (EMul (EDiv (ENum 1) (ENum 2)) (EEin3 "pw,vs,vtwr" (EV "Gd") (EConj (EV
     "Ge")) (EC "ledq")))) (EMul (EDiv (ENum 1) (ENum 2)) (EEin3 "vt,rw,vswp" (EV "Ge") (EConj (EV "Gd")) (EConj (EC "ledq"))))) (EMul (ENum 2) (EEin3
     "vs,wt,vwpr" (EConj (EV "Ge")) (EV "Ge") (EC "lq1")))) (EMul (EDiv (ENum 1) (ENum 2)) (EAdd (EEin3 "rw,vs,vtpw" (EConj (EV "Gu")) (EConj (EV
     "Ge")) (EC "lequ1")) (EMul (ENum 12) (EEin3 "rw,vs,vtpw" (EConj (EV "Gu")) (EConj (EV "Ge")) (EC "lequ3")))))) (EMul (EDiv (ENum 1) (ENum 2))
     (EAdd (EEin3 "pw,vt,vsrw" (EV "Gu") (EV "Ge") (EConj (EC "lequ1"))) (EMul (ENum 12) (EEin3 "pw,vt,vsrw" (EV "Gu") (EV "Ge") (EConj (EC
     "lequ3"))))))) (EEin3 "rw,pv,stvw" (EConj (EV "Gd")) (EV "Gd") (EC "ed"))) (EEin3 "rw,pv,stvw" (EConj (EV "Gu")) (EV "Gu") (EC "eu"))) (EEin2
     "pv,vrst" (EV "Gammaq") (EC "qe"))) (EEin2 "sv,prvt" (EV "Gammae") (EC "qe"))) (EEin2 "pvst,vr" (EC "qe") (EV "Gammaq"))) (EEin2 "prsv,vt" (EC
     "qe") (EV "Gammae"))).
(* beta.py:1490-1531 *)
Definition st83 : stmt := SBeta "qu1"
     (EAdd (EAdd (EAdd (EAdd (ESub (ESub (ESub (ESub (ESub (EAdd (EAdd (EAdd (EAdd (EAdd (EAdd (ESub (ESub (EAdd (EAdd (EAdd (ESub (ESub (EAdd (EAdd
     (ESub (ESub (ESub (EAdd (EAdd (ESub (ESub (ESub (EAdd (EAdd (EAdd (EMul (EMul (EDiv (ENum 1) (ENum 9)) (EPow (EV "gp") 2)) (EEin2 "st,pr" (EC
     "phiu") (EV "I3"))) (EMul (EMul (EDiv (ENum 4) (ENum 9)) (EPow (EV "gp") 2)) (EEin2 "pr,st" (EC "phiq1") (EV "I3")))) (EMul (EMul (EDiv (ENum 16)
     (ENum 9)) (EPow (EV "gp") 2)) (EEin2 "prww,st" (EC "qq1") (EV "I3")))) (EMul (EMul (EDiv (ENum 8) (ENum 27)) (EPow (EV "gp") 2)) (EAdd (EEin2
     "pwwr,st" (EC "qq1") (EV "I3")) (EMul (ENum 3) (EEin2 "pwwr,st" (EC "qq3") (EV "I3")))))) (EMul (EMul (EDiv (ENum 8) (ENum 9)) (EPow (EV "gp")
     2)) (EEin2 "wwpr,st" (EC "lq1") (EV "I3")))) (EMul (EMul (EDiv (ENum 8) (ENum 9)) (EPow (EV "gp") 2)) (EEin2 "prww,st" (EC "qe") (EV "I3"))))
     (EMul (EMul (EDiv (ENum 8) (ENum 9)) (EPow (EV "gp") 2)) (EEin2 "prww,st" (EC "qd1") (EV "I3")))) (EMul (EMul (EDiv (ENum 16) (ENum 9)) (EPow (EV
     "gp") 2)) (EEin2 "prww,st" (EC "qu1") (EV "I3")))) (EMul (EMul (EDiv (ENum 2) (ENum 9)) (EPow (EV "gp") 2)) (EEin2 "wwst,pr" (EC "qu1") (EV
     "I3")))) (EMul (EMul (EDiv (ENum 2) (ENum 9)) (EPow (EV "gp") 2)) (EEin2 "wwst,pr" (EC "lu") (EV "I3")))) (EMul (EMul (EDiv (ENum 2) (ENum 9))
     (EPow (EV "gp") 2)) (EEin2 "wwst,pr" (EC "eu") (EV "I3")))) (EMul (EMul (EDiv (ENum 2) (ENum 9)) (EPow (EV "gp") 2)) (EEin2 "stww,pr" (EC "ud1")
     (EV "I3")))) (EMul (EMul (EDiv (ENum 8) (ENum 9)) (EPow (EV "gp") 2)) (EEin2 "stww,pr" (EC "uu") (EV "I3")))) (EMul (EMul (EDiv (ENum 8) (ENum
     27)) (EPow (EV "gp") 2)) (EEin2 "swwt,pr" (EC "uu") (EV "I3")))) (EMul (EMul (EDiv (ENum 4) (ENum 3)) (EPow (EV "gp") 2)) (EEin1 "prst" (EC
     "qu1")))) (EMul (EMul (EDiv (ENum 8) (ENum 3)) (EPow (EV "gs") 2)) (EEin1 "prst" (EC "qu8")))) (EMul (EDiv (ENum 1) (ENum 3)) (EEin2 "rs,pt"
     (EConj (EV "Gu")) (EV "Xiu")))) (EMul (EDiv (ENum 1) (ENum 3)) (EEin2 "pt,rs" (EV "Gu") (EConj (EV "Xiu"))))) (EEin2 "pr,st" (EMat (EV "Gu") (ET
     (EConj (EV "Gu")))) (EC "phiu"))) (EEin2 "pr,st" (EMat (EV "Gd") (ET (EConj (EV "Gd")))) (EC "phiu"))) (EMul (ENum 2) (EEin2 "st,pr" (EMat (ET
     (EConj (EV "Gu"))) (EV "Gu")) (EC "phiq1")))) (EMul (EDiv (ENum 1) (ENum 3)) (EAdd (EEin3 "pw,vs,vrwt" (EV "Gu") (EConj (EV "Gu")) (EC "qu1"))
     (EMul (EDiv (ENum 4) (ENum 3)) (EEin3 "pw,vs,vrwt" (EV "Gu") (EConj (EV "Gu")) (EC "qu8")))))) (EMul (EDiv (ENum 1) (ENum 3)) (EAdd (EEin3
     "vt,rw,pvsw" (EV "Gu") (EConj (EV "Gu")) (EC "qu1")) (EMul (EDiv (ENum 4) (ENum 3)) (EEin3 "vt,rw,pvsw" (EV "Gu") (EConj (EV "Gu")) (EC
     "qu8")))))) (EMul (EDiv (ENum 1) (ENum 3)) (EAdd (EEin3 "rw,vs,ptvw" (EConj (EV "Gd")) (EConj (EV "Gu")) (EC "quqd1")) (EMul (EDiv (ENum 4) (ENum
     3)) (EEin3 "rw,vs,ptvw" (EConj (EV "Gd")) (EConj (EV "Gu")) (EC "quqd8")))))) (EMul (EDiv (ENum 1) (ENum 3)) (EAdd (EEin3 "pw,vt,rsvw" (EV "Gd")
     (EV "Gu") (EConj (EC "quqd1"))) (EMul (EDiv (ENum 4) (ENum 3)) (EEin3 "pw,vt,rsvw" (EV "Gd") (EV "Gu") (EConj (EC "quqd8"))))))) (EMul (EDiv
     (ENum 1) (ENum 2)) (EEin3 "rw,vs,vtpw" (EConj (EV "Gd")) (EConj (EV "Gu")) (EC "quqd1")))) (EMul (EDiv (ENum 1) (ENum 2)) (EEin3 "pw,vt,vsrw" (EV
     "Gd") (EV "Gu") (EConj (EC "quqd1"))))) (EMul (EDiv (ENum 2) (ENum 3)) (EAdd (EEin3 "vt,ws,pvwr" (EV "Gu") (EConj (EV "Gu")) (EC "qq1")) (EMul
     (ENum 3) (EEin3 "vt,ws,pvwr" (EV "Gu") (EConj (EV "Gu")) (EC "qq3")))))) (EMul (ENum 4) (EEin3 "wt,vs,prvw" (EV "Gu") (EConj (EV "Gu")) (EC
     "qq1")))) (EMul (EDiv (ENum 2) (ENum 3)) (EEin3 "pv,rw,vtsw" (EV "Gu") (EConj (EV "Gu")) (EC "uu")))) (EMul (ENum 2) (EEin3 "pv,rw,vwst" (EV
     "Gu") (EConj (EV "Gu")) (EC "uu")))) (EEin3 "pv,rw,stvw" (EV "Gd") (EConj (EV "Gd")) (EC "ud1"))) (EEin2 "pv,vrst" (EV "Gammaq") (EC "qu1")))
     (EEin2 "sv,prvt" (EV "Gammau") (EC "qu1"))) (EEin2 "pvst,vr" (EC "qu1") (EV "Gammaq"))) (EEin2 "prsv,vt" (EC "qu1") (EV "Gammau"))).
(* beta.py:1533-1574 *)
Definition st84 : stmt := SBeta "qd1"
     (EAdd (EAdd (EAdd (EAdd (ESub (ESub (ESub (ESub (ESub (EAdd (EAdd (EAdd (EAdd (EAdd (EAdd (EAdd (ESub (EAdd (EAdd (EAdd (ESub (EAdd (ESub (ESub
     (EAdd (ESub (ESub (EAdd (EAdd (ESub (EAdd (EAdd (ESub (ESub (ESub (EMul (EMul (EDiv (ENum 1) (ENum 9)) (EPow (EV "gp") 2)) (EEin2 "st,pr" (EC
     "phid") (EV "I3"))) (EMul (EMul (EDiv (ENum 2) (ENum 9)) (EPow (EV "gp") 2)) (EEin2 "pr,st" (EC "phiq1") (EV "I3")))) (EMul (EMul (EDiv (ENum 8)
     (ENum 9)) (EPow (EV "gp") 2)) (EEin2 "prww,st" (EC "qq1") (EV "I3")))) (EMul (EMul (EDiv (ENum 4) (ENum 27)) (EPow (EV "gp") 2)) (EAdd (EEin2
     "pwwr,st" (EC "qq1") (EV "I3")) (EMul (ENum 3) (EEin2 "pwwr,st" (EC "qq3") (EV "I3")))))) (EMul (EMul (EDiv (ENum 4) (ENum 9)) (EPow (EV "gp")
     2)) (EEin2 "wwpr,st" (EC "lq1") (EV "I3")))) (EMul (EMul (EDiv (ENum 4) (ENum 9)) (EPow (EV "gp") 2)) (EEin2 "prww,st" (EC "qe") (EV "I3"))))
     (EMul (EMul (EDiv (ENum 8) (ENum 9)) (EPow (EV "gp") 2)) (EEin2 "prww,st" (EC "qu1") (EV "I3")))) (EMul (EMul (EDiv (ENum 4) (ENum 9)) (EPow (EV
     "gp") 2)) (EEin2 "prww,st" (EC "qd1") (EV "I3")))) (EMul (EMul (EDiv (ENum 2) (ENum 9)) (EPow (EV "gp") 2)) (EEin2 "wwst,pr" (EC "qd1") (EV
     "I3")))) (EMul (EMul (EDiv (ENum 2) (ENum 9)) (EPow (EV "gp") 2)) (EEin2 "wwst,pr" (EC "ld") (EV "I3")))) (EMul (EMul (EDiv (ENum 2) (ENum 9))
     (EPow (EV "gp") 2)) (EEin2 "wwst,pr" (EC "ed") (EV "I3")))) (EMul (EMul (EDiv (ENum 4) (ENum 9)) (EPow (EV "gp") 2)) (EEin2 "wwst,pr" (EC "ud1")
     (EV "I3")))) (EMul (EMul (EDiv (ENum 4) (ENum 9)) (EPow (EV "gp") 2)) (EEin2 "stww,pr" (EC "dd") (EV "I3")))) (EMul (EMul (EDiv (ENum 4) (ENum
     27)) (EPow (EV "gp") 2)) (EEin2 "swwt,pr" (EC "dd") (EV "I3")))) (EMul (EMul (EDiv (ENum 2) (ENum 3)) (EPow (EV "gp") 2)) (EEin1 "prst" (EC
     "qd1")))) (EMul (EMul (EDiv (ENum 8) (ENum 3)) (EPow (EV "gs") 2)) (EEin1 "prst" (EC "qd8")))) (EMul (EDiv (ENum 1) (ENum 3)) (EEin2 "rs,pt"
     (EConj (EV "Gd")) (EV "Xid")))) (EMul (EDiv (ENum 1) (ENum 3)) (EEin2 "pt,rs" (EV "Gd") (EConj (EV "Xid"))))) (EEin2 "pr,st" (EMat (EV "Gu") (ET
     (EConj (EV "Gu")))) (EC "phid"))) (EEin2 "pr,st" (EMat (EV "Gd") (ET (EConj (EV "Gd")))) (EC "phid"))) (EMul (ENum 2) (EEin2 "st,pr" (EMat (ET
     (EConj (EV "Gd"))) (EV "Gd")) (EC "phiq1")))) (EMul (EDiv (ENum 1) (ENum 3)) (EAdd (EEin3 "pw,vs,vrwt" (EV "Gd") (EConj (EV "Gd")) (EC "qd1"))
     (EMul (EDiv (ENum 4) (ENum 3)) (EEin3 "pw,vs,vrwt" (EV "Gd") (EConj (EV "Gd")) (EC "qd8")))))) (EMul (EDiv (ENum 1) (ENum 3)) (EAdd (EEin3
     "vt,rw,pvsw" (EV "Gd") (EConj (EV "Gd")) (EC "qd1")) (EMul (EDiv (ENum 4) (ENum 3)) (EEin3 "vt,rw,pvsw" (EV "Gd") (EConj (EV "Gd")) (EC
     "qd8")))))) (EMul (EDiv (ENum 1) (ENum 3)) (EAdd (EEin3 "rw,vs,vwpt" (EConj (EV "Gu")) (EConj (EV "Gd")) (EC "quqd1")) (EMul (EDiv (ENum 4) (ENum
     3)) (EEin3 "rw,vs,vwpt" (EConj (EV "Gu")) (EConj (EV "Gd")) (EC "quqd8")))))) (EMul (EDiv (ENum 1) (ENum 3)) (EAdd (EEin3 "pw,vt,vwrs" (EV "Gu")
     (EV "Gd") (EConj (EC "quqd1"))) (EMul (EDiv (ENum 4) (ENum 3)) (EEin3 "pw,vt,vwrs" (EV "Gu") (EV "Gd") (EConj (EC "quqd8"))))))) (EMul (EDiv
     (ENum 1) (ENum 2)) (EEin3 "ws,rv,pvwt" (EConj (EV "Gd")) (EConj (EV "Gu")) (EC "quqd1")))) (EMul (EDiv (ENum 1) (ENum 2)) (EEin3 "pv,wt,rvws" (EV
     "Gu") (EV "Gd") (EConj (EC "quqd1"))))) (EMul (EDiv (ENum 2) (ENum 3)) (EAdd (EEin3 "vt,ws,pvwr" (EV "Gd") (EConj (EV "Gd")) (EC "qq1")) (EMul
     (ENum 3) (EEin3 "vt,ws,pvwr" (EV "Gd") (EConj (EV "Gd")) (EC "qq3")))))) (EMul (ENum 4) (EEin3 "wt,vs,prvw" (EV "Gd") (EConj (EV "Gd")) (EC
     "qq1")))) (EMul (EDiv (ENum 2) (ENum 3)) (EEin3 "pv,rw,vtsw" (EV "Gd") (EConj (EV "Gd")) (EC "dd")))) (EMul (ENum 2) (EEin3 "pv,rw,vwst" (EV
     "Gd") (EConj (EV "Gd")) (EC "dd")))) (EEin3 "pv,rw,vwst" (EV "Gu") (EConj (EV "Gu")) (EC "ud1"))) (EEin2 "pv,vrst" (EV "Gammaq") (EC "qd1")))
     (EEin2 "sv,prvt" (EV "Gammad") (EC "qd1"))) (EEin2 "pvst,vr" (EC "qd1") (EV "Gammaq"))) (EEin2 "prsv,vt" (EC "qd1") (EV "Gammad"))).
(* beta.py:1576-1605 *)
Definition st85 : stmt := SBeta "qu8"
     (EAdd (EAdd (EAdd (EAdd (ESub (ESub (ESub (EAdd (EAdd (EAdd (EAdd (EAdd (EAdd (EAdd (EAdd (ESub (ESub (EAdd (EAdd (EAdd (EAdd (EAdd (EMul (EMul
     (EDiv (ENum 8) (ENum 3)) (EPow (EV "gs") 2)) (EAdd (EEin2 "pwwr,st" (EC "qq1") (EV "I3")) (EMul (ENum 3) (EEin2 "pwwr,st" (EC "qq3") (EV
     "I3"))))) (EMul (EMul (EDiv (ENum 2) (ENum 3)) (EPow (EV "gs") 2)) (EEin2 "prww,st" (EC "qu8") (EV "I3")))) (EMul (EMul (EDiv (ENum 2) (ENum 3))
     (EPow (EV "gs") 2)) (EEin2 "prww,st" (EC "qd8") (EV "I3")))) (EMul (EMul (EDiv (ENum 4) (ENum 3)) (EPow (EV "gs") 2)) (EEin2 "wwst,pr" (EC "qu8")
     (EV "I3")))) (EMul (EMul (EDiv (ENum 2) (ENum 3)) (EPow (EV "gs") 2)) (EEin2 "stww,pr" (EC "ud8") (EV "I3")))) (EMul (EMul (EDiv (ENum 8) (ENum
     3)) (EPow (EV "gs") 2)) (EEin2 "swwt,pr" (EC "uu") (EV "I3")))) (EMul (EAdd (EMul (EDiv (ENum 4) (ENum 3)) (EPow (EV "gp") 2)) (EMul (ENum 14)
     (EPow (EV "gs") 2))) (EEin1 "prst" (EC "qu8")))) (EMul (EMul (ENum 12) (EPow (EV "gs") 2)) (EEin1 "prst" (EC "qu1")))) (EMul (ENum 2) (EEin2
     "rs,pt" (EConj (EV "Gu")) (EV "Xiu")))) (EMul (ENum 2) (EEin2 "pt,rs" (EV "Gu") (EConj (EV "Xiu"))))) (EMul (ENum 2) (ESub (EEin3 "pw,vs,vrwt"
     (EV "Gu") (EConj (EV "Gu")) (EC "qu1")) (EMul (EDiv (ENum 1) (ENum 6)) (EEin3 "pw,vs,vrwt" (EV "Gu") (EConj (EV "Gu")) (EC "qu8")))))) (EMul
     (ENum 2) (ESub (EEin3 "vt,rw,pvsw" (EV "Gu") (EConj (EV "Gu")) (EC "qu1")) (EMul (EDiv (ENum 1) (ENum 6)) (EEin3 "vt,rw,pvsw" (EV "Gu") (EConj
     (EV "Gu")) (EC "qu8")))))) (EMul (ENum 2) (ESub (EEin3 "rw,vs,ptvw" (EConj (EV "Gd")) (EConj (EV "Gu")) (EC "quqd1")) (EMul (EDiv (ENum 1) (ENum
     6)) (EEin3 "rw,vs,ptvw" (EConj (EV "Gd")) (EConj (EV "Gu")) (EC "quqd8")))))) (EMul (ENum 2) (ESub (EEin3 "pw,vt,rsvw" (EV "Gd") (EV "Gu") (EConj
     (EC "quqd1"))) (EMul (EDiv (ENum 1) (ENum 6)) (EEin3 "pw,vt,rsvw" (EV "Gd") (EV "Gu") (EConj (EC "quqd8"))))))) (EMul (EDiv (ENum 1) (ENum 2))
     (EEin3 "vs,rw,vtpw" (EConj (EV "Gu")) (EConj (EV "Gd")) (EC "quqd8")))) (EMul (EDiv (ENum 1) (ENum 2)) (EEin3 "vt,pw,vsrw" (EV "Gu") (EV "Gd")
     (EConj (EC "quqd8"))))) (EMul (ENum 4) (EAdd (EEin3 "vt,ws,pvwr" (EV "Gu") (EConj (EV "Gu")) (EC "qq1")) (EMul (ENum 3) (EEin3 "vt,ws,pvwr" (EV
     "Gu") (EConj (EV "Gu")) (EC "qq3")))))) (EMul (ENum 4) (EEin3 "pv,rw,vtsw" (EV "Gu") (EConj (EV "Gu")) (EC "uu")))) (EEin3 "pv,rw,stvw" (EV "Gd")
     (EConj (EV "Gd")) (EC "ud8"))) (EEin2 "pv,vrst" (EV "Gammaq") (EC "qu8"))) (EEin2 "sv,prvt" (EV "Gammau") (EC "qu8"))) (EEin2 "pvst,vr" (EC
     "qu8") (EV "Gammaq"))) (EEin2 "prsv,vt" (EC "qu8") (EV "Gammau"))).
(* beta.py:1607-1636 *)
Definition st86 : stmt := SBeta "qd8"
     (EAdd (EAdd (EAdd (EAdd (ESub (ESub (ESub (EAdd (EAdd (EAdd (EAdd (EAdd (EAdd (EAdd (EAdd (ESub (ESub (EAdd (EAdd (EAdd (EAdd (EAdd (EMul (EMul
     (EDiv (ENum 8) (ENum 3)) (EPow (EV "gs") 2)) (EAdd (EEin2 "pwwr,st" (EC "qq1") (EV "I3")) (EMul (ENum 3) (EEin2 "pwwr,st" (EC "qq3") (EV
     "I3"))))) (EMul (EMul (EDiv (ENum 2) (ENum 3)) (EPow (EV "gs") 2)) (EEin2 "prww,st" (EC "qu8") (EV "I3")))) (EMul (EMul (EDiv (ENum 2) (ENum 3))
     (EPow (EV "gs") 2)) (EEin2 "prww,st" (EC "qd8") (EV "I3")))) (EMul (EMul (EDiv (ENum 4) (ENum 3)) (EPow (EV "gs") 2)) (EEin2 "wwst,pr" (EC "qd8")
     (EV "I3")))) (EMul (EMul (EDiv (ENum 2) (ENum 3)) (EPow (EV "gs") 2)) (EEin2 "wwst,pr" (EC "ud8") (EV "I3")))) (EMul (EMul (EDiv (ENum 8) (ENum
     3)) (EPow (EV "gs") 2)) (EEin2 "swwt,pr" (EC "dd") (EV "I3")))) (EMul (EAdd (EMul (EDiv (ENeg (ENum 2)) (ENum 3)) (EPow (EV "gp") 2)) (EMul (ENum
     14) (EPow (EV "gs") 2))) (EEin1 "prst" (EC "qd8")))) (EMul (EMul (ENum 12) (EPow (EV "gs") 2)) (EEin1 "prst" (EC "qd1")))) (EMul (ENum 2) (EEin2
     "rs,pt" (EConj (EV "Gd")) (EV "Xid")))) (EMul (ENum 2) (EEin2 "pt,rs" (EV "Gd") (EConj (EV "Xid"))))) (EMul (ENum 2) (ESub (EEin3 "pw,vs,vrwt"
     (EV "Gd") (EConj (EV "Gd")) (EC "qd1")) (EMul (EDiv (ENum 1) (ENum 6)) (EEin3 "pw,vs,vrwt" (EV "Gd") (EConj (EV "Gd")) (EC "qd8")))))) (EMul
     (ENum 2) (ESub (EEin3 "vt,rw,pvsw" (EV "Gd") (EConj (EV "Gd")) (EC "qd1")) (EMul (EDiv (ENum 1) (ENum 6)) (EEin3 "vt,rw,pvsw" (EV "Gd") (EConj
     (EV "Gd")) (EC "qd8")))))) (EMul (ENum 2) (ESub (EEin3 "rw,vs,vwpt" (EConj (EV "Gu")) (EConj (EV "Gd")) (EC "quqd1")) (EMul (EDiv (ENum 1) (ENum
     6)) (EEin3 "rw,vs,vwpt" (EConj (EV "Gu")) (EConj (EV "Gd")) (EC "quqd8")))))) (EMul (ENum 2) (ESub (EEin3 "pw,vt,vwrs" (EV "Gu") (EV "Gd") (EConj
     (EC "quqd1"))) (EMul (EDiv (ENum 1) (ENum 6)) (EEin3 "pw,vt,vwrs" (EV "Gu") (EV "Gd") (EConj (EC "quqd8"))))))) (EMul (EDiv (ENum 1) (ENum 2))
     (EEin3 "vs,rw,pwvt" (EConj (EV "Gd")) (EConj (EV "Gu")) (EC "quqd8")))) (EMul (EDiv (ENum 1) (ENum 2)) (EEin3 "vt,pw,rwvs" (EV "Gd") (EV "Gu")
     (EConj (EC "quqd8"))))) (EMul (ENum 4) (EAdd (EEin3 "vt,ws,pvwr" (EV "Gd") (EConj (EV "Gd")) (EC "qq1")) (EMul (ENum 3) (EEin3 "vt,ws,pvwr" (EV
     "Gd") (EConj (EV "Gd")) (EC "qq3")))))) (EMul (ENum 4) (EEin3 "pv,rw,vtsw" (EV "Gd") (EConj (EV "Gd")) (EC "dd")))) (EEin3 "pv,rw,vwst" (EV "Gu")
     (EConj (EV "Gu")) (EC "ud8"))) (EEin2 "pv,vrst" (EV "Gammaq") (EC "qd8"))) (EEin2 "sv,prvt" (EV "Gammad") (EC "qd8"))) (EEin2 "pvst,vr" (EC
     "qd8") (EV "Gammaq"))) (EEin2 "prsv,vt" (EC "qd8") (EV "Gammad"))).
(* beta.py:1638-1651 *)
Definition st87 : stmt := SBeta "ledq"
     (EAdd (EAdd (EAdd (EAdd (EAdd (ESub (EAdd (EAdd (ESub (EAdd (ESub (ESub (EMul (ENeg (EAdd (EMul (EDiv (ENum 8) (ENum 3)) (EPow (EV "gp") 2))
     (EMul (ENum 8) (EPow (EV "gs") 2)))) (EEin1 "prst" (EC "ledq"))) (EMul (ENum 2) (EEin2 "ts,pr" (EConj (EV "Gd")) (EV "Xie")))) (EMul (ENum 2)
     (EEin2 "pr,ts" (EV "Ge") (EConj (EV "Xid"))))) (EMul (ENum 2) (EEin3 "pv,tw,vrsw" (EV "Ge") (EConj (EV "Gd")) (EC "ed")))) (EMul (ENum 2) (EEin3
     "vr,tw,pvsw" (EV "Ge") (EConj (EV "Gd")) (EC "ld")))) (EMul (ENum 2) (EEin3 "vr,ws,pvwt" (EV "Ge") (EConj (EV "Gd")) (EC "lq1")))) (EMul (ENum 6)
     (EEin3 "vr,ws,pvwt" (EV "Ge") (EConj (EV "Gd")) (EC "lq3")))) (EMul (ENum 2) (EEin3 "pw,vs,vtwr" (EV "Ge") (EConj (EV "Gd")) (EC "qe")))) (EMul
     (ENum 2) (EEin3 "vs,tw,prvw" (EConj (EV "Gd")) (EConj (EV "Gu")) (EC "lequ1")))) (EEin2 "pv,vrst" (EV "Gammal") (EC "ledq"))) (EEin2 "sv,prvt"
     (EV "Gammad") (EC "ledq"))) (EEin2 "pvst,vr" (EC "ledq") (EV "Gammae"))) (EEin2 "prsv,vt" (EC "ledq") (EV "Gammaq"))).
(* beta.py:1653-1683 *)
Definition st88 : stmt := SBeta "quqd1"
     (EAdd (EAdd (EAdd (EAdd (ESub (EAdd (EAdd (ESub (ESub (EAdd (ESub (ESub (ESub (ESub (EAdd (EAdd (ESub (ESub (ESub (EAdd (ESub (ESub (EMul (EMul
     (EDiv (ENum 10) (ENum 3)) (EV "gp")) (EEin2 "st,pr" (EC "dB") (EV "Gu"))) (EMul (EMul (ENum 6) (EV "g")) (EEin2 "st,pr" (EC "dW") (EV "Gu"))))
     (EMul (EMul (EDiv (ENum 20) (ENum 9)) (EV "gp")) (EEin2 "pt,sr" (EC "dB") (EV "Gu")))) (EMul (EMul (ENum 4) (EV "g")) (EEin2 "pt,sr" (EC "dW")
     (EV "Gu")))) (EMul (EMul (EDiv (ENum 64) (ENum 9)) (EV "gs")) (EEin2 "pt,sr" (EC "dG") (EV "Gu")))) (EMul (EMul (EDiv (ENum 2) (ENum 3)) (EV
     "gp")) (EEin2 "pr,st" (EC "uB") (EV "Gd")))) (EMul (EMul (ENum 6) (EV "g")) (EEin2 "pr,st" (EC "uW") (EV "Gd")))) (EMul (EMul (EDiv (ENum 4)
     (ENum 9)) (EV "gp")) (EEin2 "sr,pt" (EC "uB") (EV "Gd")))) (EMul (EMul (ENum 4) (EV "g")) (EEin2 "sr,pt" (EC "uW") (EV "Gd")))) (EMul (EMul (EDiv
     (ENum 64) (ENum 9)) (EV "gs")) (EEin2 "sr,pt" (EC "uG") (EV "Gd")))) (EMul (EMul (EDiv (ENum 1) (ENum 2)) (EAdd (EAdd (EMul (EDiv (ENum 11) (ENum
     9)) (EPow (EV "gp") 2)) (EMul (ENum 3) (EPow (EV "g") 2))) (EMul (ENum 32) (EPow (EV "gs") 2)))) (EEin1 "prst" (EC "quqd1")))) (EMul (EMul (EDiv
     (ENum 1) (ENum 3)) (EAdd (ESub (EMul (EDiv (ENeg (ENum 5)) (ENum 9)) (EPow (EV "gp") 2)) (EMul (ENum 3) (EPow (EV "g") 2))) (EMul (EDiv (ENum 64)
     (ENum 3)) (EPow (EV "gs") 2)))) (EEin1 "srpt" (EC "quqd1")))) (EMul (EMul (EDiv (ENum 4) (ENum 9)) (EAdd (ESub (EMul (EDiv (ENeg (ENum 5)) (ENum
     9)) (EPow (EV "gp") 2)) (EMul (ENum 3) (EPow (EV "g") 2))) (EMul (EDiv (ENum 28) (ENum 3)) (EPow (EV "gs") 2)))) (EEin1 "srpt" (EC "quqd8"))))
     (EMul (EMul (EDiv (ENum 16) (ENum 9)) (EPow (EV "gs") 2)) (EEin1 "prst" (EC "quqd8")))) (EMul (ENum 2) (EEin2 "pr,st" (EV "Gu") (EV "Xid"))))
     (EMul (ENum 2) (EEin2 "st,pr" (EV "Gd") (EV "Xiu")))) (EMul (EDiv (ENum 4) (ENum 3)) (EAdd (EAdd (EAdd (EAdd (EAdd (EEin3 "vr,pw,svwt" (EV "Gu")
     (EV "Gd") (EC "qd1")) (EMul (EDiv (ENum 4) (ENum 3)) (EEin3 "vr,pw,svwt" (EV "Gu") (EV "Gd") (EC "qd8")))) (EEin3 "vt,sw,pvwr" (EV "Gd") (EV
     "Gu") (EC "qu1"))) (EMul (EDiv (ENum 4) (ENum 3)) (EEin3 "vt,sw,pvwr" (EV "Gd") (EV "Gu") (EC "qu8")))) (EEin3 "pw,sv,vrwt" (EV "Gd") (EV "Gu")
     (EC "ud1"))) (EMul (EDiv (ENum 4) (ENum 3)) (EEin3 "pw,sv,vrwt" (EV "Gd") (EV "Gu") (EC "ud8")))))) (EMul (EDiv (ENum 8) (ENum 3)) (EAdd (ESub
     (ESub (EEin3 "wt,vr,svpw" (EV "Gd") (EV "Gu") (EC "qq1")) (EMul (ENum 3) (EEin3 "wt,vr,svpw" (EV "Gd") (EV "Gu") (EC "qq3")))) (EMul (ENum 3)
     (EEin3 "wt,vr,swpv" (EV "Gd") (EV "Gu") (EC "qq1")))) (EMul (ENum 9) (EEin3 "wt,vr,swpv" (EV "Gd") (EV "Gu") (EC "qq3")))))) (EMul (ENum 4)
     (EEin3 "sw,pv,vrwt" (EV "Gd") (EV "Gu") (EC "ud1")))) (EEin2 "pv,vrst" (EV "Gammaq") (EC "quqd1"))) (EEin2 "sv,prvt" (EV "Gammaq") (EC "quqd1")))
     (EEin2 "pvst,vr" (EC "quqd1") (EV "Gammau"))) (EEin2 "prsv,vt" (EC "quqd1") (EV "Gammad"))).
(* beta.py:1685-1710 *)
Definition st89 : stmt := SBeta "quqd8"
     (EAdd (EAdd (EAdd (EAdd (ESub (EAdd (EAdd (ESub (EAdd (EAdd (EAdd (EAdd (EAdd (EAdd (EAdd (EAdd (EAdd (ESub (EMul (EMul (ENum 8) (EV "gs"))
     (EEin2 "st,pr" (EC "dG") (EV "Gu"))) (EMul (EMul (EDiv (ENum 40) (ENum 3)) (EV "gp")) (EEin2 "pt,sr" (EC "dB") (EV "Gu")))) (EMul (EMul (ENum 24)
     (EV "g")) (EEin2 "pt,sr" (EC "dW") (EV "Gu")))) (EMul (EMul (EDiv (ENum 16) (ENum 3)) (EV "gs")) (EEin2 "pt,sr" (EC "dG") (EV "Gu")))) (EMul
     (EMul (ENum 8) (EV "gs")) (EEin2 "pr,st" (EC "uG") (EV "Gd")))) (EMul (EMul (EDiv (ENum 8) (ENum 3)) (EV "gp")) (EEin2 "sr,pt" (EC "uB") (EV
     "Gd")))) (EMul (EMul (ENum 24) (EV "g")) (EEin2 "sr,pt" (EC "uW") (EV "Gd")))) (EMul (EMul (EDiv (ENum 16) (ENum 3)) (EV "gs")) (EEin2 "sr,pt"
     (EC "uG") (EV "Gd")))) (EMul (EMul (ENum 8) (EPow (EV "gs") 2)) (EEin1 "prst" (EC "quqd1")))) (EMul (EAdd (EAdd (EMul (EDiv (ENum 10) (ENum 9))
     (EPow (EV "gp") 2)) (EMul (ENum 6) (EPow (EV "g") 2))) (EMul (EDiv (ENum 16) (ENum 3)) (EPow (EV "gs") 2))) (EEin1 "srpt" (EC "quqd1")))) (EMul
     (EAdd (ESub (EMul (EDiv (ENeg (ENum 11)) (ENum 18)) (EPow (EV "gp") 2)) (EMul (EDiv (ENum 3) (ENum 2)) (EPow (EV "g") 2))) (EMul (EDiv (ENum 16)
     (ENum 3)) (EPow (EV "gs") 2))) (EEin1 "prst" (EC "quqd8")))) (EMul (EMul (EDiv (ENum 1) (ENum 3)) (EAdd (EAdd (EMul (EDiv (ENum 5) (ENum 9))
     (EPow (EV "gp") 2)) (EMul (ENum 3) (EPow (EV "g") 2))) (EMul (EDiv (ENum 44) (ENum 3)) (EPow (EV "gs") 2)))) (EEin1 "srpt" (EC "quqd8")))) (EMul
     (ENum 8) (ESub (EAdd (ESub (EAdd (ESub (EEin3 "vr,pw,svwt" (EV "Gu") (EV "Gd") (EC "qd1")) (EMul (EDiv (ENum 1) (ENum 6)) (EEin3 "vr,pw,svwt" (EV
     "Gu") (EV "Gd") (EC "qd8")))) (EEin3 "vt,sw,pvwr" (EV "Gd") (EV "Gu") (EC "qu1"))) (EMul (EDiv (ENum 1) (ENum 6)) (EEin3 "vt,sw,pvwr" (EV "Gd")
     (EV "Gu") (EC "qu8")))) (EEin3 "pw,sv,vrwt" (EV "Gd") (EV "Gu") (EC "ud1"))) (EMul (EDiv (ENum 1) (ENum 6)) (EEin3 "pw,sv,vrwt" (EV "Gd") (EV
     "Gu") (EC "ud8")))))) (EMul (ENum 16) (ESub (EEin3 "wt,vr,svpw" (EV "Gd") (EV "Gu") (EC "qq1")) (EMul (ENum 3) (EEin3 "wt,vr,svpw" (EV "Gd") (EV
     "Gu") (EC "qq3")))))) (EMul (ENum 4) (EEin3 "sw,pv,vrwt" (EV "Gd") (EV "Gu") (EC "ud8")))) (EEin2 "pv,vrst" (EV "Gammaq") (EC "quqd8"))) (EEin2
     "sv,prvt" (EV "Gammaq") (EC "quqd8"))) (EEin2 "pvst,vr" (EC "quqd8") (EV "Gammau"))) (EEin2 "prsv,vt" (EC "quqd8") (EV "Gammad"))).
(* beta.py:1712-1725 *)
Definition st90 : stmt := SBeta "lequ1"
     (EAdd (EAdd (EAdd (EAdd (ESub (ESub (ESub (EAdd (EAdd (EAdd (EAdd (EAdd (EAdd (EMul (ENeg (EAdd (EMul (EDiv (ENum 11) (ENum 3)) (EPow (EV "gp")
     2)) (EMul (ENum 8) (EPow (EV "gs") 2)))) (EEin1 "prst" (EC "lequ1"))) (EMul (EAdd (EMul (ENum 30) (EPow (EV "gp") 2)) (EMul (ENum 18) (EPow (EV
     "g") 2))) (EEin1 "prst" (EC "lequ3")))) (EMul (ENum 2) (EEin2 "st,pr" (EV "Gu") (EV "Xie")))) (EMul (ENum 2) (EEin2 "pr,st" (EV "Ge") (EV
     "Xiu")))) (EMul (ENum 2) (EEin3 "sv,wt,prvw" (EV "Gd") (EV "Gu") (EC "ledq")))) (EMul (ENum 2) (EEin3 "pv,sw,vrwt" (EV "Ge") (EV "Gu") (EC
     "eu")))) (EMul (ENum 2) (EEin3 "vr,wt,pvsw" (EV "Ge") (EV "Gu") (EC "lq1")))) (EMul (ENum 6) (EEin3 "vr,wt,pvsw" (EV "Ge") (EV "Gu") (EC
     "lq3")))) (EMul (ENum 2) (EEin3 "vr,sw,pvwt" (EV "Ge") (EV "Gu") (EC "lu")))) (EMul (ENum 2) (EEin3 "pw,vt,svwr" (EV "Ge") (EV "Gu") (EC "qe"))))
     (EEin2 "pv,vrst" (EV "Gammal") (EC "lequ1"))) (EEin2 "sv,prvt" (EV "Gammaq") (EC "lequ1"))) (EEin2 "pvst,vr" (EC "lequ1") (EV "Gammae"))) (EEin2
     "prsv,vt" (EC "lequ1") (EV "Gammau"))).
(* beta.py:1727-1741 *)
Definition st91 : stmt := SBeta "lequ3"
     (EAdd (EAdd (EAdd (EAdd (ESub (ESub (EAdd (ESub (ESub (EAdd (EAdd (ESub (ESub (ESub (EMul (EMul (EDiv (ENum 5) (ENum 6)) (EV "gp")) (EEin2
     "pr,st" (EC "eB") (EV "Gu"))) (EMul (EMul (EDiv (ENum 3) (ENum 2)) (EV "g")) (EEin2 "st,pr" (EC "uW") (EV "Ge")))) (EMul (EMul (EDiv (ENum 3)
     (ENum 2)) (EV "gp")) (EEin2 "st,pr" (EC "uB") (EV "Ge")))) (EMul (EMul (EDiv (ENum 3) (ENum 2)) (EV "g")) (EEin2 "pr,st" (EC "eW") (EV "Gu"))))
     (EMul (EAdd (ESub (EMul (EDiv (ENum 2) (ENum 9)) (EPow (EV "gp") 2)) (EMul (ENum 3) (EPow (EV "g") 2))) (EMul (EDiv (ENum 8) (ENum 3)) (EPow (EV
     "gs") 2))) (EEin1 "prst" (EC "lequ3")))) (EMul (EMul (EDiv (ENum 1) (ENum 8)) (EAdd (EMul (ENum 5) (EPow (EV "gp") 2)) (EMul (ENum 3) (EPow (EV
     "g") 2)))) (EEin1 "prst" (EC "lequ1")))) (EMul (EDiv (ENum 1) (ENum 2)) (EEin3 "sw,pv,vrwt" (EV "Gu") (EV "Ge") (EC "eu")))) (EMul (EDiv (ENum 1)
     (ENum 2)) (EEin3 "vr,wt,pvsw" (EV "Ge") (EV "Gu") (EC "lq1")))) (EMul (EDiv (ENum 3) (ENum 2)) (EEin3 "vr,wt,pvsw" (EV "Ge") (EV "Gu") (EC
     "lq3")))) (EMul (EDiv (ENum 1) (ENum 2)) (EEin3 "vr,sw,pvwt" (EV "Ge") (EV "Gu") (EC "lu")))) (EMul (EDiv (ENum 1) (ENum 2)) (EEin3 "pw,vt,svwr"
     (EV "Ge") (EV "Gu") (EC "qe")))) (EEin2 "pv,vrst" (EV "Gammal") (EC "lequ3"))) (EEin2 "sv,prvt" (EV "Gammaq") (EC "lequ3"))) (EEin2 "pvst,vr" (EC
     "lequ3") (EV "Gammae"))) (EEin2 "prsv,vt" (EC "lequ3") (EV "Gammau"))).
(* beta.py:1743-1759 *)
Definition st92 : stmt := SBeta "duql"
     (EAdd (EAdd (EAdd (EAdd (EAdd (ESub (ESub (EAdd (EAdd (EAdd (EAdd (ESub (ESub (EMul (ENeg (EAdd (EAdd (EMul (EDiv (ENum 9) (ENum 2)) (EPow (EV
     "g") 2)) (EMul (EDiv (ENum 11) (ENum 6)) (EPow (EV "gp") 2))) (EMul (ENum 4) (EPow (EV "gs") 2)))) (EEin1 "prst" (EC "duql"))) (EEin3
     "sv,wp,vrwt" (EConj (EV "Gd")) (EV "Gd") (EC "duql"))) (EEin3 "sv,wr,pvwt" (EConj (EV "Gu")) (EV "Gu") (EC "duql"))) (EMul (ENum 2) (EEin3
     "tv,sw,prwv" (EConj (EV "Ge")) (EConj (EV "Gu")) (EC "duue")))) (EEin3 "tv,sw,pwrv" (EConj (EV "Ge")) (EConj (EV "Gu")) (EC "duue"))) (EMul (ENum
     4) (EEin3 "vp,wr,vwst" (EV "Gd") (EV "Gu") (EC "qqql")))) (EMul (ENum 4) (EEin3 "vp,wr,wvst" (EV "Gd") (EV "Gu") (EC "qqql")))) (EEin3
     "vp,wr,vswt" (EV "Gd") (EV "Gu") (EC "qqql"))) (EEin3 "vp,wr,wsvt" (EV "Gd") (EV "Gu") (EC "qqql"))) (EMul (ENum 2) (EEin3 "wp,tv,wsrv" (EV "Gd")
     (EConj (EV "Ge")) (EC "qque")))) (EEin2 "vp,vrst" (EMat (ET (EConj (EV "Gd"))) (EV "Gd")) (EC "duql"))) (EEin2 "vr,pvst" (EMat (ET (EConj (EV
     "Gu"))) (EV "Gu")) (EC "duql"))) (EMul (EDiv (ENum 1) (ENum 2)) (EAdd (EEin2 "vs,prvt" (EMat (EV "Gu") (ET (EConj (EV "Gu")))) (EC "duql"))
     (EEin2 "vs,prvt" (EMat (EV "Gd") (ET (EConj (EV "Gd")))) (EC "duql"))))) (EMul (EDiv (ENum 1) (ENum 2)) (EEin2 "vt,prsv" (EMat (EV "Ge") (ET
     (EConj (EV "Ge")))) (EC "duql")))).
(* beta.py:1761-1784 *)
Definition st93 : stmt := SBeta "qque"
     (EAdd (EAdd (EAdd (EAdd (ESub (EAdd (ESub (EAdd (EAdd (ESub (EAdd (ESub (EMul (ENeg (EAdd (EAdd (EMul (EDiv (ENum 9) (ENum 2)) (EPow (EV "g") 2))
     (EMul (EDiv (ENum 23) (ENum 6)) (EPow (EV "gp") 2))) (EMul (ENum 4) (EPow (EV "gs") 2)))) (EEin1 "prst" (EC "qque"))) (EEin3 "rv,ws,pwvt" (EConj
     (EV "Gu")) (EV "Gu") (EC "qque"))) (EMul (EDiv (ENum 1) (ENum 2)) (EEin3 "wt,rv,vspw" (EV "Ge") (EConj (EV "Gd")) (EC "duql")))) (EMul (EDiv
     (ENum 1) (ENum 2)) (EAdd (EMul (ENum 2) (EEin3 "pv,rw,vwst" (EConj (EV "Gd")) (EConj (EV "Gu")) (EC "duue"))) (EEin3 "pv,rw,vswt" (EConj (EV
     "Gd")) (EConj (EV "Gu")) (EC "duue"))))) (EMul (EDiv (ENum 1) (ENum 2)) (ESub (EAdd (EMul (ENeg (ENum 2)) (EEin3 "ws,vt,prwv" (EV "Gu") (EV "Ge")
     (EC "qqql"))) (EEin3 "ws,vt,pwrv" (EV "Gu") (EV "Ge") (EC "qqql"))) (EMul (ENum 2) (EEin3 "ws,vt,wprv" (EV "Gu") (EV "Ge") (EC "qqql")))))) (EMul
     (EDiv (ENum 1) (ENum 2)) (EAdd (EEin2 "vp,vrst" (EMat (EV "Gu") (ET (EConj (EV "Gu")))) (EC "qque")) (EEin2 "vp,vrst" (EMat (EV "Gd") (ET (EConj
     (EV "Gd")))) (EC "qque"))))) (EEin3 "pv,ws,rwvt" (EConj (EV "Gu")) (EV "Gu") (EC "qque"))) (EMul (EDiv (ENum 1) (ENum 2)) (EEin3 "wt,pv,vsrw" (EV
     "Ge") (EConj (EV "Gd")) (EC "duql")))) (EMul (EDiv (ENum 1) (ENum 2)) (EAdd (EMul (ENum 2) (EEin3 "rv,pw,vwst" (EConj (EV "Gd")) (EConj (EV
     "Gu")) (EC "duue"))) (EEin3 "rv,pw,vswt" (EConj (EV "Gd")) (EConj (EV "Gu")) (EC "duue"))))) (EMul (EDiv (ENum 1) (ENum 2)) (ESub (EAdd (EMul
     (ENeg (ENum 2)) (EEin3 "ws,vt,rpwv" (EV "Gu") (EV "Ge") (EC "qqql"))) (EEin3 "ws,vt,rwpv" (EV "Gu") (EV "Ge") (EC "qqql"))) (EMul (ENum 2) (EEin3
     "ws,vt,wrpv" (EV "Gu") (EV "Ge") (EC "qqql")))))) (EMul (EDiv (ENum 1) (ENum 2)) (EAdd (EEin2 "vr,vpst" (EMat (EV "Gu") (ET (EConj (EV "Gu"))))
     (EC "qque")) (EEin2 "vr,vpst" (EMat (EV "Gd") (ET (EConj (EV "Gd")))) (EC "qque"))))) (EEin2 "vs,prvt" (EMat (ET (EConj (EV "Gu"))) (EV "Gu"))
     (EC "qque"))) (EEin2 "vt,prsv" (EMat (ET (EConj (EV "Ge"))) (EV "Ge")) (EC "qque"))).
(* beta.py:1786-1800 *)
Definition st94 : stmt := SBeta "qqql"
     (EAdd (EAdd (EAdd (EAdd (EAdd (ESub (ESub (EMul (ENeg (EAdd (EAdd (EMul (ENum 3) (EPow (EV "g") 2)) (EMul (EDiv (ENum 1) (ENum 3)) (EPow (EV
     "gp") 2))) (EMul (ENum 4) (EPow (EV "gs") 2)))) (EEin1 "prst" (EC "qqql"))) (EMul (EMul (ENum 4) (EPow (EV "g") 2)) (EAdd (EAdd (EEin1 "rpst" (EC
     "qqql")) (EEin1 "srpt" (EC "qqql"))) (EEin1 "psrt" (EC "qqql"))))) (EMul (ENum 4) (EEin3 "tv,sw,prwv" (EConj (EV "Ge")) (EConj (EV "Gu")) (EC
     "qque")))) (EMul (ENum 2) (EAdd (EEin3 "pv,rw,vwst" (EConj (EV "Gd")) (EConj (EV "Gu")) (EC "duql")) (EEin3 "rv,pw,vwst" (EConj (EV "Gd")) (EConj
     (EV "Gu")) (EC "duql"))))) (EMul (EDiv (ENum 1) (ENum 2)) (EAdd (EEin2 "vp,vrst" (EMat (EV "Gu") (ET (EConj (EV "Gu")))) (EC "qqql")) (EEin2
     "vp,vrst" (EMat (EV "Gd") (ET (EConj (EV "Gd")))) (EC "qqql"))))) (EMul (EDiv (ENum 1) (ENum 2)) (EAdd (EEin2 "vr,pvst" (EMat (EV "Gu") (ET
     (EConj (EV "Gu")))) (EC "qqql")) (EEin2 "vr,pvst" (EMat (EV "Gd") (ET (EConj (EV "Gd")))) (EC "qqql"))))) (EMul (EDiv (ENum 1) (ENum 2)) (EAdd
     (EEin2 "vs,prvt" (EMat (EV "Gu") (ET (EConj (EV "Gu")))) (EC "qqql")) (EEin2 "vs,prvt" (EMat (EV "Gd") (ET (EConj (EV "Gd")))) (EC "qqql")))))
     (EMul (EDiv (ENum 1) (ENum 2)) (EEin2 "vt,prsv" (EMat (EV "Ge") (ET (EConj (EV "Ge")))) (EC "qqql")))).
(* beta.py:1802-1809 *)
Definition st95 : stmt := SBeta "duue"
     (EAdd (EAdd (EAdd (EAdd (ESub (EAdd (ESub (EMul (ENeg (EAdd (EMul (ENum 2) (EPow (EV "gp") 2)) (EMul (ENum 4) (EPow (EV "gs") 2)))) (EEin1 "prst"
     (EC "duue"))) (EMul (EMul (EDiv (ENum 20) (ENum 3)) (EPow (EV "gp") 2)) (EEin1 "psrt" (EC "duue")))) (EMul (ENum 4) (EEin3 "ws,vt,prwv" (EV "Gu")
     (EV "Ge") (EC "duql")))) (EMul (ENum 8) (EEin3 "vp,wr,vwst" (EV "Gd") (EV "Gu") (EC "qque")))) (EEin2 "vp,vrst" (EMat (ET (EConj (EV "Gd"))) (EV
     "Gd")) (EC "duue"))) (EEin2 "vr,pvst" (EMat (ET (EConj (EV "Gu"))) (EV "Gu")) (EC "duue"))) (EEin2 "vs,prvt" (EMat (ET (EConj (EV "Gu"))) (EV
     "Gu")) (EC "duue"))) (EEin2 "vt,prsv" (EMat (ET (EConj (EV "Ge"))) (EV "Ge")) (EC "duue"))).
(* beta.py:1811-1814 *)
Definition st96 : stmt := SBeta "llphiphi"
     (ESub (EMul (EAdd (ESub (EMul (ENum 2) (EV "Lambda")) (EMul (ENum 3) (EPow (EV "g") 2))) (EMul (ENum 2) (EV "GammaH"))) (EC "llphiphi")) (EMul
     (EDiv (ENum 3) (ENum 2)) (EAdd (EMat (EMat (EC "llphiphi") (EV "Ge")) (ET (EConj (EV "Ge")))) (EMat (EMat (EConj (EV "Ge")) (ET (EV "Ge"))) (EC
     "llphiphi"))))).

(* the function beta *)
Definition beta_prog : list stmt :=
     [st00; st01; st02; st03; st04; st05; st06; st07; st08; st09; st10; st11; st12; st13; st14; st15; st16; st17; st18; st19; st20; st21; st22; st23;
     st24; st25; st26; st27; st28; st29; st30; st31; st32; st33; st34; st35; st36; st37; st38; st39; st40; st41; st42; st43; st44; st45; st46; st47;
     st48; st49; st50; st51; st52; st53; st54; st55; st56; st57; st58; st59; st60; st61; st62; st63; st64; st65; st66; st67; st68; st69; st70; st71;
     st72; st73; st74; st75; st76; st77; st78; st79; st80; st81; st82; st83; st84; st85; st86; st87; st88; st89; st90; st91; st92; st93; st94; st95;
     st96].
