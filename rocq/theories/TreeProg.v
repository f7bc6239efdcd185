(* Generated by tools/gen_tree.py from wilson/match/smeft_tree.py:48-142; do not edit. *)
From Coq Require Import List ZArith String.
From Verif Require Import BetaModel.
Import ListNotations.
Local Open Scope string_scope.
Local Open Scope Z_scope.

(* smeft_tree.py:48 *)
Definition t_dgamma : ex :=
     (EDiv (ENeg (EMul (EV "vT") (EAdd (EMul (EMul (ENeg (ENum 2)) (EV "mW")) (EC "dB")) (EMul (EMul (EV "g1bar") (EV "vT")) (EC "dW"))))) (EMul (EMul
     (ENum 2) (EV "sqrt2")) (EV "mZ"))).
(* smeft_tree.py:49 *)
Definition t_dG : ex :=
     (EDiv (EMul (EV "vT") (EC "dG")) (EV "sqrt2")).
(* smeft_tree.py:50 *)
Definition t_egamma : ex :=
     (EDiv (ENeg (EMul (EV "vT") (EAdd (EMul (EMul (ENeg (ENum 2)) (EV "mW")) (EC "eB")) (EMul (EMul (EV "g1bar") (EV "vT")) (EC "eW"))))) (EMul (EMul
     (ENum 2) (EV "sqrt2")) (EV "mZ"))).
(* smeft_tree.py:52 *)
Definition t_ugamma : ex :=
     (EDiv (EMul (EV "vT") (EAdd (EMul (EMul (ENum 2) (EV "mW")) (EC "uB")) (EMul (EMul (EV "g1bar") (EV "vT")) (EC "uW")))) (EMul (EMul (ENum 2) (EV
     "sqrt2")) (EV "mZ"))).
(* smeft_tree.py:53 *)
Definition t_uG : ex :=
     (EDiv (EMul (EV "vT") (EC "uG")) (EV "sqrt2")).
(* smeft_tree.py:54 *)
Definition t_Gtilde : ex :=
     (EC "Gtilde").
(* smeft_tree.py:55 *)
Definition t_G : ex :=
     (EC "G").
(* smeft_tree.py:63 *)
Definition t_SduuLL : ex :=
     (EAdd (ESub (EEin1 "rpst" (EC "qqql")) (EEin1 "rspt" (EC "qqql"))) (EEin1 "srpt" (EC "qqql"))).
(* smeft_tree.py:64 *)
Definition t_SuddLL : ex :=
     (EAdd (ESub (EEin1 "rpst" (EC "qqql")) (EEin1 "rspt" (EC "qqql"))) (EEin1 "srpt" (EC "qqql"))).
(* smeft_tree.py:65 *)
Definition t_SduuLR : ex :=
     (ESub (ENeg (EC "qque")) (EEin1 "rpst" (EC "qque"))).
(* smeft_tree.py:66 *)
Definition t_SuudLR : ex :=
     (EV "zeros").
(* smeft_tree.py:67 *)
Definition t_SdduRL : ex :=
     (EV "zeros").
(* smeft_tree.py:68 *)
Definition t_SdudRL : ex :=
     (ENeg (EC "duql")).
(* smeft_tree.py:69 *)
Definition t_SduuRL : ex :=
     (EC "duql").
(* smeft_tree.py:70 *)
Definition t_SuudRL : ex :=
     (EV "zeros").
(* smeft_tree.py:71 *)
Definition t_SduuRR : ex :=
     (EC "duue").
(* smeft_tree.py:87 *)
Definition t_V1udLL : ex :=
     (EAdd (EAdd (EAdd (ESub (EAdd (ESub (EC "qq1") (EC "qq3")) (EEin1 "stpr" (EC "qq1"))) (EEin1 "stpr" (EC "qq3"))) (EDiv (EMul (EAdd (ESub (EAdd
     (EMul (ENum 16) (EPow (EV "mW") 4)) (EMul (EMul (ENum 4) (EPow (EV "mW") 2)) (EPow (EV "mZ") 2))) (EMul (ENum 2) (EPow (EV "mZ") 4))) (EMul (EPow
     (EV "vT") 2) (EAdd (EMul (EAdd (EMul (ENum 8) (EPow (EV "mW") 4)) (EPow (EV "mZ") 4)) (EC "phiD")) (EMul (EMul (EMul (EMul (EMul (ENum 2) (EV
     "g1bar")) (EV "mW")) (EAdd (EMul (ENum 8) (EPow (EV "mW") 2)) (EPow (EV "mZ") 2))) (EV "vT")) (EC "phiWB"))))) (EV "kdkd")) (EMul (EMul (ENum 18)
     (EPow (EV "mZ") 4)) (EPow (EV "vT") 2)))) (EDiv (EMul (ENum 2) (EAdd (ENeg (EEin2 "pt,sr" (EV "kd") (EV "kd"))) (EMul (EPow (EV "vT") 2) (ESub
     (ESub (EAdd (EEin1 "ptsr" (EC "qq3")) (EEin1 "srpt" (EC "qq3"))) (EEin2 "pt,sr" (EC "phiq3") (EV "kd"))) (EEin2 "sr,pt" (EC "phiq3") (EV
     "kd")))))) (EMul (EV "Nc") (EPow (EV "vT") 2)))) (EDiv (EAdd (EAdd (ENeg (EMul (EAdd (EMul (ENum 2) (EPow (EV "mW") 2)) (EPow (EV "mZ") 2))
     (EEin2 "pr,st" (EC "phiq1") (EV "kd")))) (EMul (EAdd (EMul (ENum 2) (EPow (EV "mW") 2)) (EPow (EV "mZ") 2)) (EEin2 "pr,st" (EC "phiq3") (EV
     "kd")))) (EMul (ESub (EMul (ENum 4) (EPow (EV "mW") 2)) (EPow (EV "mZ") 2)) (EAdd (EEin2 "st,pr" (EC "phiq1") (EV "kd")) (EEin2 "st,pr" (EC
     "phiq3") (EV "kd"))))) (EMul (ENum 3) (EPow (EV "mZ") 2)))).
(* smeft_tree.py:88 *)
Definition t_V8udLL : ex :=
     (EMul (ENum 4) (ESub (ESub (ESub (EAdd (EEin1 "ptsr" (EC "qq3")) (EEin1 "srpt" (EC "qq3"))) (EDiv (EEin2 "pt,sr" (EV "kd") (EV "kd")) (EPow (EV
     "vT") 2))) (EEin2 "pt,sr" (EC "phiq3") (EV "kd"))) (EEin2 "sr,pt" (EC "phiq3") (EV "kd")))).
(* smeft_tree.py:89 *)
Definition t_VddLL : ex :=
     (EDiv (ESub (EAdd (EAdd (EAdd (EMul (ENum 18) (EC "qq1")) (EMul (ENum 18) (EC "qq3"))) (EMul (ENum 18) (EEin1 "stpr" (EC "qq1")))) (EMul (ENum
     18) (EEin1 "stpr" (EC "qq3")))) (EDiv (EMul (EAdd (EMul (ENum 2) (EPow (EV "mW") 2)) (EPow (EV "mZ") 2)) (EAdd (EMul (EAdd (EMul (ENum 2) (EAdd
     (EMul (ENum 2) (EPow (EV "mW") 2)) (EPow (EV "mZ") 2))) (EMul (EPow (EV "vT") 2) (EAdd (ESub (EMul (EMul (ENum 2) (EPow (EV "mW") 2)) (EC
     "phiD")) (EMul (EPow (EV "mZ") 2) (EC "phiD"))) (EMul (EMul (EMul (EMul (ENum 4) (EV "g1bar")) (EV "mW")) (EV "vT")) (EC "phiWB"))))) (EV
     "kdkd")) (EMul (EMul (EMul (ENum 6) (EPow (EV "mZ") 2)) (EPow (EV "vT") 2)) (EAdd (EAdd (EAdd (EEin2 "pr,st" (EC "phiq1") (EV "kd")) (EEin2
     "pr,st" (EC "phiq3") (EV "kd"))) (EEin2 "st,pr" (EC "phiq1") (EV "kd"))) (EEin2 "st,pr" (EC "phiq3") (EV "kd")))))) (EMul (EPow (EV "mZ") 4)
     (EPow (EV "vT") 2)))) (ENum 36)).
(* smeft_tree.py:90 *)
Definition t_VedLL : ex :=
     (EDiv (ESub (ESub (ESub (EAdd (EMul (ENum 6) (EC "lq1")) (EMul (ENum 6) (EC "lq3"))) (EDiv (EMul (EAdd (EAdd (ESub (EMul (ENum 8) (EPow (EV "mW")
     4)) (EMul (ENum 2) (EPow (EV "mZ") 4))) (EMul (EMul (EAdd (EMul (ENum 4) (EPow (EV "mW") 4)) (EPow (EV "mZ") 4)) (EPow (EV "vT") 2)) (EC
     "phiD"))) (EMul (EMul (EMul (EMul (ENum 8) (EV "g1bar")) (EPow (EV "mW") 3)) (EPow (EV "vT") 3)) (EC "phiWB"))) (EV "kdkd")) (EMul (EPow (EV
     "mZ") 4) (EPow (EV "vT") 2)))) (EMul (ENum 2) (ESub (EAdd (EEin2 "pr,st" (EC "phil1") (EV "kd")) (EEin2 "pr,st" (EC "phil3") (EV "kd"))) (EMul
     (ENum 3) (EAdd (EEin2 "st,pr" (EC "phiq1") (EV "kd")) (EEin2 "st,pr" (EC "phiq3") (EV "kd"))))))) (EDiv (EMul (EMul (ENum 4) (EPow (EV "mW") 2))
     (EAdd (EAdd (EEin2 "pr,st" (EC "phil1") (EV "kd")) (EEin2 "pr,st" (EC "phil3") (EV "kd"))) (EMul (ENum 3) (EAdd (EEin2 "st,pr" (EC "phiq1") (EV
     "kd")) (EEin2 "st,pr" (EC "phiq3") (EV "kd")))))) (EPow (EV "mZ") 2))) (ENum 6)).
(* smeft_tree.py:91 *)
Definition t_VeeLL : ex :=
     (EDiv (EAdd (EAdd (EAdd (EAdd (EMul (ENum 2) (EC "ll")) (EMul (ENum 2) (EEin1 "ptsr" (EC "ll")))) (EMul (ENum 2) (EEin1 "srpt" (EC "ll")))) (EMul
     (ENum 2) (EEin1 "stpr" (EC "ll")))) (EDiv (EMul (EAdd (EMul (ENeg (ENum 2)) (EPow (EV "mW") 2)) (EPow (EV "mZ") 2)) (EAdd (EAdd (EAdd (EAdd (EAdd
     (EAdd (EAdd (EAdd (EAdd (ESub (EAdd (EAdd (EAdd (EMul (EAdd (ESub (EMul (ENum 4) (EPow (EV "mW") 2)) (EMul (ENum 2) (EPow (EV "mZ") 2))) (EMul
     (EPow (EV "vT") 2) (EAdd (EMul (EAdd (EMul (ENum 2) (EPow (EV "mW") 2)) (EPow (EV "mZ") 2)) (EC "phiD")) (EMul (EMul (EMul (EMul (ENum 4) (EV
     "g1bar")) (EV "mW")) (EV "vT")) (EC "phiWB"))))) (EV "kdkd")) (EMul (EMul (EMul (ENum 2) (EPow (EV "mZ") 2)) (EPow (EV "vT") 2)) (EEin2 "pr,st"
     (EC "phil1") (EV "kd")))) (EMul (EMul (EMul (ENum 2) (EPow (EV "mZ") 2)) (EPow (EV "vT") 2)) (EEin2 "pr,st" (EC "phil3") (EV "kd")))) (EMul (EMul
     (ENum 4) (EPow (EV "mW") 2)) (EEin2 "pt,sr" (EV "kd") (EV "kd")))) (EMul (EMul (ENum 2) (EPow (EV "mZ") 2)) (EEin2 "pt,sr" (EV "kd") (EV "kd"))))
     (EMul (EMul (EMul (EMul (ENum 2) (EPow (EV "mW") 2)) (EPow (EV "vT") 2)) (EC "phiD")) (EEin2 "pt,sr" (EV "kd") (EV "kd")))) (EMul (EMul (EMul
     (EPow (EV "mZ") 2) (EPow (EV "vT") 2)) (EC "phiD")) (EEin2 "pt,sr" (EV "kd") (EV "kd")))) (EMul (EMul (EMul (EMul (EMul (ENum 4) (EV "g1bar"))
     (EV "mW")) (EPow (EV "vT") 3)) (EC "phiWB")) (EEin2 "pt,sr" (EV "kd") (EV "kd")))) (EMul (EMul (EMul (ENum 2) (EPow (EV "mZ") 2)) (EPow (EV "vT")
     2)) (EEin2 "pt,sr" (EC "phil1") (EV "kd")))) (EMul (EMul (EMul (ENum 2) (EPow (EV "mZ") 2)) (EPow (EV "vT") 2)) (EEin2 "pt,sr" (EC "phil3") (EV
     "kd")))) (EMul (EMul (EMul (ENum 2) (EPow (EV "mZ") 2)) (EPow (EV "vT") 2)) (EEin2 "sr,pt" (EC "phil1") (EV "kd")))) (EMul (EMul (EMul (ENum 2)
     (EPow (EV "mZ") 2)) (EPow (EV "vT") 2)) (EEin2 "sr,pt" (EC "phil3") (EV "kd")))) (EMul (EMul (EMul (ENum 2) (EPow (EV "mZ") 2)) (EPow (EV "vT")
     2)) (EEin2 "st,pr" (EC "phil1") (EV "kd")))) (EMul (EMul (EMul (ENum 2) (EPow (EV "mZ") 2)) (EPow (EV "vT") 2)) (EEin2 "st,pr" (EC "phil3") (EV
     "kd"))))) (EMul (EPow (EV "mZ") 4) (EPow (EV "vT") 2)))) (ENum 8)).
(* smeft_tree.py:92 *)
Definition t_VeuLL : ex :=
     (EDiv (EAdd (ESub (EAdd (ESub (EMul (ENum 6) (EC "lq1")) (EMul (ENum 6) (EC "lq3"))) (EDiv (EMul (EAdd (EMul (EMul (ESub (EMul (ENum 8) (EPow (EV
     "mW") 4)) (EPow (EV "mZ") 4)) (EPow (EV "vT") 2)) (EC "phiD")) (EMul (ENum 2) (EAdd (EAdd (ESub (EMul (ENum 8) (EPow (EV "mW") 4)) (EMul (EMul
     (ENum 6) (EPow (EV "mW") 2)) (EPow (EV "mZ") 2))) (EPow (EV "mZ") 4)) (EMul (EMul (EMul (EMul (EV "g1bar") (EV "mW")) (ESub (EMul (ENum 8) (EPow
     (EV "mW") 2)) (EMul (ENum 3) (EPow (EV "mZ") 2)))) (EPow (EV "vT") 3)) (EC "phiWB"))))) (EV "kdkd")) (EMul (EPow (EV "mZ") 4) (EPow (EV "vT")
     2)))) (EMul (ENum 2) (EAdd (ESub (EAdd (EEin2 "pr,st" (EC "phil1") (EV "kd")) (EEin2 "pr,st" (EC "phil3") (EV "kd"))) (EMul (ENum 3) (EEin2
     "st,pr" (EC "phiq1") (EV "kd")))) (EMul (ENum 3) (EEin2 "st,pr" (EC "phiq3") (EV "kd")))))) (EDiv (EMul (EMul (ENum 4) (EPow (EV "mW") 2)) (EAdd
     (ESub (EAdd (EMul (ENum 2) (EEin2 "pr,st" (EC "phil1") (EV "kd"))) (EMul (ENum 2) (EEin2 "pr,st" (EC "phil3") (EV "kd")))) (EMul (ENum 3) (EEin2
     "st,pr" (EC "phiq1") (EV "kd")))) (EMul (ENum 3) (EEin2 "st,pr" (EC "phiq3") (EV "kd"))))) (EPow (EV "mZ") 2))) (ENum 6)).
(* smeft_tree.py:93 *)
Definition t_VnudLL : ex :=
     (EAdd (EAdd (EAdd (ESub (EAdd (ESub (ESub (EC "lq1") (EC "lq3")) (EDiv (EMul (EC "phiD") (EV "kdkd")) (ENum 6))) (EDiv (EMul (EAdd (EAdd (EMul
     (ENum 2) (EPow (EV "mW") 2)) (EPow (EV "mZ") 2)) (EMul (EMul (EMul (EV "g1bar") (EV "mW")) (EPow (EV "vT") 3)) (EC "phiWB"))) (EV "kdkd")) (EMul
     (EMul (ENum 3) (EPow (EV "mZ") 2)) (EPow (EV "vT") 2)))) (EDiv (EMul (EAdd (EMul (ENum 2) (EPow (EV "mW") 2)) (EPow (EV "mZ") 2)) (EEin2 "pr,st"
     (EC "phil1") (EV "kd"))) (EMul (ENum 3) (EPow (EV "mZ") 2)))) (EDiv (EMul (EAdd (EMul (ENum 2) (EPow (EV "mW") 2)) (EPow (EV "mZ") 2)) (EEin2
     "pr,st" (EC "phil3") (EV "kd"))) (EMul (ENum 3) (EPow (EV "mZ") 2)))) (EEin2 "st,pr" (EC "phiq1") (EV "kd"))) (EEin2 "st,pr" (EC "phiq3") (EV
     "kd"))).
(* smeft_tree.py:94 *)
Definition t_VnueduLL : ex :=
     (ESub (ESub (EMul (ENum 2) (EC "lq3")) (EDiv (EMul (ENum 2) (EV "kdkd")) (EPow (EV "vT") 2))) (EMul (ENum 2) (EAdd (EEin2 "pr,st" (EC "phil3")
     (EV "kd")) (EEin2 "st,pr" (EC "phiq3") (EV "kd"))))).
(* smeft_tree.py:95 *)
Definition t_VnueLL : ex :=
     (EAdd (EAdd (ESub (ESub (ESub (EAdd (ESub (EAdd (EAdd (EAdd (EC "ll") (EEin1 "stpr" (EC "ll"))) (EMul (EAdd (EDiv (EC "phiD") (ENum 2)) (EDiv
     (EAdd (ESub (EMul (ENum 2) (EPow (EV "mW") 2)) (EPow (EV "mZ") 2)) (EMul (EMul (EMul (EV "g1bar") (EV "mW")) (EPow (EV "vT") 3)) (EC "phiWB")))
     (EMul (EPow (EV "mZ") 2) (EPow (EV "vT") 2)))) (EV "kdkd"))) (EMul (ESub (ENum 1) (EDiv (EMul (ENum 2) (EPow (EV "mW") 2)) (EPow (EV "mZ") 2)))
     (EEin2 "pr,st" (EC "phil1") (EV "kd")))) (EEin2 "pr,st" (EC "phil3") (EV "kd"))) (EDiv (EMul (EMul (ENum 2) (EPow (EV "mW") 2)) (EEin2 "pr,st"
     (EC "phil3") (EV "kd"))) (EPow (EV "mZ") 2))) (EDiv (EMul (ENum 2) (EEin2 "pt,sr" (EV "kd") (EV "kd"))) (EPow (EV "vT") 2))) (EMul (ENum 2)
     (EEin2 "pt,sr" (EC "phil3") (EV "kd")))) (EMul (ENum 2) (EEin2 "sr,pt" (EC "phil3") (EV "kd")))) (EEin2 "st,pr" (EC "phil1") (EV "kd"))) (EEin2
     "st,pr" (EC "phil3") (EV "kd"))).
(* smeft_tree.py:96 *)
Definition t_VnunuLL : ex :=
     (EDiv (EAdd (EAdd (EAdd (EAdd (EAdd (EMul (ENum 2) (EC "ll")) (EMul (ENum 2) (EEin1 "ptsr" (EC "ll")))) (EMul (ENum 2) (EEin1 "srpt" (EC "ll"))))
     (EMul (ENum 2) (EEin1 "stpr" (EC "ll")))) (EDiv (EMul (EAdd (ENeg (ENum 2)) (EMul (EPow (EV "vT") 2) (EC "phiD"))) (EAdd (EV "kdkd") (EEin2
     "pt,sr" (EV "kd") (EV "kd")))) (EPow (EV "vT") 2))) (EMul (ENum 2) (ESub (EAdd (ESub (EAdd (ESub (EAdd (ESub (EEin2 "pr,st" (EC "phil1") (EV
     "kd")) (EEin2 "pr,st" (EC "phil3") (EV "kd"))) (EEin2 "pt,sr" (EC "phil1") (EV "kd"))) (EEin2 "pt,sr" (EC "phil3") (EV "kd"))) (EEin2 "sr,pt" (EC
     "phil1") (EV "kd"))) (EEin2 "sr,pt" (EC "phil3") (EV "kd"))) (EEin2 "st,pr" (EC "phil1") (EV "kd"))) (EEin2 "st,pr" (EC "phil3") (EV "kd")))))
     (ENum 8)).
(* smeft_tree.py:97 *)
Definition t_VnuuLL : ex :=
     (ESub (EAdd (EAdd (ESub (ESub (EAdd (EC "lq1") (EC "lq3")) (EDiv (EMul (EAdd (EAdd (ESub (EMul (ENum 8) (EPow (EV "mW") 2)) (EMul (ENum 2) (EPow
     (EV "mZ") 2))) (EMul (EMul (EPow (EV "mZ") 2) (EPow (EV "vT") 2)) (EC "phiD"))) (EMul (EMul (EMul (EMul (ENum 4) (EV "g1bar")) (EV "mW")) (EPow
     (EV "vT") 3)) (EC "phiWB"))) (EV "kdkd")) (EMul (EMul (ENum 6) (EPow (EV "mZ") 2)) (EPow (EV "vT") 2)))) (EDiv (EMul (EAdd (EMul (ENeg (ENum 4))
     (EPow (EV "mW") 2)) (EPow (EV "mZ") 2)) (EEin2 "pr,st" (EC "phil1") (EV "kd"))) (EMul (ENum 3) (EPow (EV "mZ") 2)))) (EDiv (EMul (EAdd (EMul
     (ENeg (ENum 4)) (EPow (EV "mW") 2)) (EPow (EV "mZ") 2)) (EEin2 "pr,st" (EC "phil3") (EV "kd"))) (EMul (ENum 3) (EPow (EV "mZ") 2)))) (EEin2
     "st,pr" (EC "phiq1") (EV "kd"))) (EEin2 "st,pr" (EC "phiq3") (EV "kd"))).
(* smeft_tree.py:98 *)
Definition t_VuuLL : ex :=
     (EDiv (EAdd (EAdd (EAdd (EAdd (EMul (ENum 18) (EC "qq1")) (EMul (ENum 18) (EC "qq3"))) (EMul (ENum 18) (EEin1 "stpr" (EC "qq1")))) (EMul (ENum
     18) (EEin1 "stpr" (EC "qq3")))) (EDiv (EMul (EAdd (EMul (ENeg (ENum 4)) (EPow (EV "mW") 2)) (EPow (EV "mZ") 2)) (EAdd (EMul (EAdd (ESub (EMul
     (ENum 8) (EPow (EV "mW") 2)) (EMul (ENum 2) (EPow (EV "mZ") 2))) (EMul (EPow (EV "vT") 2) (EAdd (EMul (EAdd (EMul (ENum 4) (EPow (EV "mW") 2))
     (EPow (EV "mZ") 2)) (EC "phiD")) (EMul (EMul (EMul (EMul (ENum 8) (EV "g1bar")) (EV "mW")) (EV "vT")) (EC "phiWB"))))) (EV "kdkd")) (EMul (EMul
     (EMul (ENum 6) (EPow (EV "mZ") 2)) (EPow (EV "vT") 2)) (EAdd (ESub (EAdd (ENeg (EEin2 "pr,st" (EC "phiq1") (EV "kd"))) (EEin2 "pr,st" (EC
     "phiq3") (EV "kd"))) (EEin2 "st,pr" (EC "phiq1") (EV "kd"))) (EEin2 "st,pr" (EC "phiq3") (EV "kd")))))) (EMul (EPow (EV "mZ") 4) (EPow (EV "vT")
     2)))) (ENum 36)).
(* smeft_tree.py:99 *)
Definition t_V1ddLR : ex :=
     (EAdd (EC "qd1") (EDiv (EAdd (EDiv (EMul (EAdd (ESub (EMul (ENum 2) (EAdd (EAdd (EMul (ENeg (ENum 2)) (EPow (EV "mW") 4)) (EMul (EPow (EV "mW")
     2) (EPow (EV "mZ") 2))) (EPow (EV "mZ") 4))) (EMul (EMul (EAdd (EMul (ENum 2) (EPow (EV "mW") 4)) (EPow (EV "mZ") 4)) (EPow (EV "vT") 2)) (EC
     "phiD"))) (EMul (EMul (EMul (EMul (EV "g1bar") (EV "mW")) (EAdd (EMul (ENeg (ENum 4)) (EPow (EV "mW") 2)) (EPow (EV "mZ") 2))) (EPow (EV "vT")
     3)) (EC "phiWB"))) (EV "kdkd")) (EPow (EV "vT") 2)) (EMul (EMul (ENum 3) (EPow (EV "mZ") 2)) (ESub (EMul (EMul (ENum 2) (EAdd (ENeg (EPow (EV
     "mW") 2)) (EPow (EV "mZ") 2))) (EAdd (EEin2 "pr,st" (EC "phiq1") (EV "kd")) (EEin2 "pr,st" (EC "phiq3") (EV "kd")))) (EMul (EAdd (EMul (ENum 2)
     (EPow (EV "mW") 2)) (EPow (EV "mZ") 2)) (EEin2 "st,pr" (EC "phid") (EV "kd")))))) (EMul (ENum 9) (EPow (EV "mZ") 4)))).
(* smeft_tree.py:100 *)
Definition t_V1duLR : ex :=
     (EAdd (EC "qu1") (EDiv (EAdd (EDiv (EMul (EMul (ENum 2) (EAdd (EMul (EMul (EMul (ENum 2) (ESub (EV "mW") (EV "mZ"))) (EAdd (EV "mW") (EV "mZ")))
     (EAdd (EMul (ENum 2) (EPow (EV "mW") 2)) (EPow (EV "mZ") 2))) (EMul (EPow (EV "vT") 2) (EAdd (EMul (EAdd (EMul (ENum 2) (EPow (EV "mW") 4)) (EPow
     (EV "mZ") 4)) (EC "phiD")) (EMul (EMul (EMul (EMul (EV "g1bar") (EV "mW")) (ESub (EMul (ENum 4) (EPow (EV "mW") 2)) (EPow (EV "mZ") 2))) (EV
     "vT")) (EC "phiWB")))))) (EV "kdkd")) (EPow (EV "vT") 2)) (EMul (EMul (ENum 3) (EPow (EV "mZ") 2)) (ESub (EMul (EMul (EMul (ENum 4) (ESub (EV
     "mW") (EV "mZ"))) (EAdd (EV "mW") (EV "mZ"))) (EAdd (EEin2 "pr,st" (EC "phiq1") (EV "kd")) (EEin2 "pr,st" (EC "phiq3") (EV "kd")))) (EMul (EAdd
     (EMul (ENum 2) (EPow (EV "mW") 2)) (EPow (EV "mZ") 2)) (EEin2 "st,pr" (EC "phiu") (EV "kd")))))) (EMul (ENum 9) (EPow (EV "mZ") 4)))).
(* smeft_tree.py:101 *)
Definition t_V1udduLR : ex :=
     (ENeg (EEin2 "st,pr" (EC "phiudDag") (EV "kd"))).
(* smeft_tree.py:102 *)
Definition t_V1udLR : ex :=
     (EAdd (EC "qd1") (EDiv (EAdd (EDiv (EMul (EAdd (EMul (ENum 2) (EAdd (ESub (EMul (ENum 4) (EPow (EV "mW") 4)) (EMul (EMul (ENum 5) (EPow (EV "mW")
     2)) (EPow (EV "mZ") 2))) (EPow (EV "mZ") 4))) (EMul (EPow (EV "vT") 2) (EAdd (EMul (ESub (EMul (ENum 4) (EPow (EV "mW") 4)) (EPow (EV "mZ") 4))
     (EC "phiD")) (EMul (EMul (EMul (EMul (EV "g1bar") (EV "mW")) (ESub (EMul (ENum 8) (EPow (EV "mW") 2)) (EMul (ENum 5) (EPow (EV "mZ") 2)))) (EV
     "vT")) (EC "phiWB"))))) (EV "kdkd")) (EPow (EV "vT") 2)) (EMul (EMul (ENum 3) (EPow (EV "mZ") 2)) (EAdd (EMul (EMul (ENum 2) (EAdd (ENeg (EPow
     (EV "mW") 2)) (EPow (EV "mZ") 2))) (ESub (EEin2 "pr,st" (EC "phiq1") (EV "kd")) (EEin2 "pr,st" (EC "phiq3") (EV "kd")))) (EMul (ESub (EMul (ENum
     4) (EPow (EV "mW") 2)) (EPow (EV "mZ") 2)) (EEin2 "st,pr" (EC "phid") (EV "kd")))))) (EMul (ENum 9) (EPow (EV "mZ") 4)))).
(* smeft_tree.py:103 *)
Definition t_V1uuLR : ex :=
     (EAdd (EAdd (EC "qu1") (EDiv (EMul (EMul (ENum 2) (EAdd (EAdd (EMul (ENeg (ENum 2)) (EAdd (ESub (EMul (ENum 4) (EPow (EV "mW") 4)) (EMul (EMul
     (ENum 5) (EPow (EV "mW") 2)) (EPow (EV "mZ") 2))) (EPow (EV "mZ") 4))) (EMul (EMul (EAdd (EMul (ENeg (ENum 4)) (EPow (EV "mW") 4)) (EPow (EV
     "mZ") 4)) (EPow (EV "vT") 2)) (EC "phiD"))) (EMul (EMul (EMul (EMul (EV "g1bar") (EV "mW")) (EAdd (EMul (ENeg (ENum 8)) (EPow (EV "mW") 2)) (EMul
     (ENum 5) (EPow (EV "mZ") 2)))) (EPow (EV "vT") 3)) (EC "phiWB")))) (EV "kdkd")) (EMul (EMul (ENum 9) (EPow (EV "mZ") 4)) (EPow (EV "vT") 2))))
     (EDiv (EAdd (EMul (EMul (EMul (ENum 4) (ESub (EV "mW") (EV "mZ"))) (EAdd (EV "mW") (EV "mZ"))) (ESub (EEin2 "pr,st" (EC "phiq1") (EV "kd"))
     (EEin2 "pr,st" (EC "phiq3") (EV "kd")))) (EMul (ESub (EMul (ENum 4) (EPow (EV "mW") 2)) (EPow (EV "mZ") 2)) (EEin2 "st,pr" (EC "phiu") (EV
     "kd")))) (EMul (ENum 3) (EPow (EV "mZ") 2)))).
(* smeft_tree.py:104 *)
Definition t_V8ddLR : ex :=
     (EC "qd8").
(* smeft_tree.py:105 *)
Definition t_V8duLR : ex :=
     (EC "qu8").
(* smeft_tree.py:106 *)
Definition t_V8udduLR : ex :=
     (EV "zeros").
(* smeft_tree.py:107 *)
Definition t_V8udLR : ex :=
     (EC "qd8").
(* smeft_tree.py:108 *)
Definition t_V8uuLR : ex :=
     (EC "qu8").
(* smeft_tree.py:109 *)
Definition t_VdeLR : ex :=
     (EAdd (EAdd (EC "qe") (EDiv (EMul (EAdd (ESub (EMul (ENum 2) (EAdd (EAdd (EMul (ENeg (ENum 2)) (EPow (EV "mW") 4)) (EMul (EPow (EV "mW") 2) (EPow
     (EV "mZ") 2))) (EPow (EV "mZ") 4))) (EMul (EMul (EAdd (EMul (ENum 2) (EPow (EV "mW") 4)) (EPow (EV "mZ") 4)) (EPow (EV "vT") 2)) (EC "phiD")))
     (EMul (EMul (EMul (EMul (EV "g1bar") (EV "mW")) (EAdd (EMul (ENeg (ENum 4)) (EPow (EV "mW") 2)) (EPow (EV "mZ") 2))) (EPow (EV "vT") 3)) (EC
     "phiWB"))) (EV "kdkd")) (EMul (EMul (ENum 3) (EPow (EV "mZ") 4)) (EPow (EV "vT") 2)))) (EDiv (ESub (EMul (EMul (ENum 6) (EAdd (ENeg (EPow (EV
     "mW") 2)) (EPow (EV "mZ") 2))) (EAdd (EEin2 "pr,st" (EC "phiq1") (EV "kd")) (EEin2 "pr,st" (EC "phiq3") (EV "kd")))) (EMul (EAdd (EMul (ENum 2)
     (EPow (EV "mW") 2)) (EPow (EV "mZ") 2)) (EEin2 "st,pr" (EC "phie") (EV "kd")))) (EMul (ENum 3) (EPow (EV "mZ") 2)))).
(* smeft_tree.py:110 *)
Definition t_VedLR : ex :=
     (EAdd (EAdd (EC "ld") (EDiv (EMul (EAdd (EAdd (EMul (ENeg (ENum 2)) (EAdd (ESub (EMul (ENum 2) (EPow (EV "mW") 4)) (EMul (EMul (ENum 3) (EPow (EV
     "mW") 2)) (EPow (EV "mZ") 2))) (EPow (EV "mZ") 4))) (EMul (EMul (EAdd (EMul (ENeg (ENum 2)) (EPow (EV "mW") 4)) (EPow (EV "mZ") 4)) (EPow (EV
     "vT") 2)) (EC "phiD"))) (EMul (EMul (EMul (EMul (EV "g1bar") (EV "mW")) (EAdd (EMul (ENeg (ENum 4)) (EPow (EV "mW") 2)) (EMul (ENum 3) (EPow (EV
     "mZ") 2)))) (EPow (EV "vT") 3)) (EC "phiWB"))) (EV "kdkd")) (EMul (EMul (ENum 3) (EPow (EV "mZ") 4)) (EPow (EV "vT") 2)))) (EDiv (EAdd (EMul
     (EMul (ENum 2) (EAdd (ENeg (EPow (EV "mW") 2)) (EPow (EV "mZ") 2))) (EAdd (EEin2 "pr,st" (EC "phil1") (EV "kd")) (EEin2 "pr,st" (EC "phil3") (EV
     "kd")))) (EMul (EMul (ENum 3) (EAdd (EMul (ENeg (ENum 2)) (EPow (EV "mW") 2)) (EPow (EV "mZ") 2))) (EEin2 "st,pr" (EC "phid") (EV "kd")))) (EMul
     (ENum 3) (EPow (EV "mZ") 2)))).
(* smeft_tree.py:111 *)
Definition t_VeeLR : ex :=
     (ESub (EAdd (EAdd (EAdd (EC "le") (EDiv (EMul (EAdd (EAdd (EMul (ENeg (ENum 2)) (EAdd (ESub (EMul (ENum 2) (EPow (EV "mW") 4)) (EMul (EMul (ENum
     3) (EPow (EV "mW") 2)) (EPow (EV "mZ") 2))) (EPow (EV "mZ") 4))) (EMul (EMul (EAdd (EMul (ENeg (ENum 2)) (EPow (EV "mW") 4)) (EPow (EV "mZ") 4))
     (EPow (EV "vT") 2)) (EC "phiD"))) (EMul (EMul (EMul (EMul (EV "g1bar") (EV "mW")) (EAdd (EMul (ENeg (ENum 4)) (EPow (EV "mW") 2)) (EMul (ENum 3)
     (EPow (EV "mZ") 2)))) (EPow (EV "vT") 3)) (EC "phiWB"))) (EV "kdkd")) (EMul (EPow (EV "mZ") 4) (EPow (EV "vT") 2)))) (EMul (ENum 2) (EAdd (EEin2
     "pr,st" (EC "phil1") (EV "kd")) (EEin2 "pr,st" (EC "phil3") (EV "kd"))))) (EEin2 "st,pr" (EC "phie") (EV "kd"))) (EDiv (EMul (EMul (ENum 2) (EPow
     (EV "mW") 2)) (EAdd (EAdd (EEin2 "pr,st" (EC "phil1") (EV "kd")) (EEin2 "pr,st" (EC "phil3") (EV "kd"))) (EEin2 "st,pr" (EC "phie") (EV "kd"))))
     (EPow (EV "mZ") 2))).
(* smeft_tree.py:112 *)
Definition t_VeuLR : ex :=
     (EAdd (EC "lu") (EDiv (EAdd (EDiv (EMul (EMul (ENum 2) (EAdd (EMul (ENum 2) (EAdd (ESub (EMul (ENum 2) (EPow (EV "mW") 4)) (EMul (EMul (ENum 3)
     (EPow (EV "mW") 2)) (EPow (EV "mZ") 2))) (EPow (EV "mZ") 4))) (EMul (EPow (EV "vT") 2) (EAdd (EMul (ESub (EMul (ENum 2) (EPow (EV "mW") 4)) (EPow
     (EV "mZ") 4)) (EC "phiD")) (EMul (EMul (EMul (EMul (EV "g1bar") (EV "mW")) (ESub (EMul (ENum 4) (EPow (EV "mW") 2)) (EMul (ENum 3) (EPow (EV
     "mZ") 2)))) (EV "vT")) (EC "phiWB")))))) (EV "kdkd")) (EPow (EV "vT") 2)) (EMul (EPow (EV "mZ") 2) (EAdd (EMul (EMul (EMul (ENum 4) (ESub (EV
     "mW") (EV "mZ"))) (EAdd (EV "mW") (EV "mZ"))) (EAdd (EEin2 "pr,st" (EC "phil1") (EV "kd")) (EEin2 "pr,st" (EC "phil3") (EV "kd")))) (EMul (EMul
     (ENum 3) (EAdd (EMul (ENeg (ENum 2)) (EPow (EV "mW") 2)) (EPow (EV "mZ") 2))) (EEin2 "st,pr" (EC "phiu") (EV "kd")))))) (EMul (ENum 3) (EPow (EV
     "mZ") 4)))).
(* smeft_tree.py:113 *)
Definition t_VnudLR : ex :=
     (EAdd (ESub (EAdd (EC "ld") (EDiv (EMul (EAdd (EAdd (EMul (EMul (ENum 2) (ESub (EV "mW") (EV "mZ"))) (EAdd (EV "mW") (EV "mZ"))) (EMul (EMul
     (EPow (EV "mZ") 2) (EPow (EV "vT") 2)) (EC "phiD"))) (EMul (EMul (EMul (EV "g1bar") (EV "mW")) (EPow (EV "vT") 3)) (EC "phiWB"))) (EV "kdkd"))
     (EMul (EMul (ENum 3) (EPow (EV "mZ") 2)) (EPow (EV "vT") 2)))) (EDiv (EMul (EMul (EMul (ENum 2) (ESub (EV "mW") (EV "mZ"))) (EAdd (EV "mW") (EV
     "mZ"))) (ESub (EEin2 "pr,st" (EC "phil1") (EV "kd")) (EEin2 "pr,st" (EC "phil3") (EV "kd")))) (EMul (ENum 3) (EPow (EV "mZ") 2)))) (EEin2 "st,pr"
     (EC "phid") (EV "kd"))).
(* smeft_tree.py:114 *)
Definition t_VnueduLR : ex :=
     (ENeg (EEin2 "st,pr" (EC "phiudDag") (EV "kd"))).
(* smeft_tree.py:115 *)
Definition t_VnueLR : ex :=
     (EAdd (ESub (EAdd (EC "le") (EDiv (EMul (EAdd (EAdd (EMul (EMul (ENum 2) (ESub (EV "mW") (EV "mZ"))) (EAdd (EV "mW") (EV "mZ"))) (EMul (EMul
     (EPow (EV "mZ") 2) (EPow (EV "vT") 2)) (EC "phiD"))) (EMul (EMul (EMul (EV "g1bar") (EV "mW")) (EPow (EV "vT") 3)) (EC "phiWB"))) (EV "kdkd"))
     (EMul (EPow (EV "mZ") 2) (EPow (EV "vT") 2)))) (EDiv (EMul (EMul (EMul (ENum 2) (ESub (EV "mW") (EV "mZ"))) (EAdd (EV "mW") (EV "mZ"))) (ESub
     (EEin2 "pr,st" (EC "phil1") (EV "kd")) (EEin2 "pr,st" (EC "phil3") (EV "kd")))) (EPow (EV "mZ") 2))) (EEin2 "st,pr" (EC "phie") (EV "kd"))).
(* smeft_tree.py:116 *)
Definition t_VnuuLR : ex :=
     (EAdd (EAdd (ESub (EC "lu") (EDiv (EMul (EMul (ENum 2) (EAdd (EAdd (EMul (EMul (ENum 2) (ESub (EV "mW") (EV "mZ"))) (EAdd (EV "mW") (EV "mZ")))
     (EMul (EMul (EPow (EV "mZ") 2) (EPow (EV "vT") 2)) (EC "phiD"))) (EMul (EMul (EMul (EV "g1bar") (EV "mW")) (EPow (EV "vT") 3)) (EC "phiWB"))))
     (EV "kdkd")) (EMul (EMul (ENum 3) (EPow (EV "mZ") 2)) (EPow (EV "vT") 2)))) (EDiv (EMul (EMul (EMul (ENum 4) (ESub (EV "mW") (EV "mZ"))) (EAdd
     (EV "mW") (EV "mZ"))) (ESub (EEin2 "pr,st" (EC "phil1") (EV "kd")) (EEin2 "pr,st" (EC "phil3") (EV "kd")))) (EMul (ENum 3) (EPow (EV "mZ") 2))))
     (EEin2 "st,pr" (EC "phiu") (EV "kd"))).
(* smeft_tree.py:117 *)
Definition t_VueLR : ex :=
     (EAdd (EAdd (EC "qe") (EDiv (EMul (EAdd (EAdd (EMul (ENum 2) (EAdd (ESub (EMul (ENum 4) (EPow (EV "mW") 4)) (EMul (EMul (ENum 5) (EPow (EV "mW")
     2)) (EPow (EV "mZ") 2))) (EPow (EV "mZ") 4))) (EMul (EMul (ESub (EMul (ENum 4) (EPow (EV "mW") 4)) (EPow (EV "mZ") 4)) (EPow (EV "vT") 2)) (EC
     "phiD"))) (EMul (EMul (EMul (EMul (EV "g1bar") (EV "mW")) (ESub (EMul (ENum 8) (EPow (EV "mW") 2)) (EMul (ENum 5) (EPow (EV "mZ") 2)))) (EPow (EV
     "vT") 3)) (EC "phiWB"))) (EV "kdkd")) (EMul (EMul (ENum 3) (EPow (EV "mZ") 4)) (EPow (EV "vT") 2)))) (EDiv (EAdd (EMul (EMul (ENum 6) (EAdd (ENeg
     (EPow (EV "mW") 2)) (EPow (EV "mZ") 2))) (ESub (EEin2 "pr,st" (EC "phiq1") (EV "kd")) (EEin2 "pr,st" (EC "phiq3") (EV "kd")))) (EMul (ESub (EMul
     (ENum 4) (EPow (EV "mW") 2)) (EPow (EV "mZ") 2)) (EEin2 "st,pr" (EC "phie") (EV "kd")))) (EMul (ENum 3) (EPow (EV "mZ") 2)))).
(* smeft_tree.py:118 *)
Definition t_S1ddRR : ex :=
     (EV "zeros").
(* smeft_tree.py:119 *)
Definition t_S1udduRR : ex :=
     (ENeg (EEin1 "stpr" (EC "quqd1"))).
(* smeft_tree.py:120 *)
Definition t_S1udRR : ex :=
     (EC "quqd1").
(* smeft_tree.py:121 *)
Definition t_S1uuRR : ex :=
     (EV "zeros").
(* smeft_tree.py:122 *)
Definition t_S8ddRR : ex :=
     (EV "zeros").
(* smeft_tree.py:123 *)
Definition t_S8udduRR : ex :=
     (ENeg (EEin1 "stpr" (EC "quqd8"))).
(* smeft_tree.py:124 *)
Definition t_S8udRR : ex :=
     (EC "quqd8").
(* smeft_tree.py:125 *)
Definition t_S8uuRR : ex :=
     (EV "zeros").
(* smeft_tree.py:126 *)
Definition t_SedRR : ex :=
     (EV "zeros").
(* smeft_tree.py:127 *)
Definition t_SeeRR : ex :=
     (EV "zeros").
(* smeft_tree.py:128 *)
Definition t_SeuRR : ex :=
     (ENeg (EC "lequ1")).
(* smeft_tree.py:129 *)
Definition t_SnueduRR : ex :=
     (EC "lequ1").
(* smeft_tree.py:130 *)
Definition t_TedRR : ex :=
     (EV "zeros").
(* smeft_tree.py:131 *)
Definition t_TeuRR : ex :=
     (ENeg (EC "lequ3")).
(* smeft_tree.py:132 *)
Definition t_TnueduRR : ex :=
     (EC "lequ3").
(* smeft_tree.py:133 *)
Definition t_SedRL : ex :=
     (EC "ledq").
(* smeft_tree.py:134 *)
Definition t_SeuRL : ex :=
     (EV "zeros").
(* smeft_tree.py:135 *)
Definition t_SnueduRL : ex :=
     (EC "ledq").
(* smeft_tree.py:136 *)
Definition t_V1udRR : ex :=
     (EAdd (EC "ud1") (EDiv (EMul (EMul (EMul (ENum 2) (ESub (EV "mW") (EV "mZ"))) (EAdd (EV "mW") (EV "mZ"))) (ESub (EMul (EMul (ENum 2) (EAdd (EMul
     (EMul (ENum 2) (ESub (EV "mW") (EV "mZ"))) (EAdd (EV "mW") (EV "mZ"))) (EMul (EPow (EV "vT") 2) (EAdd (EMul (EAdd (EPow (EV "mW") 2) (EPow (EV
     "mZ") 2)) (EC "phiD")) (EMul (EMul (EMul (EMul (ENum 2) (EV "g1bar")) (EV "mW")) (EV "vT")) (EC "phiWB")))))) (EV "kdkd")) (EMul (EMul (EMul
     (ENum 3) (EPow (EV "mZ") 2)) (EPow (EV "vT") 2)) (ESub (EEin2 "pr,st" (EC "phiu") (EV "kd")) (EMul (ENum 2) (EEin2 "st,pr" (EC "phid") (EV
     "kd"))))))) (EMul (EMul (ENum 9) (EPow (EV "mZ") 4)) (EPow (EV "vT") 2)))).
(* smeft_tree.py:137 *)
Definition t_V8udRR : ex :=
     (EC "ud8").
(* smeft_tree.py:138 *)
Definition t_VddRR : ex :=
     (EDiv (ESub (EAdd (EMul (ENum 9) (EC "dd")) (EMul (ENum 9) (EEin1 "stpr" (EC "dd")))) (EDiv (EMul (EMul (EMul (ENum 2) (ESub (EV "mW") (EV
     "mZ"))) (EAdd (EV "mW") (EV "mZ"))) (EAdd (EMul (EAdd (EMul (EMul (ENum 2) (ESub (EV "mW") (EV "mZ"))) (EAdd (EV "mW") (EV "mZ"))) (EMul (EPow
     (EV "vT") 2) (EAdd (EMul (EAdd (EPow (EV "mW") 2) (EPow (EV "mZ") 2)) (EC "phiD")) (EMul (EMul (EMul (EMul (ENum 2) (EV "g1bar")) (EV "mW")) (EV
     "vT")) (EC "phiWB"))))) (EV "kdkd")) (EMul (EMul (EMul (ENum 3) (EPow (EV "mZ") 2)) (EPow (EV "vT") 2)) (EAdd (EEin2 "pr,st" (EC "phid") (EV
     "kd")) (EEin2 "st,pr" (EC "phid") (EV "kd")))))) (EMul (EPow (EV "mZ") 4) (EPow (EV "vT") 2)))) (ENum 18)).
(* smeft_tree.py:139 *)
Definition t_VedRR : ex :=
     (ESub (EC "ed") (EDiv (EMul (EMul (EMul (ENum 2) (ESub (EV "mW") (EV "mZ"))) (EAdd (EV "mW") (EV "mZ"))) (EAdd (EMul (EAdd (EMul (EMul (ENum 2)
     (ESub (EV "mW") (EV "mZ"))) (EAdd (EV "mW") (EV "mZ"))) (EMul (EPow (EV "vT") 2) (EAdd (EMul (EAdd (EPow (EV "mW") 2) (EPow (EV "mZ") 2)) (EC
     "phiD")) (EMul (EMul (EMul (EMul (ENum 2) (EV "g1bar")) (EV "mW")) (EV "vT")) (EC "phiWB"))))) (EV "kdkd")) (EMul (EMul (EPow (EV "mZ") 2) (EPow
     (EV "vT") 2)) (EAdd (EEin2 "pr,st" (EC "phie") (EV "kd")) (EMul (ENum 3) (EEin2 "st,pr" (EC "phid") (EV "kd"))))))) (EMul (EMul (ENum 3) (EPow
     (EV "mZ") 4)) (EPow (EV "vT") 2)))).
(* smeft_tree.py:140 *)
Definition t_VeeRR : ex :=
     (EDiv (ESub (EAdd (EAdd (EAdd (EC "ee") (EEin1 "ptsr" (EC "ee"))) (EEin1 "srpt" (EC "ee"))) (EEin1 "stpr" (EC "ee"))) (EDiv (EMul (EMul (EMul
     (ENum 2) (ESub (EV "mW") (EV "mZ"))) (EAdd (EV "mW") (EV "mZ"))) (EAdd (EAdd (EAdd (EAdd (EAdd (EAdd (ESub (EAdd (EAdd (EMul (EAdd (EMul (EMul
     (ENum 2) (ESub (EV "mW") (EV "mZ"))) (EAdd (EV "mW") (EV "mZ"))) (EMul (EPow (EV "vT") 2) (EAdd (EMul (EAdd (EPow (EV "mW") 2) (EPow (EV "mZ")
     2)) (EC "phiD")) (EMul (EMul (EMul (EMul (ENum 2) (EV "g1bar")) (EV "mW")) (EV "vT")) (EC "phiWB"))))) (EV "kdkd")) (EMul (EMul (EPow (EV "mZ")
     2) (EPow (EV "vT") 2)) (EEin2 "pr,st" (EC "phie") (EV "kd")))) (EMul (EMul (ENum 2) (EPow (EV "mW") 2)) (EEin2 "pt,sr" (EV "kd") (EV "kd"))))
     (EMul (EMul (ENum 2) (EPow (EV "mZ") 2)) (EEin2 "pt,sr" (EV "kd") (EV "kd")))) (EMul (EMul (EMul (EPow (EV "mW") 2) (EPow (EV "vT") 2)) (EC
     "phiD")) (EEin2 "pt,sr" (EV "kd") (EV "kd")))) (EMul (EMul (EMul (EPow (EV "mZ") 2) (EPow (EV "vT") 2)) (EC "phiD")) (EEin2 "pt,sr" (EV "kd") (EV
     "kd")))) (EMul (EMul (EMul (EMul (EMul (ENum 2) (EV "g1bar")) (EV "mW")) (EPow (EV "vT") 3)) (EC "phiWB")) (EEin2 "pt,sr" (EV "kd") (EV "kd"))))
     (EMul (EMul (EPow (EV "mZ") 2) (EPow (EV "vT") 2)) (EEin2 "pt,sr" (EC "phie") (EV "kd")))) (EMul (EMul (EPow (EV "mZ") 2) (EPow (EV "vT") 2))
     (EEin2 "sr,pt" (EC "phie") (EV "kd")))) (EMul (EMul (EPow (EV "mZ") 2) (EPow (EV "vT") 2)) (EEin2 "st,pr" (EC "phie") (EV "kd"))))) (EMul (EPow
     (EV "mZ") 4) (EPow (EV "vT") 2)))) (ENum 4)).
(* smeft_tree.py:141 *)
Definition t_VeuRR : ex :=
     (EAdd (EC "eu") (EDiv (EMul (EMul (EMul (ENum 2) (ESub (EV "mW") (EV "mZ"))) (EAdd (EV "mW") (EV "mZ"))) (EAdd (EMul (EMul (ENum 2) (EAdd (EMul
     (EMul (ENum 2) (ESub (EV "mW") (EV "mZ"))) (EAdd (EV "mW") (EV "mZ"))) (EMul (EPow (EV "vT") 2) (EAdd (EMul (EAdd (EPow (EV "mW") 2) (EPow (EV
     "mZ") 2)) (EC "phiD")) (EMul (EMul (EMul (EMul (ENum 2) (EV "g1bar")) (EV "mW")) (EV "vT")) (EC "phiWB")))))) (EV "kdkd")) (EMul (EMul (EPow (EV
     "mZ") 2) (EPow (EV "vT") 2)) (ESub (EMul (ENum 2) (EEin2 "pr,st" (EC "phie") (EV "kd"))) (EMul (ENum 3) (EEin2 "st,pr" (EC "phiu") (EV
     "kd"))))))) (EMul (EMul (ENum 3) (EPow (EV "mZ") 4)) (EPow (EV "vT") 2)))).
(* smeft_tree.py:142 *)
Definition t_VuuRR : ex :=
     (EDiv (ESub (EAdd (EMul (ENum 9) (EC "uu")) (EMul (ENum 9) (EEin1 "stpr" (EC "uu")))) (EDiv (EMul (EMul (EMul (ENum 4) (ESub (EV "mW") (EV
     "mZ"))) (EAdd (EV "mW") (EV "mZ"))) (ESub (EMul (EMul (ENum 2) (EAdd (EMul (EMul (ENum 2) (ESub (EV "mW") (EV "mZ"))) (EAdd (EV "mW") (EV "mZ")))
     (EMul (EPow (EV "vT") 2) (EAdd (EMul (EAdd (EPow (EV "mW") 2) (EPow (EV "mZ") 2)) (EC "phiD")) (EMul (EMul (EMul (EMul (ENum 2) (EV "g1bar")) (EV
     "mW")) (EV "vT")) (EC "phiWB")))))) (EV "kdkd")) (EMul (EMul (EMul (ENum 3) (EPow (EV "mZ") 2)) (EPow (EV "vT") 2)) (EAdd (EEin2 "pr,st" (EC
     "phiu") (EV "kd")) (EEin2 "st,pr" (EC "phiu") (EV "kd")))))) (EMul (EPow (EV "mZ") 4) (EPow (EV "vT") 2)))) (ENum 18)).

(* the assignments c[k] = ... in the order of the code *)
Definition tree_prog : list (string * ex) :=
     [ ("dgamma", t_dgamma); ("dG", t_dG); ("egamma", t_egamma); ("ugamma", t_ugamma); ("uG", t_uG); ("Gtilde", t_Gtilde); ("G", t_G); ("SduuLL",
     t_SduuLL); ("SuddLL", t_SuddLL); ("SduuLR", t_SduuLR); ("SuudLR", t_SuudLR); ("SdduRL", t_SdduRL); ("SdudRL", t_SdudRL); ("SduuRL", t_SduuRL);
     ("SuudRL", t_SuudRL); ("SduuRR", t_SduuRR); ("V1udLL", t_V1udLL); ("V8udLL", t_V8udLL); ("VddLL", t_VddLL); ("VedLL", t_VedLL); ("VeeLL",
     t_VeeLL); ("VeuLL", t_VeuLL); ("VnudLL", t_VnudLL); ("VnueduLL", t_VnueduLL); ("VnueLL", t_VnueLL); ("VnunuLL", t_VnunuLL); ("VnuuLL", t_VnuuLL);
     ("VuuLL", t_VuuLL); ("V1ddLR", t_V1ddLR); ("V1duLR", t_V1duLR); ("V1udduLR", t_V1udduLR); ("V1udLR", t_V1udLR); ("V1uuLR", t_V1uuLR); ("V8ddLR",
     t_V8ddLR); ("V8duLR", t_V8duLR); ("V8udduLR", t_V8udduLR); ("V8udLR", t_V8udLR); ("V8uuLR", t_V8uuLR); ("VdeLR", t_VdeLR); ("VedLR", t_VedLR);
     ("VeeLR", t_VeeLR); ("VeuLR", t_VeuLR); ("VnudLR", t_VnudLR); ("VnueduLR", t_VnueduLR); ("VnueLR", t_VnueLR); ("VnuuLR", t_VnuuLR); ("VueLR",
     t_VueLR); ("S1ddRR", t_S1ddRR); ("S1udduRR", t_S1udduRR); ("S1udRR", t_S1udRR); ("S1uuRR", t_S1uuRR); ("S8ddRR", t_S8ddRR); ("S8udduRR",
     t_S8udduRR); ("S8udRR", t_S8udRR); ("S8uuRR", t_S8uuRR); ("SedRR", t_SedRR); ("SeeRR", t_SeeRR); ("SeuRR", t_SeuRR); ("SnueduRR", t_SnueduRR);
     ("TedRR", t_TedRR); ("TeuRR", t_TeuRR); ("TnueduRR", t_TnueduRR); ("SedRL", t_SedRL); ("SeuRL", t_SeuRL); ("SnueduRL", t_SnueduRL); ("V1udRR",
     t_V1udRR); ("V8udRR", t_V8udRR); ("VddRR", t_VddRR); ("VedRR", t_VedRR); ("VeeRR", t_VeeRR); ("VeuRR", t_VeuRR); ("VuuRR", t_VuuRR)].
